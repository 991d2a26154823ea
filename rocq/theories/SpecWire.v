(** Specification of what a cycle puts on the wire for a requested value (C85). *)
From Coq Require Import ZArith Reals List Bool SpecFloat.
From Verif Require Import Base F32 Types Util Digital Analog Fcnt Fbc SpecCodec SpecCoupler SpecAnalog SpecLossless.
Import ListNotations.
Local Open Scope Z_scope.

(** The code of a current or voltage output with range [r] and format [f] for the value [v]: zero if nothing is to be
    output, otherwise less than 1.01 away from the exact code, or the largest or smallest code if that is out of range. *)
Definition codes (r : analog_ui_range) (f : data_format) (v : channel_value) (w : Z) : Prop :=
  is_analog_value v /\ (v = Disabled \/ r = UI_Disabled \/ v = Decimal32 S754_nan -> w = 0) /\
  forall base span x, base_span r = Some (base, span) -> v = Decimal32 x ->
    (x = S754_infinity false -> signed w = 32767) /\ (x = S754_infinity true -> signed w = -32768) /\
    (f32_valid x = true -> finite x ->
       let exact := exact_code base span (full_code f) (real x) in
       ((32768 <= exact)%R -> signed w = 32767) /\ ((exact <= -32769)%R -> signed w = -32768) /\
       ((-32769 < exact < 32768)%R -> (Rabs (IZR (signed w) - exact) < 101 / 100)%R)).

(** The output registers [regs] of a module carry the value [v] of channel [k].
    - Digital outputs: one bit for each channel.
    - Analog outputs: one register for each channel.
    - Counters: two registers with the preset in microseconds; bit 8 of the control register is the command to start,
      bit 9 the command to stop. *)
Definition carries (m : module) (k : nat) (v : channel_value) (regs : list Z) : Prop :=
  match m with
  | MDO _ _ | M16DO | M4RO _ => switches v = Some (bit (reg regs 0) k)
  | M4AO _ | M4AODIAG _ => exists r f, analog_output m k = Some (r, f) /\ codes r f v (reg regs k)
  | MFCNT _ => exists o, preset v = Some o /\ nanoseconds (fo_duration o) <= max_preset /\
      word32 (reg regs (2 * k)) (reg regs (2 * k + 1)) = nanoseconds (fo_duration o) / 1000 /\
      (bit (reg regs (4 + k)) 8 = true <-> fo_command o = Some Start) /\
      (bit (reg regs (4 + k)) 9 = true <-> fo_command o = Some Stop)
  | MDI _ _ | MRTD _ _ | MUI16DIAG _ _ | MAIUI _ _ _ | M8AI _ _ | MTC _ _ | MSIL | MCOM _ _ => False
  end.
