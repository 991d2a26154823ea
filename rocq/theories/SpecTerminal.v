(** Specification of the values a coupler shows for what is at the terminals (C83). *)
From Coq Require Import ZArith Reals List Bool.
From Verif Require Import Base F32 Types Util Digital Analog Fcnt Fbc SpecCodec SpecCoupler SpecAnalog SpecLossless.
Import ListNotations.
Local Open Scope Z_scope.

(** The value of a current or voltage channel. *)
Definition physical_analog (r : analog_ui_range) (f : data_format) (w : Z) (v : channel_value) : Prop :=
  match base_span r with
  | None => v = Disabled
  | Some (base, span) => exists x, v = Decimal32 x /\ decoded base span (full_code f) (signed w) x
  end.

(** The value shown for channel [k] of a module with the input registers [regs]. *)
Definition physical_input (m : module) (k : nat) (regs : list Z) (v : channel_value) : Prop :=
  match m with
  | MDI _ _ => v = Bit (bit (reg regs 0) k)
  | MUI16DIAG _ _ | MAIUI _ _ _ | M8AI _ _ => exists r f, analog_input m k = Some (r, f) /\ physical_analog r f (reg regs k) v
  | MRTD _ ch => exists p, nth_error ch k = Some p /\
      match rtd_measurement_range p with
      | RTD_Disabled => v = Disabled
      | r => exists x, v = Decimal32 x /\
          match full_resistance r with
          | Some full => within (/ 8388608) x (IZR full * IZR (reg regs k) / 27648)
          | None => nearest x (IZR (signed (reg regs k)) / 10)
          end
      end
  | MTC _ ch => exists p, nth_error ch k = Some p /\
      match tc_measurement_range p with
      | TC_Disabled => v = Disabled
      | r =>
          match full_microvolts r with
          | Some full => exists x, v = Decimal32 x /\ nearest x (IZR full / 1000000 * IZR (signed (reg regs k)) / 32767)
          | None => reg regs k = 0x7FFF /\ v = VNone \/
                    reg regs k <> 0x7FFF /\ exists x, v = Decimal32 x /\ within (/ 4194304) x (IZR (signed (reg regs k)) / 10)
          end
      end
  | MFCNT _ => exists i, v = FcntIn i /\
      fi_count i = word32 (reg regs (4 * k + 2)) (reg regs (4 * k + 3)) /\ fi_active i = bit (reg regs (8 + k)) 8 /\
      let period := word32 (reg regs (4 * k)) (reg regs (4 * k + 1)) in
      (fi_duration i = None <-> 0x07FFFFFF <= period) /\
      (forall d, fi_duration i = Some d -> valid_duration d /\ nanoseconds d = 125 * period)
  | MSIL => let w := reg regs 0 in
      v = SilPFIn (mk_sil_in (bit w 0) (bit w 2) (bit w 3) (bit w 4) (bit w 5) (bit w 8) (bit w 10))
  | MDO _ _ | M16DO | M4RO _ | M4AO _ | M4AODIAG _ | MCOM _ _ => False
  end.

(** The value shown for channel [k] of a module with the output registers [regs]. *)
Definition physical_output (m : module) (k : nat) (regs : list Z) (v : channel_value) : Prop :=
  match m with
  | MDO _ _ | M16DO | M4RO _ => v = Bit (bit (reg regs 0) k)
  | M4AO _ | M4AODIAG _ => exists r f, analog_output m k = Some (r, f) /\ physical_analog r f (reg regs k) v
  | MFCNT _ => exists d, valid_duration d /\ nanoseconds d = 1000 * word32 (reg regs (2 * k)) (reg regs (2 * k + 1)) /\
      v = FcntOut (mk_fcnt_out d (if bit (reg regs (4 + k)) 8 then Some Start else if bit (reg regs (4 + k)) 9 then Some Stop else None))
  | MDI _ _ | MRTD _ _ | MUI16DIAG _ _ | MAIUI _ _ _ | M8AI _ _ | MTC _ _ | MSIL | MCOM _ _ => False
  end.

(** The number of values shown for the inputs of a module. *)
Definition shown_inputs (m : module) : nat := match m with MSIL => 1 | _ => channels m end.
