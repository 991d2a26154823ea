(** Specification of how values written in one cycle are shown in the next one (C63). *)
From Coq Require Import ZArith Reals List Bool.
From Verif Require Import Base F32 Types Lib Com Fbc SpecCodec SpecSerial SpecCoupler SpecImage SpecAnalog.
Import ListNotations.
Local Open Scope Z_scope.

(** The value [w] shown for channel [k] of an output module after [v] was sent to it: a digital output shows whether
    it is on, a counter the preset in whole microseconds and the command, an analog output the physical value,
    with an error of little more than one step. *)
Definition shown_for (m : module) (k : nat) (v w : channel_value) : Prop :=
  (digital_outputs m <> None -> exists b, switches v = Some b /\ w = Bit b) /\
  (forall ch, m = MFCNT ch -> exists o, preset v = Some o /\
     w = FcntOut (mk_fcnt_out (truncated_to_micros (fo_duration o)) (fo_command o))) /\
  (forall r f, analog_output m k = Some (r, f) ->
     match base_span r with
     | None => w = Disabled
     | Some (base, span) => exists y, w = Decimal32 y /\
         (v = Disabled -> exactly y (IZR base)) /\
         (forall x, v = Decimal32 x -> f32_valid x = true -> finite x ->
            (-32768 <= exact_code base span (full_code f) (real x) <= 32767)%R ->
            (Rabs (real y - real x) <= 101 / 100 * (IZR span / IZR (full_code f)) + / 131072)%R)
     end).

(** The channel sends again exactly what was read back: all but analog channels with format S7. *)
Definition exact_channel (m : module) (k : nat) : Prop :=
  forall r f, analog_output m k = Some (r, f) -> f = S5 \/ r = UI_Disabled.
