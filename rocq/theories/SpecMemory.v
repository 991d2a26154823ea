(** Specification of what a coupler remembers (C64). *)
From Coq Require Import ZArith List Bool.
From Verif Require Import Base F32 Types Lib Com Fbc SpecCodec SpecSerial SpecCoupler.
Import ListNotations.
Local Open Scope Z_scope.

(** Two couplers with the same modules at the same places, the same pending requests and the same state of their
    serial modules; the values they show may differ, and so may everything that happened before. *)
Definition same_work (c c' : coupler) : Prop :=
  c_modules c = c_modules c' /\ c_offsets c = c_offsets c' /\
  (forall a, requested c a = requested c' a) /\ (forall i, serial c i = serial c' i).

(** Equal answers; the values shown by [inputs] and [outputs] are compared after successful cycles only, those of
    [outputs] for other modules than serial ones only. *)
Definition same_answer (modules : list module) (a a' : answer) : Prop :=
  match a, a' with
  | SetResult r, SetResult r' => r = r'
  | BytesRead r, BytesRead r' => r = r'
  | BytesWritten r, BytesWritten r' => r = r'
  | CycleResult r ins outs, CycleResult r' ins' outs' =>
      r = r' /\
      forall image, r = Ok image -> ins = ins' /\
        forall i m, nth_error modules i = Some m -> is_serial m = false -> nth_error outs i = nth_error outs' i
  | _, _ => False
  end.

(** No module is a serial one. *)
Definition no_serial (c : coupler) : Prop := Forall (fun m => is_serial m = false) (c_modules c).
