(** Specification of the two ways to hand over bytes to a serial module (C113). *)
From Coq Require Import ZArith List.
From Verif Require Import Base F32 Types Lib Com Fbc SpecCodec SpecSerial SpecCoupler.
Import ListNotations.
Local Open Scope Z_scope.

(** Calls that hand over no bytes to the serial module at place [i]. *)
Definition hands_over_nothing (i : nat) (x : call) : Prop :=
  match x with
  | SetOutput a _ => a <> mk_address i 0
  | WriteTo j _ => j <> i
  | ReadFrom _ _ => True
  | NextCycle _ _ => True
  end.

(** Among the answers is that of a successful cycle. *)
Definition cycle_succeeded (answers : list answer) : Prop := exists image ins outs, In (CycleResult (Ok image) ins outs) answers.
