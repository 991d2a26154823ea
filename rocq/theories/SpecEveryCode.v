(** Specification of the values that stand for one code of an analog output (C111), in real numbers. *)
From Coq Require Import ZArith Reals.
Local Open Scope Z_scope.

(** The exact code [t] of a value lies between [c] and the code that follows it in the direction away from zero, and at least a
    hundredth of a step from both. *)
Definition inside (c : Z) (t : R) : Prop :=
  (0 <= c /\ (IZR c + / 100 <= t <= IZR c + 99 / 100)%R) \/
  (c <= 0 /\ (IZR c - 99 / 100 <= t <= IZR c - / 100)%R).
