(** Specification of the exceptions to C09, C12, C36, C51 and C52. *)
From Coq Require Import ZArith List.
From Verif Require Import Base.
Import ListNotations.
Local Open Scope Z_scope.

(** The largest documented codes of a thermocouple module with [n] channels. *)
Definition thermocouple_bounds (n : nat) : list Z :=
  2 :: concat (repeat [19; 4; 5; 1; 1; 65535; 65535] n).
