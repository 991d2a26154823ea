(** Specification of C68: the two ways a Rust program is built.  A debug build panics where an integer
    operation leaves its range, a release build goes on with a wrapped number. *)
From Coq Require Import ZArith List.
From Verif Require Import Base Types Lib Com Fbc SpecCoupler.
Import ListNotations.
Local Open Scope Z_scope.

(** No module has the address of its output data below the process image of the outputs. *)
Definition outputs_in_area (c : coupler) : Prop :=
  forall i m o off, module_at c i m o -> mo_output o = Some off -> 0x8000 <= off.
