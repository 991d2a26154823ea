(** Specification of comparing shown values (C80). *)
From Coq Require Import ZArith List Bool SpecFloat.
From Verif Require Import Base F32 Types Fbc SpecCoupler SpecResolution.
Import ListNotations.
Local Open Scope Z_scope.

(** [v] is one of the values that [inputs] or [outputs] of the coupler gives. *)
Definition shown_by (c : coupler) (v : channel_value) : Prop :=
  exists i j, cell (inputs c) i j = Some v \/ cell (outputs c) i j = Some v.

(** [==] of Rust on vectors of vectors of channel values. *)
Definition same_table (t u : list (list channel_value)) : Prop := Forall2 (Forall2 same_value) t u.
