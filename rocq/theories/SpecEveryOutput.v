(** Specification of the output registers that can be requested (C112). *)
From Coq Require Import ZArith List Bool.
From Verif Require Import Base F32 Types Fbc SpecCodec SpecCoupler SpecImage SpecLossless.
Import ListNotations.
Local Open Scope Z_scope.

(** The registers [t] are registers for the outputs of module [m]: there are as many as the module has or more, and the presets of a
    counter are at most 8.388607 s. *)
Definition settable (m : module) (t : list Z) : Prop :=
  (output_bytes m <= 2 * length t)%nat /\ Forall is_u16 t /\
  forall ch k, m = MFCNT ch -> (k < 2)%nat -> word32 (reg t (2 * k)) (reg t (2 * k + 1)) <= 8388607.
