(** Specification of how a control loop holds its analog outputs (C82). *)
From Coq Require Import ZArith List Bool.
From Verif Require Import Base F32 Types SpecAnalog.
Import ListNotations.
Local Open Scope Z_scope.

(** Register [k] of a module with output offset [off] in the output image. *)
Definition output_register (image : list Z) (off : Z) (k : nat) : option Z :=
  nth_error image (Z.to_nat (off / 16 - 0x0800) + k).

(** What can have become of code [d] of a channel with format [f]: nothing with S5; with S7 it may have lost up to five,
    but it never passes a multiple of 27 on its way to zero. *)
Definition drifted (f : data_format) (d w : Z) : Prop :=
  match f with
  | S5 => w = d
  | S7 => towards_zero (signed d) (signed w) /\ Z.abs (signed w - signed d) <= 5 /\
          forall j, towards_zero (signed d) (27 * j) -> towards_zero (signed w) (27 * j)
  end.
(** The largest possible difference between the code of a request and the exact one, in hundredths. *)
Definition hundredths (f : data_format) : Z := match f with S5 => 101 | S7 => 601 end.
