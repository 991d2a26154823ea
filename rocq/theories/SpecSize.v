(** Specification of the size of the output image (C90). *)
From Coq Require Import ZArith List Bool.
From Verif Require Import Base Types Fbc SpecCoupler SpecImage SpecOutcome.
Import ListNotations.
Local Open Scope Z_scope.

(** The registers that a module adds to the output image: those of its data if it starts on a register boundary, none if it shares
    a register with the module before it, and none without an offset. *)
Definition added_registers (x : module * module_offset) : nat :=
  match mo_output (snd x) with
  | Some off => if off mod 16 =? 0 then registers (output_bytes (fst x)) else 0
  | None => 0
  end.
(** The registers that all modules of a coupler add. *)
Definition output_registers (c : coupler) : nat := list_sum (map added_registers (combine (c_modules c) (c_offsets c))).
