(** Specification of the cost of serial transmission in segments and cycles (C109). *)
From Coq Require Import ZArith List Bool.
From Verif Require Import Base Types Com Fbc SpecCodec SpecSerial SpecSystem.
Import ListNotations.

(** The number of segments that [n] bytes need: [n] over the size of a segment, rounded up. *)
Definition segments_for (l : process_data_length) (n : nat) : nat :=
  Nat.div (n + payload_size l - 1) (payload_size l).

(** The number of cycles in a history. *)
Fixpoint cycles_in (es : list plant_event) : nat :=
  match es with
  | [] => 0
  | PCycle :: es' => S (cycles_in es')
  | _ :: es' => cycles_in es'
  end.
