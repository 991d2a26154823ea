(** Specification of a message processor that is used directly, with any messages (C94). *)
From Coq Require Import ZArith List Bool.
From Verif Require Import Base Types Com SpecCodec SpecSerial.
Import ListNotations.
Local Open Scope Z_scope.

(** Any values of the Rust types: counters of type [usize], data of any length. *)
Definition any_operation (op : operation) : Prop :=
  match op with
  | Cycle i o => is_usize (ri_rx_cnt i) /\ is_usize (ri_tx_cnt_ack i) /\ is_usize (ro_tx_cnt o) /\ is_usize (ro_rx_cnt_ack o)
  | _ => True
  end.

(** The counter of the segment after the one acknowledged: 1, 2, 3, and 0 after 3 and all numbers that are no counters. *)
Definition following (z : Z) : Z := if z <? 3 then z + 1 else 0.

(** The largest number of type [usize]. *)
Definition max_usize : Z := 18446744073709551615.

(** The bytes sent in a history: the data of the messages after the first two whose counter is not the one of the message
    given to that cycle.  [k] is the number of cycles so far. *)
Fixpoint sendings (k : nat) (os : list observation) : list Z :=
  match os with
  | [] => []
  | Cycled _ o r :: os' => (if Nat.leb 2 k && negb (ro_tx_cnt r =? ro_tx_cnt o) then ro_data r else []) ++ sendings (S k) os'
  | _ :: os' => sendings k os'
  end.
