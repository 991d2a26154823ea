(** Specification of the dialogue with a serial module that answers in any way whatsoever (C84). *)
From Coq Require Import ZArith List Bool.
From Verif Require Import Base F32 Types Lib Com Fbc SpecCodec SpecSerial SpecCoupler SpecImage SpecSystem.
Import ListNotations.
Local Open Scope Z_scope.

(** What has happened between a program and its serial module [i]. *)
Record talk : Set := mk_talk {
  k_coupler : coupler;
  k_cycles : nat;                   (* number of successful cycles *)
  k_handed : list Z;                (* bytes handed over for transmission *)
  k_sent : list Z;                  (* data of the messages with a new transmit counter *)
  k_got : list Z;                   (* data of the messages with a new receive counter *)
  k_read : list Z;                  (* bytes the program has read *)
  k_seen : option Z }.              (* receive counter of the last message with data *)

(** A message from the module with data that are not the last ones again; the first two cycles ignore all. *)
Definition fresh (cycles : nat) (seen : option Z) (rin : rs_in) : bool :=
  Nat.leb 2 cycles && ri_data_available rin && match seen with Some z => negb (z =? ri_rx_cnt rin) | None => true end.

(** The histories from a new coupler on.  The images are arbitrary: nothing is assumed about what the module answers,
    nor that a cycle gets the output image of the one before.  A cycle succeeds, or fails because of an incomplete image. *)
Inductive talks (prof : profile) (i : nat) (l : process_data_length) (ioff ooff : Z) : talk -> Prop :=
| K_start cfg c : rust_config cfg -> coupler_new cfg = Ok c -> talks prof i l ioff ooff (mk_talk c 0 [] [] [] [] None)
| K_set c n handed sent got read seen a v : talks prof i l ioff ooff (mk_talk c n handed sent got read seen) -> rust_value v ->
    talks prof i l ioff ooff (mk_talk (fst (set_output c a v)) n handed sent got read seen)
| K_read c n handed sent got read seen j size c' r : talks prof i l ioff ooff (mk_talk c n handed sent got read seen) ->
    coupler_read c j size = (c', r) ->
    talks prof i l ioff ooff
      (mk_talk c' n handed sent got (read ++ match r with Some bytes => if Nat.eqb j i then bytes else [] | None => [] end) seen)
| K_write c n handed sent got read seen j buf : talks prof i l ioff ooff (mk_talk c n handed sent got read seen) -> Forall is_u8 buf ->
    talks prof i l ioff ooff (mk_talk (fst (coupler_write c j buf)) n (handed ++ if Nat.eqb j i then buf else []) sent got read seen)
| K_cycle c n handed sent got read seen input output c' image rin rout rs :
    talks prof i l ioff ooff (mk_talk c n handed sent got read seen) ->
    cycle prof c input output c' (Ok image) ->
    rs_in_from_bytes (in_part l ioff input) = Ok rin ->
    rs_out_from_bytes (out_part l ooff output) = Ok rout ->
    rs_out_from_bytes (out_part l ooff image) = Ok rs ->
    talks prof i l ioff ooff
      (mk_talk c' (S n) (handed ++ pending c i)
         (sent ++ if ro_tx_cnt rs =? ro_tx_cnt rout then [] else ro_data rs)
         (got ++ if fresh n seen rin then ri_data rin else []) read
         (if fresh n seen rin then Some (ri_rx_cnt rin) else seen))
| K_bad c n handed sent got read seen input output c' : talks prof i l ioff ooff (mk_talk c n handed sent got read seen) ->
    cycle prof c input output c' (Err BufferLength) ->
    talks prof i l ioff ooff (mk_talk c' n handed sent got read seen).

(** The message of a cycle that follows [cycles] successful ones, if [queue] is to be sent and [rest] is left of it. *)
Definition handshake (l : process_data_length) (cycles : nat) (queue rest : list Z) (rin : rs_in) (rout rs : rs_out) : Prop :=
  ro_rx_cnt_ack rs = ri_rx_cnt rin /\ ro_disable_tx_hw_buffer rs = ro_disable_tx_hw_buffer rout /\
  match cycles with
  | O => flags rs = (true, true, false) /\ ro_tx_cnt rs = ro_tx_cnt rout /\ ro_data rs = [] /\ rest = queue
  | 1%nat => flags rs = (false, false, true) /\ ro_tx_cnt rs = ro_tx_cnt rout /\ ro_data rs = [] /\ rest = queue
  | _ => flags rs = flags rout /\
      (queue = [] \/ ro_tx_cnt rout = succ4 (ri_tx_cnt_ack rin) ->
         ro_tx_cnt rs = ro_tx_cnt rout /\ ro_data rs = ro_data rout /\ rest = queue) /\
      (queue <> [] -> ro_tx_cnt rout <> succ4 (ri_tx_cnt_ack rin) ->
         ro_tx_cnt rs = succ4 (ri_tx_cnt_ack rin) /\ (0 < length (ro_data rs) <= payload_size l)%nat /\ queue = ro_data rs ++ rest)
  end.
