(** Specification for C106: a serial module with buffers of its own that obeys the flush flags. *)
From Coq Require Import ZArith List Bool.
From Verif Require Import Base F32 Types Lib Com Fbc SpecCodec SpecSerial SpecCoupler SpecImage SpecSystem SpecFault.
Import ListNotations.
Local Open Scope Z_scope.

(** The module keeps the bytes it has taken over until they are on the line, and the bytes that arrived on the line until it
    offers them in a segment.  [b_line] and [b_arrived] record what happened on the line. *)
Record buffered_plant : Set := mk_buffered {
  b_plant : plant;
  b_transmit : list Z;
  b_line : list Z;
  b_receive : list Z;
  b_arrived : list Z }.

Inductive buffered_event : Set :=
| BPlant (e : fault_event)          (* anything that happens in a disturbed plant (C69) *)
| BSend (n : nat)                   (* the next [n] bytes go out on the line *)
| BArrive (bytes : list Z)          (* bytes arrive on the line *)
| BFlushTransmit                    (* the module obeys the flag for the transmit buffer *)
| BFlushReceive.                    (* ... and for the receive buffer *)

(** The output message that the module sees in its registers. *)
Definition sees (l : process_data_length) (ooff : Z) (t : plant) (o : rs_out) : Prop :=
  rs_out_from_bytes (out_part l ooff (t_register t)) = Ok o.

Inductive buffered_step (prof : profile) (i : nat) (l : process_data_length) (ioff ooff : Z)
  : buffered_plant -> buffered_event -> buffered_plant -> Prop :=
| B_plant b e t' taken offered receive : faulty_step prof i l ioff ooff (b_plant b) e t' ->
    t_taken t' = t_taken (b_plant b) ++ taken ->
    t_offered t' = t_offered (b_plant b) ++ offered -> b_receive b = concat offered ++ receive ->
    buffered_step prof i l ioff ooff b (BPlant e)
      (mk_buffered t' (b_transmit b ++ taken) (b_line b) receive (b_arrived b))
| B_send b n :
    buffered_step prof i l ioff ooff b (BSend n)
      (mk_buffered (b_plant b) (skipn n (b_transmit b)) (b_line b ++ firstn n (b_transmit b)) (b_receive b) (b_arrived b))
| B_arrive b bytes :
    buffered_step prof i l ioff ooff b (BArrive bytes)
      (mk_buffered (b_plant b) (b_transmit b) (b_line b) (b_receive b ++ bytes) (b_arrived b ++ bytes))
| B_flush_transmit b o : sees l ooff (b_plant b) o -> ro_tx_buf_flush o = true ->
    buffered_step prof i l ioff ooff b BFlushTransmit
      (mk_buffered (b_plant b) [] (b_line b) (b_receive b) (b_arrived b))
| B_flush_receive b o : sees l ooff (b_plant b) o -> ro_rx_buf_flush o = true ->
    buffered_step prof i l ioff ooff b BFlushReceive
      (mk_buffered (b_plant b) (b_transmit b) (b_line b) [] (b_arrived b)).

(** Histories, with the number of times the program forgot something it had computed but not written. *)
Definition forgets (l : process_data_length) (ooff : Z) (b : buffered_plant) (e : buffered_event) : nat :=
  match e with BPlant e => forgotten l ooff (b_plant b) e | _ => 0%nat end.
Inductive buffered_runs (prof : profile) (i : nat) (l : process_data_length) (ioff ooff : Z)
  : buffered_plant -> list buffered_event -> buffered_plant -> nat -> Prop :=
| BR_nil b : buffered_runs prof i l ioff ooff b [] b 0
| BR_cons b e b1 es b2 n : buffered_step prof i l ioff ooff b e b1 -> buffered_runs prof i l ioff ooff b1 es b2 n ->
    buffered_runs prof i l ioff ooff b (e :: es) b2 (forgets l ooff b e + n).

(** The flush flags (receive, transmit) in a message. *)
Definition flush_flags (o : rs_out) : bool * bool := (ro_rx_buf_flush o, ro_tx_buf_flush o).

(** The output message in the image the program has computed last. *)
Definition computed (l : process_data_length) (ooff : Z) (t : plant) (o : rs_out) : Prop :=
  rs_out_from_bytes (out_part l ooff (t_image t)) = Ok o.

(** After the initialisation: two cycles have been made and the module no longer sees the flush flags. *)
Definition initialised (l : process_data_length) (ooff : Z) (t : plant) : Prop :=
  (2 <= t_cycles t)%nat /\ forall o, sees l ooff t o -> flush_flags o = (false, false).
