(** Property theorems C84: the dialogue with a serial module that answers in any way whatsoever. *)
From Coq Require Import ZArith List Bool.
From Verif Require Import Base F32 Types Lib Com Fbc SpecCodec SpecSerial SpecCoupler SpecImage SpecSystem SpecProtocol
  ProofsWitness ProofsSystem ProofsPlant ProofsProtocol PropsShown.
Import ListNotations.
Local Open Scope Z_scope.

(** C84: the bytes handed over are those sent, followed by those waiting; the bytes of the new messages from the module are
    those read, followed by those waiting to be read. *)
Theorem C84_streams : forall prof i l ioff ooff t, talks prof i l ioff ooff t -> serial_at (k_coupler t) i l ioff ooff ->
  k_handed t = k_sent t ++ waiting_in (k_coupler t) i /\ k_got t = k_read t ++ readable_in (k_coupler t) i.
Proof. exact C84_streams_all. Qed.
Print Assumptions C84_streams.

(** C84: each message follows the rules of the handshake. *)
Theorem C84_handshake : forall prof i l ioff ooff t input output c' image, talks prof i l ioff ooff t ->
  serial_at (k_coupler t) i l ioff ooff -> cycle prof (k_coupler t) input output c' (Ok image) ->
  exists rin rout rs, rs_in_from_bytes (in_part l ioff input) = Ok rin /\ rs_out_from_bytes (out_part l ooff output) = Ok rout /\
    rs_out_from_bytes (out_part l ooff image) = Ok rs /\
    handshake l (k_cycles t) (waiting_in (k_coupler t) i ++ pending (k_coupler t) i) (waiting_in c' i) rin rout rs.
Proof. exact C84_handshake_all. Qed.
Print Assumptions C84_handshake.

(** A module that acknowledges what it was never sent, and a program that hands over old images. *)
Definition odd0 : coupler := shown_new.
Definition odd1 : coupler := shown_run odd0 z4 z5.
Definition odd2 : coupler := shown_run odd1 z4 z5.
Definition odd3 : coupler := fst (coupler_write odd2 1 [1; 2; 3; 4; 5; 6; 7; 8; 9]).
Definition odd_in1 : list Z := [0x0251; 0x2928; 0; 0].
Definition odd4 : coupler := shown_run odd3 odd_in1 z5.
Definition odd5 : coupler := shown_run odd4 [] z5.
Definition odd6 : coupler := shown_run odd5 odd_in1 z5.
Definition odd_message (image : list Z) : rs_in :=
  after (mk_rs_in false false 0 0 false []) (rs_in_from_bytes (in_part EightBytes 0 image)).
Definition odd_answer (image : list Z) : rs_out :=
  after (mk_rs_out false false false 0 0 false []) (rs_out_from_bytes (out_part EightBytes 0x8010 image)).
Lemma K_step prof i l ioff ooff c n handed sent got read seen input output c' image rin rout rs handed' sent' got' seen' :
  talks prof i l ioff ooff (mk_talk c n handed sent got read seen) -> cycle prof c input output c' (Ok image) ->
  rs_in_from_bytes (in_part l ioff input) = Ok rin -> rs_out_from_bytes (out_part l ooff output) = Ok rout ->
  rs_out_from_bytes (out_part l ooff image) = Ok rs -> handed' = handed ++ pending c i ->
  sent' = sent ++ (if ro_tx_cnt rs =? ro_tx_cnt rout then [] else ro_data rs) ->
  got' = got ++ (if fresh n seen rin then ri_data rin else []) ->
  seen' = (if fresh n seen rin then Some (ri_rx_cnt rin) else seen) ->
  talks prof i l ioff ooff (mk_talk c' (S n) handed' sent' got' read seen').
Proof. intros H1 H2 H3 H4 H5 -> -> -> ->. exact (K_cycle _ _ _ _ _ _ _ _ _ _ _ _ _ _ _ _ _ _ _ H1 H2 H3 H4 H5). Qed.
Definition nine : list Z := [1; 2; 3; 4; 5; 6; 7; 8; 9].
Example C84_example : talks Debug 1 EightBytes 0 0x8010 (mk_talk odd6 4 nine nine [40; 41] [] (Some 2)) /\
  serial_at odd6 1 EightBytes 0 0x8010 /\ waiting_in odd6 1 = [] /\ readable_in odd6 1 = [40; 41] /\
  talks Debug 1 EightBytes 0 0x8010 (mk_talk odd3 2 nine [] [] [] None) /\ waiting_in odd3 1 = nine /\
  cycle Debug odd3 odd_in1 z5 odd4 (Ok [0; 0x0658; 0x0201; 0x0403; 0x0605]) /\ waiting_in odd4 1 = [7; 8; 9].
Proof.
  assert (K0 : talks Debug 1 EightBytes 0 0x8010 (mk_talk odd0 0 [] [] [] [] None)).
  { apply (K_start _ _ _ _ _ shown_config); [apply fits_config; reflexivity|vm_compute; reflexivity]. }
  assert (K1 : talks Debug 1 EightBytes 0 0x8010 (mk_talk odd1 1 [] [] [] [] None)).
  { apply (K_step _ _ _ _ _ odd0 0 [] [] [] [] None z4 z5 odd1 [0; 3; 0; 0; 0] (odd_message z4) (odd_answer z5) (odd_answer [0; 3; 0; 0; 0])); [exact K0|apply step_cycle; vm_compute; reflexivity|vm_compute; reflexivity..]. }
  assert (K2 : talks Debug 1 EightBytes 0 0x8010 (mk_talk odd2 2 [] [] [] [] None)).
  { apply (K_step _ _ _ _ _ odd1 1 [] [] [] [] None z4 z5 odd2 [0; 0x80; 0; 0; 0] (odd_message z4) (odd_answer z5) (odd_answer [0; 0x80; 0; 0; 0])); [exact K1|apply step_cycle; vm_compute; reflexivity|vm_compute; reflexivity..]. }
  assert (K3 : talks Debug 1 EightBytes 0 0x8010 (mk_talk odd3 2 nine [] [] [] None)).
  { refine (K_write _ _ _ _ _ odd2 2 [] [] [] [] None 1 nine K2 _). repeat (apply Forall_cons; [split; [discriminate|reflexivity]|]). apply Forall_nil. }
  assert (C3 : cycle Debug odd3 odd_in1 z5 odd4 (Ok [0; 0x0658; 0x0201; 0x0403; 0x0605])) by (apply step_cycle; vm_compute; reflexivity).
  assert (K4 : talks Debug 1 EightBytes 0 0x8010 (mk_talk odd4 3 nine [1; 2; 3; 4; 5; 6] [40; 41] [] (Some 2))).
  { apply (K_step _ _ _ _ _ odd3 2 nine [] [] [] None odd_in1 z5 odd4 [0; 0x0658; 0x0201; 0x0403; 0x0605] (odd_message odd_in1) (odd_answer z5) (odd_answer [0; 0x0658; 0x0201; 0x0403; 0x0605])); [exact K3|exact C3|vm_compute; reflexivity..]. }
  assert (K5 : talks Debug 1 EightBytes 0 0x8010 (mk_talk odd5 3 nine [1; 2; 3; 4; 5; 6] [40; 41] [] (Some 2))).
  { refine (K_bad _ _ _ _ _ odd4 3 nine _ _ _ _ [] z5 odd5 K4 _). apply step_cycle; vm_compute; reflexivity. }
  split.
  { apply (K_step _ _ _ _ _ odd5 3 nine [1; 2; 3; 4; 5; 6] [40; 41] [] (Some 2) odd_in1 z5 odd6 [0; 0x0358; 0x0807; 9; 0] (odd_message odd_in1) (odd_answer z5) (odd_answer [0; 0x0358; 0x0807; 9; 0]));
      [exact K5|apply step_cycle; vm_compute; reflexivity|vm_compute; reflexivity..]. }
  split; [apply (serial_at_static shown_c); [vm_compute; reflexivity|vm_compute; reflexivity|exact (proj1 (proj2 C62_example))]|].
  split; [vm_compute; reflexivity|]. split; [vm_compute; reflexivity|]. split; [exact K3|]. split; [vm_compute; reflexivity|].
  split; [exact C3|]. vm_compute. reflexivity.
Qed.
