(** Property theorems C61 and C62: what [outputs] shows for serial modules. *)
From Coq Require Import ZArith List Bool.
From Verif Require Import Base F32 Types Lib Com Fbc SpecCodec SpecSerial SpecCoupler SpecImage SpecSystem SpecShown
  ProofsWitness ProofsShown.
Import ListNotations.
Local Open Scope Z_scope.

(** C61: For every history of a coupler, the next cycle shows for each message to a serial module its data, unless
    it has none or its transmit counter equals that of the message before it - in this cycle to a module in
    an earlier slot, or else the last one of the cycles before - or 0 if there is none. *)
Theorem C61_shown_messages : forall prof cfg c0 xs c answers input output c' r,
  rust_config cfg -> coupler_new cfg = Ok c0 -> runs prof c0 xs c answers -> cycle prof c input output c' r ->
  forall before i m after, messages prof c (NextCycle input output) = before ++ (i, m) :: after ->
  nth_error (outputs c') i = Some [shown_message (flat_map (messages prof c) xs ++ before) m].
Proof. exact C61_all. Qed.
Print Assumptions C61_shown_messages.

(** C62: If one serial module exchanges data in both directions and each cycle is given the output image returned by
    the one before, then the bytes shown in [outputs] are those handed over for transmission: all of them, once and
    in order, each segment in the cycle after the one that sent it. *)
Theorem C62_shown_once : forall prof i l ioff ooff c input given c1 image written shown c2 given2 image2,
  reachable prof c -> serial_at c i l ioff ooff -> only_serial c i ->
  cycle prof c input given c1 (Ok image) ->
  feeds_back prof i (c1, given, image) written shown (c2, given2, image2) ->
  not_yet_shown l ooff given image ++ waiting_in c1 i ++ written =
  shown ++ not_yet_shown l ooff given2 image2 ++ waiting_in c2 i.
Proof. exact C62_all. Qed.
Print Assumptions C62_shown_once.

(** A digital output module and a serial module. *)
Definition shown_config : config :=
  mk_config [UR20_4DO_P; UR20_1COM_232_485_422] [0x8000; 0xFFFF; 0x8010; 0x0000]
    [repeat 0 4; [0; 1; 0; 0; 0; 0; 0; 0; 0; 0]].
Definition shown_run (c : coupler) (input output : list Z) : coupler := fst (next Debug as_is as_is c input output).
Definition shown_new : coupler := after no_coupler (coupler_new shown_config).
Definition z4 : list Z := repeat 0 4.
Definition z5 : list Z := repeat 0 5.
Definition shown_c : coupler := shown_run (shown_run shown_new z4 z5) z4 z5.
Definition shown_c1 : coupler := shown_run shown_c z4 z5.
Definition shown_w : coupler := fst (coupler_write shown_c1 1 [1; 2; 3; 4; 5; 6; 7]).
Definition image_1 : list Z := [0; 0x0608; 0x0201; 0x0403; 0x0605].
Definition shown_c2 : coupler := shown_run shown_w z4 z5.
Definition shown_c3 : coupler := shown_run shown_c2 z4 image_1.
Definition image_2 : list Z := [0; 0x0110; 0x0007; 0; 0].
Definition ack_1 : list Z := [0x0020; 0; 0; 0].
Definition shown_c4 : coupler := shown_run shown_c3 ack_1 image_1.
Definition shown_c5 : coupler := shown_run shown_c4 ack_1 image_2.
Lemma shown_reachable : reachable Debug shown_c.
Proof.
  assert (S : forall c r, reachable Debug c -> snd (next Debug as_is as_is c z4 z5) = r -> (forall p, r <> Panic p) ->
              reachable Debug (shown_run c z4 z5)).
  { intros c r Hc Hs Hp. apply (cycle_reachable _ c z4 z5 _ r Hc); [|exact Hp]. apply step_cycle; [reflexivity..|].
    unfold shown_run. rewrite <- Hs. apply surjective_pairing. }
  unfold shown_c. refine (S _ _ _ eq_refl _); [|intros p; vm_compute; discriminate].
  refine (S _ _ _ eq_refl _); [|intros p; vm_compute; discriminate].
  apply (start_reachable _ shown_config); vm_compute; reflexivity.
Qed.
Example C62_example : reachable Debug shown_c /\ serial_at shown_c 1 EightBytes 0 0x8010 /\ only_serial shown_c 1 /\
  cycle Debug shown_c z4 z5 shown_c1 (Ok z5) /\
  feeds_back Debug 1 (shown_c1, z5, z5) [1; 2; 3; 4; 5; 6; 7] [1; 2; 3; 4; 5; 6; 7] (shown_c5, image_2, image_2).
Proof.
  split; [exact shown_reachable|]. split.
  { split; [eexists; split; vm_compute; reflexivity|]. split; [reflexivity|]. split; [reflexivity|].
    intros [|[|[|j]]] m o off Hj [Hm _]; try (exfalso; apply (Nat.nlt_0_r _ Hj)); try discriminate;
      exfalso; try (apply PeanoNat.Nat.lt_irrefl in Hj; exact Hj); apply PeanoNat.Nat.lt_1_r in Hj; discriminate. }
  split. { intros [|[|[|j]]] m o [Hm _] Hs _ _; vm_compute in Hm; try discriminate; [|reflexivity].
           injection Hm as <-. discriminate. }
  split; [apply step_cycle; vm_compute; reflexivity|].
  apply (FB_write Debug 1 shown_c1 z5 z5 1 [1; 2; 3; 4; 5; 6; 7] [] [1; 2; 3; 4; 5; 6; 7]).
  { repeat (apply Forall_cons; [split; [discriminate|reflexivity]|]). apply Forall_nil. }
  fold shown_w.
  apply (FB_next Debug 1 shown_w z5 z5 z4 shown_c2 image_1 [] [1; 2; 3; 4; 5; 6; 7]); [apply step_cycle; vm_compute; reflexivity|].
  apply (FB_next Debug 1 shown_c2 z5 image_1 z4 shown_c3 image_1 [] [7]); [apply step_cycle; vm_compute; reflexivity|].
  apply (FB_next Debug 1 shown_c3 image_1 image_1 ack_1 shown_c4 image_2 [] [7]); [apply step_cycle; vm_compute; reflexivity|].
  apply (FB_next Debug 1 shown_c4 image_1 image_2 ack_1 shown_c5 image_2 [] []); [apply step_cycle; vm_compute; reflexivity|].
  apply FB_end.
Qed.
(** The first segment is shown in the cycle after the one that sent it, and not again. *)
Example C61_example :
  rust_config shown_config /\ coupler_new shown_config = Ok shown_new /\
  (exists answers, runs Debug shown_new
     [NextCycle z4 z5; NextCycle z4 z5; NextCycle z4 z5; WriteTo 1 [1; 2; 3; 4; 5; 6; 7]; NextCycle z4 z5] shown_c2 answers) /\
  cycle Debug shown_c2 z4 image_1 shown_c3 (Ok image_1) /\
  messages Debug shown_c2 (NextCycle z4 image_1) =
    [(1%nat, mk_rs_out false false false 1 0 false [1; 2; 3; 4; 5; 6])] /\
  nth_error (outputs shown_c3) 1 = Some [Bytes [1; 2; 3; 4; 5; 6]] /\
  nth_error (outputs shown_c4) 1 = Some [VNone].
Proof.
  split; [split; [apply fits_u16; reflexivity|repeat (apply Forall_cons; [apply fits_u16; reflexivity|]); apply Forall_nil]|].
  split; [vm_compute; reflexivity|]. split.
  { assert (N : forall c c' xs, next Debug as_is as_is c z4 z5 = (c', snd (next Debug as_is as_is c z4 z5)) ->
      (forall p, snd (next Debug as_is as_is c z4 z5) <> Panic p) ->
      (exists answers, runs Debug c' xs shown_c2 answers) -> exists answers, runs Debug c (NextCycle z4 z5 :: xs) shown_c2 answers).
    { intros c c' xs E P [answers R]. eexists. eapply (Runs_cons Debug c _ c'); [|exact R]. apply Calls_next; [|exact P].
      apply step_cycle; [reflexivity..|exact E]. }
    apply (N shown_new (shown_run shown_new z4 z5)); [apply surjective_pairing|intros p; vm_compute; discriminate|].
    apply (N _ shown_c); [apply surjective_pairing|intros p; vm_compute; discriminate|].
    apply (N _ shown_c1); [apply surjective_pairing|intros p; vm_compute; discriminate|].
    assert (W : exists answers, runs Debug shown_w [NextCycle z4 z5] shown_c2 answers).
    { apply (N _ shown_c2); [apply surjective_pairing|intros p; vm_compute; discriminate|]. eexists. apply Runs_nil. }
    destruct W as [answers W]. eexists. eapply (Runs_cons Debug shown_c1 _ shown_w); [|exact W].
    refine (Calls_write Debug shown_c1 1 [1; 2; 3; 4; 5; 6; 7] _).
    repeat (apply Forall_cons; [split; [discriminate|reflexivity]|]). apply Forall_nil. }
  split; [apply step_cycle; vm_compute; reflexivity|]. vm_compute. auto.
Qed.
