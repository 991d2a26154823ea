(** Property theorem C63: what is written in one cycle is shown in the next one. *)
From Coq Require Import ZArith Reals List Bool.
From Verif Require Import Base F32 Types Lib Com Fbc SpecCodec SpecSerial SpecCoupler SpecImage SpecAnalog SpecFeedback
  ProofsWitness ProofsFeedback.
Import ListNotations.
Local Open Scope Z_scope.

(** C63: If a cycle is given the output image that the cycle before returned, every channel of an output module
    that has its part of the image for itself shows the value requested before the first cycle; channels without
    a request show what they showed before (but for the drift of C20 with format S7). *)
Theorem C63_feedback : forall prof c input output c1 image input' c2 r ins outs, reachable prof c ->
  cycle prof c input output c1 (Ok image) -> cycle prof c1 input' image c2 r ->
  process_input_data prof (infos c1) input' = Ok ins -> process_output_data prof (infos c1) image = Ok outs ->
  forall i m o off, module_at c i m o -> is_serial m = false -> mo_output o = Some off ->
  (off mod 16 = 0 \/ output_bytes m = 1%nat) ->
  (forall j m' o' off', (i < j)%nat -> module_at c j m' o' -> mo_output o' = Some off' ->
     ~ (first_byte 0x0800 off <= first_byte 0x0800 off' < first_byte 0x0800 off + output_bytes m)%nat) ->
  forall k, (k < channels m)%nat -> exists old w,
    cell (outputs c1) i k = Some old /\ cell (outputs c2) i k = Some w /\
    shown_for m k (match requested c (mk_address i k) with Some v => v | None => old end) w /\
    (requested c (mk_address i k) = None -> exact_channel m k -> w = old).
Proof. exact C63_all. Qed.
Print Assumptions C63_feedback.

(** A digital output, a counter and an analog output, each with a request. *)
Definition feed_config : config :=
  mk_config [UR20_4DO_P; UR20_2FCNT_100; UR20_4AO_UI_16]
    [0x8000; 0xFFFF; 0x8010; 0x0000; 0x8070; 0xFFFF] [repeat 0 4; repeat 0 2; repeat 0 12].
Definition feed_input : list Z := repeat 0 10.
Definition feed_new : coupler := after no_coupler (coupler_new feed_config).
Definition feed_start : coupler :=
  fst (set_output (fst (set_output (fst (set_output feed_new
    (mk_address 0 2) (Bit true)))
    (mk_address 1 1) (FcntOut (mk_fcnt_out (mk_duration 1 1999) (Some Start)))))
    (mk_address 2 3) (Decimal32 (f32_of_Z 7))).
Definition feed_run (c : coupler) (output : list Z) : coupler := fst (next Debug as_is as_is c feed_input output).
Definition z11 : list Z := repeat 0 11.
Definition feed_1 : coupler := feed_run feed_start z11.
Definition feed_image : list Z := [4; 0; 0; 15; 16961; 0; 256; 0; 0; 0; 5734].
Definition feed_2 : coupler := feed_run feed_1 feed_image.
Lemma feed_reachable : reachable Debug feed_start.
Proof.
  unfold feed_start. apply R_set; [apply R_set; [apply R_set|]|];
    [|exact I|repeat split; vm_compute; (discriminate || reflexivity)|vm_compute; reflexivity].
  apply (start_reachable _ feed_config); vm_compute; reflexivity.
Qed.
Example C63_example : reachable Debug feed_start /\
  cycle Debug feed_start feed_input z11 feed_1 (Ok feed_image) /\
  cycle Debug feed_1 feed_input feed_image feed_2 (Ok [4; 0; 0; 15; 16961; 0; 256; 0; 0; 0; 5734]) /\
  (forall j m' o' off', (2 < j)%nat -> module_at feed_start j m' o' -> mo_output o' = Some off' ->
     ~ (first_byte 0x0800 0x8070 <= first_byte 0x0800 off' < first_byte 0x0800 0x8070 + 8)%nat) /\
  cell (outputs feed_2) 0 2 = Some (Bit true) /\
  cell (outputs feed_2) 1 1 = Some (FcntOut (mk_fcnt_out (mk_duration 1 1000) (Some Start))) /\
  exists y, cell (outputs feed_2) 2 3 = Some (Decimal32 y).
Proof.
  split; [exact feed_reachable|]. split; [apply step_cycle; vm_compute; reflexivity|]. split; [apply step_cycle; vm_compute; reflexivity|].
  split. { intros [|[|[|[|j]]]] m' o' off' Hj [Hm _]; try discriminate; exfalso; revert Hj; apply PeanoNat.Nat.nlt_ge; auto. }
  split; [vm_compute; reflexivity|]. split; [vm_compute; reflexivity|]. eexists. vm_compute. reflexivity.
Qed.
