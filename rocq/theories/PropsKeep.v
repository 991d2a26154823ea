(** Property theorems C71: outputs of a control loop keep the value requested last. *)
From Coq Require Import ZArith Reals List Bool.
From Verif Require Import Base Facts F32 Types Lib Com Fbc SpecCodec SpecSerial SpecCoupler SpecImage SpecAnalog SpecFeedback SpecKeep
  ProofsWitness ProofsKeep PropsFeedback.
Import ListNotations.
Local Open Scope Z_scope.

(** C71, digital outputs: in a program that hands the image of each cycle to the next one, the image returned by the
    last cycle holds, for each digital output, the value requested last before that cycle, however many cycles,
    other requests, serial bytes and failing cycles lie in between; an output that was never requested keeps the
    state it had at the beginning. *)
Theorem C71_last_request_kept : forall prof c0 image0 before input after c image i m o off n k,
  reachable prof c0 -> alone c0 i m o off -> digital_outputs m = Some n -> (k < n)%nat ->
  requested c0 (mk_address i k) = None ->
  loops prof c0 image0 (before ++ [Tick input] ++ after) c image -> between_ticks after ->
  (forall v, latest (requests before) (mk_address i k) (Some v) -> switches v = Some (output_bit image off k)) /\
  (latest (requests before) (mk_address i k) None -> output_bit image off k = output_bit image0 off k).
Proof. exact C71_digital_all. Qed.
Print Assumptions C71_last_request_kept.

(** C71, all output channels that are read back exactly (C63): [outputs()] shows the value requested last before the
    last cycle but one. *)
Theorem C71_last_request_shown : forall prof c0 image0 before input1 mid input2 after c image i m o off k v,
  reachable prof c0 -> alone c0 i m o off -> (k < channels m)%nat -> exact_channel m k ->
  requested c0 (mk_address i k) = None ->
  loops prof c0 image0 (before ++ [Tick input1] ++ mid ++ [Tick input2] ++ after) c image ->
  between_ticks mid -> between_ticks after ->
  latest (requests before) (mk_address i k) (Some v) ->
  exists w, cell (outputs c) i k = Some w /\ shown_for m k v w.
Proof. exact C71_shown_all. Qed.
Print Assumptions C71_last_request_shown.

(** A digital output switched on twice, two cycles and a failing one after it, then a request that is not yet sent. *)
Definition keep_before : list action :=
  [Request (mk_address 0 2) (Bit false); Request (mk_address 0 2) (Bit true); Request (mk_address 1 1) Disabled].
Definition keep_0 : coupler := set_all feed_new (requests keep_before).
Definition keep_1 : coupler := feed_run keep_0 z11.
Definition keep_image : list Z := 4 :: repeat 0 10.
Definition keep_bad : coupler := fst (next Debug as_is as_is keep_1 feed_input []).
Definition keep_2 : coupler := feed_run keep_bad keep_image.
Definition keep_3 : coupler := fst (set_output keep_2 (mk_address 0 2) (Bit false)).
Lemma feed_alone : alone feed_new 0 (MDO V_4DO_P (repeat false 4)) (mk_offset None (Some 0x8000)) 0x8000.
Proof.
  split; [split; vm_compute; reflexivity|]. split; [reflexivity|]. split; [reflexivity|]. split; [left; reflexivity|].
  intros [|[|[|[|j]]]] m' o' off' Hj [Hm Ho] Hoff; try discriminate; [exfalso; inversion Hj| |];
    vm_compute in Hoff, Ho; apply Some_inj in Ho; subst o'; apply Some_inj in Hoff; subst off'; intros [_ H]; vm_compute in H; repeat apply le_S_n in H; inversion H.
Qed.
Example C71_example : reachable Debug feed_new /\ alone feed_new 0 (MDO V_4DO_P (repeat false 4)) (mk_offset None (Some 0x8000)) 0x8000 /\
  exact_channel (MDO V_4DO_P (repeat false 4)) 2 /\ requested feed_new (mk_address 0 2) = None /\
  loops Debug feed_new z11 (keep_before ++ [Tick feed_input] ++ [BadTick feed_input []] ++ [Tick feed_input] ++
    [Request (mk_address 0 2) (Bit false)]) keep_3 keep_image /\
  between_ticks [BadTick feed_input []] /\ between_ticks [Request (mk_address 0 2) (Bit false)] /\
  latest (requests keep_before) (mk_address 0 2) (Some (Bit true)) /\
  cell (outputs keep_3) 0 2 = Some (Bit true) /\ output_bit keep_image 0x8000 2 = true.
Proof.
  split; [apply (start_reachable _ feed_config); vm_compute; reflexivity|].
  split; [exact feed_alone|].
  split; [intros r f H; discriminate|]. split; [vm_compute; reflexivity|].
  split.
  { cbn [app keep_before].
    apply L_request; [exact I|]. apply L_request; [exact I|]. apply L_request; [exact I|].
    apply (L_tick _ _ _ _ keep_1 keep_image); [apply step_cycle; vm_compute; reflexivity|].
    apply (L_bad _ _ _ _ _ keep_bad); [apply step_cycle; vm_compute; reflexivity|].
    apply (L_tick _ _ _ _ keep_2 keep_image); [apply step_cycle; vm_compute; reflexivity|].
    apply L_request; [exact I|]. apply L_nil. }
  split; [intros x [H|[]]; discriminate|]. split; [intros x [H|[]]; discriminate|].
  split. { apply (Latest_some [(mk_address 0 2, Bit false)] [(mk_address 1 1, Disabled)] (mk_address 0 2)). intros w [H|[]]. discriminate. }
  split; vm_compute; reflexivity.
Qed.
