(** Property theorems C123: a network of digital control programs. *)
From Coq Require Import ZArith List Bool Lia.
From Verif Require Import Base F32 Types Lib Com Fbc SpecCodec SpecSerial SpecCoupler SpecImage SpecFeedback SpecKeep SpecIdle SpecOutcome SpecMachine SpecNetwork
  ProofsWitness SpecLossless ProofsOutage ProofsNetwork.
Import ListNotations.
Local Open Scope Z_scope.

(** C123: programs whose outputs are connected to inputs of others, in any way and in any number, behave together like the machines they are
    written as, in whatever order they make their rounds. *)
Theorem C123_network : forall state prof wire (P : nat -> program state) in_offs out_offs ts events images, ends wire P ->
  (forall p, ready prof (P p) (in_offs p) (out_offs p) (ts p)) ->
  stations prof wire P in_offs out_offs ts events images ->
  machines wire P (fun p => as_machine (P p) (out_offs p) (ts p))
    (map (fun e => (fst e, bits_at input_bit (snd e) (sensors (P (fst e))) (in_offs (fst e)))) events)
    (map (fun ei => bits_at output_bit (snd ei) (actors (P (fst (fst ei)))) (out_offs (fst (fst ei)))) (combine events images)).
Proof. exact C123_all. Qed.
Print Assumptions C123_network.

(** Once each coupler has made a cycle, there is such a run for every order of rounds, if the wiring can be made. *)
Theorem C123_goes_on : forall state prof wire (P : nat -> program state) in_offs out_offs ts,
  (forall p, ready prof (P p) (in_offs p) (out_offs p) (ts p)) -> (forall p, started prof (ts p)) ->
  can_be_wired wire P in_offs out_offs ts ->
  forall order, exists events images, map fst events = order /\ stations prof wire P in_offs out_offs ts events images.
Proof. exact C123_goes_on_all. Qed.
Print Assumptions C123_goes_on.

(** A ring of two programs that oscillates: program 0 inverts its input, program 1 copies it. *)
Definition ring (p : nat) : program unit :=
  mk_program unit [mk_address 0 1] [mk_address 1 2]
    (fun _ bits => (tt, map (fun b => Some (if Nat.eqb p 0 then negb b else b)) bits)).
Definition ring_wire : wiring := fun p n => match p, n with O, O => Some (1, 0)%nat | 1%nat, O => Some (0, 0)%nat | _, _ => None end.
Definition ring_config : config := mk_config [UR20_4DI_P; UR20_4DO_P] [0xFFFF; 0; 0x8000; 0xFFFF] [repeat 0 4; repeat 0 4].
Definition ring_new : coupler := after no_coupler (coupler_new ring_config).
Definition ring_start (p : nat) : station unit := mk_station tt [] ring_new [0].
Definition ring_run (c : coupler) (commands : list (option bool)) (input image : list Z) : coupler :=
  fst (next Debug as_is as_is (set_all c (requests (requested_by [mk_address 1 2] commands))) input image).
Definition ring_a1 : coupler := ring_run ring_new [] [0] [0].
Definition ring_a2 : coupler := ring_run ring_a1 [Some true] [0] [0].
Definition ring_b1 : coupler := ring_run ring_new [] [2] [0].
Definition ring_b2 : coupler := ring_run ring_b1 [Some true] [2] [0].
Definition ring_a3 : coupler := ring_run ring_a2 [Some true] [2] [4].
Definition ring_a4 : coupler := ring_run ring_a3 [Some false] [2] [4].
Definition ring_events : list (nat * list Z) := [(0%nat, [0]); (0%nat, [0]); (1%nat, [2]); (1%nat, [2]); (0%nat, [2]); (0%nat, [2])].
Definition ring_images : list (list Z) := [[0]; [4]; [0]; [4]; [4]; [0]].

Ltac ring_round c image bits :=
  apply (Stations_S _ _ _ _ _ _ _ [] _ c image bits);
  [apply loop_computed; vm_compute; reflexivity|intros x []|intros a v []
  |intros [|n] q k a off a' off' Hw E1 E2 E3 E4; [|discriminate Hw]; injection Hw as <- <-; injection E1 as <-; injection E2 as <-; injection E3 as <-; injection E4 as <-;
    vm_compute; reflexivity
  |apply Forall2_cons; [vm_compute; reflexivity|apply Forall2_nil]|].
Example C123_example :
  ends ring_wire ring /\ (forall p, ready Debug (ring p) [0] [0x8000] (ring_start p)) /\
  stations Debug ring_wire ring (fun _ => [0]) (fun _ => [0x8000]) ring_start ring_events ring_images.
Proof.
  split.
  { intros p n q k H. destruct p as [|[|p]]; destruct n as [|n]; try discriminate H; injection H as <- <-; cbn; lia. }
  assert (R : reachable Debug ring_new) by (apply (start_reachable _ ring_config); vm_compute; reflexivity).
  assert (Ef : c_offsets ring_new = [mk_offset (Some 0) None; mk_offset None (Some 0x8000)]) by (vm_compute; reflexivity).
  assert (Em : exists ch0 ch1, c_modules ring_new = [MDI V_4DI_P ch0; MDO V_4DO_P ch1]).
  { do 2 eexists. vm_compute. reflexivity. }
  destruct Em as (ch0 & ch1 & Em).
  split.
  { intros p. split; [exact R|]. split; [|split; [|split]].
    - apply Forall2_cons; [|apply Forall2_nil]. exists V_4DI_P, ch0, (mk_offset (Some 0) None). split; [split; [cbn [ring_start t_coupler]; rewrite Em|cbn [ring_start t_coupler]; rewrite Ef]; reflexivity|].
      split; [reflexivity|]. split; [left; reflexivity|]. cbn. lia.
    - apply Forall2_cons; [|apply Forall2_nil]. exists (MDO V_4DO_P ch1), (mk_offset None (Some 0x8000)), 4%nat.
      split; [|split; [reflexivity|cbn; lia]]. cbn [ring_start t_coupler].
      split; [split; [rewrite Em|rewrite Ef]; reflexivity|]. split; [reflexivity|]. split; [reflexivity|]. split; [left; reflexivity|].
      intros j m' o' off' Hj [_ Ho] Eo. rewrite Ef in Ho. cbn [a_module] in Hj. destruct j as [|[|j]]; try lia; cbn [nth_error] in Ho;
        try (injection Ho as <-; discriminate Eo). destruct j; discriminate Ho.
    - constructor; [intros []|constructor].
    - intros a [<-|[]]. vm_compute. reflexivity. }
  unfold ring_events, ring_images.
  ring_round ring_a1 [0] [false].
  ring_round ring_a2 [4] [false].
  ring_round ring_b1 [0] [true].
  ring_round ring_b2 [4] [true].
  ring_round ring_a3 [4] [true].
  ring_round ring_a4 [0] [true].
  apply Stations_0.
Qed.

(** The same ring after a first cycle can go on in every order. *)
Definition ring_started (p : nat) : station unit := mk_station tt [] ring_a1 [0].
Example C123_goes_on_example : forall order, exists events images, map fst events = order /\
  stations Debug ring_wire ring (fun _ => [0]) (fun _ => [0x8000]) ring_started events images.
Proof.
  assert (R0 : reachable Debug ring_new) by (apply (start_reachable _ ring_config); vm_compute; reflexivity).
  assert (C1 : cycle Debug ring_new [0] [0] ring_a1 (Ok [0])).
  { split; [repeat constructor; lia|]. split; [repeat constructor; lia|]. exists as_is, as_is. split; [apply as_is_order|].
    split; [apply as_is_order|]. vm_compute. reflexivity. }
  assert (R : reachable Debug ring_a1) by (apply (cycle_reachable _ ring_new [0] [0] _ (Ok [0]) R0 C1); discriminate).
  assert (Ef : c_offsets ring_a1 = [mk_offset (Some 0) None; mk_offset None (Some 0x8000)]) by (vm_compute; reflexivity).
  assert (Ef0 : c_offsets ring_new = [mk_offset (Some 0) None; mk_offset None (Some 0x8000)]) by (vm_compute; reflexivity).
  assert (Em : exists ch0 ch1, c_modules ring_a1 = [MDI V_4DI_P ch0; MDO V_4DO_P ch1]).
  { do 2 eexists. vm_compute. reflexivity. }
  destruct Em as (ch0 & ch1 & Em).
  apply C123_goes_on.
  - intros p. cbn [ring_started t_coupler]. split; [exact R|]. split; [|split; [|split]].
    + apply Forall2_cons; [|apply Forall2_nil]. exists V_4DI_P, ch0, (mk_offset (Some 0) None). cbn [ring_started t_coupler]. split; [split; [rewrite Em|rewrite Ef]; reflexivity|].
      split; [reflexivity|]. split; [left; reflexivity|]. cbn. lia.
    + apply Forall2_cons; [|apply Forall2_nil]. exists (MDO V_4DO_P ch1), (mk_offset None (Some 0x8000)), 4%nat. cbn [ring_started t_coupler].
      split; [|split; [reflexivity|cbn; lia]].
      split; [split; [rewrite Em|rewrite Ef]; reflexivity|]. split; [reflexivity|]. split; [reflexivity|]. split; [left; reflexivity|].
      intros j m' o' off' Hj [_ Ho] Eo. rewrite Ef in Ho. cbn [a_module] in Hj. destruct j as [|[|j]]; try lia; cbn [nth_error] in Ho;
        try (injection Ho as <-; discriminate Eo). destruct j; discriminate Ho.
    + constructor; [intros []|constructor].
    + intros a [<-|[]]. vm_compute. reflexivity.
  - intros p. exists ring_new, [0], [0]. split; [exact R0|]. split; [|exact C1].
    intros [|[|i]] m o off [_ Ho] Eo; rewrite Ef0 in Ho; cbn [nth_error] in Ho; [| |destruct i; discriminate Ho];
      injection Ho as <-; try discriminate Eo. injection Eo as <-. intros E. discriminate E.
  - intros now p. exists [if output_bit (t_image (now (match p with O => 1 | _ => 0 end)%nat)) 0x8000 2 then 2 else 0].
    split; [repeat constructor; destruct (output_bit _ _ _); lia|]. split.
    + intros [|[|i]] m o off [Hm Ho] Eo; cbn [ring_started t_coupler] in Hm, Ho; rewrite Ef in Ho; rewrite Em in Hm; cbn [nth_error] in Ho, Hm; [| |destruct i; discriminate Ho];
        injection Ho as <-; try discriminate Eo. injection Eo as <-. injection Hm as <-. split; [|intros l ch E; discriminate E].
      vm_compute. intuition discriminate.
    + intros n q k a off a' off' Hw E1 E2 E3 E4. destruct p as [|[|p]]; destruct n as [|n]; try discriminate Hw; injection Hw as <- <-;
        injection E1 as <-; injection E2 as <-; injection E3 as <-; injection E4 as <-; cbn [a_channel];
        destruct (output_bit _ _ _); vm_compute; reflexivity.
Qed.
