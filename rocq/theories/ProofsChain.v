(** Proofs about three programs in a row (C116). *)
From Coq Require Import ZArith List Bool Lia.
From Verif Require Import Base Facts F32 Types Lib Com Fbc SpecCodec SpecSerial SpecCoupler SpecImage SpecSystem SpecLink SpecRelay SpecChain
  ProofsSystem ProofsPlant ProofsLink ProofsRelay.
Import ListNotations.
Local Open Scope Z_scope.

Lemma chain_parts n s es s' : chain_runs n s es s' ->
  side_runs (hs_first n) (h_first s) (first_events es) (h_first s') /\
  relay_runs (hs_left n) (hs_right n) (h_relay s) (relay_events es) (h_relay s') /\
  side_runs (hs_last n) (h_last s) (last_events es) (h_last s').
Proof.
  unfold side_runs, first_events, relay_events, last_events.
  induction 1 as [s|s e s1 es s2 Hs Hr (I1 & I2 & I3)]; [split; [constructor|split; constructor]|].
  destruct Hs; cbn [flat_map app h_first h_relay h_last] in *; (split; [|split]); try assumption; econstructor; eassumption.
Qed.

(** The four lines. *)
Definition all_lined (s : chain) : Prop :=
  lined (h_first s) (y_left (h_relay s)) /\ lined (y_left (h_relay s)) (h_first s) /\
  lined (h_last s) (y_right (h_relay s)) /\ lined (y_right (h_relay s)) (h_last s).

Lemma lined_relay l r s e s' a b : relay_step l r s e s' -> from_lines a b s e ->
  (lined a (y_left s) -> lined a (y_left s')) /\ (lined (y_left s) a -> lined (y_left s') a) /\
  (lined b (y_right s) -> lined b (y_right s')) /\ (lined (y_right s) b -> lined (y_right s') b).
Proof.
  intros H F.
  assert (Both : forall a0 b0 e0 a' b', (forall seg, e0 <> POffer seg) -> in_both l r a0 b0 e0 a' b' ->
    (lined a a0 -> lined a a') /\ (lined a0 a -> lined a' a) /\ (lined b b0 -> lined b b') /\ (lined b0 b -> lined b' b)).
  { intros a0 b0 e0 a' b' He (S1 & S2 & _).
    assert (FL : forall p q, from_line p q e0) by (intros p q; destruct e0; cbn; try exact I; exfalso; eapply He; reflexivity).
    split; [exact (lined_receiver _ _ _ _ _ (FL _ _) S1)|]. split; [exact (lined_sender _ _ _ _ _ S1)|].
    split; [exact (lined_receiver _ _ _ _ _ (FL _ _) S2)|exact (lined_sender _ _ _ _ _ S2)]. }
  destruct H as [a0 b0 x y e a' b' He Hb|a0 b0 x y size bytes a' b' Hr Hb|a0 b0 x y size bytes a' b' Hr Hb|a0 b0 bytes x y a' b' Hb
                |a0 b0 x bytes y a' b' Hb|a0 b0 x y e a' He Hs|a0 b0 x y e b' He Hs]; cbn [y_left y_right] in *.
  - apply (Both a0 b0 e a' b'); [intros seg ->; exact He|exact Hb].
  - eapply Both; [|exact Hb]; discriminate.
  - eapply Both; [|exact Hb]; discriminate.
  - eapply Both; [|exact Hb]; discriminate.
  - eapply Both; [|exact Hb]; discriminate.
  - cbn in F. split; [exact (lined_receiver _ _ _ _ _ F Hs)|]. split; [exact (lined_sender _ _ _ _ _ Hs)|]. auto.
  - cbn in F. split; [auto|]. split; [auto|]. split; [exact (lined_receiver _ _ _ _ _ F Hs)|exact (lined_sender _ _ _ _ _ Hs)].
Qed.

Lemma all_lined_runs n s es s' : chain_runs n s es s' -> all_lined s -> all_lined s'.
Proof.
  induction 1 as [s|s e s1 es s2 Hs Hr IH]; intros H; [exact H|]. apply IH. clear IH Hr.
  destruct H as (L1 & L2 & L3 & L4).
  destruct Hs as [a s b e a' F Hs|a s b e s' F Hs|a s b e b' F Hs]; unfold all_lined; cbn [h_first h_relay h_last] in *.
  - split; [exact (lined_sender _ _ _ _ _ Hs L1)|]. split; [exact (lined_receiver _ _ _ _ _ F Hs L2)|]. auto.
  - destruct (lined_relay _ _ _ _ _ a b Hs F) as (A1 & A2 & A3 & A4). auto.
  - split; [auto|]. split; [auto|]. split; [exact (lined_sender _ _ _ _ _ Hs L3)|exact (lined_receiver _ _ _ _ _ F Hs L4)].
Qed.
Lemma all_lined_start n s : chain_start n s -> all_lined s.
Proof.
  intros (A & (_ & _ & L & R & _) & B). split; [exact (lined_start _ _ _ _ A L)|]. split; [exact (lined_start _ _ _ _ L A)|].
  split; [exact (lined_start _ _ _ _ B R)|exact (lined_start _ _ _ _ R B)].
Qed.

Lemma passed_both sa sx sy sb a x held y b : accounted sa sx a x -> accounted sy sb y b ->
  t_delivered x = t_written y ++ held -> passed sa sx sy sb a x held y b.
Proof.
  intros (in_x & Hx & Ex) (in_b & Hb & Eb) D. exists in_b, in_x. split; [exact Hb|]. split; [exact Hx|].
  rewrite Ex, D, Eb, <- !app_assoc. reflexivity.
Qed.

Lemma C116_all : forall n s0 es1 s1 es2 s2, chain_start n s0 -> chain_runs n s0 es1 s1 -> chain_ready s1 -> chain_runs n s1 es2 s2 ->
  passed (hs_first n) (hs_left n) (hs_right n) (hs_last n)
    (h_first s2) (y_left (h_relay s2)) (y_to_right (h_relay s2)) (y_right (h_relay s2)) (h_last s2) /\
  passed (hs_last n) (hs_right n) (hs_left n) (hs_first n)
    (h_last s2) (y_right (h_relay s2)) (y_to_left (h_relay s2)) (y_left (h_relay s2)) (h_first s2).
Proof.
  intros n s0 es1 s1 es2 s2 H0 H1 (Ca & Cl & Cb & Oa & Ol & Or & Ob) H2. pose proof H0 as (Sa & Sr & Sb).
  destruct (all_lined_runs _ _ _ _ H2 (all_lined_runs _ _ _ _ H1 (all_lined_start _ _ H0))) as (L1 & L2 & L3 & L4).
  apply chain_parts in H1 as (A1 & R1 & B1). apply chain_parts in H2 as (A2 & R2 & B2).
  pose proof Sr as (N & _ & Sl & Srr & _).
  pose proof (relayed_runs _ _ _ _ _ N R1 (relayed_start _ _ _ Sr)) as I1.
  pose proof (relayed_runs _ _ _ _ _ N R2 I1) as (_ & _ & _ & _ & D1 & D2). destruct I1 as (_ & _ & _ & T & _).
  apply relay_sides in R1 as [X1 Y1]. apply relay_sides in R2 as [X2 Y2].
  assert (Cr : (2 <= t_cycles (y_right (h_relay s1)))%nat) by (rewrite <- T; exact Cl).
  split; apply passed_both; try assumption.
  - exact (accounted_side _ _ _ _ _ _ _ _ _ _ Sa Sl (plant_runs_app _ _ _ _ _ _ _ _ A1 _ _ A2) X1 Cl Ol X2 L1).
  - exact (accounted_side _ _ _ _ _ _ _ _ _ _ Srr Sb (plant_runs_app _ _ _ _ _ _ _ _ Y1 _ _ Y2) B1 Cb Ob B2 L4).
  - exact (accounted_side _ _ _ _ _ _ _ _ _ _ Sb Srr (plant_runs_app _ _ _ _ _ _ _ _ B1 _ _ B2) Y1 Cr Or Y2 L3).
  - exact (accounted_side _ _ _ _ _ _ _ _ _ _ Sl Sa (plant_runs_app _ _ _ _ _ _ _ _ X1 _ _ X2) A1 Ca Oa A2 L2).
Qed.

(** ** Progress *)
Lemma carried_over s a a' es x : side_runs s a es a' -> lined a' x -> (length (t_taken a) <= length (concat (t_offered x)))%nat ->
  exists rest, concat (t_offered x) = t_taken a ++ rest.
Proof.
  intros H L Hlen. destruct (taken_runs _ _ _ _ _ _ _ _ H) as [m E].
  apply (prefix_of_prefix _ m _ (on_line a' x)); [|exact Hlen]. rewrite <- E. exact L.
Qed.
Lemma fetched_by s t0 es0 t1 es1 t2 es2 t3 x input y z : side_start s t0 -> side_runs s t0 es0 t1 -> (2 <= t_cycles t1)%nat ->
  t_offered t1 = [] -> side_runs s t1 es1 t2 -> side_runs s t2 es2 t3 -> es2 = x ++ [PInput input] ++ y ++ [PCycle] ++ z ->
  exists more, t_delivered t3 ++ readable_in (t_coupler t3) (s_module s) = concat (t_offered t2) ++ more.
Proof.
  intros H0 H1 Hc Ho H2 H3 ->.
  destruct (proj2 C56_all _ _ _ _ _ _ _ _ _ _ _ _ _ _ _ H0 H1 Hc H2 H3) as (lost & fetched & Hlost & Hf & Hd).
  rewrite Ho in Hlost. cbn in Hlost. assert (lost = O) by lia. subst lost. cbn [skipn Nat.add] in *.
  destruct (offered_runs _ _ _ _ _ _ _ _ H3) as [m E]. rewrite Hd, E, firstn_app, firstn_all2 by lia. rewrite concat_app. eauto.
Qed.
Lemma chain_app n s es s1 : chain_runs n s es s1 -> forall es' s2, chain_runs n s1 es' s2 -> chain_runs n s (es ++ es') s2.
Proof. induction 1 as [s|s e s1 es s2 Hs Hr IH]; intros es' s3 H; cbn; [exact H|]. econstructor; [exact Hs|]. apply IH. exact H. Qed.

Lemma C116_progress_all : forall n s0 es1 s1 es2 s2 es3 s3 es4 s4 es5 s5 size s6 es6 s7 s8 es8 s9 es9 s10 es10 s11
    rounds x input y z rounds' x' input' y' z',
  chain_start n s0 -> chain_runs n s0 es1 s1 -> chain_ready s1 -> chain_runs n s1 es2 s2 ->
  chain_runs n s2 es3 s3 -> first_events es3 = concat rounds -> Forall plant_round rounds ->
  (outstanding (s_module (hs_first n)) (s_length (hs_first n)) (s_output (hs_first n)) (h_first s2) <= length rounds)%nat ->
  chain_runs n s3 es4 s4 -> (length (t_taken (h_first s3)) <= length (concat (t_offered (y_left (h_relay s4)))))%nat ->
  chain_runs n s4 es5 s5 -> relay_left (hs_left n) (hs_right n) (relay_events es5) = x ++ [PInput input] ++ y ++ [PCycle] ++ z ->
  chain_step n s5 (AtRelay (FetchLeft size)) s6 ->
  (length (readable_in (t_coupler (y_left (h_relay s5))) (s_module (hs_left n))) <= size)%nat ->
  chain_runs n s6 es6 s7 -> chain_step n s7 (AtRelay (SendRight (y_to_right (h_relay s7)))) s8 ->
  chain_runs n s8 es8 s9 -> relay_right (hs_left n) (hs_right n) (relay_events es8) = concat rounds' -> Forall plant_round rounds' ->
  (outstanding (s_module (hs_right n)) (s_length (hs_right n)) (s_output (hs_right n)) (y_right (h_relay s8)) <= length rounds')%nat ->
  chain_runs n s9 es9 s10 -> (length (t_taken (y_right (h_relay s9))) <= length (concat (t_offered (h_last s10))))%nat ->
  chain_runs n s10 es10 s11 -> last_events es10 = x' ++ [PInput input'] ++ y' ++ [PCycle] ++ z' ->
  exists more, t_delivered (h_last s11) ++ readable_in (t_coupler (h_last s11)) (s_module (hs_last n)) = t_written (h_first s2) ++ more.
Proof.
  intros n s0 es1 s1 es2 s2 es3 s3 es4 s4 es5 s5 size s6 es6 s7 s8 es8 s9 es9 s10 es10 s11
    rounds x input y z rounds' x' input' y' z' H0 H1 (Ca & Cl & Cb & Oa & Ol & Or & Ob) H2 H3 E3 F3 N3 H4 N4 H5 E5 H6 N6 H7 H8 H9 E9 F9 N9
    H10 N10 H11 E11. pose proof H0 as (Sa & Sr & Sb).
  pose proof (chain_app _ _ _ _ H1 _ _ (chain_app _ _ _ _ H2 _ _ (chain_app _ _ _ _ H3 _ _ H4))) as H04.
  pose proof (all_lined_runs _ _ _ _ H04 (all_lined_start _ _ H0)) as (L4 & _ & _ & _).
  assert (R6 : chain_runs n s5 [AtRelay (FetchLeft size)] s6) by (econstructor; [exact H6|constructor]).
  assert (R8 : chain_runs n s7 [AtRelay (SendRight (y_to_right (h_relay s7)))] s8) by (econstructor; [exact H8|constructor]).
  pose proof (chain_app _ _ _ _ H04 _ _ (chain_app _ _ _ _ H5 _ _ (chain_app _ _ _ _ R6 _ _ (chain_app _ _ _ _ H7 _ _
    (chain_app _ _ _ _ R8 _ _ (chain_app _ _ _ _ H9 _ _ H10)))))) as H010.
  pose proof (all_lined_runs _ _ _ _ H010 (all_lined_start _ _ H0)) as (_ & _ & _ & L10).
  pose proof (chain_app _ _ _ _ H2 _ _ (chain_app _ _ _ _ H3 _ _ H4)) as H14.
  pose proof (chain_app _ _ _ _ H14 _ _ (chain_app _ _ _ _ H5 _ _ (chain_app _ _ _ _ R6 _ _ (chain_app _ _ _ _ H7 _ _
    (chain_app _ _ _ _ R8 _ _ (chain_app _ _ _ _ H9 _ _ H10)))))) as H110.
  (* the first program *)
  pose proof (chain_parts _ _ _ _ H1) as (A1 & Y1 & B1). pose proof (chain_parts _ _ _ _ H2) as (A2 & _ & _).
  pose proof (chain_parts _ _ _ _ H3) as (A3 & _ & _). pose proof (chain_parts _ _ _ _ H4) as (A4 & _ & _).
  assert (C2 : (2 <= t_cycles (h_first s2))%nat) by (pose proof (cycles_runs _ _ _ _ A2); lia).
  unfold side_runs in A3. rewrite E3 in A3.
  destruct (proj1 C56_all _ _ _ _ _ _ _ _ _ _ Sa (plant_runs_app _ _ _ _ _ _ _ _ A1 _ _ A2) C2 F3 N3 A3) as [m3 P3].
  destruct (carried_over _ _ _ _ _ A4 L4 N4) as [m4 P4].
  (* the program in the middle *)
  pose proof (chain_parts _ _ _ _ H14) as (_ & Y14 & _). pose proof (chain_parts _ _ _ _ H5) as (_ & Y5 & _).
  pose proof (chain_parts _ _ _ _ H7) as (_ & Y7 & _). pose proof (chain_parts _ _ _ _ H9) as (_ & Y9 & _).
  pose proof (chain_parts _ _ _ _ H10) as (_ & Y10 & _). pose proof (relay_sides _ _ _ _ _ Y10) as (_ & Z10).
  assert (T6 : relay_step (hs_left n) (hs_right n) (h_relay s5) (FetchLeft size) (h_relay s6)) by (inversion H6; assumption).
  assert (T8 : relay_step (hs_left n) (hs_right n) (h_relay s7) (SendRight (y_to_right (h_relay s7))) (h_relay s8)).
  { inversion H8 as [|a0 r0 b0 e0 r1 Hf Hr|]. subst. exact Hr. }
  destruct (C114_progress_all _ _ _ _ _ _ _ _ _ _ _ _ _ _ _ _ _ _ _ _ _ Sr Y1 Cl Ol Y14 Y5 E5 T6 N6 Y7 T8 Y9 E9 F9 N9) as [m9 P9].
  destruct (carried_over _ _ _ _ _ Z10 L10 N10) as [m10 P10].
  (* the last program *)
  pose proof (chain_parts _ _ _ _ H110) as (_ & _ & B110). pose proof (chain_parts _ _ _ _ H11) as (_ & _ & B11).
  destruct (fetched_by _ _ _ _ _ _ _ _ _ _ _ _ Sb B1 Cb Ob B110 B11 E11) as [m11 P11].
  rewrite P11, P10, P9, P4, P3, <- !app_assoc. eexists. reflexivity.
Qed.

(** ** An executable form, for the examples *)
Definition from_lines_test (a b : plant) (s : relay) (e : relay_event) : bool :=
  match e with
  | LeftModule e => from_line_test a (y_left s) e
  | RightModule e => from_line_test b (y_right s) e
  | _ => true
  end.
Definition chain_exec (n : chain_sides) (s : chain) (e : chain_event) : option chain :=
  let (a, y, b) := s in
  match e with
  | AtFirst e =>
      if from_line_test (y_left y) a e then match side_exec (hs_first n) a e with Some a' => Some (mk_chain a' y b) | None => None end else None
  | AtRelay e =>
      if from_lines_test a b y e then match relay_exec (hs_left n) (hs_right n) y e with Some y' => Some (mk_chain a y' b) | None => None end
      else None
  | AtLast e =>
      if from_line_test (y_right y) b e then match side_exec (hs_last n) b e with Some b' => Some (mk_chain a y b') | None => None end else None
  end.
Fixpoint chain_execs (n : chain_sides) (s : chain) (es : list chain_event) : option chain :=
  match es with
  | [] => Some s
  | e :: es' => match chain_exec n s e with Some s' => chain_execs n s' es' | None => None end
  end.
Lemma chain_exec_runs n es : s_profile (hs_left n) = s_profile (hs_right n) ->
  forall s s', shared (y_left (h_relay s)) (y_right (h_relay s)) -> chain_execs n s es = Some s' -> chain_runs n s es s'.
Proof.
  intros Hp. induction es as [|e es IH]; intros s s' Hs H; cbn [chain_execs] in H; [apply Some_inj in H; subst s'; constructor|].
  destruct (chain_exec n s e) as [s1|] eqn:E; [|discriminate].
  destruct s as [a y b]. cbn [h_relay] in Hs. destruct e as [e|e|e]; cbn [chain_exec] in E.
  - destruct (from_line_test (y_left y) a e) eqn:Ef; [|discriminate]. destruct (side_exec (hs_first n) a e) as [a'|] eqn:Ee; [|discriminate].
    apply Some_inj in E. subst s1. econstructor; [|apply IH; [|exact H]; exact Hs].
    apply H_first; [apply from_line_tested; exact Ef|apply exec_step; exact Ee].
  - destruct (from_lines_test a b y e) eqn:Ef; [|discriminate].
    destruct (relay_exec (hs_left n) (hs_right n) y e) as [y'|] eqn:Ee; [|discriminate]. apply Some_inj in E. subst s1.
    destruct (relay_exec_step _ _ _ _ _ Hp Hs Ee) as [H1 H2]. econstructor; [|apply IH; [|exact H]; exact H2].
    apply H_relay; [|exact H1]. destruct e; cbn in Ef |- *; trivial; apply from_line_tested; exact Ef.
  - destruct (from_line_test (y_right y) b e) eqn:Ef; [|discriminate]. destruct (side_exec (hs_last n) b e) as [b'|] eqn:Ee; [|discriminate].
    apply Some_inj in E. subst s1. econstructor; [|apply IH; [|exact H]; exact Hs].
    apply H_last; [apply from_line_tested; exact Ef|apply exec_step; exact Ee].
Qed.
