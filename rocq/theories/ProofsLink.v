(** Proofs for C86. *)
From Coq Require Import ZArith List Bool Lia.
From Verif Require Import Base Facts Types Lib Com Fbc SpecCodec SpecSerial SpecCoupler SpecImage SpecSystem SpecLink
  ProofsSystem ProofsPlant.
Import ListNotations.
Local Open Scope Z_scope.

Definition side_runs (s : side) (t : plant) (es : list plant_event) (t' : plant) : Prop :=
  plant_runs (s_profile s) (s_module s) (s_length s) (s_input s) (s_output s) t es t'.

Lemma link_sides l r s es s' : link_runs l r s es s' ->
  side_runs l (fst s) (left_events es) (fst s') /\ side_runs r (snd s) (right_events es) (snd s').
Proof.
  unfold side_runs. induction 1 as [s|s e s1 es s2 Hs Hr [IHl IHr]]; [split; constructor|].
  destruct Hs as [a b e a' Hf Hs|a b e b' Hf Hs]; cbn in *; (split; [|]); try assumption;
    econstructor; eassumption.
Qed.

Lemma plant_runs_app prof i l ioff ooff t es t1 : plant_runs prof i l ioff ooff t es t1 ->
  forall es' t2, plant_runs prof i l ioff ooff t1 es' t2 -> plant_runs prof i l ioff ooff t (es ++ es') t2.
Proof.
  induction 1 as [t|t e t1 es t2 Hs Hr IH]; intros es' t3 H; cbn; [assumption|].
  econstructor; [eassumption|]. apply IH. assumption.
Qed.

(** The bytes taken over grow at the end; a segment is offered only by [POffer]. *)
Lemma taken_grows prof i l ioff ooff t e t' : plant_step prof i l ioff ooff t e t' ->
  exists more, t_taken t' = t_taken t ++ more.
Proof.
  destruct 1; cbn; try (exists []; rewrite app_nil_r; reflexivity);
    match goal with |- context [if ?b then _ else _] => destruct b end; cbn;
    try (exists []; rewrite app_nil_r; reflexivity). eexists. reflexivity.
Qed.
Lemma offered_by prof i l ioff ooff t e t' : plant_step prof i l ioff ooff t e t' ->
  t_offered t' = t_offered t \/ exists seg, e = POffer seg /\ t_offered t' = t_offered t ++ [seg].
Proof.
  destruct 1; cbn; auto; match goal with |- context [if ?b then _ else _] => destruct b end; cbn; eauto.
Qed.

(** The receiving module has offered a beginning of what the sending one has taken over. *)
Definition lined (a b : plant) : Prop := t_taken a = concat (t_offered b) ++ on_line a b.
Lemma lined_iff a b : lined a b <-> exists rest, t_taken a = concat (t_offered b) ++ rest.
Proof.
  split; [intros H; eexists; exact H|]. intros [rest H]. unfold lined, on_line. rewrite H at 2.
  rewrite skipn_app, skipn_all, Nat.sub_diag. cbn. assumption.
Qed.
Lemma lined_sender s a b e a' : side_step s a e a' -> lined a b -> lined a' b.
Proof.
  intros Hs H. apply taken_grows in Hs as [more Hm]. apply lined_iff. exists (on_line a b ++ more).
  rewrite Hm, app_assoc. f_equal. exact H.
Qed.
Lemma lined_receiver s a b e b' : from_line a b e -> side_step s b e b' -> lined a b -> lined a b'.
Proof.
  intros Hf Hs H. apply lined_iff. apply offered_by in Hs as [-> | [seg [-> ->]]]; [eexists; exact H|].
  destruct Hf as [rest Hr]. exists rest. rewrite concat_app. cbn. rewrite app_nil_r, <- app_assoc, <- Hr. exact H.
Qed.
Lemma lined_runs l r s es s' : link_runs l r s es s' ->
  lined (fst s) (snd s) -> lined (snd s) (fst s) -> lined (fst s') (snd s') /\ lined (snd s') (fst s').
Proof.
  induction 1 as [s|s e s1 es s2 Hs Hr IH]; intros H1 H2; [split; assumption|].
  apply IH; destruct Hs as [a b e a' Hf Hs|a b e b' Hf Hs]; cbn in *;
    first [exact (lined_sender _ _ _ _ _ Hs H1)|exact (lined_receiver _ _ _ _ _ Hf Hs H2)
          |exact (lined_receiver _ _ _ _ _ Hf Hs H1)|exact (lined_sender _ _ _ _ _ Hs H2)].
Qed.
Lemma lined_start sa sb a b : side_start sa a -> side_start sb b -> lined a b.
Proof.
  intros (_ & _ & _ & _ & _ & _ & _ & _ & _ & Ht & _) (_ & _ & _ & _ & _ & _ & _ & _ & _ & _ & Ho & _).
  apply lined_iff. exists []. rewrite Ht, Ho. reflexivity.
Qed.

Lemma last_segment (segs : list (list Z)) n : (n <= length segs <= n + 1)%nat ->
  exists last, (last = [] \/ exists before, segs = before ++ [last]) /\ concat segs = concat (firstn n segs) ++ last.
Proof.
  intros H. destruct (Nat.eq_dec n (length segs)) as [-> | Hn].
  - exists []. rewrite firstn_all, app_nil_r. auto.
  - destruct (exists_last (l := segs)) as [before [x Hx]]; [intros ->; cbn in *; lia|].
    exists x. split; [right; eauto|]. rewrite Hx, app_length in *. cbn in *.
    rewrite firstn_app. replace (n - length before)%nat with O by lia.
    replace n with (length before) by lia. rewrite firstn_all. cbn. rewrite concat_app. cbn.
    rewrite !app_nil_r. reflexivity.
Qed.

(** One direction. *)
Lemma accounted_side sa sb a0 ea a b0 eb1 b1 eb2 b :
  side_start sa a0 -> side_start sb b0 -> side_runs sa a0 ea a -> side_runs sb b0 eb1 b1 ->
  (2 <= t_cycles b1)%nat -> t_offered b1 = [] -> side_runs sb b1 eb2 b -> lined a b -> accounted sa sb a b.
Proof.
  intros Ha0 Hb0 Ha Hb1 H2 Ho Hb H.
  destruct (proj2 (C55_partial_all _ _ _ _ _ _ _ _ _ _ Hb0 Hb1 H2 Hb) Ho) as (n & Hn & Hd).
  destruct (last_segment _ _ Hn) as (last & Hl & Hc). exists last. split; [exact Hl|].
  rewrite (C50_all _ _ _ _ _ _ _ _ Ha0 Ha). red in H. rewrite Hc, <- Hd, <- !app_assoc in H.
  transitivity ((t_delivered b ++ readable_in (t_coupler b) (s_module sb) ++ last ++ on_line a b) ++
    on_its_way (s_length sa) (s_output sa) a ++ waiting_in (t_coupler a) (s_module sa)); [f_equal; exact H|].
  rewrite <- !app_assoc. reflexivity.
Qed.

Lemma C86_all : forall l r a0 b0 es1 a1 b1 es2 a2 b2,
  side_start l a0 -> side_start r b0 ->
  link_runs l r (a0, b0) es1 (a1, b1) ->
  (2 <= t_cycles a1)%nat -> (2 <= t_cycles b1)%nat -> t_offered a1 = [] -> t_offered b1 = [] ->
  link_runs l r (a1, b1) es2 (a2, b2) ->
  accounted l r a2 b2 /\ accounted r l b2 a2.
Proof.
  intros l r a0 b0 es1 a1 b1 es2 a2 b2 Ha0 Hb0 H1 Hca Hcb Hoa Hob H2.
  destruct (lined_runs _ _ _ _ _ H1 (lined_start _ _ _ _ Ha0 Hb0) (lined_start _ _ _ _ Hb0 Ha0)) as [Hl1 Hl1'].
  destruct (lined_runs _ _ _ _ _ H2 Hl1 Hl1') as [Hl Hl'].
  apply link_sides in H1 as [Ha1 Hb1]. apply link_sides in H2 as [Ha Hb]. cbn in *.
  split.
  - exact (accounted_side _ _ _ _ _ _ _ _ _ _ Ha0 Hb0 (plant_runs_app _ _ _ _ _ _ _ _ Ha1 _ _ Ha) Hb1 Hcb Hob Hb Hl).
  - exact (accounted_side _ _ _ _ _ _ _ _ _ _ Hb0 Ha0 (plant_runs_app _ _ _ _ _ _ _ _ Hb1 _ _ Hb) Ha1 Hca Hoa Ha Hl').
Qed.

Lemma offered_runs prof i l ioff ooff t es t' : plant_runs prof i l ioff ooff t es t' ->
  exists more, t_offered t' = t_offered t ++ more.
Proof.
  induction 1 as [t|t e t1 es t2 Hs Hr [more IH]]; [exists []; rewrite app_nil_r; reflexivity|].
  apply offered_by in Hs as [E | [seg [_ E]]]; rewrite IH, E, <- ?app_assoc; eauto.
Qed.
Lemma taken_runs prof i l ioff ooff t es t' : plant_runs prof i l ioff ooff t es t' ->
  exists more, t_taken t' = t_taken t ++ more.
Proof.
  induction 1 as [t|t e t1 es t2 Hs Hr [more IH]]; [exists []; rewrite app_nil_r; reflexivity|].
  apply taken_grows in Hs as [m E]. rewrite IH, E, <- app_assoc. eauto.
Qed.

Lemma prefix_of_prefix (x y z u : list Z) : x ++ y = z ++ u -> (length x <= length z)%nat -> exists rest, z = x ++ rest.
Proof.
  revert z. induction x as [|c x IH]; intros z H Hl; [exists z; reflexivity|].
  destruct z as [|d z]; [cbn in Hl; lia|]. cbn in *. injection H as -> H.
  destruct (IH z H) as [rest ->]; [lia|]. exists rest. reflexivity.
Qed.

Lemma C86_progress_all : forall l r a0 b0 es1 a1 b1 es2 a2 b2 es3 a3 b3 rounds es4 a4 b4 es5 a5 b5 x input y z,
  side_start l a0 -> side_start r b0 ->
  link_runs l r (a0, b0) es1 (a1, b1) -> (2 <= t_cycles a1)%nat -> (2 <= t_cycles b1)%nat -> t_offered b1 = [] ->
  link_runs l r (a1, b1) es2 (a2, b2) ->
  link_runs l r (a2, b2) es3 (a3, b3) -> left_events es3 = concat rounds -> Forall plant_round rounds ->
  (outstanding (s_module l) (s_length l) (s_output l) a2 <= length rounds)%nat ->
  link_runs l r (a3, b3) es4 (a4, b4) -> (length (t_taken a3) <= length (concat (t_offered b4)))%nat ->
  link_runs l r (a4, b4) es5 (a5, b5) -> right_events es5 = x ++ [PInput input] ++ y ++ [PCycle] ++ z ->
  exists more, t_delivered b5 ++ readable_in (t_coupler b5) (s_module r) = t_written a2 ++ more.
Proof.
  intros l r a0 b0 es1 a1 b1 es2 a2 b2 es3 a3 b3 rounds es4 a4 b4 es5 a5 b5 x input y z
    Ha0 Hb0 H1 Hca Hcb Hob H2 H3 He3 Hrounds Hout H4 Hlen H5 He5.
  destruct (lined_runs _ _ _ _ _ H1 (lined_start _ _ _ _ Ha0 Hb0) (lined_start _ _ _ _ Hb0 Ha0)) as [L1 L1'].
  destruct (lined_runs _ _ _ _ _ H2 L1 L1') as [L2 L2']. destruct (lined_runs _ _ _ _ _ H3 L2 L2') as [L3 L3'].
  destruct (lined_runs _ _ _ _ _ H4 L3 L3') as [L4 L4'].
  apply link_sides in H1 as [A1 B1]. apply link_sides in H2 as [A2 B2]. apply link_sides in H3 as [A3 B3].
  apply link_sides in H4 as [A4 B4]. apply link_sides in H5 as [A5 B5]. cbn [fst snd] in *.
  unfold side_runs in *. rewrite He3 in A3. rewrite He5 in B5.
  assert (T : exists more, t_taken a3 = t_written a2 ++ more).
  { refine (proj1 C56_all _ _ _ _ _ _ _ _ _ _ Ha0 (plant_runs_app _ _ _ _ _ _ _ _ A1 _ _ A2) _ Hrounds Hout A3).
    pose proof A2 as Hc. clear - Hc Hca. revert Hca. induction Hc as [t|t e t1 es t2 Hs Hr IH]; intros Hca; [assumption|].
    apply IH. destruct Hs; cbn in *; try assumption; try lia;
      match goal with |- context [if ?b then _ else _] => destruct b end; cbn; assumption. }
  destruct T as [m T].
  destruct (taken_runs _ _ _ _ _ _ _ _ A4) as [m4 T4].
  assert (P : exists rest, concat (t_offered b4) = t_taken a3 ++ rest).
  { apply (prefix_of_prefix _ m4 _ (on_line a4 b4)); [|exact Hlen]. rewrite <- T4. exact L4. }
  destruct P as [rest P].
  pose proof (plant_runs_app _ _ _ _ _ _ _ _ B2 _ _ (plant_runs_app _ _ _ _ _ _ _ _ B3 _ _ B4)) as B24.
  destruct (proj2 C56_all _ _ _ _ _ _ _ _ _ _ _ _ _ _ _ Hb0 B1 Hcb B24 B5) as (lost & fetched & Hlost & Hf & Hd).
  rewrite Hob in Hlost. cbn in Hlost. assert (lost = O) by lia. subst lost. cbn [skipn Nat.add] in *.
  destruct (offered_runs _ _ _ _ _ _ _ _ B5) as [m5 O5].
  rewrite Hd, O5, firstn_app.
  rewrite firstn_all2 by lia. rewrite concat_app, P, T, <- !app_assoc. eexists. reflexivity.
Qed.

(** Executable steps, for examples. *)
Fixpoint starts_with (seg line : list Z) : bool :=
  match seg, line with
  | [], _ => true
  | x :: seg', y :: line' => (x =? y) && starts_with seg' line'
  | _, _ => false
  end.
Definition from_line_test (sender receiver : plant) (e : plant_event) : bool :=
  match e with POffer seg => starts_with seg (on_line sender receiver) | _ => true end.
Definition side_exec (s : side) (t : plant) (e : plant_event) : option plant :=
  plant_exec (s_profile s) (s_module s) (s_length s) (s_input s) (s_output s) t e.
Fixpoint link_execs (l r : side) (s : plant * plant) (es : list link_event) : option (plant * plant) :=
  match es with
  | [] => Some s
  | OnLeft e :: es' =>
      if from_line_test (snd s) (fst s) e then
        match side_exec l (fst s) e with Some a => link_execs l r (a, snd s) es' | None => None end
      else None
  | OnRight e :: es' =>
      if from_line_test (fst s) (snd s) e then
        match side_exec r (snd s) e with Some b => link_execs l r (fst s, b) es' | None => None end
      else None
  end.
Lemma starts_with_prefix seg : forall line, starts_with seg line = true -> exists rest, line = seg ++ rest.
Proof.
  induction seg as [|x seg IH]; intros line H; [exists line; reflexivity|].
  destruct line as [|y line]; [discriminate|]. cbn in H. apply andb_prop in H as [H1 H2]. apply Z.eqb_eq in H1. subst y.
  destruct (IH _ H2) as [rest ->]. exists rest. reflexivity.
Qed.
Lemma from_line_tested a b e : from_line_test a b e = true -> from_line a b e.
Proof. destruct e; cbn; try trivial. apply starts_with_prefix. Qed.
Lemma link_exec_runs l r es : forall s s', link_execs l r s es = Some s' -> link_runs l r s es s'.
Proof.
  induction es as [|[e|e] es IH]; intros [a b] s' H; cbn [link_execs fst snd] in H.
  - apply Some_inj in H. subst s'. constructor.
  - destruct (from_line_test b a e) eqn:Ef; [|discriminate].
    destruct (side_exec l a e) as [a'|] eqn:Ee; [|discriminate].
    econstructor; [|apply IH; exact H]. apply K_left; [apply from_line_tested; exact Ef|apply exec_step; exact Ee].
  - destruct (from_line_test a b e) eqn:Ef; [|discriminate].
    destruct (side_exec r b e) as [b'|] eqn:Ee; [|discriminate].
    econstructor; [|apply IH; exact H]. apply K_right; [apply from_line_tested; exact Ef|apply exec_step; exact Ee].
Qed.
