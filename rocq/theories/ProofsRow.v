(** Proofs about a row of any number of programs (C117). *)
From Coq Require Import ZArith List Bool Lia.
From Verif Require Import Base Facts F32 Types Lib Com Fbc SpecCodec SpecSerial SpecCoupler SpecImage SpecSystem SpecLink SpecRelay SpecChain
  SpecRow ProofsSystem ProofsPlant ProofsLink ProofsRelay ProofsChain.
Import ListNotations.
Local Open Scope Z_scope.

(** ** Lists *)
Lemma replace_length {A} k (x : A) l : (k < length l)%nat -> length (replace_at k x l) = length l.
Proof. intros H. unfold replace_at. rewrite app_length, firstn_length. cbn [length]. rewrite skipn_length. lia. Qed.
Lemma nth_replace {A} k (x : A) : forall l j, (k < length l)%nat ->
  nth_error (replace_at k x l) j = if Nat.eqb j k then Some x else nth_error l j.
Proof.
  unfold replace_at. induction k as [|k IH]; intros [|h l] j H; cbn [length] in H; try lia.
  - cbn. destruct j; reflexivity.
  - destruct j as [|j]; [reflexivity|]. exact (IH l j ltac:(lia)).
Qed.
Lemma map_replace {A B} (f : A -> B) k x l : map f (replace_at k x l) = replace_at k (f x) (map f l).
Proof. unfold replace_at. rewrite map_app. cbn [map]. rewrite firstn_map, skipn_map. reflexivity. Qed.
Lemma replace_app {A} k (x : A) l t : (k < length l)%nat -> replace_at k x l ++ t = replace_at k x (l ++ t).
Proof.
  intros H. unfold replace_at. rewrite firstn_app, skipn_app.
  replace (k - length l)%nat with 0%nat by lia. replace (S k - length l)%nat with 0%nat by lia. cbn [firstn skipn].
  rewrite app_nil_r, <- app_assoc. reflexivity.
Qed.
Lemma Forall2_nth {A B} (R : A -> B -> Prop) : forall l m, Forall2 R l m <->
  length l = length m /\ forall k x y, nth_error l k = Some x -> nth_error m k = Some y -> R x y.
Proof.
  induction l as [|a l IH]; intros m; split.
  - intros H. inversion H. split; [reflexivity|]. intros [|k] x y E; discriminate.
  - intros [E _]. destruct m; [constructor|discriminate].
  - intros H. inversion H as [|? b ? m' Hh Ht]. subst. apply IH in Ht as [E F]. cbn. split; [lia|].
    intros [|k] x y E1 E2; cbn in *; [apply Some_inj in E1, E2; subst; exact Hh|exact (F k x y E1 E2)].
  - intros [E F]. destruct m as [|b m]; [discriminate|]. constructor; [exact (F 0%nat a b eq_refl eq_refl)|].
    apply IH. split; [cbn in E; lia|]. intros k x y E1 E2. exact (F (S k) x y E1 E2).
Qed.
Lemma Forall2_reversed {A B} (R : A -> B -> Prop) l m : Forall2 R l m -> Forall2 R (rev l) (rev m).
Proof. induction 1; cbn; [constructor|]. apply Forall2_app; [assumption|repeat constructor; assumption]. Qed.
Lemma Forall2_swapped {A B} (R : A -> B -> Prop) (Q : B -> A -> Prop) l m : (forall x y, R x y -> Q y x) -> Forall2 R l m -> Forall2 Q m l.
Proof. intros H. induction 1; constructor; auto. Qed.

(** ** The parts of a row *)
Lemma row_parts n s es s' : row_runs n s es s' ->
  side_runs (ws_first n) (w_first s) (of_first es) (w_first s') /\
  side_runs (ws_last n) (w_last s) (of_last es) (w_last s') /\
  length (w_relays s') = length (w_relays s) /\
  forall k l r y, nth_error (ws_relays n) k = Some (l, r) -> nth_error (w_relays s) k = Some y ->
    exists y', nth_error (w_relays s') k = Some y' /\ relay_runs l r y (of_relay k es) y'.
Proof.
  unfold side_runs, of_first, of_last, of_relay.
  induction 1 as [s|s e s1 es s2 Hs Hr (I1 & I2 & I3 & I4)].
  { split; [constructor|]. split; [constructor|]. split; [reflexivity|]. intros k l r y _ E. exists y. split; [exact E|constructor]. }
  destruct Hs as [a ys b e a' x Hx F Hs|a ys b k e l r y y' x z Hn Hy Hx Hz F Hs|a ys b e b' x Hx F Hs];
    cbn [flat_map app w_first w_relays w_last] in *.
  - split; [econstructor; eassumption|]. auto.
  - assert (Hk : (k < length ys)%nat) by (apply nth_error_Some; congruence).
    split; [exact I1|]. split; [exact I2|]. split; [rewrite I3; apply replace_length; exact Hk|].
    intros j l0 r0 y0 E1 E2. specialize (I4 j l0 r0). rewrite nth_replace in I4 by exact Hk.
    destruct (Nat.eqb_spec j k) as [->|Hj].
    + destruct (I4 y' E1 eq_refl) as (y2 & H1 & H2). exists y2. split; [exact H1|].
      rewrite Nat.eqb_refl. cbn [app]. rewrite Hn in E1. rewrite Hy in E2. apply Some_inj in E1, E2. apply pair_inj in E1 as [<- <-]. subst y0.
      econstructor; [exact Hs|exact H2].
    + destruct (I4 y0 E1 E2) as (y2 & H1 & H2). exists y2. split; [exact H1|].
      rewrite (proj2 (Nat.eqb_neq k j)) by lia. exact H2.
  - split; [exact I1|]. split; [econstructor; eassumption|]. auto.
Qed.
Lemma row_app n s es s1 : row_runs n s es s1 -> forall es' s2, row_runs n s1 es' s2 -> row_runs n s (es ++ es') s2.
Proof. induction 1 as [s|s e s1 es s2 Hs Hr IH]; intros es' s3 H; cbn; [exact H|]. econstructor; [exact Hs|]. apply IH. exact H. Qed.

(** ** The lines *)
Definition wired (a x : plant) : Prop := lined a x /\ lined x a.
Definition row_wired (s : row) : Prop := Forall2 wired (left_ends s) (right_ends s).

Lemma row_wired_step n s e s' : row_step n s e s' -> row_wired s -> row_wired s'.
Proof.
  unfold row_wired. rewrite !Forall2_nth. intros H (Hl & Hw). 
  destruct H as [a ys b e a' x Hx F Hs|a ys b k e l r y y' x z Hn Hy Hx Hz F Hs|a ys b e b' x Hx F Hs].
  - unfold left_ends, right_ends in *. cbn [w_first w_relays w_last] in *. split; [exact Hl|].
    intros [|k] p q E1 E2; cbn [nth_error] in E1; [|exact (Hw (S k) p q E1 E2)].
    apply Some_inj in E1. subst p. rewrite Hx in E2. apply Some_inj in E2. subst q. destruct (Hw 0%nat a x eq_refl Hx) as [L1 L2].
    split; [exact (lined_sender _ _ _ _ _ Hs L1)|exact (lined_receiver _ _ _ _ _ F Hs L2)].
  - assert (Hk : (k < length ys)%nat) by (apply nth_error_Some; congruence).
    assert (El : left_ends (mk_row a (replace_at k y' ys) b) = replace_at (S k) (y_right y') (left_ends (mk_row a ys b)))
      by (unfold left_ends; cbn [w_first w_relays]; rewrite map_replace; reflexivity).
    assert (Er : right_ends (mk_row a (replace_at k y' ys) b) = replace_at k (y_left y') (right_ends (mk_row a ys b)))
      by (unfold right_ends; cbn [w_last w_relays]; rewrite map_replace; apply replace_app; rewrite map_length; exact Hk).
    assert (Ll : (S k < length (left_ends (mk_row a ys b)))%nat) by (unfold left_ends; cbn [length w_relays]; rewrite map_length; lia).
    rewrite El, Er. split; [rewrite !replace_length by lia; exact Hl|].
    assert (Nl : nth_error (left_ends (mk_row a ys b)) (S k) = Some (y_right y)) by (cbn; exact (map_nth_error _ _ _ Hy)).
    assert (Nr : nth_error (right_ends (mk_row a ys b)) k = Some (y_left y)).
    { unfold right_ends. cbn [w_relays w_last]. rewrite nth_error_app1 by (rewrite map_length; lia). exact (map_nth_error _ _ _ Hy). }
    destruct (Hw _ _ _ Hx Nr) as [L1 L2]. destruct (Hw _ _ _ Nl Hz) as [L3 L4].
    destruct (lined_relay _ _ _ _ _ x z Hs F) as (A1 & A2 & A3 & A4).
    intros j p q E1 E2. rewrite nth_replace in E1 by lia. rewrite nth_replace in E2 by lia.
    destruct (Nat.eqb_spec j (S k)) as [->|H1].
    + rewrite (proj2 (Nat.eqb_neq (S k) k)) in E2 by lia. apply Some_inj in E1. subst p. rewrite Hz in E2. apply Some_inj in E2. subst q.
      split; auto.
    + destruct (Nat.eqb_spec j k) as [->|H2]; [|exact (Hw _ _ _ E1 E2)].
      apply Some_inj in E2. subst q. rewrite Hx in E1. apply Some_inj in E1. subst p. split; auto.
  - assert (El : forall b0, left_ends (mk_row a ys b0) = left_ends (mk_row a ys b)) by reflexivity.
    rewrite El. unfold right_ends in *. cbn [w_first w_relays w_last] in *.
    split; [rewrite Hl, !app_length; reflexivity|]. intros k p q E1 E2.
    destruct (Nat.lt_ge_cases k (length ys)) as [Hk|Hk].
    + rewrite nth_error_app1 in E2 by (rewrite map_length; exact Hk).
      apply (Hw k p q E1). rewrite nth_error_app1 by (rewrite map_length; exact Hk). exact E2.
    + rewrite nth_error_app2, map_length in E2 by (rewrite map_length; exact Hk).
      assert (k = length ys). { destruct (k - length ys)%nat as [|d] eqn:Ed; [lia|]. destruct d; discriminate. }
      subst k. rewrite Nat.sub_diag in E2. apply Some_inj in E2. subst q.
      rewrite Hx in E1. apply Some_inj in E1. subst p.
      destruct (Hw (length ys) x b Hx) as [L1 L2]; [rewrite nth_error_app2, map_length, Nat.sub_diag by (rewrite map_length; lia); reflexivity|].
      split; [exact (lined_receiver _ _ _ _ _ F Hs L1)|exact (lined_sender _ _ _ _ _ Hs L2)].
Qed.
Lemma row_wired_runs n s es s' : row_runs n s es s' -> row_wired s -> row_wired s'.
Proof. induction 1 as [|s e s1 es s2 Hs Hr IH]; intros H; [exact H|]. apply IH. exact (row_wired_step _ _ _ _ Hs H). Qed.

Lemma row_wired_start n s : row_start n s -> row_wired s.
Proof.
  destruct s as [a ys b], n as [sa ns sb]. unfold row_start, row_wired, left_ends, right_ends. cbn [ws_first ws_relays ws_last w_first w_relays w_last].
  revert sa a ys. induction ns as [|[l r] ns IH]; intros sa a ys (A & Y & B); inversion Y as [|? y ? ys' Hy Hys]; subst; cbn [map app].
  - constructor; [|constructor]. split; [exact (lined_start _ _ _ _ A B)|exact (lined_start _ _ _ _ B A)].
  - destruct Hy as (_ & _ & Sl & Sr & _). cbn [fst snd] in *.
    constructor; [split; [exact (lined_start _ _ _ _ A Sl)|exact (lined_start _ _ _ _ Sl A)]|].
    apply (IH r (y_right y) ys'). auto.
Qed.

(** ** The account *)
Definition ended (sd : side) (p : plant) : Prop :=
  exists p0 es1 p1 es2, side_start sd p0 /\ side_runs sd p0 es1 p1 /\ settled p1 /\ side_runs sd p1 es2 p.
Definition part (t : side * side * relay) : Prop :=
  let '(l, r, y) := t in ended l (y_left y) /\ ended r (y_right y) /\
    t_delivered (y_left y) = t_written (y_right y) ++ y_to_right y /\ t_delivered (y_right y) = t_written (y_left y) ++ y_to_left y.

Lemma ended_by sd p0 es1 p1 es2 p : side_start sd p0 -> side_runs sd p0 es1 p1 -> settled p1 -> side_runs sd p1 es2 p -> ended sd p.
Proof. intros. exists p0, es1, p1, es2. auto. Qed.
Lemma ended_accounted sa sx a x : ended sa a -> ended sx x -> lined a x -> accounted sa sx a x.
Proof.
  intros (a0 & ea1 & a1 & ea2 & A0 & A1 & _ & A2) (x0 & ex1 & x1 & ex2 & X0 & X1 & (C & O) & X2) L.
  exact (accounted_side _ _ _ _ _ _ _ _ _ _ A0 X0 (plant_runs_app _ _ _ _ _ _ _ _ A1 _ _ A2) X1 C O X2 L).
Qed.
Lemma along_written sb b : ended sb b -> forall ts sa a, ended sa a -> Forall part ts ->
  Forall2 wired (a :: map (fun t => y_right (snd t)) ts) (map (fun t => y_left (snd t)) ts ++ [b]) ->
  along sa a ts sb b (t_written a).
Proof.
  intros Hb. induction ts as [|[[l r] y] ts IH]; intros sa a Ha Hp Hw; cbn [map app along] in *.
  - inversion Hw as [|? ? ? ? [L _] _]. subst. destruct (ended_accounted _ _ _ _ Ha Hb L) as (in_b & H1 & H2).
    exists in_b. split; [exact H1|exact H2].
  - inversion Hw as [|? ? ? ? [L _] Hw']. subst. inversion Hp as [|? ? Hq Hp']. subst. cbn in Hq. destruct Hq as (Hl & Hr & D & _). cbn [snd] in *.
    destruct (ended_accounted _ _ _ _ Ha Hl L) as (in_y & H1 & H2).
    exists (t_written (y_right y)), in_y. split; [exact H1|]. split; [exact (IH _ _ Hr Hp' Hw')|].
    rewrite H2, D. unfold before. rewrite <- !app_assoc. reflexivity.
Qed.

Lemma mirror_part t : part t -> part (mirror t).
Proof. destruct t as [[l r] y]. intros (A & B & C & D). cbn. auto. Qed.
Lemma map_snd_combine {A B} : forall (l : list A) (m : list B), length l = length m -> map snd (combine l m) = m.
Proof. induction l as [|x l IH]; intros [|y m] E; cbn in *; try discriminate; [reflexivity|]. rewrite IH by lia. reflexivity. Qed.

Lemma row_ended n s0 es1 s1 es2 s2 : row_start n s0 -> row_runs n s0 es1 s1 -> row_ready s1 -> row_runs n s1 es2 s2 ->
  ended (ws_first n) (w_first s2) /\ Forall part (combine (ws_relays n) (w_relays s2)) /\ ended (ws_last n) (w_last s2) /\
  length (ws_relays n) = length (w_relays s2).
Proof.
  intros (A & Y & B) H1 (Ra & Ry & Rb) H2. apply row_parts in H1 as (A1 & B1 & N1 & Y1). apply row_parts in H2 as (A2 & B2 & N2 & Y2).
  split; [exact (ended_by _ _ _ _ _ _ A A1 Ra A2)|].
  apply Forall2_nth in Y as (N0 & Y0).
  split; [|split; [exact (ended_by _ _ _ _ _ _ B B1 Rb B2)|congruence]].
  apply Forall_forall. intros [[l r] y] Hin. apply In_nth_error in Hin as [k Hk].
  assert (E : nth_error (ws_relays n) k = Some (l, r) /\ nth_error (w_relays s2) k = Some y).
  { clear -Hk. revert k Hk. generalize (w_relays s2). induction (ws_relays n) as [|p ns IH]; intros [|q ys] k Hk; cbn in Hk;
      [destruct k; discriminate|destruct k; discriminate|destruct k; discriminate|].
    destruct k as [|k]; cbn in *; [apply Some_inj in Hk; apply pair_inj in Hk as [-> ->]; auto|exact (IH _ _ Hk)]. }
  destruct E as [En Ey].
  destruct (nth_error (w_relays s0) k) as [y0|] eqn:E0;
    [|apply nth_error_None in E0; assert (k < length (w_relays s2))%nat by (apply nth_error_Some; congruence); lia].
  destruct (Y1 k l r y0 En E0) as (y1 & E1 & R1). destruct (Y2 k l r y1 En E1) as (y2 & E2 & R2).
  rewrite Ey in E2. apply Some_inj in E2. subst y2.
  pose proof (Y0 _ _ _ En E0) as S0. cbn [fst snd] in S0. pose proof S0 as (N & _ & Sl & Sr & _).
  pose proof (proj1 (Forall_forall _ _) Ry _ (nth_error_In _ _ E1)) as [Rl Rr].
  pose proof (relayed_runs _ _ _ _ _ N R2 (relayed_runs _ _ _ _ _ N R1 (relayed_start _ _ _ S0))) as (_ & _ & _ & _ & D1 & D2).
  apply relay_sides in R1 as [P1 Q1]. apply relay_sides in R2 as [P2 Q2].
  split; [exact (ended_by _ _ _ _ _ _ Sl P1 Rl P2)|].
  split; [exact (ended_by _ _ _ _ _ _ Sr Q1 Rr Q2)|]. auto.
Qed.

Lemma C117_all : forall n s0 es1 s1 es2 s2, row_start n s0 -> row_runs n s0 es1 s1 -> row_ready s1 -> row_runs n s1 es2 s2 ->
  let ys := combine (ws_relays n) (w_relays s2) in
  along (ws_first n) (w_first s2) ys (ws_last n) (w_last s2) (t_written (w_first s2)) /\
  along (ws_last n) (w_last s2) (rev (map mirror ys)) (ws_first n) (w_first s2) (t_written (w_last s2)).
Proof.
  intros n s0 es1 s1 es2 s2 H0 H1 Hr H2. cbv zeta. destruct (row_ended _ _ _ _ _ _ H0 H1 Hr H2) as (Ea & Ey & Eb & En).
  pose proof (row_wired_runs _ _ _ _ H2 (row_wired_runs _ _ _ _ H1 (row_wired_start _ _ H0))) as W.
  set (ys := combine (ws_relays n) (w_relays s2)) in *.
  assert (Es : map snd ys = w_relays s2) by (apply map_snd_combine; exact En).
  assert (W' : Forall2 wired (w_first s2 :: map (fun t => y_right (snd t)) ys) (map (fun t => y_left (snd t)) ys ++ [w_last s2])).
  { unfold row_wired, left_ends, right_ends in W. rewrite <- Es, !map_map in W. exact W. }
  split; [exact (along_written _ _ Eb ys _ _ Ea Ey W')|]. apply along_written; [exact Ea|exact Eb| |].
  - apply Forall_rev. clear -Ey. induction Ey; cbn; [constructor|]. constructor; [apply mirror_part; assumption|assumption].
  - apply Forall2_reversed, (Forall2_swapped _ wired) in W'; [|intros x y [? ?]; split; assumption].
    rewrite rev_app_distr in W'. cbn [rev app] in W'. rewrite !map_rev, !map_map. cbn [snd mirror]. cbn [y_left y_right].
    rewrite <- !map_rev in *. exact W'.
Qed.

(** ** Progress *)
Lemma left_end_runs n s es s' k a : row_runs n s es s' -> length (ws_relays n) = length (w_relays s) -> nth_error (left_ends s) k = Some a ->
  exists sd es' a', nth_error (left_ends s') k = Some a' /\ side_runs sd a es' a'.
Proof.
  intros H N E. pose proof (row_parts _ _ _ _ H) as (A & _ & _ & Y). destruct k as [|k]; cbn [left_ends nth_error] in *.
  - apply Some_inj in E. subst a. eauto.
  - rewrite nth_error_map in E. destruct (nth_error (w_relays s) k) as [y|] eqn:Ey; [|discriminate]. cbn in E. apply Some_inj in E. subst a.
    assert (Hk : (k < length (ws_relays n))%nat) by (rewrite N; apply nth_error_Some; congruence).
    destruct (nth_error (ws_relays n) k) as [[l r]|] eqn:En; [|apply nth_error_None in En; lia].
    destruct (Y k l r y En Ey) as (y' & Ey' & R). apply relay_sides in R as [_ R]. exists r, (relay_right l r (of_relay k es)), (y_right y').
    rewrite nth_error_map, Ey'. auto.
Qed.
Lemma row_one n s e s' : row_step n s e s' -> row_runs n s [e] s'.
Proof. intros H. econstructor; [exact H|constructor]. Qed.

(** The bytes have been taken over by the left end of line [k]. *)
Definition reached (P : list Z) (s : row) (k : nat) : Prop :=
  exists a more, nth_error (left_ends s) k = Some a /\ t_taken a = P ++ more.

Lemma forwards_runs n k s s' : forwards n k s s' -> exists es, row_runs n s es s'.
Proof.
  intros (l & r & a & es1 & s1 & x1 & es2 & s2 & y2 & size & s3 & es3 & s4 & y4 & s5 & y5 & es5 & x & input & y & z & rounds &
    _ & _ & R1 & _ & _ & R2 & _ & T3 & _ & _ & R3 & _ & T5 & _ & R5 & _).
  eexists. exact (row_app _ _ _ _ R1 _ _ (row_app _ _ _ _ R2 _ _ (row_app _ _ _ _ (row_one _ _ _ _ T3) _ _ (row_app _ _ _ _ R3 _ _
    (row_app _ _ _ _ (row_one _ _ _ _ T5) _ _ R5))))).
Qed.
Lemma one_relay_step n k e s s' l r y y' : row_step n s (OfRelay k e) s' -> nth_error (ws_relays n) k = Some (l, r) ->
  nth_error (w_relays s) k = Some y -> nth_error (w_relays s') k = Some y' -> relay_step l r y e y'.
Proof.
  intros H En Ey Ey'. inversion H as [|a ys b k0 e0 l0 r0 y0 y0' x z Hn Hy Hx Hz F Hs|]. subst. cbn [w_relays] in *.
  rewrite Hn in En. rewrite Hy in Ey. apply Some_inj in En, Ey. apply pair_inj in En as [-> ->]. subst y0.
  rewrite nth_replace, Nat.eqb_refl in Ey' by (apply nth_error_Some; congruence). apply Some_inj in Ey'. subst y0'. exact Hs.
Qed.

Lemma forwards_reached n s0 es1 s1 es2 s s' k P : row_start n s0 -> row_runs n s0 es1 s1 -> row_ready s1 -> row_runs n s1 es2 s ->
  reached P s k -> forwards n k s s' -> reached P s' (S k).
Proof.
  intros H0 H1 (_ & Hr & _) H2 (a & more & Ea & Et)
    (l & r & a' & es3 & s3 & x3 & es4 & s4 & y4 & size & s5 & es5 & s6 & y6 & s7 & y7 & es7 & x & input & y & z & rounds &
     En & Ea' & R3 & E3 & L3 & R4 & E4 & T5 & Ey4 & L4 & R5 & Ey6 & T7 & Ey7 & R7 & E7 & F7 & N7).
  rewrite Ea in Ea'. apply Some_inj in Ea'. subst a'.
  pose proof H0 as (_ & S0 & _). apply Forall2_nth in S0 as (N0 & S0).
  pose proof (row_parts _ _ _ _ H1) as (_ & _ & N1 & Y1). pose proof (row_parts _ _ _ _ H2) as (_ & _ & N2 & _).
  pose proof (row_app _ _ _ _ H2 _ _ R3) as R13. pose proof (row_parts _ _ _ _ R13) as (_ & _ & N3 & Y13).
  pose proof (row_parts _ _ _ _ R4) as (_ & _ & N4 & Y4). pose proof (row_parts _ _ _ _ (row_one _ _ _ _ T5)) as (_ & _ & N5 & Y5).
  pose proof (row_parts _ _ _ _ R5) as (_ & _ & N6 & Y6). pose proof (row_parts _ _ _ _ (row_one _ _ _ _ T7)) as (_ & _ & N7' & _).
  pose proof (row_parts _ _ _ _ R7) as (_ & _ & _ & Y7).
  (* the histories of program [k] *)
  destruct (nth_error (w_relays s0) k) as [y0|] eqn:Ey0;
    [|apply nth_error_None in Ey0; assert (k < length (ws_relays n))%nat by (apply nth_error_Some; congruence); lia].
  destruct (Y1 k l r y0 En Ey0) as (y1 & Ey1 & P1). destruct (Y13 k l r y1 En Ey1) as (y3 & Ey3 & P3).
  destruct (Y4 k l r y3 En Ey3) as (y4' & Ey4' & P4). rewrite Ey4 in Ey4'. apply Some_inj in Ey4'. subst y4'.
  destruct (Y5 k l r y4 En Ey4) as (y5 & Ey5 & _). destruct (Y6 k l r y5 En Ey5) as (y6' & Ey6' & P6).
  rewrite Ey6 in Ey6'. apply Some_inj in Ey6'. subst y6'. destruct (Y7 k l r y7 En Ey7) as (y8 & Ey8 & P8).
  pose proof (one_relay_step _ _ _ _ _ _ _ _ _ T5 En Ey4 Ey5) as Q5. pose proof (one_relay_step _ _ _ _ _ _ _ _ _ T7 En Ey6 Ey7) as Q7.
  pose proof (S0 _ _ _ En Ey0) as Sk. cbn [fst snd] in Sk.
  pose proof (proj1 (Forall_forall _ _) Hr _ (nth_error_In _ _ Ey1)) as [[C1 O1] _].
  (* line [k] *)
  assert (Ex3 : x3 = y_left y3).
  { unfold right_ends in E3. rewrite nth_error_app1 in E3 by (rewrite map_length; apply nth_error_Some; congruence).
    rewrite nth_error_map, Ey3 in E3. cbn in E3. apply Some_inj in E3. auto. }
  subst x3.
  assert (Nn : length (ws_relays n) = length (w_relays s)) by congruence.
  destruct (left_end_runs _ _ _ _ _ _ R3 Nn Ea) as (sd & es' & a3 & Ea3 & A3).
  pose proof (row_wired_runs _ _ _ _ R13 (row_wired_runs _ _ _ _ H1 (row_wired_start _ _ H0))) as W.
  apply Forall2_nth in W as [_ W]. destruct (W _ _ _ Ea3 E3) as [L _].
  destruct (carried_over _ _ _ _ _ A3 L L3) as [rest Ec].
  destruct (C114_progress_all _ _ _ _ _ _ _ _ _ _ _ _ _ _ _ _ _ _ _ _ _ Sk P1 C1 O1 P3 P4 E4 Q5 L4 P6 Q7 P8 E7 F7 N7) as [m Em].
  exists (y_right y8). rewrite Em, Ec, Et, <- !app_assoc. eexists. split; [|reflexivity].
  cbn [left_ends nth_error]. rewrite nth_error_map, Ey8. reflexivity.
Qed.

Lemma all_forward_reached n s0 es1 s1 P k m s s' : row_start n s0 -> row_runs n s0 es1 s1 -> row_ready s1 -> all_forward n k m s s' ->
  forall es2, row_runs n s1 es2 s -> reached P s k -> reached P s' m /\ exists es, row_runs n s es s'.
Proof.
  intros H0 H1 Hr. induction 1 as [k s|k m s s2 s3 F _ IH]; intros es2 R Q; [split; [exact Q|exists []; constructor]|].
  destruct (forwards_runs _ _ _ _ F) as [es R2]. pose proof (forwards_reached _ _ _ _ _ _ _ _ _ H0 H1 Hr R Q F) as Q2.
  destruct (IH _ (row_app _ _ _ _ R _ _ R2) Q2) as [Q3 [es' R3]]. split; [exact Q3|]. eexists. exact (row_app _ _ _ _ R2 _ _ R3).
Qed.

Lemma C117_progress_all : forall n s0 es1 s1 es2 s2 es3 s3 s4 b4 es5 s5 es6 s6 rounds x input y z,
  row_start n s0 -> row_runs n s0 es1 s1 -> row_ready s1 -> row_runs n s1 es2 s2 ->
  row_runs n s2 es3 s3 -> of_first es3 = concat rounds -> Forall plant_round rounds ->
  (outstanding (s_module (ws_first n)) (s_length (ws_first n)) (s_output (ws_first n)) (w_first s2) <= length rounds)%nat ->
  all_forward n 0 (length (ws_relays n)) s3 s4 ->
  row_runs n s4 es5 s5 -> nth_error (left_ends s4) (length (ws_relays n)) = Some b4 ->
  (length (t_taken b4) <= length (concat (t_offered (w_last s5))))%nat ->
  row_runs n s5 es6 s6 -> of_last es6 = x ++ [PInput input] ++ y ++ [PCycle] ++ z ->
  exists more, t_delivered (w_last s6) ++ readable_in (t_coupler (w_last s6)) (s_module (ws_last n)) = t_written (w_first s2) ++ more.
Proof.
  intros n s0 es1 s1 es2 s2 es3 s3 s4 b4 es5 s5 es6 s6 rounds x input y z H0 H1 Hr H2 H3 E3 F3 N3 H4 H5 E4 N5 H6 E6.
  pose proof H0 as (Sa & S0 & Sb). pose proof Hr as ((Ca & _) & _ & (Cb & Ob)).
  pose proof (row_parts _ _ _ _ H1) as (A1 & B1 & N1 & _). pose proof (row_parts _ _ _ _ H2) as (A2 & _ & N2 & _).
  pose proof (row_parts _ _ _ _ H3) as (A3 & _ & N3' & _).
  assert (C2 : (2 <= t_cycles (w_first s2))%nat) by (pose proof (cycles_runs _ _ _ _ A2); lia).
  unfold side_runs in A3. rewrite E3 in A3.
  destruct (proj1 C56_all _ _ _ _ _ _ _ _ _ _ Sa (plant_runs_app _ _ _ _ _ _ _ _ A1 _ _ A2) C2 F3 N3 A3) as [m3 P3].
  assert (Q3 : reached (t_written (w_first s2)) s3 0) by (exists (w_first s3), m3; split; [reflexivity|exact P3]).
  pose proof (row_app _ _ _ _ H2 _ _ H3) as H13.
  destruct (all_forward_reached _ _ _ _ _ _ _ _ _ H0 H1 Hr H4 _ H13 Q3) as [(a4 & m4 & Ea4 & P4) [es4 H4r]].
  rewrite E4 in Ea4. apply Some_inj in Ea4. subst a4.
  pose proof (row_app _ _ _ _ H13 _ _ H4r) as H14. pose proof (row_app _ _ _ _ H14 _ _ H5) as H15.
  pose proof (row_parts _ _ _ _ H14) as (_ & _ & N14 & _). pose proof (row_parts _ _ _ _ H15) as (_ & B15 & N15 & _).
  pose proof (row_parts _ _ _ _ H6) as (_ & B6 & _).
  apply Forall2_nth in S0 as (N0 & _). assert (Nn : length (ws_relays n) = length (w_relays s4)) by congruence.
  destruct (left_end_runs _ _ _ _ _ _ H5 Nn E4) as (sd & es' & b5 & Eb5 & R5).
  pose proof (row_wired_runs _ _ _ _ H15 (row_wired_runs _ _ _ _ H1 (row_wired_start _ _ H0))) as W.
  apply Forall2_nth in W as [_ W]. destruct (W (length (ws_relays n)) b5 (w_last s5) Eb5) as [L _].
  { unfold right_ends. replace (length (ws_relays n)) with (length (map y_left (w_relays s5))) by (rewrite map_length; congruence).
    rewrite nth_error_app2, Nat.sub_diag by lia. reflexivity. }
  destruct (carried_over _ _ _ _ _ R5 L N5) as [m5 P5].
  destruct (fetched_by _ _ _ _ _ _ _ _ _ _ _ _ Sb B1 Cb Ob B15 B6 E6) as [m6 P6].
  rewrite P6, P5, P4, <- !app_assoc. eexists. reflexivity.
Qed.

(** ** An executable form, for the examples *)
Definition row_exec (n : row_sides) (s : row) (e : row_event) : option row :=
  let (a, ys, b) := s in
  match e with
  | OfFirst e =>
      match nth_error (right_ends s) 0, side_exec (ws_first n) a e with
      | Some x, Some a' => if from_line_test x a e then Some (mk_row a' ys b) else None
      | _, _ => None
      end
  | OfRelay k e =>
      match nth_error (ws_relays n) k, nth_error ys k, nth_error (left_ends s) k, nth_error (right_ends s) (S k) with
      | Some (l, r), Some y, Some x, Some z =>
          match relay_exec l r y e with
          | Some y' => if from_lines_test x z y e then Some (mk_row a (replace_at k y' ys) b) else None
          | None => None
          end
      | _, _, _, _ => None
      end
  | OfLast e =>
      match nth_error (left_ends s) (length ys), side_exec (ws_last n) b e with
      | Some x, Some b' => if from_line_test x b e then Some (mk_row a ys b') else None
      | _, _ => None
      end
  end.
Fixpoint row_execs (n : row_sides) (s : row) (es : list row_event) : option row :=
  match es with
  | [] => Some s
  | e :: es' => match row_exec n s e with Some s' => row_execs n s' es' | None => None end
  end.
Lemma row_exec_step n s e s' : Forall (fun lr => s_profile (fst lr) = s_profile (snd lr)) (ws_relays n) ->
  Forall (fun y => shared (y_left y) (y_right y)) (w_relays s) -> row_exec n s e = Some s' ->
  row_step n s e s' /\ Forall (fun y => shared (y_left y) (y_right y)) (w_relays s').
Proof.
  intros Hp Hs H. destruct s as [a ys b]. cbn [w_relays] in Hs. destruct e as [e|k e|e]; cbn [row_exec] in H.
  - destruct (nth_error (right_ends (mk_row a ys b)) 0) as [x|] eqn:Ex; [|discriminate]. destruct (side_exec (ws_first n) a e) as [a'|] eqn:Ea; [|discriminate].
    destruct (from_line_test x a e) eqn:Ef; [|discriminate]. apply Some_inj in H. subst s'. split; [|exact Hs].
    eapply W_first; [exact Ex|apply from_line_tested; exact Ef|apply exec_step; exact Ea].
  - destruct (nth_error (ws_relays n) k) as [[l r]|] eqn:En; [|discriminate]. destruct (nth_error ys k) as [y|] eqn:Ey; [|discriminate].
    destruct (nth_error (left_ends (mk_row a ys b)) k) as [x|] eqn:Ex; [|discriminate].
    destruct (nth_error (right_ends (mk_row a ys b)) (S k)) as [z|] eqn:Ez; [|discriminate].
    destruct (relay_exec l r y e) as [y'|] eqn:Ee; [|discriminate]. destruct (from_lines_test x z y e) eqn:Ef; [|discriminate].
    apply Some_inj in H. subst s'.
    pose proof (proj1 (Forall_forall _ _) Hp _ (nth_error_In _ _ En)) as Hpk. pose proof (proj1 (Forall_forall _ _) Hs _ (nth_error_In _ _ Ey)) as Hsk.
    destruct (relay_exec_step _ _ _ _ _ Hpk Hsk Ee) as [H1 H2]. split.
    + eapply W_relay; try eassumption. destruct e; cbn in Ef |- *; trivial; apply from_line_tested; exact Ef.
    + cbn [w_relays]. apply Forall_forall. intros q Hq. apply In_nth_error in Hq as [j Hj].
      rewrite nth_replace in Hj by (apply nth_error_Some; congruence). destruct (Nat.eqb j k); [apply Some_inj in Hj; subst q; exact H2|].
      exact (proj1 (Forall_forall _ _) Hs _ (nth_error_In _ _ Hj)).
  - destruct (nth_error (left_ends (mk_row a ys b)) (length ys)) as [x|] eqn:Ex; [|discriminate]. destruct (side_exec (ws_last n) b e) as [b'|] eqn:Eb; [|discriminate].
    destruct (from_line_test x b e) eqn:Ef; [|discriminate]. apply Some_inj in H. subst s'. split; [|exact Hs].
    eapply W_last; [exact Ex|apply from_line_tested; exact Ef|apply exec_step; exact Eb].
Qed.
Lemma row_exec_runs n es : Forall (fun lr => s_profile (fst lr) = s_profile (snd lr)) (ws_relays n) ->
  forall s s', Forall (fun y => shared (y_left y) (y_right y)) (w_relays s) -> row_execs n s es = Some s' -> row_runs n s es s'.
Proof.
  intros Hp. induction es as [|e es IH]; intros s s' Hs H; cbn [row_execs] in H; [apply Some_inj in H; subst s'; constructor|].
  destruct (row_exec n s e) as [s1|] eqn:E; [|discriminate]. destruct (row_exec_step _ _ _ _ Hp Hs E) as [H1 H2].
  econstructor; [exact H1|apply IH; assumption].
Qed.
