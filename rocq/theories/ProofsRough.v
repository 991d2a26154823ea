(** Proofs for C104. *)
From Coq Require Import ZArith List Bool Lia.
From Verif Require Import Base Facts Types Lib Com Fbc SpecCodec SpecSerial SpecCoupler SpecImage SpecSystem SpecLink SpecFault SpecOrdered
  SpecRough ProofsSystem ProofsPlant ProofsLink ProofsFault ProofsOrdered.
Import ListNotations.
Local Open Scope Z_scope.

Definition torn_side (s : side) (t : plant) (es : list torn_event) (t' : plant) (n : nat) : Prop :=
  torn_runs (s_profile s) (s_module s) (s_length s) (s_input s) (s_output s) t es t' n /\
  Forall (header_last (s_length s) (s_output s)) es.

Lemma rough_sides l r s es s' n m : rough_runs l r s es s' n m ->
  torn_side l (fst s) (rough_left es) (fst s') n /\ torn_side r (snd s) (rough_right es) (snd s') m.
Proof.
  induction 1 as [s|a b e a' es s n m Hf (Hs & Hh) Hr ((L1 & L2) & R)|a b e b' es s n m Hf (Hs & Hh) Hr (L & (R1 & R2))];
    cbn [fst snd rough_left rough_right] in *.
  - repeat split; constructor.
  - split; [|exact R]. split; [exact (TR_cons _ _ _ _ _ _ _ _ _ _ _ Hs L1)|constructor; assumption].
  - split; [exact L|]. split; [exact (TR_cons _ _ _ _ _ _ _ _ _ _ _ Hs R1)|constructor; assumption].
Qed.

Lemma torn_side_app s t es t1 n : torn_side s t es t1 n -> forall es' t2 n', torn_side s t1 es' t2 n' -> torn_side s t (es ++ es') t2 (n + n').
Proof.
  intros (H & F) es' t2 n' (H' & F'). split; [|apply Forall_app; auto]. clear F F'.
  induction H as [t|t e t1 es t3 n Hs Hr IH]; cbn [app]; [assumption|].
  rewrite <- Nat.add_assoc. econstructor; [exact Hs|exact (IH H')].
Qed.

Lemma torn_taken prof i l ioff ooff t e t' : torn_step prof i l ioff ooff t e t' -> exists more, t_taken t' = t_taken t ++ more.
Proof.
  intros [u e' u' [v e'' v' H|v input output c' H|v]|u w reg M]; try (exists []; rewrite app_nil_r; reflexivity).
  exact (taken_grows _ _ _ _ _ _ _ _ H).
Qed.
Lemma torn_offers prof i l ioff ooff t e t' : torn_step prof i l ioff ooff t e t' ->
  t_offered t' = t_offered t \/ exists seg, e = Disturbed (Undisturbed (POffer seg)) /\ t_offered t' = t_offered t ++ [seg].
Proof.
  intros [u e' u' [v e'' v' H|v input output c' H|v]|u w reg M]; auto.
  destruct (offered_by _ _ _ _ _ _ _ _ H) as [E|(seg & -> & E)]; eauto.
Qed.

Lemma rough_lined l r s es s' n m : rough_runs l r s es s' n m ->
  lined (fst s) (snd s) -> lined (snd s) (fst s) -> lined (fst s') (snd s') /\ lined (snd s') (fst s').
Proof.
  assert (S : forall sd a b e a', rough_side_step sd a e a' -> lined a b -> lined a' b).
  { intros sd a b e a' (Hs & _) H. destruct (torn_taken _ _ _ _ _ _ _ _ Hs) as (more & Hm). apply lined_iff. exists (on_line a b ++ more).
    rewrite Hm, app_assoc. f_equal. exact H. }
  assert (R : forall sd a b e b', rough_from_line a b e -> rough_side_step sd b e b' -> lined a b -> lined a b').
  { intros sd a b e b' Hf (Hs & _) H. apply lined_iff. destruct (torn_offers _ _ _ _ _ _ _ _ Hs) as [-> | (seg & -> & ->)]; [eexists; exact H|].
    destruct Hf as [rest Hr]. exists rest. rewrite concat_app. cbn. rewrite app_nil_r, <- app_assoc, <- Hr. exact H. }
  induction 1 as [s|a b e a' es s n m Hf Hs Hr IH|a b e b' es s n m Hf Hs Hr IH]; intros H1 H2; cbn [fst snd] in *; [auto| |].
  - apply IH; [exact (S _ _ _ _ _ Hs H1)|exact (R _ _ _ _ _ Hf Hs H2)].
  - apply IH; [exact (R _ _ _ _ _ Hf Hs H1)|exact (S _ _ _ _ _ Hs H2)].
Qed.

(** One direction. *)
Lemma rough_side sa sb a0 ea a na b0 eb1 b1 n1 eb2 b n2 :
  side_start sa a0 -> side_start sb b0 -> torn_side sa a0 ea a na -> torn_side sb b0 eb1 b1 n1 ->
  (2 <= t_cycles b1)%nat -> t_offered b1 = [] -> torn_side sb b1 eb2 b n2 -> lined a b -> rough_accounted sa sb a b na.
Proof.
  intros Ha0 Hb0 (Ha & Fa) (Hb1 & F1) H2 Ho (Hb & F2) H.
  destruct (C102_reception_all _ _ _ _ _ _ _ _ _ _ _ _ Hb0 Hb1 F1 H2 Hb F2) as (lost & n & Hlost & Hn & Hd).
  rewrite Ho in Hlost. cbn in Hlost. assert (lost = O) by lia. subst lost. cbn [skipn Nat.add] in *.
  destruct (last_segment _ _ Hn) as (last & Hl & Hc). exists last. split; [exact Hl|].
  destruct (C102_transmission_all _ _ _ _ _ _ _ _ _ Ha0 Ha Fa) as (T1 & T2 & T3).
  red in H. rewrite Hc, <- Hd, <- !app_assoc in H. rewrite H, <- !app_assoc in T1, T2, T3. auto.
Qed.

Lemma C104_all : forall l r a0 b0 es1 a1 b1 n1 m1 es2 a2 b2 n2 m2,
  side_start l a0 -> side_start r b0 ->
  rough_runs l r (a0, b0) es1 (a1, b1) n1 m1 ->
  (2 <= t_cycles a1)%nat -> (2 <= t_cycles b1)%nat -> t_offered a1 = [] -> t_offered b1 = [] ->
  rough_runs l r (a1, b1) es2 (a2, b2) n2 m2 ->
  rough_accounted l r a2 b2 (n1 + n2) /\ rough_accounted r l b2 a2 (m1 + m2).
Proof.
  intros l r a0 b0 es1 a1 b1 n1 m1 es2 a2 b2 n2 m2 Ha0 Hb0 H1 Hca Hcb Hoa Hob H2.
  destruct (rough_lined _ _ _ _ _ _ _ H1 (lined_start _ _ _ _ Ha0 Hb0) (lined_start _ _ _ _ Hb0 Ha0)) as [Hl1 Hl1'].
  destruct (rough_lined _ _ _ _ _ _ _ H2 Hl1 Hl1') as [Hl Hl'].
  apply rough_sides in H1 as [Ha1 Hb1]. apply rough_sides in H2 as [Ha Hb]. cbn [fst snd] in *.
  split.
  - exact (rough_side _ _ _ _ _ _ _ _ _ _ _ _ _ Ha0 Hb0 (torn_side_app _ _ _ _ _ Ha1 _ _ _ Ha) Hb1 Hcb Hob Hb Hl).
  - exact (rough_side _ _ _ _ _ _ _ _ _ _ _ _ _ Hb0 Ha0 (torn_side_app _ _ _ _ _ Hb1 _ _ _ Hb) Ha1 Hca Hoa Ha Hl').
Qed.

Lemma torn_cycles prof i l ioff ooff t es t' n : torn_runs prof i l ioff ooff t es t' n -> (t_cycles t <= t_cycles t')%nat.
Proof.
  induction 1 as [t|t e t1 es t2 n H1 H2 IH]; [lia|]. refine (Nat.le_trans _ _ _ _ IH). clear - H1.
  destruct H1 as [u e' u' [v e'' v' H|v input output c' H|v]|u w reg M]; try (cbn; lia).
  destruct H; cbn; try lia; destruct (_ =? _); cbn; lia.
Qed.
Lemma torn_takes prof i l ioff ooff t es t' n : torn_runs prof i l ioff ooff t es t' n -> exists more, t_taken t' = t_taken t ++ more.
Proof.
  induction 1 as [t|t e t1 es t2 n H1 H2 (m2 & IH)]; [exists []; rewrite app_nil_r; reflexivity|].
  destruct (torn_taken _ _ _ _ _ _ _ _ H1) as (m1 & E). exists (m1 ++ m2). rewrite IH, E, app_assoc. reflexivity.
Qed.
Lemma torn_offers_more prof i l ioff ooff t es t' n : torn_runs prof i l ioff ooff t es t' n -> exists more, t_offered t' = t_offered t ++ more.
Proof.
  induction 1 as [t|t e t1 es t2 n H1 H2 (m2 & IH)]; [exists []; rewrite app_nil_r; reflexivity|].
  destruct (torn_offers _ _ _ _ _ _ _ _ H1) as [E|(seg & _ & E)]; rewrite IH, E; [eauto|]. exists ([seg] ++ m2). rewrite app_assoc. reflexivity.
Qed.
Lemma torn_undisturbed_only prof i l ioff ooff es : forall t t' n,
  torn_runs prof i l ioff ooff t (map (fun e => Disturbed (Undisturbed e)) es) t' n -> plant_runs prof i l ioff ooff t es t'.
Proof.
  induction es as [|e es IH]; intros t t' n H; cbn [map] in H; inversion H; subst; [constructor|].
  econstructor; [apply torn_plain; eassumption|eapply IH; eassumption].
Qed.

Lemma C104_progress_all : forall l r a0 b0 es1 a1 b1 n1 m1 es2 a2 b2 n2 m2 es3 a3 b3 n3 m3 rounds es4 a4 b4 n4 m4 es5 a5 b5 n5 m5 x input y z,
  side_start l a0 -> side_start r b0 ->
  rough_runs l r (a0, b0) es1 (a1, b1) n1 m1 -> (2 <= t_cycles a1)%nat -> (2 <= t_cycles b1)%nat -> t_offered b1 = [] ->
  rough_runs l r (a1, b1) es2 (a2, b2) n2 m2 ->
  rough_runs l r (a2, b2) es3 (a3, b3) n3 m3 -> rough_left es3 = map (fun e => Disturbed (Undisturbed e)) (concat rounds) ->
  Forall plant_round rounds -> (outstanding (s_module l) (s_length l) (s_output l) a2 <= length rounds)%nat ->
  rough_runs l r (a3, b3) es4 (a4, b4) n4 m4 -> (length (t_taken a3) <= length (concat (t_offered b4)))%nat ->
  rough_runs l r (a4, b4) es5 (a5, b5) n5 m5 ->
  rough_right es5 = x ++ [Disturbed (Undisturbed (PInput input))] ++ y ++ [Disturbed (Undisturbed PCycle)] ++ z ->
  exists kept more, t_delivered b5 ++ readable_in (t_coupler b5) (s_module r) = kept ++ more /\
    subsequence kept (t_written a2) /\ (length (t_written a2) <= length kept + (n1 + n2) * payload_size (s_length l))%nat /\
    ((n1 + n2)%nat = 0%nat -> kept = t_written a2).
Proof.
  intros l r a0 b0 es1 a1 b1 n1 m1 es2 a2 b2 n2 m2 es3 a3 b3 n3 m3 rounds es4 a4 b4 n4 m4 es5 a5 b5 n5 m5 x input y z
    Ha0 Hb0 H1 Hca Hcb Hob H2 H3 He3 Hrounds Hout H4 Hlen H5 He5.
  destruct (rough_lined _ _ _ _ _ _ _ H1 (lined_start _ _ _ _ Ha0 Hb0) (lined_start _ _ _ _ Hb0 Ha0)) as [L1 L1'].
  destruct (rough_lined _ _ _ _ _ _ _ H2 L1 L1') as [L2 L2']. destruct (rough_lined _ _ _ _ _ _ _ H3 L2 L2') as [L3 L3'].
  destruct (rough_lined _ _ _ _ _ _ _ H4 L3 L3') as [L4 L4'].
  apply rough_sides in H1 as [A1 B1]. apply rough_sides in H2 as [A2 B2]. apply rough_sides in H3 as [A3 B3].
  apply rough_sides in H4 as [A4 B4]. apply rough_sides in H5 as [A5 B5]. cbn [fst snd] in *.
  destruct (torn_side_app _ _ _ _ _ A1 _ _ _ A2) as (A12 & F12).
  destruct A3 as (A3 & _). rewrite He3 in A3. apply torn_undisturbed_only in A3.
  destruct (C102_transmission_all _ _ _ _ _ _ _ _ _ Ha0 A12 F12) as (T1 & T2 & T3).
  set (kept := t_taken a2 ++ on_its_way (s_length l) (s_output l) a2 ++ waiting_in (t_coupler a2) (s_module l)) in *.
  assert (T : exists more, t_taken a3 = kept ++ more).
  { refine (C102_progress_all _ _ _ _ _ _ _ _ _ _ _ Ha0 A12 F12 _ Hrounds Hout A3).
    destruct A2 as (A2 & _). pose proof (torn_cycles _ _ _ _ _ _ _ _ _ A2). lia. }
  destruct T as [m T].
  destruct A4 as (A4 & _). destruct (torn_takes _ _ _ _ _ _ _ _ _ A4) as [mm T4].
  assert (P : exists rest, concat (t_offered b4) = t_taken a3 ++ rest).
  { apply (prefix_of_prefix _ mm _ (on_line a4 b4)); [|exact Hlen]. rewrite <- T4. exact L4. }
  destruct P as [rest P].
  destruct (torn_side_app _ _ _ _ _ B2 _ _ _ (torn_side_app _ _ _ _ _ B3 _ _ _ B4)) as (B24 & F24).
  destruct B1 as (B1 & F1). destruct B5 as (B5 & F5). rewrite He5 in B5, F5.
  assert (F5' : Forall (header_last (s_length r) (s_output r)) (x ++ y ++ z)).
  { apply Forall_app in F5 as (G1 & G2). apply Forall_app in G2 as (_ & G2). apply Forall_app in G2 as (G2 & G3).
    apply Forall_app in G3 as (_ & G3). rewrite !Forall_app. auto. }
  destruct (C102_reception_progress_all _ _ _ _ _ _ _ _ _ _ _ _ _ _ _ _ _ _ Hb0 B1 F1 Hcb B24 F24 B5 F5') as (lost & fetched & Hlost & Hf & Hd).
  rewrite Hob in Hlost. cbn in Hlost. assert (lost = O) by lia. subst lost. cbn [skipn Nat.add] in *.
  destruct (torn_offers_more _ _ _ _ _ _ _ _ _ B5) as [m0 O5].
  eexists kept, _. rewrite Hd, O5, firstn_app. rewrite firstn_all2 by lia. rewrite concat_app, P, T, <- !app_assoc.
  split; [reflexivity|]. split; [exact T1|]. split; [exact T2|]. intros E. symmetry. exact (T3 E).
Qed.
