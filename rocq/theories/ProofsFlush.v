(** Proofs of C106. *)
From Coq Require Import ZArith List Bool Lia.
From Verif Require Import Base Facts F32 Types Lib Com Fbc SpecCodec SpecSerial SpecCoupler SpecImage SpecSystem SpecFault SpecFlush
  ProofsSerial ProofsSerialSystem ProofsCoupler ProofsWitness ProofsSystem ProofsPlant ProofsFault.
Import ListNotations.
Local Open Scope Z_scope.

(** *** The processor *)

Definition untouched (c0 : Z) (s : system) : Prop :=
  ro_tx_cnt (s_register s) = c0 /\ ri_tx_cnt_ack (s_device s) = c0 /\ s_taken s = [].

Record inv_flush (c0 : Z) (s : system) : Prop := {
  fl_stage : p_init_state (s_proc s) = stage (s_cycles s);
  fl_early : (s_cycles s < 2)%nat -> ro_tx_cnt (s_image s) = c0 /\ untouched c0 s;
  fl_late : (2 <= s_cycles s)%nat -> flush_flags (s_image s) = (false, false) /\
    (flush_flags (s_register s) = (false, false) \/ untouched c0 s) }.

Lemma flush_happen prof c0 s e s' : inv_flush c0 s -> happen prof s e = Ok s' -> inv_flush c0 s'.
Proof.
  intros [St Ea La] H. unfold untouched in *. destruct e as [b|n| | | | |seg| |full ready]; cbn [happen] in H.
  - destruct (processor_write (s_proc s) b) as (p & m) eqn:E. apply Ok_inj in H. subst s'.
    split; sfields; auto. rewrite <- St. unfold processor_write in E. destruct (s_proc s); apply pair_inj in E; destruct E as [<- _]; reflexivity.
  - destruct (processor_read (s_proc s) n) as (p & m) eqn:E. apply Ok_inj in H. subst s'.
    split; sfields; auto. rewrite <- St. unfold processor_read in E. destruct (p_in_data (s_proc s)); apply pair_inj in E; destruct E as [<- _]; reflexivity.
  - apply Ok_inj in H. subst s'. split; sfields; auto.
  - apply bind_ok in H. destruct H as ((p & o) & E & H). apply Ok_inj in H. subst s'.
    destruct (next_cases _ _ _ _ _ _ _ St E) as (N1 & _ & _ & _ & N2 & N3). split; sfields; [exact N1| |]; intros Hc.
    + destruct (N2 ltac:(lia)) as (_ & _ & _ & _ & Et & _). destruct (Ea ltac:(lia)) as (E1 & E2). rewrite Et. auto.
    + destruct (Nat.lt_ge_cases (s_cycles s) 2) as [L|L].
      * destruct (N2 L) as (F1 & F2 & _). destruct (Ea L) as (_ & E2). unfold flush_flags. rewrite F1, F2.
        replace (s_cycles s) with 1%nat by lia. cbn. auto.
      * destruct (N3 L) as (F1 & F2 & _). destruct (La L) as (E1 & E2). split; [|exact E2].
        unfold flush_flags in *. rewrite F1, F2. exact E1.
  - apply Ok_inj in H. subst s'. split; sfields; auto.
    + intros Hc. destruct (Ea Hc) as (E1 & _ & E2). unfold untouched. sfields. auto.
    + intros Hc. destruct (La Hc) as (E1 & _). auto.
  - destruct (ro_tx_cnt (s_register s) =? ri_tx_cnt_ack (s_device s)) eqn:E; apply Ok_inj in H; subst s'; [split; auto|].
    apply Z.eqb_neq in E. split; sfields; auto.
    + intros Hc. destruct (Ea Hc) as (_ & E1 & E2 & _). congruence.
    + intros Hc. destruct (La Hc) as (E1 & [E2|(E2 & E3 & _)]); [auto|congruence].
  - destruct (_ =? _); apply Ok_inj in H; subst s'; split; sfields; auto.
  - destruct (_ =? _); apply Ok_inj in H; subst s'; split; sfields; auto.
  - apply Ok_inj in H. subst s'. split; sfields; auto.
Qed.

Lemma flush_schedule prof c0 es : forall s s', inv_flush c0 s -> schedule prof s es = Ok s' -> inv_flush c0 s'.
Proof.
  induction es as [|e es IH]; intros s s' Hi H; cbn [schedule] in H.
  - apply Ok_inj in H. subst s'. exact Hi.
  - apply bind_ok in H. destruct H as (s1 & H1 & H2). eapply IH; [eapply flush_happen; eassumption|exact H2].
Qed.

Lemma flush_start l s : start l s -> inv_flush (ri_tx_cnt_ack (s_device s)) s.
Proof.
  intros (E1 & _ & _ & _ & E2 & _ & _ & E3 & _ & E4 & _ & _ & E5).
  split; rewrite ?E5; [rewrite E1; reflexivity| |intros; lia].
  intros _. unfold untouched. rewrite E3, E4. auto.
Qed.

(** Once the flags are cleared in the image and in the register. *)
Record inv_clear (s : system) : Prop := {
  cl_stage : p_init_state (s_proc s) = stage (s_cycles s);
  cl_cycles : (2 <= s_cycles s)%nat;
  cl_image : flush_flags (s_image s) = (false, false);
  cl_register : flush_flags (s_register s) = (false, false) }.

(** A cycle after the first two passes the flags on. *)
Lemma flags_happen prof s e s' : p_init_state (s_proc s) = stage (s_cycles s) -> (2 <= s_cycles s)%nat ->
  happen prof s e = Ok s' ->
  p_init_state (s_proc s') = stage (s_cycles s') /\ (2 <= s_cycles s')%nat /\
  flush_flags (s_image s') = flush_flags (s_image s) /\
  (s_register s' = s_register s \/ s_register s' = s_image s).
Proof.
  intros St Hc H. destruct e as [b|n| | | | |seg| |full ready]; cbn [happen] in H.
  - destruct (processor_write (s_proc s) b) as (p & m) eqn:E. apply Ok_inj in H. subst s'. sfields. split; [|auto].
    rewrite <- St. unfold processor_write in E. destruct (s_proc s); apply pair_inj in E; destruct E as [<- _]; reflexivity.
  - destruct (processor_read (s_proc s) n) as (p & m) eqn:E. apply Ok_inj in H. subst s'. sfields. split; [|auto].
    rewrite <- St. unfold processor_read in E. destruct (p_in_data (s_proc s)); apply pair_inj in E; destruct E as [<- _]; reflexivity.
  - apply Ok_inj in H. subst s'. sfields. auto.
  - apply bind_ok in H. destruct H as ((p & o) & E & H). apply Ok_inj in H. subst s'. sfields.
    destruct (next_cases _ _ _ _ _ _ _ St E) as (N1 & _ & _ & _ & _ & N3). destruct (N3 Hc) as (F1 & F2 & _).
    split; [exact N1|]. split; [lia|]. unfold flush_flags. rewrite F1, F2. auto.
  - apply Ok_inj in H. subst s'. sfields. auto.
  - destruct (_ =? _); apply Ok_inj in H; subst s'; sfields; auto.
  - destruct (_ =? _); apply Ok_inj in H; subst s'; sfields; auto.
  - destruct (_ =? _); apply Ok_inj in H; subst s'; sfields; auto.
  - apply Ok_inj in H. subst s'. sfields. auto.
Qed.

Lemma flags_schedule prof es : forall s s', p_init_state (s_proc s) = stage (s_cycles s) -> (2 <= s_cycles s)%nat ->
  schedule prof s es = Ok s' ->
  p_init_state (s_proc s') = stage (s_cycles s') /\ (2 <= s_cycles s')%nat /\
  flush_flags (s_image s') = flush_flags (s_image s) /\
  (flush_flags (s_register s') = flush_flags (s_register s) \/ flush_flags (s_register s') = flush_flags (s_image s)).
Proof.
  induction es as [|e es IH]; intros s s' St Hc H; cbn [schedule] in H.
  - apply Ok_inj in H. subst s'. auto.
  - apply bind_ok in H. destruct H as (s1 & H1 & H2).
    destruct (flags_happen _ _ _ _ St Hc H1) as (S1 & C1 & F1 & R1).
    destruct (IH s1 s' S1 C1 H2) as (S2 & C2 & F2 & R2). split; [exact S2|]. split; [exact C2|].
    split; [congruence|]. destruct R2 as [R2|R2], R1 as [R1|R1]; rewrite R2, ?F1, ?R1; auto.
Qed.

Lemma clear_schedule prof es s s' : inv_clear s -> schedule prof s es = Ok s' -> inv_clear s'.
Proof.
  intros [St Hc Hi Hr] H. destruct (flags_schedule _ _ _ _ St Hc H) as (S1 & C1 & F1 & R1).
  split; [exact S1|exact C1|congruence|destruct R1; congruence].
Qed.

(** *** The plant *)

Lemma faulty_flush prof i l ioff ooff t e t' s c0 : faulty_step prof i l ioff ooff t e t' ->
  alike_plant i l ioff ooff t s -> inv_flush c0 s -> forgotten l ooff t e = 0%nat ->
  exists s', alike_plant i l ioff ooff t' s' /\ inv_flush c0 s'.
Proof.
  intros H Ha Hi Hf. destruct (faulty_simulates _ _ _ _ _ _ _ _ _ Ha H) as (s1 & A1 & [(_ & evs & G)|(-> & -> & [E|E])]).
  - exists s1. split; [exact A1|eapply flush_schedule; eassumption].
  - exists (back s). split; [exact A1|]. destruct Hi as [St Ea La]. unfold untouched in *. split; unfold back, untouched; sfields; rewrite <- E in *; auto.
  - rewrite Hf in E. discriminate.
Qed.

Lemma faulty_clear prof i l ioff ooff t e t' s : faulty_step prof i l ioff ooff t e t' ->
  alike_plant i l ioff ooff t s -> inv_clear s ->
  exists s', alike_plant i l ioff ooff t' s' /\ inv_clear s'.
Proof.
  intros H Ha Hi. destruct (faulty_simulates _ _ _ _ _ _ _ _ _ Ha H) as (s1 & A1 & [(_ & evs & G)|(-> & -> & _)]).
  - exists s1. split; [exact A1|eapply clear_schedule; eassumption].
  - exists (back s). split; [exact A1|]. destruct Hi as [St Hc Hi Hr]. split; unfold back; sfields; auto.
Qed.

Lemma sees_alike i l ioff ooff t s o : alike_plant i l ioff ooff t s -> sees l ooff t o -> o = s_register s.
Proof. intros [_ _ _ _ _ Hr _ _ _ _ _ _] H. unfold sees in H. rewrite Hr in H. apply Ok_inj in H. auto. Qed.

Lemma initialised_clear i l ioff ooff t s c0 : alike_plant i l ioff ooff t s -> inv_flush c0 s -> initialised l ooff t -> inv_clear s.
Proof.
  intros Ha [St _ La] (Hc & Hs). assert (Hc' : (2 <= s_cycles s)%nat) by (destruct Ha; congruence).
  split; [exact St|exact Hc'|exact (proj1 (La Hc'))|]. apply Hs. exact (ap_register _ _ _ _ _ _ Ha).
Qed.

Lemma clear_initialised i l ioff ooff t s : alike_plant i l ioff ooff t s -> inv_clear s -> initialised l ooff t.
Proof.
  intros Ha [_ Hc _ Hr]. split; [destruct Ha; congruence|]. intros o Ho. rewrite (sees_alike _ _ _ _ _ _ _ Ha Ho). exact Hr.
Qed.

(** Transmission: what has been taken over is on the line or in the buffer. *)
Definition kept (j : list Z) (b : buffered_plant) : Prop :=
  exists k, b_line b ++ b_transmit b = firstn k j ++ t_taken (b_plant b).

Lemma taken_app prof i l ioff ooff t e t' : faulty_step prof i l ioff ooff t e t' ->
  exists more, t_taken t' = t_taken t ++ more.
Proof.
  intros H. destruct H as [t e t' H|t input output c' H|t]; [|exists []; cbn; symmetry; apply app_nil_r..].
  destruct H; cbn; try (exists []; symmetry; apply app_nil_r); destruct (_ =? _); cbn;
    first [exists []; symmetry; apply app_nil_r|eexists; reflexivity].
Qed.

Lemma flush_tx_early prof i l ioff ooff b es b' n : buffered_runs prof i l ioff ooff b es b' n -> forall s c0 j,
  alike_plant i l ioff ooff (b_plant b) s -> inv_flush c0 s -> kept j b -> n = 0%nat ->
  exists s', alike_plant i l ioff ooff (b_plant b') s' /\ inv_flush c0 s' /\ kept j b'.
Proof.
  induction 1 as [b|b e b1 es b2 n H1 H2 IH]; intros s c0 j Ha Hi Hk Hn.
  - exists s. auto.
  - assert (Hn1 : forgets l ooff b e = 0%nat /\ n = 0%nat) by lia. destruct Hn1 as (Hn1 & Hn2).
    assert (X : exists s1, alike_plant i l ioff ooff (b_plant b1) s1 /\ inv_flush c0 s1 /\ kept j b1).
    { destruct Hk as (k & Hk). destruct H1 as [b e t' more off r H T O R|b m|b bytes|b o Ho Hf|b o Ho Hf]; cbn [forgets] in Hn1.
      - destruct (faulty_flush _ _ _ _ _ _ _ _ _ _ H Ha Hi Hn1) as (s1 & A1 & I1). exists s1. split; [exact A1|]. split; [exact I1|].
        exists k. cbn. rewrite T, !app_assoc, Hk. reflexivity.
      - exists s. split; [exact Ha|]. split; [exact Hi|]. exists k. cbn. rewrite <- app_assoc, firstn_skipn. exact Hk.
      - exists s. split; [exact Ha|]. split; [exact Hi|]. exists k. exact Hk.
      - exists s. split; [exact Ha|]. split; [exact Hi|]. rewrite (sees_alike _ _ _ _ _ _ _ Ha Ho) in Hf.
        assert (Et : t_taken (b_plant b) = []).
        { rewrite (ap_taken _ _ _ _ _ _ Ha). destruct Hi as [_ Ea La]. destruct (Nat.lt_ge_cases (s_cycles s) 2) as [L|L].
          - apply (Ea L).
          - destruct (La L) as (_ & [E|E]); [|apply E]. unfold flush_flags in E. rewrite Hf in E. discriminate. }
        rewrite Et, app_nil_r in Hk. exists (Nat.min (length (b_line b)) k). cbn. rewrite Et, !app_nil_r.
        rewrite <- firstn_firstn, <- Hk, firstn_app, Nat.sub_diag, firstn_all. cbn. rewrite app_nil_r. reflexivity.
      - exists s. split; [exact Ha|]. split; [exact Hi|]. exists k. exact Hk. }
    destruct X as (s1 & A1 & I1 & K1). exact (IH s1 c0 j A1 I1 K1 Hn2).
Qed.

Lemma buffered_late prof i l ioff ooff b es b' n : buffered_runs prof i l ioff ooff b es b' n -> forall s,
  alike_plant i l ioff ooff (b_plant b) s -> inv_clear s ->
  exists s', alike_plant i l ioff ooff (b_plant b') s' /\ inv_clear s' /\
    exists since, b_arrived b' = b_arrived b ++ since /\
      concat (t_offered (b_plant b')) ++ b_receive b' = concat (t_offered (b_plant b)) ++ b_receive b ++ since.
Proof.
  induction 1 as [b|b e b1 es b2 n H1 H2 IH]; intros s Ha Hi.
  - exists s. split; [exact Ha|]. split; [exact Hi|]. exists []. rewrite !app_nil_r. auto.
  - assert (X : exists s1, alike_plant i l ioff ooff (b_plant b1) s1 /\ inv_clear s1 /\
      exists since, b_arrived b1 = b_arrived b ++ since /\
        concat (t_offered (b_plant b1)) ++ b_receive b1 = concat (t_offered (b_plant b)) ++ b_receive b ++ since).
    { destruct H1 as [b e t' more off r H T O R|b m|b bytes|b o Ho Hf|b o Ho Hf].
      - destruct (faulty_clear _ _ _ _ _ _ _ _ _ H Ha Hi) as (s1 & A1 & I1). exists s1. split; [exact A1|]. split; [exact I1|].
        exists []. cbn. rewrite !app_nil_r, O, R, concat_app, <- !app_assoc. auto.
      - exists s. split; [exact Ha|]. split; [exact Hi|]. exists []. cbn. rewrite !app_nil_r. auto.
      - exists s. split; [exact Ha|]. split; [exact Hi|]. exists bytes. cbn. auto.
      - rewrite (sees_alike _ _ _ _ _ _ _ Ha Ho) in Hf. destruct Hi as [_ _ _ E]. unfold flush_flags in E. rewrite Hf in E. discriminate.
      - rewrite (sees_alike _ _ _ _ _ _ _ Ha Ho) in Hf. destruct Hi as [_ _ _ E]. unfold flush_flags in E. rewrite Hf in E. discriminate. }
    destruct X as (s1 & A1 & I1 & d1 & D1 & D2).
    destruct (IH s1 A1 I1) as (s2 & A2 & I2 & d2 & D3 & D4). exists s2. split; [exact A2|]. split; [exact I2|].
    exists (d1 ++ d2). rewrite D3, D1, D4, !app_assoc. split; [reflexivity|]. rewrite D2. rewrite <- !app_assoc. reflexivity.
Qed.

Lemma kept_late prof i l ioff ooff b es b' n : buffered_runs prof i l ioff ooff b es b' n -> forall s j,
  alike_plant i l ioff ooff (b_plant b) s -> inv_clear s -> kept j b -> kept j b'.
Proof.
  induction 1 as [b|b e b1 es b2 n H1 H2 IH]; intros s j Ha Hi Hk; [exact Hk|].
  destruct H1 as [b e t' more off r H T O R|b m|b bytes|b o Ho Hf|b o Ho Hf].
  - destruct (faulty_clear _ _ _ _ _ _ _ _ _ H Ha Hi) as (s1 & A1 & I1). apply (IH s1 j A1 I1).
    destruct Hk as (k & Hk). exists k. cbn. rewrite T, !app_assoc, Hk. reflexivity.
  - apply (IH s j Ha Hi). destruct Hk as (k & Hk). exists k. cbn. rewrite <- app_assoc, firstn_skipn. exact Hk.
  - exact (IH s j Ha Hi Hk).
  - rewrite (sees_alike _ _ _ _ _ _ _ Ha Ho) in Hf. destruct Hi as [_ _ _ E]. unfold flush_flags in E. rewrite Hf in E. discriminate.
  - exact (IH s j Ha Hi Hk).
Qed.

Lemma kept_start b : b_line b = [] -> t_taken (b_plant b) = [] -> kept (b_transmit b) b.
Proof. intros E1 E2. exists (length (b_transmit b)). rewrite E1, E2, firstn_all, app_nil_r. reflexivity. Qed.

Lemma start_taken i l ioff ooff t : plant_start i l ioff ooff t -> t_taken t = [].
Proof. intros (_ & _ & _ & _ & _ & _ & _ & _ & _ & T & _). exact T. Qed.

Lemma C106_transmission_all : forall prof i l ioff ooff b0 es1 b1 es2 b2 n, plant_start i l ioff ooff (b_plant b0) ->
  b_line b0 = [] -> buffered_runs prof i l ioff ooff b0 es1 b1 0 -> (es2 = [] \/ initialised l ooff (b_plant b1)) ->
  buffered_runs prof i l ioff ooff b1 es2 b2 n ->
  exists k, b_line b2 ++ b_transmit b2 = firstn k (b_transmit b0) ++ t_taken (b_plant b2).
Proof.
  intros prof i l ioff ooff b0 es1 b1 es2 b2 n H0 HL H1 Hx H2. destruct (plant_starts _ _ _ _ _ H0) as (s0 & S0 & A0).
  destruct (flush_tx_early _ _ _ _ _ _ _ _ _ H1 s0 _ (b_transmit b0) A0 (flush_start _ _ S0) (kept_start _ HL (start_taken _ _ _ _ _ H0)) eq_refl)
    as (s1 & A1 & I1 & K1).
  destruct Hx as [->|Hx].
  - inversion H2; subst. exact K1.
  - exact (kept_late _ _ _ _ _ _ _ _ _ H2 s1 (b_transmit b0) A1 (initialised_clear _ _ _ _ _ _ _ A1 I1 Hx) K1).
Qed.

(** The events of the plant in a buffered history. *)
Lemma buffered_faulty prof i l ioff ooff b es b' n : buffered_runs prof i l ioff ooff b es b' n ->
  exists es', faulty_runs prof i l ioff ooff (b_plant b) es' (b_plant b') n.
Proof.
  induction 1 as [b|b e b1 es b2 n H1 H2 (es' & IH)].
  - exists []. constructor.
  - destruct H1 as [b e t' more off r H T O R|b m|b bytes|b o Ho Hf|b o Ho Hf]; cbn [forgets b_plant] in *;
      [exists (e :: es'); econstructor; eassumption|exists es'; exact IH..].
Qed.

Lemma buffered_early prof i l ioff ooff b es b' n : buffered_runs prof i l ioff ooff b es b' n -> forall s c0,
  alike_plant i l ioff ooff (b_plant b) s -> inv_flush c0 s -> n = 0%nat ->
  exists s', alike_plant i l ioff ooff (b_plant b') s' /\ inv_flush c0 s'.
Proof.
  induction 1 as [b|b e b1 es b2 n H1 H2 IH]; intros s c0 Ha Hi Hn.
  - exists s. auto.
  - assert (Hn1 : forgets l ooff b e = 0%nat /\ n = 0%nat) by lia. destruct Hn1 as (Hn1 & Hn2).
    destruct H1 as [b e t' more off r H T O R|b m|b bytes|b o Ho Hf|b o Ho Hf]; cbn [forgets] in Hn1; [|exact (IH s c0 Ha Hi Hn2)..].
    destruct (faulty_flush _ _ _ _ _ _ _ _ _ _ H Ha Hi Hn1) as (s1 & A1 & I1). exact (IH s1 c0 A1 I1 Hn2).
Qed.

Lemma C106_reception_all : forall prof i l ioff ooff b0 es1 b1 es2 b2 n, plant_start i l ioff ooff (b_plant b0) ->
  buffered_runs prof i l ioff ooff b0 es1 b1 0 -> initialised l ooff (b_plant b1) -> t_offered (b_plant b1) = [] ->
  buffered_runs prof i l ioff ooff b1 es2 b2 n ->
  exists since presented, b_arrived b2 = b_arrived b1 ++ since /\
    (presented = [] \/ exists before, t_offered (b_plant b2) = before ++ [presented]) /\
    t_delivered (b_plant b2) ++ readable_in (t_coupler (b_plant b2)) i ++ presented ++ b_receive b2 = b_receive b1 ++ since.
Proof.
  intros prof i l ioff ooff b0 es1 b1 es2 b2 n H0 H1 Hx Ho H2. destruct (plant_starts _ _ _ _ _ H0) as (s0 & S0 & A0).
  destruct (buffered_faulty _ _ _ _ _ _ _ _ _ H1) as (f1 & F1). destruct (buffered_faulty _ _ _ _ _ _ _ _ _ H2) as (f2 & F2).
  destruct (C70_all _ _ _ _ _ _ _ _ _ _ _ _ H0 F1 (proj1 Hx) F2) as (lost & fetched & L1 & L2 & R).
  rewrite Ho in L1. cbn in L1. assert (lost = 0)%nat by lia. subst lost. cbn [skipn] in R.
  destruct (buffered_early _ _ _ _ _ _ _ _ _ H1 s0 _ A0 (flush_start _ _ S0) eq_refl) as (s1 & A1 & I1).
  destruct (buffered_late _ _ _ _ _ _ _ _ _ H2 s1 A1 (initialised_clear _ _ _ _ _ _ _ A1 I1 Hx)) as (s2 & _ & _ & since & D1 & D2).
  exists since, (concat (skipn fetched (t_offered (b_plant b2)))). split; [exact D1|]. rewrite Ho in D2. cbn in D2, L2. split.
  - destruct (skipn fetched (t_offered (b_plant b2))) as [|x [|y r]] eqn:E.
    + left. reflexivity.
    + right. exists (firstn fetched (t_offered (b_plant b2))). cbn. rewrite app_nil_r, <- E, firstn_skipn. reflexivity.
    + apply (f_equal (@length _)) in E. rewrite skipn_length in E. cbn in E. lia.
  - rewrite (app_assoc (t_delivered _)), R, app_assoc, <- concat_app, firstn_skipn. exact D2.
Qed.

Lemma C106_initialised_all :
  (forall prof i l ioff ooff t0 es t t', plant_start i l ioff ooff t0 -> faulty_runs prof i l ioff ooff t0 es t 0 ->
     (2 <= t_cycles t)%nat -> plant_step prof i l ioff ooff t POutput t' -> initialised l ooff t') /\
  (forall prof i l ioff ooff t0 es1 t1 es2 t2 n, plant_start i l ioff ooff t0 -> faulty_runs prof i l ioff ooff t0 es1 t1 0 ->
     initialised l ooff t1 -> faulty_runs prof i l ioff ooff t1 es2 t2 n -> initialised l ooff t2).
Proof.
  assert (X : forall prof i l ioff ooff t es t' n, faulty_runs prof i l ioff ooff t es t' n -> forall s c0,
    alike_plant i l ioff ooff t s -> inv_flush c0 s -> n = 0%nat -> exists s', alike_plant i l ioff ooff t' s' /\ inv_flush c0 s').
  { induction 1 as [t|t e t1 es t2 n H1 H2 IH]; intros s c0 Ha Hi Hn; [eauto|].
    assert (Hn1 : forgotten l ooff t e = 0%nat /\ n = 0%nat) by lia. destruct Hn1 as (Hn1 & Hn2).
    destruct (faulty_flush _ _ _ _ _ _ _ _ _ _ H1 Ha Hi Hn1) as (s1 & A1 & I1). exact (IH s1 c0 A1 I1 Hn2). }
  assert (Y : forall prof i l ioff ooff t es t' n, faulty_runs prof i l ioff ooff t es t' n -> forall s,
    alike_plant i l ioff ooff t s -> inv_clear s -> exists s', alike_plant i l ioff ooff t' s' /\ inv_clear s').
  { induction 1 as [t|t e t1 es t2 n H1 H2 IH]; intros s Ha Hi; [eauto|].
    destruct (faulty_clear _ _ _ _ _ _ _ _ _ H1 Ha Hi) as (s1 & A1 & I1). exact (IH s1 A1 I1). }
  split.
  - intros prof i l ioff ooff t0 es t t' H0 H Hc Hp. destruct (plant_starts _ _ _ _ _ H0) as (s0 & S0 & A0).
    destruct (X _ _ _ _ _ _ _ _ _ H s0 _ A0 (flush_start _ _ S0) eq_refl) as (s & A & [_ _ La]).
    inversion Hp; subst. split; [exact Hc|]. intros o Hs. unfold sees in Hs. cbn [t_register] in Hs.
    pose proof (ap_image _ _ _ _ _ _ A) as Hi. rewrite Hs in Hi. apply Ok_inj in Hi. subst o. apply La.
    destruct A; congruence.
  - intros prof i l ioff ooff t0 es1 t1 es2 t2 n H0 H1 Hx H2. destruct (plant_starts _ _ _ _ _ H0) as (s0 & S0 & A0).
    destruct (X _ _ _ _ _ _ _ _ _ H1 s0 _ A0 (flush_start _ _ S0) eq_refl) as (s1 & A1 & I1).
    destruct (Y _ _ _ _ _ _ _ _ _ H2 s1 A1 (initialised_clear _ _ _ _ _ _ _ A1 I1 Hx)) as (s2 & A2 & I2).
    eapply clear_initialised; eassumption.
Qed.

Lemma C106_stay_all : forall prof i l ioff ooff t0 es1 t1 n es2 t2 o1 o2, plant_start i l ioff ooff t0 ->
  faulty_runs prof i l ioff ooff t0 es1 t1 n -> (2 <= t_cycles t1)%nat ->
  plant_runs prof i l ioff ooff t1 es2 t2 -> computed l ooff t1 o1 -> computed l ooff t2 o2 ->
  flush_flags o2 = flush_flags o1.
Proof.
  intros prof i l ioff ooff t0 es1 t1 n es2 t2 o1 o2 H0 H1 Hc H2 E1 E2. destruct (plant_starts _ _ _ _ _ H0) as (s0 & S0 & A0).
  destruct (faulty_rx_init _ _ _ _ _ _ _ _ _ _ H1 s0 0%nat _ _ _ _ A0 (it_stage _ _ (start_inv_tx _ _ S0)) ltac:(lia) (start_frx _ _ S0))
    as (s1 & A1 & Hst1 & _).
  assert (Hc1 : (2 <= s_cycles s1)%nat) by (destruct A1; congruence).
  destruct (plant_run_simulates _ _ _ _ _ _ _ _ _ A1 H2) as (evs & s2 & G & A2).
  destruct (flags_schedule _ _ _ _ Hst1 Hc1 G) as (_ & _ & F & _).
  unfold computed in *. rewrite (ap_image _ _ _ _ _ _ A1) in E1. rewrite (ap_image _ _ _ _ _ _ A2) in E2.
  apply Ok_inj in E1, E2. congruence.
Qed.

(** *** Execution, for the examples *)

Definition bytes_eqb (a b : list Z) : bool := if list_eq_dec Z.eq_dec a b then true else false.
Definition segs_eqb (a b : list (list Z)) : bool := if list_eq_dec (list_eq_dec Z.eq_dec) a b then true else false.
Lemma bytes_eqb_eq a b : bytes_eqb a b = true -> a = b.
Proof. unfold bytes_eqb. destruct (list_eq_dec _ a b); [auto|discriminate]. Qed.
Lemma segs_eqb_eq a b : segs_eqb a b = true -> a = b.
Proof. unfold segs_eqb. destruct (list_eq_dec _ a b); [auto|discriminate]. Qed.

Definition buffered_exec (prof : profile) (i : nat) (l : process_data_length) (ioff ooff : Z) (b : buffered_plant) (e : buffered_event)
  : option buffered_plant :=
  let t := b_plant b in
  let move (t' : plant) :=
    let taken := skipn (length (t_taken t)) (t_taken t') in
    let offered := skipn (length (t_offered t)) (t_offered t') in
    let receive := skipn (length (concat offered)) (b_receive b) in
    if bytes_eqb (t_taken t') (t_taken t ++ taken) && segs_eqb (t_offered t') (t_offered t ++ offered) &&
       bytes_eqb (b_receive b) (concat offered ++ receive)
    then Some (mk_buffered t' (b_transmit b ++ taken) (b_line b) receive (b_arrived b)) else None in
  match e with
  | BPlant (Undisturbed e) => match plant_exec prof i l ioff ooff t e with Some t' => move t' | None => None end
  | BPlant ReadBack => move (mk_plant (t_coupler t) (t_latch t) (t_register t) (t_register t) (t_device t)
         (t_written t) (t_taken t) (t_offered t) (t_delivered t) (t_cycles t))
  | BPlant (Garbled _ _) => None
  | BSend n => Some (mk_buffered t (skipn n (b_transmit b)) (b_line b ++ firstn n (b_transmit b)) (b_receive b) (b_arrived b))
  | BArrive bytes => Some (mk_buffered t (b_transmit b) (b_line b) (b_receive b ++ bytes) (b_arrived b ++ bytes))
  | BFlushTransmit => match rs_out_from_bytes (out_part l ooff (t_register t)) with
      | Ok o => if ro_tx_buf_flush o then Some (mk_buffered t [] (b_line b) (b_receive b) (b_arrived b)) else None
      | _ => None end
  | BFlushReceive => match rs_out_from_bytes (out_part l ooff (t_register t)) with
      | Ok o => if ro_rx_buf_flush o then Some (mk_buffered t (b_transmit b) (b_line b) [] (b_arrived b)) else None
      | _ => None end
  end.
Fixpoint buffered_execs (prof : profile) (i : nat) (l : process_data_length) (ioff ooff : Z) (b : buffered_plant) (es : list buffered_event)
  : option (buffered_plant * nat) :=
  match es with
  | [] => Some (b, 0%nat)
  | e :: es' => match buffered_exec prof i l ioff ooff b e with
      | Some b1 => match buffered_execs prof i l ioff ooff b1 es' with Some (b2, n) => Some (b2, (forgets l ooff b e + n)%nat) | None => None end
      | None => None end
  end.

Lemma buffered_exec_step prof i l ioff ooff b e b' : buffered_exec prof i l ioff ooff b e = Some b' ->
  buffered_step prof i l ioff ooff b e b'.
Proof.
  intros H. destruct e as [[e|input output|]|n|bytes| |]; cbn [buffered_exec] in H.
  - destruct (plant_exec prof i l ioff ooff (b_plant b) e) as [t'|] eqn:E; [|discriminate].
    match type of H with (if ?c then _ else _) = _ => destruct c eqn:Ec; [|discriminate] end. apply Some_inj in H. subst b'.
    apply andb_prop in Ec. destruct Ec as [Ec E3]. apply andb_prop in Ec. destruct Ec as [E1 E2].
    eapply B_plant; [apply F_undisturbed, exec_step; exact E|apply bytes_eqb_eq; exact E1|apply segs_eqb_eq; exact E2|apply bytes_eqb_eq; exact E3].
  - discriminate.
  - match type of H with (if ?c then _ else _) = _ => destruct c eqn:Ec; [|discriminate] end. apply Some_inj in H. subst b'.
    apply andb_prop in Ec. destruct Ec as [Ec E3]. apply andb_prop in Ec. destruct Ec as [E1 E2].
    eapply B_plant; [apply F_read_back|apply bytes_eqb_eq; exact E1|apply segs_eqb_eq; exact E2|apply bytes_eqb_eq; exact E3].
  - apply Some_inj in H. subst b'. apply B_send.
  - apply Some_inj in H. subst b'. apply B_arrive.
  - destruct (rs_out_from_bytes (out_part l ooff (t_register (b_plant b)))) as [o|e|p] eqn:E; try discriminate.
    destruct (ro_tx_buf_flush o) eqn:Ef; [|discriminate]. apply Some_inj in H. subst b'. eapply B_flush_transmit; eassumption.
  - destruct (rs_out_from_bytes (out_part l ooff (t_register (b_plant b)))) as [o|e|p] eqn:E; try discriminate.
    destruct (ro_rx_buf_flush o) eqn:Ef; [|discriminate]. apply Some_inj in H. subst b'. eapply B_flush_receive; eassumption.
Qed.

Lemma buffered_execs_run prof i l ioff ooff es : forall b b' n, buffered_execs prof i l ioff ooff b es = Some (b', n) ->
  buffered_runs prof i l ioff ooff b es b' n.
Proof.
  induction es as [|e es IH]; intros b b' n H; cbn [buffered_execs] in H.
  - apply Some_inj, pair_inj in H. destruct H as [<- <-]. constructor.
  - destruct (buffered_exec prof i l ioff ooff b e) as [b1|] eqn:E; [|discriminate].
    destruct (buffered_execs prof i l ioff ooff b1 es) as [(b2 & m)|] eqn:E2; [|discriminate].
    apply Some_inj, pair_inj in H. destruct H as [<- <-]. econstructor; [apply buffered_exec_step; exact E|apply IH; exact E2].
Qed.
