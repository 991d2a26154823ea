(** Proofs of C110: the flow control of serial reception. *)
From Coq Require Import ZArith List Bool Lia ZifyBool ZifyNat.
From Verif Require Import Base Facts F32 Types Lib Util Com Fbc SpecCodec SpecSerial ProofsSerial ProofsSerialSystem
  SpecCoupler SpecImage ProofsLoop ProofsCycle ProofsCoupler SpecSystem ProofsSystem SpecThroughput ProofsThroughput SpecFlow.
Import ListNotations.
Local Open Scope Z_scope.
Ltac Zify.zify_post_hook ::= Z.div_mod_to_equations.

(** ** The module can offer a segment in each round *)

(** How far the acknowledgement of the last segment has come. *)
Definition latched (s : system) : Prop := ri_rx_cnt (s_latch s) = ri_rx_cnt (s_device s).
Definition computed (s : system) : Prop := ro_rx_cnt_ack (s_image s) = ri_rx_cnt (s_device s).
Definition arrived (s : system) : Prop := ro_rx_cnt_ack (s_register s) = ri_rx_cnt (s_device s).

Definition more (s s' : system) : Prop := (length (s_offered s) < length (s_offered s'))%nat.

Lemma next_acknowledges prof p i o p' r : processor_next prof p i o = Ok (p', r) -> ro_rx_cnt_ack r = ri_rx_cnt i.
Proof.
  unfold processor_next. destruct (p_init_state p); intros H.
  - apply Ok_inj, pair_inj in H. destruct H as [_ <-]. reflexivity.
  - apply Ok_inj, pair_inj in H. destruct H as [_ <-]. reflexivity.
  - apply bind_ok in H. destruct H as (((q & n) & d) & _ & H). apply Ok_inj, pair_inj in H. destruct H as [_ <-]. reflexivity.
Qed.

Lemma step_flow prof e s s' : happen prof s e = Ok s' -> more s s' \/
  length (s_offered s') = length (s_offered s) /\
  (latched s -> latched s') /\ (latched s /\ computed s -> computed s') /\ (latched s /\ computed s /\ arrived s -> arrived s') /\
  (e = HostRead -> latched s') /\ (e = HostCycle -> latched s -> computed s') /\ (e = HostWrite -> computed s -> arrived s') /\
  (forall seg, e = DevOffer seg -> ~ arrived s).
Proof.
  intros H. unfold more, latched, computed, arrived.
  destruct e as [buf|size| | | | |seg| |full ready]; cbn [happen] in H.
  - apply Ok_inj in H. subst s'. sfields. right. repeat split; try discriminate; try tauto.
  - destruct (processor_read (s_proc s) size). apply Ok_inj in H. subst s'. sfields. right. repeat split; try discriminate; try tauto.
  - apply Ok_inj in H. subst s'. sfields. right. repeat split; try discriminate; try tauto.
  - apply bind_ok in H. destruct H as ((p & r) & H & E). apply Ok_inj in E. subst s'. sfields.
    rewrite (next_acknowledges _ _ _ _ _ _ H). right. repeat split; try discriminate; try tauto.
  - apply Ok_inj in H. subst s'. sfields. right. repeat split; try discriminate; try tauto.
  - right. destruct (_ =? _); apply Ok_inj in H; subst s'; sfields; repeat split; try discriminate; try tauto.
  - destruct (Z.eqb_spec (ro_rx_cnt_ack (s_register s)) (ri_rx_cnt (s_device s))) as [E|E]; apply Ok_inj in H; subst s'; sfields.
    + left. rewrite app_length. cbn [length]. lia.
    + right. repeat split; try discriminate; try tauto.
  - right. destruct (_ =? _); apply Ok_inj in H; subst s'; sfields; repeat split; try discriminate; try tauto.
  - apply Ok_inj in H. subst s'. sfields. right. repeat split; try discriminate; try tauto.
Qed.

Lemma run_mono prof es : forall s s', schedule prof s es = Ok s' -> (length (s_offered s) <= length (s_offered s'))%nat.
Proof.
  induction es as [|e es IH]; intros s s' H; cbn [schedule] in H.
  - apply Ok_inj in H. subst s'. lia.
  - apply bind_ok in H. destruct H as (s1 & H1 & H2). destruct (happen_mono prof s e s1 H1) as (_ & L). pose proof (IH s1 s' H2). lia.
Qed.

Lemma run_flow prof es : forall s s', schedule prof s es = Ok s' -> more s s' \/
  length (s_offered s') = length (s_offered s) /\
  (latched s -> latched s') /\ (latched s /\ computed s -> computed s') /\ (latched s /\ computed s /\ arrived s -> arrived s').
Proof.
  induction es as [|e es IH]; intros s s' H; cbn [schedule] in H.
  - apply Ok_inj in H. subst s'. right. tauto.
  - apply bind_ok in H. destruct H as (s1 & H1 & H2). unfold more in *.
    pose proof (run_mono prof es s1 s' H2) as L2. destruct (happen_mono prof s e s1 H1) as (_ & L1).
    destruct (step_flow prof e s s1 H1) as [M|(E1 & A1 & A2 & A3 & _)]; [left; unfold more in M; lia|].
    destruct (IH s1 s' H2) as [M|(E2 & B1 & B2 & B3)]; [left; lia|].
    right. split; [lia|]. split; [tauto|]. split; tauto.
Qed.

(** The rounds of the message processor. *)
Lemma flow_round prof a b c d seg e s s' :
  schedule prof s (a ++ [HostRead] ++ b ++ [HostCycle] ++ c ++ [HostWrite] ++ d ++ [DevOffer seg] ++ e) = Ok s' -> more s s'.
Proof.
  intros H. rewrite ProofsSystem.schedule_app in H. apply bind_ok in H. destruct H as (s1 & H1 & H).
  rewrite ProofsSystem.schedule_app in H. apply bind_ok in H. destruct H as (s2 & H2 & H).
  rewrite ProofsSystem.schedule_app in H. apply bind_ok in H. destruct H as (s3 & H3 & H).
  rewrite ProofsSystem.schedule_app in H. apply bind_ok in H. destruct H as (s4 & H4 & H).
  rewrite ProofsSystem.schedule_app in H. apply bind_ok in H. destruct H as (s5 & H5 & H).
  rewrite ProofsSystem.schedule_app in H. apply bind_ok in H. destruct H as (s6 & H6 & H).
  rewrite ProofsSystem.schedule_app in H. apply bind_ok in H. destruct H as (s7 & H7 & H).
  rewrite ProofsSystem.schedule_app in H. apply bind_ok in H. destruct H as (s8 & H8 & H9).
  pose proof (run_mono _ _ _ _ H1) as L1. pose proof (run_mono _ _ _ _ H2) as L2. pose proof (run_mono _ _ _ _ H3) as L3.
  pose proof (run_mono _ _ _ _ H4) as L4. pose proof (run_mono _ _ _ _ H5) as L5. pose proof (run_mono _ _ _ _ H6) as L6.
  pose proof (run_mono _ _ _ _ H7) as L7. pose proof (run_mono _ _ _ _ H8) as L8. pose proof (run_mono _ _ _ _ H9) as L9.
  assert (One : forall x u u', schedule prof u [x] = Ok u' -> happen prof u x = Ok u').
  { intros x u u' G. cbn [schedule] in G. apply bind_ok in G. destruct G as (v & G & E). congruence. }
  apply One in H2, H4, H6, H8. unfold more.
  destruct (step_flow _ _ _ _ H2) as [M|(_ & _ & _ & _ & A2 & _)]; [unfold more in M; lia|]. specialize (A2 eq_refl).
  destruct (run_flow _ _ _ _ H3) as [M|(_ & A3 & _)]; [unfold more in M; lia|]. specialize (A3 A2).
  destruct (step_flow _ _ _ _ H4) as [M|(_ & A4 & _ & _ & _ & B4 & _)]; [unfold more in M; lia|]. specialize (A4 A3). specialize (B4 eq_refl A3).
  destruct (run_flow _ _ _ _ H5) as [M|(_ & A5 & B5 & _)]; [unfold more in M; lia|]. specialize (A5 A4). specialize (B5 (conj A4 B4)).
  destruct (step_flow _ _ _ _ H6) as [M|(_ & A6 & B6 & _ & _ & _ & C6 & _)]; [unfold more in M; lia|].
  specialize (A6 A5). specialize (B6 (conj A5 B5)). specialize (C6 eq_refl B5).
  destruct (run_flow _ _ _ _ H7) as [M|(_ & _ & _ & C7)]; [unfold more in M; lia|]. specialize (C7 (conj A6 (conj B6 C6))).
  destruct (step_flow _ _ _ _ H8) as [M|(_ & _ & _ & _ & _ & _ & _ & N)]; [unfold more in M; lia|].
  exfalso. exact (N seg eq_refl C7).
Qed.

Lemma plant_single prof i l ioff ooff t e t' s : alike_plant i l ioff ooff t s -> plant_runs prof i l ioff ooff t [e] t' ->
  exists evs s', schedule prof s evs = Ok s' /\ alike_plant i l ioff ooff t' s' /\ exact_events i t e evs.
Proof.
  intros Ha H. inversion H; subst.
  match goal with A : plant_step _ _ _ _ _ t e ?t1, B : plant_runs _ _ _ _ _ ?t1 [] t' |- _ => inversion B; subst; eapply plant_exact; eassumption end.
Qed.

Lemma reception_round_simulates prof i l ioff ooff es t t' s : alike_plant i l ioff ooff t s -> reception_round es ->
  plant_runs prof i l ioff ooff t es t' -> exists s', alike_plant i l ioff ooff t' s' /\ more s s'.
Proof.
  intros Ha (a & input & b & c & d & seg & e & ->) H.
  apply plant_runs_app in H. destruct H as (t1 & H1 & H). apply plant_runs_app in H. destruct H as (t2 & H2 & H).
  apply plant_runs_app in H. destruct H as (t3 & H3 & H). apply plant_runs_app in H. destruct H as (t4 & H4 & H).
  apply plant_runs_app in H. destruct H as (t5 & H5 & H). apply plant_runs_app in H. destruct H as (t6 & H6 & H).
  apply plant_runs_app in H. destruct H as (t7 & H7 & H). apply plant_runs_app in H. destruct H as (t8 & H8 & H9).
  destruct (plant_run_simulates _ _ _ _ _ _ _ _ _ Ha H1) as (e1 & s1 & G1 & A1).
  destruct (plant_single _ _ _ _ _ _ _ _ _ A1 H2) as (e2 & s2 & G2 & A2 & E2). cbn [exact_events] in E2. subst e2.
  destruct (plant_run_simulates _ _ _ _ _ _ _ _ _ A2 H3) as (e3 & s3 & G3 & A3).
  destruct (plant_one _ _ _ _ _ _ _ _ _ A3 H4) as (e4 & s4 & G4 & A4 & (w & ->)).
  destruct (plant_run_simulates _ _ _ _ _ _ _ _ _ A4 H5) as (e5 & s5 & G5 & A5).
  destruct (plant_single _ _ _ _ _ _ _ _ _ A5 H6) as (e6 & s6 & G6 & A6 & E6). cbn [exact_events] in E6. subst e6.
  destruct (plant_run_simulates _ _ _ _ _ _ _ _ _ A6 H7) as (e7 & s7 & G7 & A7).
  destruct (plant_single _ _ _ _ _ _ _ _ _ A7 H8) as (e8 & s8 & G8 & A8 & E8). cbn [exact_events] in E8. subst e8.
  destruct (plant_run_simulates _ _ _ _ _ _ _ _ _ A8 H9) as (e9 & s9 & G9 & A9).
  exists s9. split; [exact A9|]. apply (flow_round prof e1 (e3 ++ w) e5 e7 seg e9).
  rewrite <- !app_assoc. rewrite (app_assoc w).
  rewrite ProofsSystem.schedule_app, G1. cbn [bind]. rewrite ProofsSystem.schedule_app, G2. cbn [bind].
  rewrite ProofsSystem.schedule_app, G3. cbn [bind]. rewrite ProofsSystem.schedule_app, G4. cbn [bind].
  rewrite ProofsSystem.schedule_app, G5. cbn [bind]. rewrite ProofsSystem.schedule_app, G6. cbn [bind].
  rewrite ProofsSystem.schedule_app, G7. cbn [bind]. rewrite ProofsSystem.schedule_app, G8. cbn [bind]. exact G9.
Qed.

Lemma C110_served_all : forall prof i l ioff ooff t0 es t rounds t', plant_start i l ioff ooff t0 ->
  plant_runs prof i l ioff ooff t0 es t -> Forall reception_round rounds ->
  plant_runs prof i l ioff ooff t (concat rounds) t' ->
  (length (t_offered t) + length rounds <= length (t_offered t'))%nat.
Proof.
  intros prof i l ioff ooff t0 es t rounds t' H0 H1. destruct (plant_starts _ _ _ _ _ H0) as (s0 & S0 & A0).
  destruct (plant_run_simulates _ _ _ _ _ _ _ _ _ A0 H1) as (evs & s & _ & A). clear - A. revert t s t' A.
  induction rounds as [|r rounds IH]; intros t s t' A Hf H; cbn [concat] in H.
  - inversion H; subst. cbn [length]. lia.
  - apply plant_runs_app in H. destruct H as (t1 & H1 & H2). inversion Hf as [|? ? Hr Hf']; subst.
    destruct (reception_round_simulates _ _ _ _ _ _ _ _ _ A Hr H1) as (s1 & A1 & M).
    pose proof (IH t1 s1 t' A1 Hf' H2) as L. unfold more in M. cbn [length].
    destruct A as [_ _ _ _ _ _ _ _ _ -> _ _]. destruct A1 as [_ _ _ _ _ _ _ _ _ Eo _ _]. rewrite Eo in L. lia.
Qed.

(** ** ... and no more than one segment for each cycle *)

Lemma throttle_step prof lost r0 e s s' a i m : p_init_state (s_proc s) = stage (s_cycles s) ->
  inv_rx lost r0 s a i m -> happen prof s e = Ok s' ->
  p_init_state (s_proc s') = stage (s_cycles s') /\
  exists lost' a' i' m', inv_rx lost' r0 s' a' i' m' /\ (i' <= i + match e with HostCycle => 1 | _ => 0 end)%nat.
Proof.
  intros Hst Hi H. destruct (step_rx prof lost r0 e s s' a i m Hst Hi H) as (Hst' & a' & i' & m' & Hi' & L1 & L2 & _ & C).
  split; [exact Hst'|]. eexists _, a', i', m'. split; [exact Hi'|].
  destruct Hi as [(O1 & O2) Erg Eim _ _ _ _ _ _]. destruct Hi' as [(O1' & O2') Erg' Eim' _ _ _ _ _ _].
  destruct (Bool.bool_dec match e with HostCycle => true | _ => false end true) as [Ec|Ec].
  - destruct e; try discriminate. rewrite (C eq_refl). lia.
  - assert (Eo : s_image s' = s_image s /\ (length (s_offered s') <= length (s_offered s) + 1)%nat).
    { clear - H Ec. destruct e as [buf|size| | | | |seg| |full ready]; cbn [happen] in H; try congruence.
      - apply Ok_inj in H. subst s'. sfields. split; [reflexivity|lia].
      - destruct (processor_read (s_proc s) size). apply Ok_inj in H. subst s'. sfields. split; [reflexivity|lia].
      - apply Ok_inj in H. subst s'. sfields. split; [reflexivity|lia].
      - apply Ok_inj in H. subst s'. sfields. split; [reflexivity|lia].
      - destruct (_ =? _); apply Ok_inj in H; subst s'; sfields; (split; [reflexivity|lia]).
      - destruct (_ =? _); apply Ok_inj in H; subst s'; sfields; (split; [reflexivity|rewrite ?app_length; cbn [length]; lia]).
      - destruct (_ =? _); apply Ok_inj in H; subst s'; sfields; (split; [reflexivity|lia]).
      - apply Ok_inj in H. subst s'. sfields. split; [reflexivity|lia]. }
    destruct Eo as (Eo & Lo). rewrite Eo in Eim'.
    assert (i' = i) by lia. subst i'. lia.
Qed.

Fixpoint host_cycles (evs : list event) : nat :=
  match evs with [] => 0 | HostCycle :: evs' => S (host_cycles evs') | _ :: evs' => host_cycles evs' end.

Lemma throttle_run prof r0 evs : forall lost s s' a i m, p_init_state (s_proc s) = stage (s_cycles s) ->
  inv_rx lost r0 s a i m -> schedule prof s evs = Ok s' ->
  p_init_state (s_proc s') = stage (s_cycles s') /\
  exists lost' a' i' m', inv_rx lost' r0 s' a' i' m' /\ (i' <= i + host_cycles evs)%nat.
Proof.
  induction evs as [|e evs IH]; intros lost s s' a i m Hst Hi H; cbn [schedule] in H.
  - apply Ok_inj in H. subst s'. split; [exact Hst|]. exists lost, a, i, m. split; [exact Hi|]. cbn [host_cycles]. lia.
  - apply bind_ok in H. destruct H as (s1 & H1 & H2).
    destruct (throttle_step prof lost r0 e s s1 a i m Hst Hi H1) as (Hst1 & lost1 & a1 & i1 & m1 & Hi1 & L1).
    destruct (IH lost1 s1 s' a1 i1 m1 Hst1 Hi1 H2) as (Hst2 & lost2 & a2 & i2 & m2 & Hi2 & L2).
    split; [exact Hst2|]. exists lost2, a2, i2, m2. split; [exact Hi2|]. destruct e; cbn [host_cycles]; lia.
Qed.

(** The plant: the processor makes the cycles of the program. *)
Lemma plant_cycles_exact prof i l ioff ooff es : forall t t' s, alike_plant i l ioff ooff t s ->
  plant_runs prof i l ioff ooff t es t' ->
  exists evs s', schedule prof s evs = Ok s' /\ alike_plant i l ioff ooff t' s' /\ host_cycles evs = cycles_in es.
Proof.
  induction es as [|e es IH]; intros t t' s Ha H; inversion H; subst.
  - exists [], s. auto.
  - match goal with A : plant_step _ _ _ _ _ t e ?t1, B : plant_runs _ _ _ _ _ ?t1 es t' |- _ =>
      destruct (plant_exact _ _ _ _ _ _ _ _ _ Ha A) as (evs1 & s1 & H1 & Ha1 & Ev);
      destruct (IH t1 t' s1 Ha1 B) as (evs2 & s2 & H2 & Ha2 & E2) end.
    exists (evs1 ++ evs2), s2. rewrite ProofsSystem.schedule_app, H1. split; [exact H2|]. split; [exact Ha2|].
    destruct e; cbn [exact_events cycles_in] in *; rewrite <- E2;
      repeat match goal with
      | X : _ \/ _ |- _ => destruct X
      | X : exists _, _ |- _ => destruct X
      | X : _ /\ _ |- _ => destruct X
      | X : evs1 = _ |- _ => subst evs1
      end; cbn [app host_cycles]; try reflexivity.
    + match goal with X : match ?x with _ => _ end |- _ => destruct x; try contradiction; reflexivity end.
    + match goal with X : match ?x with _ => _ end |- _ => destruct x; try contradiction; reflexivity end.
    + destruct (Nat.eqb j i); reflexivity.
    + match goal with X : match ?x with _ => _ end |- _ => destruct x; try contradiction; reflexivity end.
    + match goal with X : match ?x with _ => _ end |- _ => destruct x; try contradiction; reflexivity end.
Qed.

Lemma C110_throttled_all : forall prof i l ioff ooff t0 es t es' t', plant_start i l ioff ooff t0 ->
  plant_runs prof i l ioff ooff t0 es t -> plant_runs prof i l ioff ooff t es' t' ->
  (length (t_offered t') <= length (t_offered t) + cycles_in es' + 1)%nat.
Proof.
  intros prof i l ioff ooff t0 es t es' t' H0 H1 H2. destruct (plant_starts _ _ _ _ _ H0) as (s0 & S0 & A0).
  destruct (plant_run_simulates _ _ _ _ _ _ _ _ _ A0 H1) as (ev1 & s1 & G1 & A1).
  destruct (plant_cycles_exact _ _ _ _ _ _ _ _ _ A1 H2) as (ev2 & s2 & G2 & A2 & Ec).
  destruct (start_ready l s0 S0) as (Hst & r0 & a & i0 & m & Hi).
  destruct (throttle_run prof r0 ev1 0 s0 s1 a i0 m Hst Hi G1) as (Hst1 & lost1 & a1 & i1 & m1 & Hi1 & _).
  destruct (throttle_run prof r0 ev2 lost1 s1 s2 a1 i1 m1 Hst1 Hi1 G2) as (_ & lost2 & a2 & i2 & m2 & Hi2 & L).
  destruct Hi1 as [(P1 & P2) _ _ _ _ _ _ _ _]. destruct Hi2 as [(Q1 & Q2) _ _ _ _ _ _ _ _].
  destruct A1 as [_ _ _ _ _ _ _ _ _ E1 _ _]. destruct A2 as [_ _ _ _ _ _ _ _ _ E2 _ _]. rewrite E1, E2. lia.
Qed.

(** ** What a cycle fetches *)

Lemma C110_fetched_all : forall prof i l ioff ooff t0 es t t', plant_start i l ioff ooff t0 ->
  plant_runs prof i l ioff ooff t0 es t -> plant_step prof i l ioff ooff t PCycle t' ->
  exists new, readable_in (t_coupler t') i = readable_in (t_coupler t) i ++ new /\
    (new = [] \/ In new (t_offered t) /\ (2 <= t_cycles t)%nat).
Proof.
  intros prof i l ioff ooff t0 es t t' H0 H1 H2. destruct (plant_starts _ _ _ _ _ H0) as (s0 & S0 & A0).
  destruct (plant_run_simulates _ _ _ _ _ _ _ _ _ A0 H1) as (ev1 & s1 & G1 & A1).
  destruct (start_ready l s0 S0) as (Hst & r0 & a & i0 & m & Hi).
  destruct (throttle_run prof r0 ev1 0 s0 s1 a i0 m Hst Hi G1) as (Hst1 & lost1 & a1 & i1 & m1 & Hi1 & _).
  assert (R : readable_in (t_coupler t) i = buffered (s_proc s1)) by apply (alike_on_its_way _ _ _ _ _ _ A1).
  destruct A1 as [Hok Hat Hp Hl Him _ _ _ _ Ho _ Hc].
  inversion H2 as [| | | |t1 c' image Hcy| | | | |]; subst t1. plain.
  destruct (serial_cycle _ _ _ _ _ _ _ _ _ _ Hok Hcy Hat)
      as (p0 & p' & rin & rout & rs & S1 & S2 & S3 & _ & S4 & _ & S5 & _).
  rewrite Hp in S1. apply Some_inj in S1. subst p0. rewrite Hl in S3. apply Ok_inj in S3. subst rin.
  rewrite R. unfold readable_in. rewrite S2.
  assert (Hfed : forall r, p_init_state (fed (s_proc s1) r) = p_init_state (s_proc s1) /\ p_in_data (fed (s_proc s1) r) = p_in_data (s_proc s1)).
  { intros [[]|]; cbn; auto. }
  destruct (Hfed (requested (t_coupler t) (mk_address i 0))) as (F1 & F2).
  unfold processor_next in S5. rewrite F1, Hst1 in S5. unfold buffered. rewrite Ho, Hc.
  destruct (s_cycles s1) as [|[|k]] eqn:Ek; cbn [stage] in S5.
  - apply Ok_inj, pair_inj in S5. destruct S5 as [<- _]. cbn [p_in_data]. rewrite F2. exists []. rewrite app_nil_r. auto.
  - apply Ok_inj, pair_inj in S5. destruct S5 as [<- _]. cbn [p_in_data]. rewrite F2. exists []. rewrite app_nil_r. auto.
  - apply bind_ok in S5. destruct S5 as (((q & n) & dd) & _ & S5). apply Ok_inj, pair_inj in S5. destruct S5 as [<- _]. cbn [p_in_data].
    rewrite F2. destruct (ri_data_available (s_latch s1)) eqn:Ea; cbn [andb]; [|exists []; rewrite app_nil_r; auto].
    destruct (negb _); [|exists []; rewrite app_nil_r; auto].
    exists (ri_data (s_latch s1)). split; [reflexivity|]. right. split; [|lia].
    destruct Hi1 as [_ _ _ _ _ P _ _ _]. rewrite Ea in P. cbn [presents] in P. destruct P as (_ & P).
    exact (nth_error_In _ _ P).
Qed.
