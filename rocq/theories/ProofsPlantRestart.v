(** Proofs of C67: restarts of a program that drives a coupler. *)
From Coq Require Import ZArith List Bool Lia.
From Verif Require Import Base Facts F32 Types Lib Com Fbc SpecCodec SpecSerial SpecCoupler SpecImage SpecSystem
  SpecRestart SpecPlantRestart ProofsSerial ProofsSerialSystem ProofsRestart ProofsCycle ProofsCoupler ProofsSystem.
Import ListNotations.
Local Open Scope Z_scope.

Lemma happen_written prof s e s' : happen prof s e = Ok s' -> s_written s' = s_written s ++ written_by [e].
Proof.
  intros H. destruct e; cbn [happen written_by] in *; rewrite ?app_nil_r;
    repeat match type of H with
    | context [let (_, _) := ?x in _] => destruct x as (? & ?)
    | (if ?x then _ else _) = _ => destruct x
    | bind ?x _ = _ => apply bind_ok in H; destruct H as ((? & ?) & ? & H)
    end; apply Ok_inj in H; subst s'; reflexivity.
Qed.
Lemma written_by_app es1 es2 : written_by (es1 ++ es2) = written_by es1 ++ written_by es2.
Proof. induction es1 as [|[] es1 IH]; cbn [app written_by]; rewrite ?IH, ?app_assoc; reflexivity. Qed.
Lemma schedule_written prof es : forall s s', schedule prof s es = Ok s' -> s_written s' = s_written s ++ written_by es.
Proof.
  induction es as [|e es IH]; intros s s' H; cbn [schedule] in H.
  - apply Ok_inj in H. subst. cbn. now rewrite app_nil_r.
  - apply bind_ok in H. destruct H as (s1 & H1 & H2). rewrite (IH _ _ H2), (happen_written _ _ _ _ H1).
    change (e :: es) with ([e] ++ es). rewrite written_by_app, app_assoc. reflexivity.
Qed.

Lemma restart_alike i l ioff ooff t t' s : alike_plant i l ioff ooff t s -> plant_restart i l ioff ooff t t' ->
  alike_plant i l ioff ooff t' (restart l s).
Proof.
  intros [Hok Hat Hp Hl Hi Hr Hd Hw Ht Ho Hde Hc]
    ((cfg & Hcfg & Hnew) & Hat' & Hu & Hl' & Ei & Er & Ed & Ew & Et & Eo & Ede & Ec).
  pose proof (new_ok _ _ Hcfg Hnew) as Hok'. destruct Hat' as ((ch & Hm & Hoff) & Hrest).
  destruct (ok_com _ Hok' i l ch Hm) as (p & Hp').
  assert (Ep : p = processor_new l) by (eapply new_processor; eassumption).
  unfold restart. split; plain; auto; try congruence.
  split; [exists ch; split; assumption|exact Hrest].
Qed.

Lemma lives_simulate prof i l ioff ooff t ws t' : plant_lives prof i l ioff ooff t ws t' -> forall s,
  alike_plant i l ioff ooff t s ->
  exists ess s', lives prof l s ess = Ok s' /\ alike_plant i l ioff ooff t' s' /\ map written_by ess = ws.
Proof.
  induction 1 as [t|t t1 es t2 ws t3 H1 H2 _ IH]; intros s Ha.
  - exists [], s. auto.
  - pose proof (restart_alike _ _ _ _ _ _ _ Ha H1) as Ha1.
    destruct (plant_run_simulates _ _ _ _ _ _ _ _ _ Ha1 H2) as (evs & s2 & G & A2).
    destruct (IH s2 A2) as (ess & s' & G' & A' & E).
    exists (evs :: ess), s'. cbn [lives map]. rewrite G. cbn [bind]. split; [exact G'|]. split; [exact A'|].
    rewrite E. f_equal. rewrite (ap_written _ _ _ _ _ _ A2). symmetry. exact (schedule_written _ _ _ _ G).
Qed.

Lemma prefixes_map parts ess : Forall2 (fun part es => prefix part (written_by es)) parts ess ->
  Forall2 prefix parts (map written_by ess).
Proof. induction 1; constructor; auto. Qed.

Lemma C67_transmission_all : forall prof i l ioff ooff t0 ws t, plant_start i l ioff ooff t0 ->
  plant_lives prof i l ioff ooff t0 ws t ->
  exists parts, Forall2 prefix parts ws /\ t_taken t = concat parts.
Proof.
  intros prof i l ioff ooff t0 ws t H0 H. destruct (plant_starts _ _ _ _ _ H0) as (s0 & S0 & A0).
  destruct (lives_simulate _ _ _ _ _ _ _ _ H s0 A0) as (ess & s & G & A & E).
  destruct (C57_safe prof l s0 ess S0) as (s' & parts & G' & F & T). rewrite G in G'. apply Ok_inj in G'. subst s'.
  exists parts. subst ws. split; [apply prefixes_map; exact F|]. rewrite (ap_taken _ _ _ _ _ _ A). exact T.
Qed.

Lemma C67_progress_all : forall prof i l ioff ooff t0 ws t t' es t1 rounds t2, plant_start i l ioff ooff t0 ->
  plant_lives prof i l ioff ooff t0 ws t -> plant_restart i l ioff ooff t t' ->
  plant_runs prof i l ioff ooff t' es t1 -> (2 <= t_cycles t1)%nat ->
  Forall plant_round rounds -> (outstanding i l ooff t1 + 2 <= length rounds)%nat ->
  plant_runs prof i l ioff ooff t1 (concat rounds) t2 ->
  exists parts rest, Forall2 prefix parts ws /\ t_taken t2 = concat parts ++ t_written t1 ++ rest.
Proof.
  intros prof i l ioff ooff t0 ws t t' es t1 rounds t2 H0 H Hr H1 Hc Hf Hn H2.
  destruct (plant_starts _ _ _ _ _ H0) as (s0 & S0 & A0).
  destruct (lives_simulate _ _ _ _ _ _ _ _ H s0 A0) as (ess & s & G & A & E).
  pose proof (restart_alike _ _ _ _ _ _ _ A Hr) as Ar.
  destruct (plant_run_simulates _ _ _ _ _ _ _ _ _ Ar H1) as (ev1 & s1 & G1 & A1).
  destruct (plant_rounds_simulate _ _ _ _ _ _ _ _ _ A1 Hf H2) as (ev2 & s2 & L2 & F2 & G2 & A2).
  destruct (alike_on_its_way _ _ _ _ _ _ A1) as (_ & _ & _ & En). rewrite En in Hn.
  assert (Hc1 : (2 <= s_cycles s1)%nat) by (rewrite <- (ap_cycles _ _ _ _ _ _ A1); exact Hc).
  destruct (C57_progress prof l s0 ess s ev1 s1 ev2 S0 G G1 Hc1 F2) as (s' & parts & rest & G' & F & T); [lia|].
  rewrite G2 in G'. apply Ok_inj in G'. subst s'.
  exists parts, rest. subst ws. split; [apply prefixes_map; exact F|].
  rewrite (ap_taken _ _ _ _ _ _ A2), T, (ap_written _ _ _ _ _ _ A1), (schedule_written _ _ _ _ G1). reflexivity.
Qed.

Lemma C67_reception_all : forall prof i l ioff ooff t0 ws t t' es1 t1 es2 t2, plant_start i l ioff ooff t0 ->
  plant_lives prof i l ioff ooff t0 ws t -> plant_restart i l ioff ooff t t' ->
  plant_runs prof i l ioff ooff t' es1 t1 -> (2 <= t_cycles t1)%nat -> plant_runs prof i l ioff ooff t1 es2 t2 ->
  exists lost fetched,
    (lost <= length (t_offered t1))%nat /\
    (lost + fetched <= length (t_offered t2) <= lost + fetched + 1)%nat /\
    t_delivered t2 ++ readable_in (t_coupler t2) i = concat (firstn fetched (skipn lost (t_offered t2))).
Proof.
  intros prof i l ioff ooff t0 ws t t' es1 t1 es2 t2 H0 H Hr H1 Hc H2.
  destruct (plant_starts _ _ _ _ _ H0) as (s0 & S0 & A0).
  destruct (lives_simulate _ _ _ _ _ _ _ _ H s0 A0) as (ess & s & G & A & E).
  pose proof (restart_alike _ _ _ _ _ _ _ A Hr) as Ar.
  destruct (plant_run_simulates _ _ _ _ _ _ _ _ _ Ar H1) as (ev1 & s1 & G1 & A1).
  destruct (plant_run_simulates _ _ _ _ _ _ _ _ _ A1 H2) as (ev2 & s2 & G2 & A2).
  assert (Hc1 : (2 <= s_cycles s1)%nat) by (rewrite <- (ap_cycles _ _ _ _ _ _ A1); exact Hc).
  destruct (C58_receive prof l s0 ess s ev1 s1 ev2 S0 G G1 Hc1) as (s' & lost & fetched & G' & Q1 & Q2 & Q3).
  rewrite G2 in G'. apply Ok_inj in G'. subst s'. exists lost, fetched.
  destruct (alike_on_its_way _ _ _ _ _ _ A2) as (_ & _ & -> & _). unfold received in *.
  destruct A1 as [_ _ _ _ _ _ _ _ _ -> _ _]. destruct A2 as [_ _ _ _ _ _ _ _ _ -> -> _]. auto.
Qed.

Lemma C67_reception_progress_all : forall prof i l ioff ooff t0 ws t t' es0 ti es1 t1 a input b c t2,
  plant_start i l ioff ooff t0 -> plant_lives prof i l ioff ooff t0 ws t -> plant_restart i l ioff ooff t t' ->
  plant_runs prof i l ioff ooff t' es0 ti -> (2 <= t_cycles ti)%nat -> plant_runs prof i l ioff ooff ti es1 t1 ->
  plant_runs prof i l ioff ooff t1 (a ++ [PInput input] ++ b ++ [PCycle] ++ c) t2 ->
  exists lost fetched,
    (lost <= length (t_offered ti))%nat /\
    (length (t_offered t1) <= lost + fetched <= length (t_offered t2))%nat /\
    t_delivered t2 ++ readable_in (t_coupler t2) i = concat (firstn fetched (skipn lost (t_offered t2))).
Proof.
  intros prof i l ioff ooff t0 ws t t' es0 ti es1 t1 a input b c t2 H0 H Hr Hi Hc H1 H2.
  destruct (plant_starts _ _ _ _ _ H0) as (s0 & S0 & A0).
  destruct (lives_simulate _ _ _ _ _ _ _ _ H s0 A0) as (ess & s & G & A & E).
  pose proof (restart_alike _ _ _ _ _ _ _ A Hr) as Ar.
  destruct (plant_run_simulates _ _ _ _ _ _ _ _ _ Ar Hi) as (ev0 & si & G0 & Ai).
  destruct (plant_run_simulates _ _ _ _ _ _ _ _ _ Ai H1) as (ev1 & s1 & G1 & A1).
  apply plant_runs_app in H2. destruct H2 as (u1 & X1 & H2). apply plant_runs_app in H2. destruct H2 as (u2 & X2 & H2).
  apply plant_runs_app in H2. destruct H2 as (u3 & X3 & H2). apply plant_runs_app in H2. destruct H2 as (u4 & X4 & X5).
  destruct (plant_run_simulates _ _ _ _ _ _ _ _ _ A1 X1) as (e1 & r1 & Y1 & B1).
  destruct (plant_one _ _ _ _ _ _ _ _ _ B1 X2) as (e2 & r2 & Y2 & B2 & ->).
  destruct (plant_run_simulates _ _ _ _ _ _ _ _ _ B2 X3) as (e3 & r3 & Y3 & B3).
  destruct (plant_one _ _ _ _ _ _ _ _ _ B3 X4) as (e4 & r4 & Y4 & B4 & (w & ->)).
  destruct (plant_run_simulates _ _ _ _ _ _ _ _ _ B4 X5) as (e5 & r5 & Y5 & B5).
  assert (Hci : (2 <= s_cycles si)%nat) by (rewrite <- (ap_cycles _ _ _ _ _ _ Ai); exact Hc).
  destruct (C58_progress prof l s0 ess s ev0 si ev1 s1 e1 (e3 ++ w) e5 r5 S0 G G0 Hci G1) as (lost & fetched & Q1 & Q2 & Q3).
  { rewrite schedule_app, Y1. cbn [bind]. rewrite schedule_app, Y2. cbn [bind].
    rewrite <- app_assoc, schedule_app, Y3. cbn [bind].
    replace (w ++ [HostCycle] ++ e5) with ((w ++ [HostCycle]) ++ e5) by (rewrite <- app_assoc; reflexivity).
    rewrite schedule_app, Y4. exact Y5. }
  exists lost, fetched. destruct (alike_on_its_way _ _ _ _ _ _ B5) as (_ & _ & -> & _). unfold received in *.
  destruct Ai as [_ _ _ _ _ _ _ _ _ -> _ _]. destruct A1 as [_ _ _ _ _ _ _ _ _ -> _ _].
  destruct B5 as [_ _ _ _ _ _ _ _ _ -> -> _]. auto.
Qed.
