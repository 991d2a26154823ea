(** Proofs for C57 and C58: restarts of the host program. *)
From Coq Require Import ZArith List Bool Lia ZifyBool ZifyNat.
From Verif Require Import Base Facts Types Lib Util Com SpecCodec ProofsSerialCodec SpecSerial SpecRestart ProofsSerial
  ProofsSerialSystem.
Import ListNotations.
Local Open Scope Z_scope.
Ltac Zify.zify_post_hook ::= Z.div_mod_to_equations.

(** *** The record of taken bytes does not influence anything *)

Definition tk (s : system) (t : list Z) : system :=
  mk_system (s_proc s) (s_latch s) (s_image s) (s_register s) (s_device s)
    (s_written s) t (s_offered s) (s_delivered s) (s_cycles s).

Lemma tk_self s : tk s (s_taken s) = s.
Proof. destruct s. reflexivity. Qed.

Lemma happen_tk prof s e s' : happen prof s e = Ok s' ->
  exists d, s_taken s' = s_taken s ++ d /\ forall t, happen prof (tk s t) e = Ok (tk s' (t ++ d)).
Proof.
  intros H. destruct e as [buf|size| | | | |seg| |full ready]; cbn [happen] in *; unfold tk; sfields.
  - apply Ok_inj in H. subst s'. exists []. rewrite app_nil_r. split; [reflexivity|]. intros t. rewrite app_nil_r. reflexivity.
  - destruct (processor_read (s_proc s) size). apply Ok_inj in H. subst s'. exists []. rewrite app_nil_r.
    split; [reflexivity|]. intros t. rewrite app_nil_r. reflexivity.
  - apply Ok_inj in H. subst s'. exists []. rewrite app_nil_r. split; [reflexivity|]. intros t. rewrite app_nil_r. reflexivity.
  - apply bind_ok in H. destruct H as ((p & r) & H & E). apply Ok_inj in E. subst s'. exists []. rewrite app_nil_r.
    split; [reflexivity|]. intros t. rewrite app_nil_r. rewrite H. reflexivity.
  - apply Ok_inj in H. subst s'. exists []. rewrite app_nil_r. split; [reflexivity|]. intros t. rewrite app_nil_r. reflexivity.
  - destruct (_ =? _); apply Ok_inj in H; subst s'.
    + exists []. rewrite app_nil_r. split; [reflexivity|]. intros t. rewrite app_nil_r. reflexivity.
    + exists (ro_data (s_register s)). split; reflexivity.
  - destruct (_ =? _); apply Ok_inj in H; subst s'; exists []; rewrite app_nil_r;
      (split; [reflexivity|]); intros t; rewrite app_nil_r; reflexivity.
  - destruct (_ =? _); apply Ok_inj in H; subst s'; exists []; rewrite app_nil_r;
      (split; [reflexivity|]); intros t; rewrite app_nil_r; reflexivity.
  - apply Ok_inj in H. subst s'. exists []. rewrite app_nil_r. split; [reflexivity|]. intros t. rewrite app_nil_r. reflexivity.
Qed.

Lemma schedule_tk prof es : forall s s', schedule prof s es = Ok s' ->
  exists d, s_taken s' = s_taken s ++ d /\ forall t, schedule prof (tk s t) es = Ok (tk s' (t ++ d)).
Proof.
  induction es as [|e es IH]; intros s s' H; cbn [schedule] in H.
  - apply Ok_inj in H. subst s'. exists []. rewrite app_nil_r. split; [reflexivity|].
    intros t. rewrite app_nil_r. reflexivity.
  - apply bind_ok in H. destruct H as (s1 & H1 & H2). apply happen_tk in H1. destruct H1 as (d1 & E1 & H1).
    destruct (IH _ _ H2) as (d2 & E2 & H3). exists (d1 ++ d2). rewrite E2, E1, app_assoc. split; [reflexivity|].
    intros t. cbn [schedule]. rewrite H1. cbn [bind]. rewrite H3, app_assoc. reflexivity.
Qed.

(** *** Transmission *)

(** While a segment of the program before is still unacknowledged, the new one sends nothing. *)
Record draining (l : process_data_length) (t0 old : list Z) (s : system) : Prop := mk_draining {
  dr_len : p_process_data_len (s_proc s) = l;
  dr_stage : p_init_state (s_proc s) = stage (s_cycles s);
  dr_tx : counter (tx s);
  dr_ack : counter (ack s);
  dr_lat : counter (lat s);
  dr_next : succ4 (lat s) = tx s;
  dr_reg : reg s = tx s;
  dr_image : ro_data (s_image s) = old \/ ro_data (s_image s) = [];
  dr_register : ro_data (s_register s) = old \/ ro_data (s_register s) = [];
  dr_taken : (ack s = lat s /\ s_taken s = t0) \/
             (ack s = tx s /\ (s_taken s = t0 ++ old \/ s_taken s = t0));
  dr_written : s_written s = concat (waiting s) }.

(** A program that has been restarted with [t0] taken and [old] possibly in flight. *)
Definition resumed (l : process_data_length) (t0 old : list Z) (s : system) : Prop :=
  draining l t0 old s \/
  exists late sent, (late = [] \/ late = old) /\ s_taken s = t0 ++ late ++ sent /\ inv_tx l (tk s sent).

Lemma draining_step prof l t0 old e s : draining l t0 old s ->
  exists s', happen prof s e = Ok s' /\ s_written s' = s_written s ++ written_by [e] /\ (s_cycles s <= s_cycles s')%nat /\
    ((e = HostRead /\ ack s = tx s /\ exists late, (late = [] \/ late = old) /\ s_taken s' = t0 ++ late /\
        inv_tx l (tk s' []) /\ untaken (tk s' []) = waiting s) \/
     (draining l t0 old s' /\ (ack s = tx s -> ack s' = tx s' /\ e <> HostRead) /\
      (e = DevTake -> ack s' = tx s') /\ exists new, waiting s' = waiting s ++ new)).
Proof.
  intros Hd. pose proof Hd as [I1 I2 I3 I4 I5 I6 I7 I8 I9 I10 I11].
  assert (Hne : lat s <> tx s). { rewrite <- I6. intros E. symmetry in E. exact (succ4_ne _ I5 E). }
  destruct e as [buf|size| | | | |seg| |full ready]; cbn [happen written_by].
  - set (new := chunks (user_data_len (p_process_data_len (s_proc s))) buf).
    assert (Ec : concat new = buf).
    { apply (segmented_concat (payload_size (p_process_data_len (s_proc s)))).
      apply (chunks_spec (payload_size (p_process_data_len (s_proc s)))), payload_pos. }
    eexists. split; [reflexivity|]. sfields. rewrite app_nil_r. split; [reflexivity|]. split; [lia|]. right.
    split; [|split; [split; [assumption|discriminate]|split; [discriminate|exists new; reflexivity]]].
    constructor; sfields; auto.
    unfold waiting in *. cbn [processor_write fst] in *. sfields. cbn [p_out_data]. fold new.
    rewrite I11, concat_app, Ec. reflexivity.
  - destruct (processor_read (s_proc s) size) as (p & bytes) eqn:E.
    destruct (read_spec (s_proc s) size) as (R1 & R2 & R3 & R4 & R5 & R6). rewrite E in *. cbn [fst snd] in *.
    eexists. split; [reflexivity|]. sfields. rewrite app_nil_r. split; [reflexivity|]. split; [lia|]. right.
    split; [|split; [split; [assumption|discriminate]|split; [discriminate|]]].
    + constructor; sfields; auto; try congruence. unfold waiting in *. sfields. congruence.
    + exists []. rewrite app_nil_r. unfold waiting. sfields. congruence.
  - eexists. split; [reflexivity|]. sfields. rewrite app_nil_r. split; [reflexivity|]. split; [lia|].
    destruct I10 as [(J1 & J2)|(J1 & J2)].
    + right. split; [|split; [|split; [discriminate|exists []; rewrite app_nil_r; reflexivity]]].
      * unfold lat, ack, tx, reg in *. constructor; unfold lat, ack, tx, reg; sfields; auto; rewrite ?J1; auto.
      * intros E. exfalso. unfold lat, ack, tx, reg in *. congruence.
    + left. split; [reflexivity|]. split; [exact J1|].
      assert (Hl : exists late, (late = [] \/ late = old) /\ s_taken s = t0 ++ late).
      { destruct J2 as [J2|J2]; [exists old; auto|exists []; rewrite app_nil_r; auto]. }
      destruct Hl as (late & Hl & Ht). exists late. split; [exact Hl|]. split; [exact Ht|].
      assert (Hid : idle (tk (mk_system (s_proc s) (s_device s) (s_image s) (s_register s) (s_device s)
                   (s_written s) (s_taken s) (s_offered s) (s_delivered s) (s_cycles s)) [])).
      { unfold idle, tk, lat, ack, tx, reg in *. sfields. auto. }
      assert (Hu : untaken (tk (mk_system (s_proc s) (s_device s) (s_image s) (s_register s) (s_device s)
                   (s_written s) (s_taken s) (s_offered s) (s_delivered s) (s_cycles s)) []) = waiting s).
      { unfold untaken, in_flight, waiting, ack, tx, tk in *. sfields. rewrite J1, Z.eqb_refl. reflexivity. }
      split; [|exact Hu].
      constructor; auto; try (unfold tk, lat, ack, tx, reg in *; sfields; auto; fail).
      rewrite Hu. exact I11.
  - destruct (next_ok prof (s_proc s) (s_latch s) (s_image s) (s_cycles s)) as (p & r & H); [exact I2|exact I5|].
    rewrite H. cbn [bind]. eexists. split; [reflexivity|]. sfields. rewrite app_nil_r. split; [reflexivity|]. split; [lia|].
    right.
    destruct (next_cases prof (s_proc s) (s_latch s) (s_image s) p r (s_cycles s) I2 H) as (S1 & S2 & S3 & S4 & S5 & S6).
    assert (D : p_out_data p = p_out_data (s_proc s) /\ ro_tx_cnt r = ro_tx_cnt (s_image s) /\
                (ro_data r = ro_data (s_image s) \/ ro_data r = [])).
    { destruct (Nat.ltb_spec (s_cycles s) 2) as [Hlt|Hge].
      - destruct (S5 Hlt) as (_ & _ & _ & D1 & D2 & D3 & _). auto.
      - destruct (S6 Hge) as (_ & _ & _ & Hc & _).
        destruct Hc as [(D1 & D2 & D3 & D4)|(c & D1 & D2 & D3 & D4)]; [auto|].
        exfalso. apply D4. rewrite inc_cnt_counter in D3 by exact I5. apply Ok_inj in D3. rewrite <- D3. exact I6. }
    destruct D as (D1 & D2 & D3).
    split; [|split; [split; [|discriminate]|split; [discriminate|]]].
    + constructor; sfields; unfold lat, ack, tx, reg, waiting in *; sfields; auto; rewrite ?D1, ?D2; auto; try congruence.
      destruct D3 as [-> | ->]; auto.
    + unfold ack, tx in *. sfields. congruence.
    + exists []. rewrite app_nil_r. unfold waiting. sfields. exact D1.
  - eexists. split; [reflexivity|]. sfields. rewrite app_nil_r. split; [reflexivity|]. split; [lia|]. right.
    split; [|split; [split; [assumption|discriminate]|split; [discriminate|exists []; rewrite app_nil_r; reflexivity]]].
    constructor; sfields; unfold lat, ack, tx, reg, waiting in *; sfields; auto.
  - destruct (Z.eqb_spec (ro_tx_cnt (s_register s)) (ri_tx_cnt_ack (s_device s))) as [E|E].
    + exists s. rewrite app_nil_r. split; [reflexivity|]. split; [reflexivity|]. split; [lia|]. right.
      split; [exact Hd|]. split; [split; [assumption|discriminate]|].
      split; [intros _; unfold ack, reg in *; congruence|exists []; rewrite app_nil_r; reflexivity].
    + eexists. split; [reflexivity|]. sfields. rewrite app_nil_r. split; [reflexivity|]. split; [lia|]. right.
      assert (J : ack s = lat s /\ s_taken s = t0).
      { destruct I10 as [J|(J & _)]; [exact J|]. exfalso. unfold ack, reg in *. congruence. }
      destruct J as (J1 & J2).
      split; [|split; [split; [|discriminate]|split; [|exists []; rewrite app_nil_r; reflexivity]]].
      * constructor; sfields; unfold lat, ack, tx, reg, waiting in *; sfields; auto.
        -- rewrite I7. exact I3.
        -- right. split; [exact I7|]. rewrite J2. destruct I9 as [-> | ->]; [auto|rewrite app_nil_r; auto].
      * unfold ack, tx, reg in *. sfields. exact I7.
      * intros _. unfold ack, tx, reg in *. sfields. exact I7.
  - destruct (ro_rx_cnt_ack (s_register s) =? ri_rx_cnt (s_device s));
      eexists; (split; [reflexivity|]); sfields; rewrite app_nil_r; (split; [reflexivity|]); (split; [lia|]); right;
      (split; [constructor; auto|split; [split; [assumption|discriminate]|split; [discriminate|exists []; rewrite app_nil_r; reflexivity]]]).
  - destruct (ro_rx_cnt_ack (s_register s) =? ri_rx_cnt (s_device s));
      eexists; (split; [reflexivity|]); sfields; rewrite app_nil_r; (split; [reflexivity|]); (split; [lia|]); right;
      (split; [constructor; auto|split; [split; [assumption|discriminate]|split; [discriminate|exists []; rewrite app_nil_r; reflexivity]]]).
  - eexists; (split; [reflexivity|]); sfields; rewrite app_nil_r; (split; [reflexivity|]); (split; [lia|]); right;
      (split; [constructor; auto|split; [split; [assumption|discriminate]|split; [discriminate|exists []; rewrite app_nil_r; reflexivity]]]).
Qed.

(** A run that has nothing of the program before in flight. *)
Lemma settled_run prof l es s sent : inv_tx l (tk s sent) ->
  exists s' d, schedule prof s es = Ok s' /\ s_taken s' = s_taken s ++ d /\ inv_tx l (tk s' (sent ++ d)) /\
    s_written s' = s_written s ++ written_by es /\ (s_cycles s <= s_cycles s')%nat.
Proof.
  intros Hi. destruct (run_tx prof l es (tk s sent) Hi) as (s1 & p & n & R & I & U & W & N & K & C & _).
  destruct (schedule_tk prof es _ _ R) as (d & E & H). specialize (H (s_taken s)).
  change (tk (tk s sent) (s_taken s)) with (tk s (s_taken s)) in H. rewrite tk_self in H.
  exists (tk s1 (s_taken s ++ d)), d. split; [exact H|]. split; [reflexivity|].
  change (tk (tk s1 (s_taken s ++ d)) (sent ++ d)) with (tk s1 (sent ++ d)).
  change (s_taken (tk s sent)) with sent in E. rewrite <- E, tk_self. split; [exact I|].
  change (s_written (tk s1 (s_taken s ++ d))) with (s_written s1).
  rewrite W, N. split; [reflexivity|exact C].
Qed.

Lemma resumed_run prof l t0 old es : forall s, resumed l t0 old s ->
  exists s', schedule prof s es = Ok s' /\ resumed l t0 old s' /\
    s_written s' = s_written s ++ written_by es.
Proof.
  induction es as [|e es IH]; intros s Hr; cbn [schedule].
  - exists s. cbn [written_by]. rewrite app_nil_r. auto.
  - destruct Hr as [Hd|(late & sent & Hl & Ht & Hi)].
    + destruct (draining_step prof l t0 old e s Hd) as (s1 & -> & W1 & _ & Hc). cbn [bind].
      assert (R1 : resumed l t0 old s1).
      { destruct Hc as [(_ & _ & late & L1 & L2 & L3 & _)|(Hd1 & _)]; [|left; exact Hd1].
        right. exists late, []. rewrite app_nil_r. auto. }
      destruct (IH s1 R1) as (s2 & H2 & R2 & W2). exists s2. split; [exact H2|]. split; [exact R2|].
      rewrite W2, W1, <- app_assoc. f_equal. destruct e; cbn [written_by app]; rewrite ?app_nil_r; reflexivity.
    + destruct (settled_run prof l (e :: es) s sent Hi) as (s' & d & H & T & I & W & _).
      exists s'. split; [exact H|]. split; [|exact W]. right. exists late, (sent ++ d).
      split; [exact Hl|]. split; [|exact I]. rewrite T, Ht, <- !app_assoc. reflexivity.
Qed.

(** What a stopped program leaves behind. *)
Definition left_tx (s : system) : Prop :=
  counter (reg s) /\ counter (ack s) /\ (reg s = ack s \/ reg s = succ4 (ack s)).

Lemma restart_resumed l s : left_tx s -> resumed l (s_taken s) (ro_data (s_register s)) (restart l s).
Proof.
  intros (H1 & H2 & H3). unfold restart. destruct H3 as [H3|H3].
  - right. exists [], []. cbn [app]. rewrite app_nil_r. split; [auto|]. split; [reflexivity|].
    match goal with |- inv_tx _ ?x => assert (Hid : idle x) end.
    { unfold idle, tk, lat, ack, tx, reg in *. sfields. auto. }
    constructor; auto; unfold tk, lat, ack, tx, reg in *; sfields; auto.
    unfold untaken, in_flight, waiting. sfields. rewrite H3, Z.eqb_refl. reflexivity.
  - left. constructor; unfold lat, ack, tx, reg, waiting in *; sfields; auto.
Qed.

Lemma resumed_left l t0 old s : resumed l t0 old s -> left_tx s.
Proof.
  intros [[I1 I2 I3 I4 I5 I6 I7 I8 I9 I10 I11]|(late & sent & _ & _ & [I1 I2 I3 I4 I5 I6 I7 I8])].
  - unfold left_tx. rewrite I7. split; [exact I3|]. split; [exact I4|].
    destruct I10 as [(J1 & _)|(J1 & _)]; [right|left]; congruence.
  - unfold left_tx, idle, busy, tk, lat, ack, tx, reg in *. sfields.
    destruct I7 as [(J1 & J2 & J3)|(J0 & [(J1 & J2)|(J1 & J2 & [J3|J3])])].
    + rewrite J2, J3. auto.
    + rewrite J1, J2. auto.
    + rewrite J1. split; [exact I3|]. split; [exact I4|]. right. congruence.
    + rewrite J1. split; [exact I3|]. split; [exact I4|]. left. congruence.
Qed.

(** What a program leaves behind unacknowledged belongs to what it, or one before, has written. *)
Lemma resumed_rest l t0 old s : resumed l t0 old s -> exists late sent,
  (late = [] \/ late = old) /\ s_taken s = t0 ++ late ++ sent /\ prefix sent (s_written s) /\
  (reg s <> ack s ->
     (late = [] /\ sent = [] /\ (ro_data (s_register s) = old \/ ro_data (s_register s) = [])) \/
     prefix (sent ++ ro_data (s_register s)) (s_written s)).
Proof.
  intros [[I1 I2 I3 I4 I5 I6 I7 I8 I9 I10 I11]|(late & sent & Hl & Ht & [I1 I2 I3 I4 I5 I6 I7 I8])].
  - destruct I10 as [(J1 & J2)|(J1 & J2)].
    + exists [], []. cbn [app]. rewrite app_nil_r. split; [auto|]. split; [exact J2|].
      split; [exists (s_written s); reflexivity|]. intros _. left. auto.
    + destruct J2 as [J2|J2]; [exists old, []|exists [], []]; cbn [app]; rewrite ?app_nil_r;
        (split; [auto|]); (split; [exact J2|]); (split; [exists (s_written s); reflexivity|]);
        intros H; exfalso; apply H; congruence.
  - exists late, sent. split; [exact Hl|]. split; [exact Ht|].
    change (s_written s = sent ++ concat (untaken (tk s sent))) in I8.
    split; [eexists; exact I8|]. intros Hne. right.
    assert (B : ro_data (s_register s) = ro_data (s_image s) /\ tx s <> ack s).
    { unfold idle, busy, tk, lat, ack, tx, reg in *. sfields.
      destruct I7 as [(J1 & J2 & J3)|(J0 & [(J1 & J2)|(J1 & J2 & J3)])]; try (exfalso; congruence).
      split; [exact J2|congruence]. }
    destruct B as (B1 & B2). unfold prefix. exists (concat (waiting s)). rewrite I8. unfold untaken, in_flight, tk. sfields.
    unfold tx, ack in B2. destruct (Z.eqb_spec (ro_tx_cnt (s_image s)) (ri_tx_cnt_ack (s_device s))); [contradiction|].
    rewrite B1, concat_app. cbn [concat]. rewrite app_nil_r, app_assoc. reflexivity.
Qed.

(** The bytes taken over are made of beginnings of what the programs wrote, in order. *)
Definition made_of (ess : list (list event)) (x : list Z) : Prop :=
  exists parts, Forall2 (fun part es => prefix part (written_by es)) parts ess /\ x = concat parts.

Lemma made_of_snoc ess es x y : made_of ess x -> prefix y (written_by es) -> made_of (ess ++ [es]) (x ++ y).
Proof.
  intros (parts & H1 & ->) H2. exists (parts ++ [y]). split.
  - apply Forall2_app; [exact H1|]. constructor; [exact H2|constructor].
  - rewrite concat_app. cbn [concat]. rewrite app_nil_r. reflexivity.
Qed.

Definition after_lives (ess : list (list event)) (s : system) : Prop :=
  left_tx s /\ made_of ess (s_taken s) /\ (reg s <> ack s -> made_of ess (s_taken s ++ ro_data (s_register s))).

Lemma lives_app prof l ess1 : forall s ess2,
  lives prof l s (ess1 ++ ess2) = let? s' := lives prof l s ess1 in lives prof l s' ess2.
Proof.
  induction ess1 as [|es ess1 IH]; intros s ess2; cbn [app lives bind]; [reflexivity|].
  destruct (schedule prof (restart l s) es); cbn [bind]; auto.
Qed.

Lemma one_life prof l ess s es : after_lives ess s ->
  exists s' late sent, schedule prof (restart l s) es = Ok s' /\ after_lives (ess ++ [es]) s' /\
    s_written s' = written_by es /\ s_taken s' = s_taken s ++ late ++ sent /\
    made_of ess (s_taken s ++ late) /\ prefix sent (written_by es).
Proof.
  intros (H1 & H2 & H3).
  destruct (resumed_run prof l _ _ es _ (restart_resumed l s H1)) as (s' & R & Q & W).
  cbn [restart s_written app] in W. destruct (resumed_rest _ _ _ _ Q) as (late & sent & L1 & L2 & L3 & L4).
  rewrite W in L3, L4.
  (* if nothing was in flight, no late bytes arrive *)
  destruct (Z.eq_dec (reg s) (ack s)) as [E|E].
  - assert (Hi : inv_tx l (tk (restart l s) [])).
    { destruct (restart_resumed l s H1) as [D|(la & se & _ & T & I)].
      - exfalso. pose proof (dr_next _ _ _ _ D) as K. pose proof (dr_lat _ _ _ _ D) as K2.
        unfold restart, lat, tx, reg, ack in *. sfields. rewrite <- E in *. exact (succ4_ne _ K2 K).
      - cbn [restart s_taken] in T. rewrite <- (app_nil_r (s_taken s)) in T at 1. apply app_inv_head in T.
        symmetry in T. apply app_eq_nil in T. destruct T as (_ & ->). exact I. }
    destruct (settled_run prof l es _ [] Hi) as (s1 & d & R1 & T1 & I1 & W1 & _).
    rewrite R in R1. apply Ok_inj in R1. subst s1. cbn [app] in I1. cbn [restart s_taken] in T1.
    assert (Q' : resumed l (s_taken s) [] s').
    { right. exists [], d. auto. }
    destruct (resumed_rest _ _ _ _ Q') as (late' & sent' & M1 & M2 & M3 & M4).
    assert (late' = []) by (destruct M1; assumption). subst late'.
    rewrite W in M3, M4. exists s', [], sent'. split; [exact R|]. rewrite app_nil_r.
    split; [|auto]. split; [exact (resumed_left _ _ _ _ Q)|].
    cbn [app] in M2. rewrite M2. split; [apply made_of_snoc; auto|]. intros Hne. specialize (M4 Hne).
    rewrite <- app_assoc. apply made_of_snoc; [exact H2|].
    destruct M4 as [(_ & -> & M4)|M4]; [|exact M4].
    assert (ro_data (s_register s') = []) as -> by (destruct M4; assumption). exists (written_by es). reflexivity.
  - specialize (H3 E). exists s', late, sent. split; [exact R|].
    assert (Hm : made_of ess (s_taken s ++ late)).
    { destruct L1 as [-> | ->]; [rewrite app_nil_r|]; assumption. }
    split; [|auto]. split; [exact (resumed_left _ _ _ _ Q)|].
    rewrite L2, app_assoc. split; [apply made_of_snoc; auto|]. intros Hne. specialize (L4 Hne).
    destruct L4 as [(-> & -> & L4)|L4].
    + rewrite !app_nil_r in *. rewrite <- (app_nil_r (s_taken s ++ ro_data (s_register s'))).
      apply made_of_snoc; [|exists (written_by es); reflexivity].
      destruct L4 as [-> | ->]; [exact H3|rewrite app_nil_r; exact H2].
    + rewrite <- app_assoc. apply made_of_snoc; [exact Hm|exact L4].
Qed.

Lemma start_left l s : start l s -> after_lives [] s.
Proof.
  intros (H1 & (D1 & D2) & (E1 & E2 & E3) & H2 & H3 & H4 & H5 & H6 & H7 & H8 & H9 & H10 & H11).
  split; [|split].
  - unfold left_tx, reg, ack. auto.
  - rewrite H8. exists []. split; [constructor|reflexivity].
  - intros E. exfalso. apply E. unfold reg, ack. auto.
Qed.

Lemma lives_after prof l s0 : start l s0 -> forall ess, exists s, lives prof l s0 ess = Ok s /\ after_lives ess s.
Proof.
  intros Hs ess. induction ess as [|es ess IH] using rev_ind.
  - exists s0. split; [reflexivity|]. apply (start_left l). exact Hs.
  - destruct IH as (s & H & A). destruct (one_life prof l ess s es A) as (s' & late & sent & R & A' & _).
    exists s'. split; [|exact A']. rewrite lives_app, H. cbn [bind lives]. rewrite R. reflexivity.
Qed.

Lemma C57_safe : forall prof l s0 ess, start l s0 ->
  exists s parts, lives prof l s0 ess = Ok s /\
    Forall2 (fun part es => prefix part (written_by es)) parts ess /\ s_taken s = concat parts.
Proof.
  intros prof l s0 ess Hs. destruct (lives_after prof l s0 Hs ess) as (s & H & _ & (parts & P1 & P2) & _).
  exists s, parts. auto.
Qed.

(** *** Progress *)

Fixpoint stays (prof : profile) (l : process_data_length) (t0 old : list Z) (s : system) (es : list event) : Prop :=
  draining l t0 old s /\
  match es with
  | [] => True
  | e :: es' => exists s', happen prof s e = Ok s' /\ (ack s = tx s -> ack s' = tx s' /\ e <> HostRead) /\
      (e = DevTake -> ack s' = tx s') /\ stays prof l t0 old s' es'
  end.

Lemma stays_or_settles prof l t0 old es : forall s, draining l t0 old s ->
  stays prof l t0 old s es \/
  exists es1 es2 sm late new, es = es1 ++ es2 /\ schedule prof s es1 = Ok sm /\
    (late = [] \/ late = old) /\ s_taken sm = t0 ++ late /\ inv_tx l (tk sm []) /\
    untaken (tk sm []) = waiting s ++ new /\ (s_cycles s <= s_cycles sm)%nat.
Proof.
  induction es as [|e es IH]; intros s Hd; cbn [stays]; [left; auto|].
  destruct (draining_step prof l t0 old e s Hd) as (s1 & R1 & _ & C1 & [(-> & Ha & late & L1 & L2 & L3 & L4)|(D1 & D2 & D3 & new & D4)]).
  - right. exists [HostRead], es, s1, late, []. rewrite app_nil_r. cbn [schedule]. rewrite R1. cbn [bind]. auto 10.
  - destruct (IH s1 D1) as [Hs|(es1 & es2 & sm & late & new' & E & R & L1 & L2 & L3 & L4 & C2)].
    + left. split; [exact Hd|]. exists s1. auto.
    + right. exists (e :: es1), es2, sm, late, (new ++ new'). cbn [schedule app]. rewrite R1, E. cbn [bind].
      rewrite L4, D4, <- app_assoc. split; [reflexivity|]. split; [exact R|]. split; [exact L1|]. split; [exact L2|].
      split; [exact L3|]. split; [reflexivity|lia].
Qed.

Lemma stays_app prof l t0 old es1 : forall s es2, stays prof l t0 old s (es1 ++ es2) ->
  exists s', stays prof l t0 old s' es2 /\ (ack s = tx s -> ack s' = tx s').
Proof.
  induction es1 as [|e es1 IH]; intros s es2 H; cbn [app] in H; [exists s; auto|].
  destruct H as (_ & s1 & _ & H1 & _ & H2). destruct (IH s1 es2 H2) as (s' & H3 & H4). exists s'.
  split; [exact H3|]. intros E. apply H4, H1, E.
Qed.

Lemma two_rounds prof l t0 old s r1 r2 rest : fair_round r1 -> fair_round r2 -> ~ stays prof l t0 old s (r1 ++ r2 ++ rest).
Proof.
  intros (a & b & c & d & e & ->) (a' & b' & c' & d' & e' & ->) H.
  rewrite <- !app_assoc in H.
  apply stays_app in H. destruct H as (s1 & H & _).
  apply stays_app in H. destruct H as (s2 & H & _).
  apply stays_app in H. destruct H as (s3 & H & _).
  apply stays_app in H. destruct H as (s4 & H & _).
  apply stays_app in H. destruct H as (s5 & H & _).
  apply stays_app in H. destruct H as (s6 & H & _).
  apply stays_app in H. destruct H as (s7 & H & _).
  destruct H as (_ & s8 & _ & _ & Ht & H). specialize (Ht eq_refl).
  apply stays_app in H. destruct H as (s9 & H & K). specialize (K Ht).
  apply stays_app in H. destruct H as (s10 & H & K'). specialize (K' K).
  apply stays_app in H. destruct H as (s10' & H & K''). specialize (K'' K').
  destruct H as (_ & s11 & _ & Hn & _). destruct (Hn K'') as (_ & Hn'). apply Hn'. reflexivity.
Qed.

Lemma C57_progress : forall prof l s0 ess s es s1 rounds, start l s0 -> lives prof l s0 ess = Ok s ->
  schedule prof (restart l s) es = Ok s1 -> (2 <= s_cycles s1)%nat -> Forall fair_round rounds ->
  (length (in_flight s1) + length (waiting s1) + 2 <= length rounds)%nat ->
  exists s2 parts rest, schedule prof s1 (concat rounds) = Ok s2 /\
    Forall2 (fun part es => prefix part (written_by es)) parts ess /\
    s_taken s2 = concat parts ++ written_by es ++ rest.
Proof.
  intros prof l s0 ess s es s1 rounds Hs Hl Hr Hk Hf Hn.
  destruct (lives_after prof l s0 Hs ess) as (s' & H & A). rewrite Hl in H. apply Ok_inj in H. subst s'.
  destruct A as (H1 & H2 & H3).
  (* what late bytes can be *)
  assert (Q : exists old, resumed l (s_taken s) old (restart l s) /\ (forall late, late = [] \/ late = old -> made_of ess (s_taken s ++ late))).
  { destruct (Z.eq_dec (reg s) (ack s)) as [E|E].
    - exists []. split.
      + destruct (restart_resumed l s H1) as [D|(la & se & _ & T & I)].
        * exfalso. pose proof (dr_next _ _ _ _ D) as K. pose proof (dr_lat _ _ _ _ D) as K2.
          unfold restart, lat, tx, reg, ack in *. sfields. rewrite <- E in *. exact (succ4_ne _ K2 K).
        * cbn [restart s_taken] in T. rewrite <- (app_nil_r (s_taken s)) in T at 1. apply app_inv_head in T.
          symmetry in T. apply app_eq_nil in T. destruct T as (_ & ->).
          right. exists [], []. cbn [app restart s_taken]. rewrite app_nil_r. auto.
      + intros late Hla. assert (late = []) as -> by (destruct Hla; assumption). rewrite app_nil_r. exact H2.
    - exists (ro_data (s_register s)). split; [apply restart_resumed; exact H1|].
      intros late [-> | ->]; [rewrite app_nil_r; exact H2|exact (H3 E)]. }
  destruct Q as (old & Q & Hlate).
  destruct (resumed_run prof l _ _ es _ Q) as (s1' & R & Q1 & W). rewrite Hr in R. apply Ok_inj in R. subst s1'.
  cbn [restart s_written app] in W.
  assert (Fin : forall sm es' late sent, inv_tx l (tk sm sent) -> s_taken sm = s_taken s ++ late ++ sent ->
            (late = [] \/ late = old) -> (2 <= s_cycles sm)%nat ->
            forall rs, Forall fair_round rs -> forall u new, untaken (tk sm sent) = u ++ new -> (length u <= length rs)%nat ->
            written_by es = sent ++ concat u ->
            exists s2 parts rest, schedule prof sm (es' ++ concat rs) = Ok s2 /\
              Forall2 (fun part es => prefix part (written_by es)) parts ess /\
              s_taken s2 = concat parts ++ written_by es ++ rest).
  { intros sm es' late sent Hi Ht Hla Hc rs Hrs u new Hu Hlen Hw.
    destruct (run_tx prof l es' _ Hi) as (sa & pa & na & Ra & Ia & Ua & Wa & _ & Ka & Ca & _).
    change (s_cycles (tk sm sent)) with (s_cycles sm) in Ca.
    destruct (run_rounds prof l rs sa Ia ltac:(lia) Hrs) as (sb & pb & nb & Rb & Ib & Ub & Wb & Kb & Lb).
    assert (Rab : schedule prof (tk sm sent) (es' ++ concat rs) = Ok sb).
    { rewrite schedule_app, Ra. cbn [bind]. exact Rb. }
    destruct (schedule_tk prof _ _ _ Rab) as (d & Ed & Hd). specialize (Hd (s_taken sm)).
    change (tk (tk sm sent) (s_taken sm)) with (tk sm (s_taken sm)) in Hd. rewrite tk_self in Hd.
    change (s_taken (tk sm sent)) with sent in *.
    destruct (Hlate late Hla) as (parts & P1 & P2).
    assert (Hpre : exists rest, pa ++ pb = u ++ rest).
    { apply (prefix_concat u (new ++ na ++ nb) (pa ++ pb) (untaken sb)).
      - rewrite <- app_assoc, <- Ub, app_assoc, <- Hu, app_assoc, Ua, <- app_assoc. reflexivity.
      - rewrite app_length. destruct Lb as [Lb|Lb]; [lia|].
        apply (f_equal (@length (list Z))) in Ua. rewrite Hu, !app_length in Ua. lia. }
    destruct Hpre as (rest & Hpre).
    assert (Dd : d = concat u ++ concat rest).
    { rewrite Kb, Ka in Ed. rewrite <- app_assoc, <- concat_app, Hpre, concat_app in Ed. apply app_inv_head in Ed.
      symmetry. exact Ed. }
    exists (tk sb (s_taken sm ++ d)), parts, (concat rest). split; [exact Hd|]. split; [exact P1|].
    change (s_taken sm ++ d = concat parts ++ written_by es ++ concat rest).
    rewrite Ht, Dd, Hw, <- P2, <- !app_assoc. reflexivity. }
  destruct Q1 as [D|(late & sent & L1 & L2 & I)].
  - destruct rounds as [|r1 [|r2 rounds]]; cbn [length] in Hn; try lia.
    inversion Hf as [|? ? F1 Hf1]; subst. inversion Hf1 as [|? ? F2 Hf2]; subst. cbn [concat].
    destruct (stays_or_settles prof l _ _ (r1 ++ r2) s1 D) as [St|(es1 & es2 & sm & late & new & E & Rm & L1 & L2 & L3 & L4 & L5)].
    + exfalso. rewrite <- (app_nil_r r2) in St. exact (two_rounds _ _ _ _ _ _ _ _ F1 F2 St).
    + rewrite app_assoc, E, <- app_assoc, schedule_app, Rm. cbn [bind].
      refine (Fin sm es2 late [] L3 _ L1 _ rounds Hf2 (waiting s1) new L4 _ _); [rewrite app_nil_r; exact L2|lia|lia|].
      rewrite <- W. exact (dr_written _ _ _ _ D).
  - apply (Fin s1 [] late sent I L2 L1 Hk rounds Hf (untaken (tk s1 sent)) []); [rewrite app_nil_r; reflexivity| |].
    + change (untaken (tk s1 sent)) with (untaken s1). unfold untaken. rewrite app_length. lia.
    + rewrite <- W. exact (it_written _ _ I).
Qed.

(** *** Reception *)

Definition left_rx (s : system) : Prop :=
  counter (ro_rx_cnt_ack (s_register s)) /\ counter (ri_rx_cnt (s_device s)) /\
  (ro_rx_cnt_ack (s_register s) = ri_rx_cnt (s_device s) \/
   (ri_data_available (s_device s) = true /\ succ4 (ro_rx_cnt_ack (s_register s)) = ri_rx_cnt (s_device s))).

Lemma restart_ready l s : left_rx s -> ready_rx (restart l s).
Proof.
  intros (C1 & C2 & H). unfold counter, succ4 in *. split; [reflexivity|]. unfold restart, presented.
  destruct (ri_data_available (s_device s)) eqn:Ea.
  - destruct H as [H|(_ & H)].
    + exists ((ri_rx_cnt (s_device s) + 3) mod 4), 1%nat, 1%nat, 1%nat.
      constructor; sfields; cbn [length]; rewrite ?Ea; auto; try lia; cbn [presents]; split; auto.
    + exists (ro_rx_cnt_ack (s_register s)), 0%nat, 0%nat, 1%nat.
      constructor; sfields; cbn [length]; rewrite ?Ea; auto; try lia; cbn [presents]; split; auto.
  - destruct H as [H|(H & _)]; [|discriminate].
    exists (ri_rx_cnt (s_device s)), 0%nat, 0%nat, 0%nat.
    constructor; sfields; cbn [length]; rewrite ?Ea; auto; try lia; cbn [presents]; lia.
Qed.

Lemma ready_left prof s es s' : ready_rx s -> schedule prof s es = Ok s' -> left_rx s'.
Proof.
  intros (Hst & r0 & a & i & m & Hi) H.
  destruct (run_rx_init prof r0 es s s' 0 a i m Hst ltac:(lia) Hi H) as (_ & lost & a' & i' & m' & _ & [(O1 & O2) Erg _ _ Edv _ Pdv _ _]).
  unfold left_rx, counter, succ4. rewrite Erg, Edv. split; [lia|]. split; [lia|].
  assert (Hc : length (s_offered s') = a' \/ length (s_offered s') = S a') by lia.
  destruct Hc as [-> | Hc]; [left; reflexivity|right].
  unfold presents in Pdv. destruct (ri_data_available (s_device s')); [|lia]. split; [reflexivity|].
  rewrite Hc. lia.
Qed.

Lemma lives_left_rx prof l s0 : start l s0 -> forall ess s, lives prof l s0 ess = Ok s -> left_rx s.
Proof.
  intros Hs ess. induction ess as [|es ess IH] using rev_ind; intros s H.
  - cbn [lives] in H. apply (ready_left prof s0 []); [apply (start_ready l); exact Hs|exact H].
  - rewrite lives_app in H. apply bind_ok in H. destruct H as (s1 & H1 & H2). cbn [lives] in H2.
    apply bind_ok in H2. destruct H2 as (s2 & H2 & H3). apply Ok_inj in H3. subst s2.
    apply (ready_left prof (restart l s1) es); [apply restart_ready, IH; exact H1|exact H2].
Qed.

Lemma lives_run prof l s0 ess s es1 s1 : start l s0 -> lives prof l s0 ess = Ok s ->
  schedule prof (restart l s) es1 = Ok s1 -> forall es2, exists s2, schedule prof s1 es2 = Ok s2.
Proof.
  intros Hs Hl H1 es2. destruct (lives_after prof l s0 Hs (ess ++ [es1 ++ es2])) as (s2 & H & _).
  rewrite lives_app, Hl in H. cbn [bind lives] in H. apply bind_ok in H. destruct H as (s3 & H & E).
  rewrite schedule_app, H1 in H. cbn [bind] in H. eauto.
Qed.

Lemma C58_receive : forall prof l s0 ess s es1 s1 es2, start l s0 -> lives prof l s0 ess = Ok s ->
  schedule prof (restart l s) es1 = Ok s1 -> (2 <= s_cycles s1)%nat ->
  exists s2 lost fetched, schedule prof s1 es2 = Ok s2 /\
    (lost <= length (s_offered s1))%nat /\
    (lost + fetched <= length (s_offered s2) <= lost + fetched + 1)%nat /\
    received s2 = concat (firstn fetched (skipn lost (s_offered s2))).
Proof.
  intros prof l s0 ess s es1 s1 es2 Hs Hl H1 Hk.
  destruct (lives_run prof l s0 ess s es1 s1 Hs Hl H1 es2) as (s2 & H2).
  destruct (C35_gen prof (restart l s) es1 s1 es2 s2) as (lost & f & G); auto.
  { apply restart_ready, (lives_left_rx prof l s0 Hs ess). exact Hl. }
  exists s2, lost, f. split; [exact H2|exact G].
Qed.

Lemma C58_progress : forall prof l s0 ess s es0 si es1 s1 b c d s2, start l s0 -> lives prof l s0 ess = Ok s ->
  schedule prof (restart l s) es0 = Ok si -> (2 <= s_cycles si)%nat -> schedule prof si es1 = Ok s1 ->
  schedule prof s1 (b ++ [HostRead] ++ c ++ [HostCycle] ++ d) = Ok s2 ->
  exists lost fetched,
    (lost <= length (s_offered si))%nat /\
    (length (s_offered s1) <= lost + fetched <= length (s_offered s2))%nat /\
    received s2 = concat (firstn fetched (skipn lost (s_offered s2))).
Proof.
  intros prof l s0 ess s es0 si es1 s1 b c d s2 Hs Hl. apply C53_gen.
  apply restart_ready, (lives_left_rx prof l s0 Hs ess). exact Hl.
Qed.
