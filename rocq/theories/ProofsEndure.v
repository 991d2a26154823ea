(** Proofs for C103: restarts, disturbances and interrupted writes together. *)
From Coq Require Import ZArith List Bool Lia ZifyBool ZifyNat.
From Verif Require Import Base Facts F32 Types Lib Util Com Fbc SpecCodec ProofsSerialCodec SpecSerial SpecCoupler SpecImage SpecOutcome
  SpecSystem SpecRestart SpecPlantRestart SpecGlitch SpecFault SpecOrdered SpecEndure ProofsSerial ProofsModule ProofsImage ProofsLayout ProofsLoop
  ProofsCycle ProofsCoupler ProofsNew ProofsOrder ProofsOutcome ProofsGlitch ProofsSerialSystem ProofsRestart ProofsSystem
  ProofsPlantRestart ProofsFault ProofsOrdered.
Import ListNotations.
Local Open Scope Z_scope.
Ltac Zify.zify_post_hook ::= Z.div_mod_to_equations.

(** *** A message processor whose computed messages may be forgotten *)

Inductive drun (prof : profile) : system -> system -> nat -> Prop :=
| D_nil s : drun prof s s 0
| D_run s e s1 s2 n : happen prof s e = Ok s1 -> drun prof s1 s2 n -> drun prof s s2 n
| D_back s s2 k n : (s_image s = s_register s \/ k = 1%nat) -> drun prof (back s) s2 n -> drun prof s s2 (k + n).

Lemma drun_schedule prof es : forall s s1 s2 n, schedule prof s es = Ok s1 -> drun prof s1 s2 n -> drun prof s s2 n.
Proof.
  induction es as [|e es IH]; intros s s1 s2 n H H2; cbn [schedule] in H.
  - apply Ok_inj in H. subst. exact H2.
  - apply bind_ok in H. destruct H as (s3 & H3 & H). econstructor; [exact H3|]. eapply IH; eassumption.
Qed.

Record bounded (l : process_data_length) (s : system) : Prop := mk_bounded {
  bd_queue : Forall (fun c => (length c <= payload_size l)%nat) (p_out_data (s_proc s));
  bd_image : (length (ro_data (s_image s)) <= payload_size l)%nat;
  bd_register : (length (ro_data (s_register s)) <= payload_size l)%nat }.

Lemma bounded_happen prof l s e s' : p_process_data_len (s_proc s) = l -> p_init_state (s_proc s) = stage (s_cycles s) ->
  bounded l s -> happen prof s e = Ok s' -> bounded l s'.
Proof.
  intros Hl Hst [Q Im Rg] H. destruct e as [buf|size| | | | |seg| |full ready]; cbn [happen] in H.
  - apply Ok_inj in H. subst s'. split; [|exact Im|exact Rg].
    cbn [processor_write fst s_proc p_out_data]. apply Forall_app. split; [exact Q|].
    rewrite Hl. pose proof (chunks_spec (payload_size l) buf (payload_pos l)) as Hc.
    assert (Hx : forall k b ss, segmented k b ss -> Forall (fun c => (length c <= k)%nat) ss) by (induction 1; constructor; auto; lia).
    exact (Hx _ _ _ Hc).
  - destruct (processor_read (s_proc s) size) as (p & bytes) eqn:Er.
    destruct (read_spec (s_proc s) size) as (R1 & R2 & R3 & R4 & R5 & R6). rewrite Er in *. cbn [fst snd] in *.
    apply Ok_inj in H. subst s'. split; sfields; [congruence|exact Im|exact Rg].
  - apply Ok_inj in H. subst s'. split; assumption.
  - apply bind_ok in H. destruct H as ((p & r) & H & E1). apply Ok_inj in E1. subst s'. split; sfields; [| |exact Rg];
      destruct (next_cases prof _ _ _ p r (s_cycles s) Hst H) as (S1 & S2 & S3 & S4 & S5 & S6);
      (destruct (Nat.ltb_spec (s_cycles s) 2) as [Hlt|Hge]; [destruct (S5 Hlt) as (_ & _ & _ & K1 & _ & K2 & _)|destruct (S6 Hge) as (_ & _ & _ & K & _)]).
    + rewrite K2. exact Q.
    + destruct K as [(-> & _)|(c & D & _)]; [exact Q|]. rewrite D in Q. inversion Q. assumption.
    + rewrite K1. cbn [length]. lia.
    + destruct K as [(_ & _ & -> & _)|(c & D & -> & _)]; [exact Im|]. rewrite D in Q. inversion Q. assumption.
  - apply Ok_inj in H. subst s'. split; [exact Q|exact Im|exact Im].
  - destruct (_ =? _); apply Ok_inj in H; subst s'; split; assumption.
  - destruct (_ =? _); apply Ok_inj in H; subst s'; split; assumption.
  - destruct (_ =? _); apply Ok_inj in H; subst s'; split; assumption.
  - apply Ok_inj in H. subst s'. split; assumption.
Qed.

Lemma fault_bounded l n s : inv_fault l n s -> bounded l s.
Proof. intros [_ Q Im Rg]. split; assumption. Qed.

Lemma fault_more l n k s : inv_fault l n s -> inv_fault l (k + n) s.
Proof. intros [(w & Hi & Hs & Hn) Q Im Rg]. constructor; auto. exists w. split; [exact Hi|]. split; [exact Hs|].
  rewrite Nat.mul_add_distr_r. lia.
Qed.

Lemma settled_fault l s : inv_tx l s -> bounded l s -> inv_fault l 0 s.
Proof.
  intros Hi [Q Im Rg]. constructor; auto. exists (s_written s).
  split; [destruct s; exact Hi|]. split; [apply sub_refl|lia].
Qed.

(** A program that has been restarted with [t0] taken and [old] possibly in flight. *)
Definition endures (l : process_data_length) (n : nat) (t0 old : list Z) (s : system) : Prop :=
  (draining l t0 old s /\ bounded l s) \/
  exists late sent, (late = [] \/ late = old) /\ s_taken s = t0 ++ late ++ sent /\ inv_fault l n (tk s sent).

Lemma endures_happen prof l n t0 old s e s' : endures l n t0 old s -> happen prof s e = Ok s' -> endures l n t0 old s'.
Proof.
  intros [(D & B)|(late & sent & L & T & F)] H.
  - pose proof (bounded_happen _ _ _ _ _ (dr_len _ _ _ _ D) (dr_stage _ _ _ _ D) B H) as B'.
    destruct (draining_step prof l t0 old e s D) as (s1 & H1 & _ & _ & K). rewrite H in H1. apply Ok_inj in H1. subst s1.
    destruct K as [(_ & _ & late & L & T & I & _)|(D' & _)]; [right|left; auto].
    exists late, []. rewrite app_nil_r. split; [exact L|]. split; [exact T|].
    rewrite <- (Nat.add_0_r n). apply fault_more, settled_fault; [exact I|]. destruct B'. split; assumption.
  - right. destruct (happen_tk _ _ _ _ H) as (d & E & G). exists late, (sent ++ d). split; [exact L|].
    split; [rewrite E, T, <- !app_assoc; reflexivity|]. exact (fault_happen _ _ _ _ _ _ F (G sent)).
Qed.

Lemma endures_back l n k t0 old s : endures l n t0 old s -> (s_image s = s_register s \/ k = 1%nat) -> endures l (k + n) t0 old (back s).
Proof.
  intros [([I1 I2 I3 I4 I5 I6 I7 I8 I9 I10 I11] & [Q Im Rg])|(late & sent & L & T & F)] Hk.
  - left. split; [|split; assumption]. unfold back. unfold lat, ack, tx, reg, waiting in *.
    constructor; unfold lat, ack, tx, reg, waiting; sfields; auto; try congruence.
  - right. exists late, sent. split; [exact L|]. split; [exact T|]. exact (fault_back l n k (tk s sent) F Hk).
Qed.

Lemma endures_run prof l t0 old s s' n : drun prof s s' n -> forall k, endures l k t0 old s -> endures l (n + k) t0 old s'.
Proof.
  induction 1 as [s|s e s1 s2 n H1 H2 IH|s s2 j n Hj H2 IH]; intros k Hi; [exact Hi| |].
  - exact (IH _ (endures_happen _ _ _ _ _ _ _ _ Hi H1)).
  - replace (j + n + k)%nat with (n + (j + k))%nat by lia. exact (IH _ (endures_back _ _ _ _ _ _ Hi Hj)).
Qed.

(** What a stopped program leaves behind. *)
Lemma restart_endures l s : left_tx s -> (length (ro_data (s_register s)) <= payload_size l)%nat ->
  endures l 0 (s_taken s) (ro_data (s_register s)) (restart l s).
Proof.
  intros H Rg. assert (B : bounded l (restart l s)) by (split; [constructor|exact Rg|exact Rg]).
  destruct (restart_resumed l s H) as [D|(late & sent & L & T & I)]; [left; auto|right].
  exists late, sent. split; [exact L|]. split; [exact T|]. apply settled_fault; [exact I|]. destruct B. split; assumption.
Qed.

Lemma endures_left l n t0 old s : endures l n t0 old s -> left_tx s /\ (length (ro_data (s_register s)) <= payload_size l)%nat.
Proof.
  intros [(D & B)|(late & sent & L & T & F)].
  - split; [apply (resumed_left l t0 old); left; exact D|apply B].
  - split; [|apply (if_register _ _ _ F)]. destruct F as [(w & I & _) _ _ _].
    assert (R : resumed l [] [] (wr (tk s sent) w)) by (right; exists [], sent; auto). exact (resumed_left _ _ _ _ R).
Qed.

Lemma prefix_sub a b : prefix a b -> subsequence a b.
Proof. intros (r & ->). rewrite <- (app_nil_r a) at 1. apply sub_app; [apply sub_refl|apply sub_nil]. Qed.

Lemma kept_part l n a w x : prefix a w -> subsequence w x -> (length x <= length w + n * payload_size l)%nat -> part_of a (x, n).
Proof.
  intros P S L. split; cbn [fst snd]; [exact (sub_trans _ _ S _ (prefix_sub _ _ P))|]. intros ->.
  rewrite <- (sub_equal _ _ S); [exact P|lia].
Qed.
Lemma nil_part w : part_of [] w.
Proof. split; [apply sub_nil|]. intros _. exists (fst w). reflexivity. Qed.

Lemma endures_rest l n t0 old s : endures l n t0 old s -> exists late sent,
  (late = [] \/ late = old) /\ s_taken s = t0 ++ late ++ sent /\ part_of sent (s_written s, n) /\
  (reg s <> ack s ->
     (late = [] /\ sent = [] /\ (ro_data (s_register s) = old \/ ro_data (s_register s) = [])) \/
     part_of (sent ++ ro_data (s_register s)) (s_written s, n)).
Proof.
  intros [(D & B)|(late & sent & L & T & F)].
  - destruct D as [I1 I2 I3 I4 I5 I6 I7 I8 I9 I10 I11]. destruct I10 as [(J1 & J2)|(J1 & J2)].
    + exists [], []. cbn [app]. rewrite app_nil_r. split; [auto|]. split; [exact J2|]. split; [apply nil_part|]. intros _. left. auto.
    + destruct J2 as [J2|J2]; [exists old, []|exists [], []]; cbn [app]; rewrite ?app_nil_r;
        (split; [auto|]); (split; [exact J2|]); (split; [apply nil_part|]); intros H; exfalso; apply H; congruence.
  - destruct F as [(w & [I1 I2 I3 I4 I5 I6 I7 I8] & Hs & Hn) _ _ _].
    exists late, sent. split; [exact L|]. split; [exact T|]. unfold idle, busy, wr, tk, lat, ack, tx, reg in *. sfields.
    split; [apply (kept_part l n sent w); [eexists; exact I8|exact Hs|exact Hn]|].
    intros Hne. right. apply (kept_part l n _ w); [|exact Hs|exact Hn].
    assert (E : ro_data (s_register s) = ro_data (s_image s) /\ ro_tx_cnt (s_image s) <> ri_tx_cnt_ack (s_device s)).
    { destruct I7 as [(J1 & J2 & J3)|(J0 & [(J1 & J2)|(J1 & J2 & J3)])]; try (exfalso; congruence). split; [exact J2|congruence]. }
    destruct E as (E1 & E2). exists (concat (waiting s)). rewrite I8. unfold untaken, in_flight, waiting. sfields.
    replace (ro_tx_cnt (s_image s) =? ri_tx_cnt_ack (s_device s)) with false by lia.
    rewrite E1, concat_app. cbn [concat]. rewrite app_nil_r, app_assoc. reflexivity.
Qed.

Definition composed (ws : list (list Z * nat)) (x : list Z) : Prop := exists parts, Forall2 part_of parts ws /\ x = concat parts.

Lemma composed_snoc ws w x y : composed ws x -> part_of y w -> composed (ws ++ [w]) (x ++ y).
Proof.
  intros (parts & H1 & ->) H2. exists (parts ++ [y]). split.
  - apply Forall2_app; [exact H1|]. constructor; [exact H2|constructor].
  - rewrite concat_app. cbn [concat]. rewrite app_nil_r. reflexivity.
Qed.

(** After some programs: what was taken, and what may still be taken of the last of them. *)
Definition handed_on (l : process_data_length) (ws : list (list Z * nat)) (s : system) : Prop :=
  left_tx s /\ (length (ro_data (s_register s)) <= payload_size l)%nat /\ composed ws (s_taken s) /\
  (reg s <> ack s -> composed ws (s_taken s ++ ro_data (s_register s))).

Lemma handed_start l s : start l s -> handed_on l [] s.
Proof.
  intros H. destruct (start_left l s H) as (L & _). split; [exact L|].
  destruct H as (H1 & (D1 & D2) & (E1 & E2 & E3) & H2 & H3 & H4 & H5 & H6 & H7 & H8 & H9 & H10 & H11).
  split; [exact E3|]. rewrite H8. split; [exists []; split; [constructor|reflexivity]|].
  intros E. exfalso. apply E. unfold reg, ack. auto.
Qed.

(** What arrives late belongs to the programs before. *)
Lemma handed_endures l ws s : handed_on l ws s -> exists old, endures l 0 (s_taken s) old (restart l s) /\
  forall late, late = [] \/ late = old -> composed ws (s_taken s ++ late).
Proof.
  intros (H1 & Rg & H2 & H3). destruct (Z.eq_dec (reg s) (ack s)) as [E|E].
  - exists []. split.
    + destruct (restart_endures l s H1 Rg) as [(D & _)|(la & se & _ & T & I)].
      * exfalso. pose proof (dr_next _ _ _ _ D) as K. pose proof (dr_lat _ _ _ _ D) as K2.
        unfold restart, lat, tx, reg, ack in *. sfields. rewrite <- E in *. exact (succ4_ne _ K2 K).
      * cbn [restart s_taken] in T. rewrite <- (app_nil_r (s_taken s)) in T at 1. apply app_inv_head in T.
        symmetry in T. apply app_eq_nil in T. destruct T as (_ & ->).
        right. exists [], []. cbn [app restart s_taken]. rewrite app_nil_r. auto.
    + intros late Hla. assert (late = []) as -> by (destruct Hla; assumption). rewrite app_nil_r. exact H2.
  - exists (ro_data (s_register s)). split; [apply restart_endures; assumption|].
    intros late [-> | ->]; [rewrite app_nil_r; exact H2|exact (H3 E)].
Qed.

Lemma handed_life prof l ws s s' n : handed_on l ws s -> drun prof (restart l s) s' n -> handed_on l (ws ++ [(s_written s', n)]) s'.
Proof.
  intros Ha H. destruct (handed_endures l ws s Ha) as (old & Q & Hlate).
  pose proof (endures_run _ _ _ _ _ _ _ H 0%nat Q) as Q'. rewrite Nat.add_0_r in Q'.
  destruct (endures_left _ _ _ _ _ Q') as (L & Rg). split; [exact L|]. split; [exact Rg|].
  destruct (endures_rest _ _ _ _ _ Q') as (late & sent & L1 & T & P & R). rewrite T, app_assoc.
  split; [apply composed_snoc; auto|]. intros E. destruct (R E) as [(-> & -> & X)|X].
  - rewrite !app_nil_r. rewrite <- (app_nil_r (_ ++ ro_data _)). apply composed_snoc; [auto|apply nil_part].
    destruct X as [-> | ->]; auto.
  - rewrite <- app_assoc. apply composed_snoc; auto.
Qed.

(** *** The plant *)

Lemma unsplit_part l ooff (written : nat -> bool) image register mixed : ooff mod 16 = 0 -> mixture written image register mixed ->
  unsplit l ooff (PartlyWritten written) ->
  out_part l ooff mixed = out_part l ooff (if written (header ooff) then image else register).
Proof.
  intros Ho M U. apply nth_error_eq. intros k. rewrite (mixed_nth _ _ _ _ _ _ _ Ho M).
  destruct (Nat.lt_ge_cases k (message_size l)) as [G|G].
  - rewrite (U (k / 2)%nat (message_half _ _ G)). reflexivity.
  - assert (N : forall x, nth_error (out_part l ooff x) k = None)
      by (intros x; apply nth_error_None; pose proof (out_part_le l ooff x); lia).
    rewrite !N. reflexivity.
Qed.

Lemma torn_drun prof i l ioff ooff t es t' n : torn_runs prof i l ioff ooff t es t' n -> Forall (unsplit l ooff) es ->
  forall s, alike_plant i l ioff ooff t s -> exists s', drun prof s s' n /\ alike_plant i l ioff ooff t' s'.
Proof.
  induction 1 as [t|t e t1 es t2 n H1 H2 IH]; intros Hf s Ha; [exists s; split; [constructor|exact Ha]|].
  inversion Hf as [|? ? Hu Hf']; subst. destruct H1 as [t e t' H|t written register M].
  - destruct (faulty_simulates _ _ _ _ _ _ _ _ _ Ha H) as (s1 & A1 & [(Ne & evs & G)|(Ee & -> & Hk)]).
    + destruct (IH Hf' s1 A1) as (s2 & D & A2). exists s2. split; [|exact A2].
      replace (forgotten l ooff t e) with 0%nat by (destruct e; [reflexivity..|congruence]).
      exact (drun_schedule _ _ _ _ _ _ G D).
    + destruct (IH Hf' (back s) A1) as (s2 & D & A2). exists s2. split; [|exact A2]. apply D_back; assumption.
  - assert (Ho : ooff mod 16 = 0) by (destruct (ap_at _ _ _ _ _ _ Ha) as (_ & _ & Ho & _); exact Ho).
    pose proof (unsplit_part l ooff written _ _ _ Ho M Hu) as E. destruct (written (header ooff)).
    + destruct (IH Hf' (mk_system (s_proc s) (s_latch s) (s_image s) (s_image s) (s_device s)
          (s_written s) (s_taken s) (s_offered s) (s_delivered s) (s_cycles s))) as (s2 & D & A2).
      { destruct Ha; split; plain; auto. rewrite E. assumption. }
      exists s2. split; [|exact A2]. cbn [Nat.add]. apply (D_run prof s HostWrite _ _ _ eq_refl D).
    + apply (IH Hf' s). destruct Ha; split; plain; auto. rewrite E. assumption.
Qed.

Lemma lives_handed prof i l ioff ooff t ws t' : torn_lives prof i l ioff ooff t ws t' -> forall ws0 s,
  alike_plant i l ioff ooff t s -> handed_on l ws0 s ->
  exists s', alike_plant i l ioff ooff t' s' /\ handed_on l (ws0 ++ ws) s'.
Proof.
  induction 1 as [t|t t1 es t2 n ws t3 H1 H2 Hf _ IH]; intros ws0 s Ha Hh.
  - exists s. rewrite app_nil_r. auto.
  - pose proof (restart_alike _ _ _ _ _ _ _ Ha H1) as Ar.
    destruct (torn_drun _ _ _ _ _ _ _ _ _ H2 Hf _ Ar) as (s2 & D & A2).
    destruct (IH (ws0 ++ [(t_written t2, n)]) s2 A2) as (s' & A' & Hh').
    { rewrite (ap_written _ _ _ _ _ _ A2). exact (handed_life _ _ _ _ _ _ Hh D). }
    exists s'. split; [exact A'|]. rewrite <- app_assoc in Hh'. exact Hh'.
Qed.

Lemma C103_transmission_all : forall prof i l ioff ooff t0 ws t, plant_start i l ioff ooff t0 ->
  torn_lives prof i l ioff ooff t0 ws t ->
  exists parts, Forall2 part_of parts ws /\ t_taken t = concat parts.
Proof.
  intros prof i l ioff ooff t0 ws t H0 H. destruct (plant_starts _ _ _ _ _ H0) as (s0 & S0 & A0).
  destruct (lives_handed _ _ _ _ _ _ _ _ H [] s0 A0 (handed_start _ _ S0)) as (s & A & _ & _ & C & _).
  rewrite (ap_taken _ _ _ _ _ _ A). exact C.
Qed.

(** *** Progress *)

Lemma schedule_wr prof es : forall s s' w, schedule prof s es = Ok s' -> exists w', schedule prof (wr s w) es = Ok (wr s' w').
Proof.
  induction es as [|e es IH]; intros s s' w G; cbn [schedule] in *; [apply Ok_inj in G; subst; eauto|].
  apply bind_ok in G. destruct G as (s1 & G1 & G). destruct (happen_wr _ _ _ _ w G1) as (_ & ->). cbn [bind]. eauto.
Qed.

Lemma settled_progress prof l rounds es s s2 : inv_tx l s -> (2 <= s_cycles s)%nat -> Forall fair_round rounds ->
  schedule prof s (es ++ concat rounds) = Ok s2 -> forall u new, untaken s = u ++ new -> (length u <= length rounds)%nat ->
  exists rest, s_taken s2 = s_taken s ++ concat u ++ rest.
Proof.
  intros Hi Hc Hf H u new Hu Hlen.
  destruct (run_tx prof l es _ Hi) as (sa & pa & na & Ra & Ia & Ua & Wa & _ & Ka & Ca & _).
  destruct (run_rounds prof l rounds sa Ia ltac:(lia) Hf) as (sb & pb & nb & Rb & Ib & Ub & Wb & Kb & Lb).
  rewrite schedule_app, Ra in H. cbn [bind] in H. rewrite Rb in H. apply Ok_inj in H. subst sb.
  destruct (prefix_concat u (new ++ na ++ nb) (pa ++ pb) (untaken s2)) as (rest & Hr).
  - rewrite <- app_assoc, <- Ub, app_assoc, <- Hu, app_assoc, Ua, <- app_assoc. reflexivity.
  - rewrite app_length. destruct Lb as [Lb|Lb]; [lia|].
    apply (f_equal (@length (list Z))) in Ua. rewrite Hu, !app_length in Ua. lia.
  - exists (concat rest). rewrite Kb, Ka, <- app_assoc, <- concat_app, Hr, concat_app. reflexivity.
Qed.

Lemma endures_progress prof l n t0 old s rounds s2 : endures l n t0 old s -> (2 <= s_cycles s)%nat -> Forall fair_round rounds ->
  (length (in_flight s) + length (waiting s) + 2 <= length rounds)%nat -> schedule prof s (concat rounds) = Ok s2 ->
  exists late kept rest, (late = [] \/ late = old) /\ s_taken s2 = t0 ++ late ++ kept ++ rest /\
    subsequence kept (s_written s) /\ (length (s_written s) <= length kept + n * payload_size l)%nat.
Proof.
  intros Q Hc Hf Hn G. destruct Q as [(D & B)|(late & sent & L & T & F)].
  - destruct rounds as [|r1 [|r2 rounds]]; cbn [length] in Hn; try lia.
    inversion Hf as [|? ? F1 Hf1]; subst. inversion Hf1 as [|? ? F2 Hf2]; subst. cbn [concat] in G.
    destruct (stays_or_settles prof l _ _ (r1 ++ r2) s D) as [St|(es1 & es2 & sm & late & new & E & Rm & L1 & L2 & L3 & L4 & L5)].
    + exfalso. rewrite <- (app_nil_r r2) in St. exact (two_rounds _ _ _ _ _ _ _ _ F1 F2 St).
    + rewrite app_assoc, E, <- app_assoc, schedule_app, Rm in G. cbn [bind] in G.
      destruct (schedule_tk prof _ _ _ G) as (d & Ed & Hd). specialize (Hd []). cbn [app] in Hd.
      destruct (settled_progress prof l rounds es2 _ _ L3 ltac:(cbn; lia) Hf2 Hd (waiting s) new L4 ltac:(lia)) as (rest & Er).
      cbn [tk s_taken app] in Er. exists late, (s_written s), rest. split; [exact L1|].
      split; [rewrite Ed, L2, Er, (dr_written _ _ _ _ D), <- app_assoc; reflexivity|]. split; [apply sub_refl|lia].
  - pose proof (fault_accounted _ _ _ F) as (S1 & S2). destruct F as [(w & Hi & _) _ _ _].
    destruct (schedule_tk prof _ _ _ G) as (d & Ed & Hd). specialize (Hd sent).
    destruct (schedule_wr prof _ _ _ w Hd) as (w' & Gw).
    destruct (settled_progress prof l rounds [] _ _ Hi Hc Hf Gw (untaken s) []) as (rest & Er).
    { rewrite app_nil_r. reflexivity. }
    { unfold untaken. rewrite app_length. lia. }
    cbn [wr tk s_taken] in Er. apply app_inv_head in Er.
    change (in_flight (tk s sent)) with (in_flight s) in *. change (s_proc (tk s sent)) with (s_proc s) in *.
    change (s_written (tk s sent)) with (s_written s) in *. change (s_taken (tk s sent)) with sent in *.
    exists late, (sent ++ concat (in_flight s) ++ queued (s_proc s)), rest. split; [exact L|]. split; [|auto].
    rewrite Ed, T, Er. unfold untaken, queued, waiting. rewrite concat_app, <- !app_assoc. reflexivity.
Qed.

Lemma C103_progress_all : forall prof i l ioff ooff t0 ws t t' es t1 n rounds t2, plant_start i l ioff ooff t0 ->
  torn_lives prof i l ioff ooff t0 ws t -> plant_restart i l ioff ooff t t' ->
  torn_runs prof i l ioff ooff t' es t1 n -> Forall (unsplit l ooff) es -> (2 <= t_cycles t1)%nat ->
  Forall plant_round rounds -> (outstanding i l ooff t1 + 2 <= length rounds)%nat ->
  plant_runs prof i l ioff ooff t1 (concat rounds) t2 ->
  exists parts kept rest, Forall2 part_of parts ws /\ t_taken t2 = concat parts ++ kept ++ rest /\
    subsequence kept (t_written t1) /\ (length (t_written t1) <= length kept + n * payload_size l)%nat /\
    (n = 0%nat -> kept = t_written t1).
Proof.
  intros prof i l ioff ooff t0 ws t t' es t1 n rounds t2 H0 H Hr H1 Hu Hc Hf Hn H2.
  destruct (plant_starts _ _ _ _ _ H0) as (s0 & S0 & A0).
  destruct (lives_handed _ _ _ _ _ _ _ _ H [] s0 A0 (handed_start _ _ S0)) as (s & A & Hh). cbn [app] in Hh.
  pose proof (restart_alike _ _ _ _ _ _ _ A Hr) as Ar.
  destruct (torn_drun _ _ _ _ _ _ _ _ _ H1 Hu _ Ar) as (s1 & D & A1).
  destruct (handed_endures _ _ _ Hh) as (old & Q & Hlate).
  pose proof (endures_run _ _ _ _ _ _ _ D 0%nat Q) as Q1. rewrite Nat.add_0_r in Q1.
  destruct (plant_rounds_simulate _ _ _ _ _ _ _ _ _ A1 Hf H2) as (ev2 & s2 & L2 & F2 & G2 & A2).
  destruct (alike_on_its_way _ _ _ _ _ _ A1) as (_ & _ & _ & En). rewrite En in Hn.
  assert (Hc1 : (2 <= s_cycles s1)%nat) by (rewrite <- (ap_cycles _ _ _ _ _ _ A1); exact Hc).
  destruct (endures_progress prof l n _ old s1 ev2 s2 Q1 Hc1 F2 ltac:(lia) G2) as (late & kept & rest & L & T & K1 & K2).
  destruct (Hlate late L) as (parts & P1 & P2). exists parts, kept, rest. split; [exact P1|].
  rewrite (ap_taken _ _ _ _ _ _ A2), (ap_written _ _ _ _ _ _ A1). split; [rewrite T, <- P2, <- app_assoc; reflexivity|].
  split; [exact K1|]. split; [exact K2|]. intros ->. apply sub_equal; [exact K1|lia].
Qed.

(** *** Reception *)

Lemma drun_frx_init prof r0 s s' n : drun prof s s' n -> forall lost a g k m,
  p_init_state (s_proc s) = stage (s_cycles s) -> (lost <= length (s_offered s))%nat -> inv_frx lost r0 s a g k m ->
  p_init_state (s_proc s') = stage (s_cycles s') /\
  exists lost' a' g' k' m', (lost' <= length (s_offered s'))%nat /\ inv_frx lost' r0 s' a' g' k' m'.
Proof.
  induction 1 as [s|s e s1 s2 n H1 H2 IH|s s2 j n Hj H2 IH]; intros lost a g k m Hst Hl Hi.
  - split; [exact Hst|]. exists lost, a, g, k, m. auto.
  - assert (G : schedule prof s [e] = Ok s1) by (cbn [schedule]; rewrite H1; reflexivity).
    destruct (run_frx_init _ _ _ _ _ _ _ _ _ _ Hst Hl Hi G) as (Hst1 & lost1 & a1 & g1 & k1 & m1 & Hl1 & Hi1). eauto.
  - exact (IH lost a a k m Hst Hl (back_frx _ _ _ _ _ _ _ Hi)).
Qed.

Lemma drun_frx_done prof r0 s s' n : drun prof s s' n -> forall lost a g k m,
  p_init_state (s_proc s) = stage (s_cycles s) -> (2 <= s_cycles s)%nat -> inv_frx lost r0 s a g k m ->
  p_init_state (s_proc s') = stage (s_cycles s') /\ (2 <= s_cycles s')%nat /\
  exists a' g' k' m', inv_frx lost r0 s' a' g' k' m' /\ (k <= k')%nat /\ (m <= m')%nat.
Proof.
  induction 1 as [s|s e s1 s2 n H1 H2 IH|s s2 j n Hj H2 IH]; intros lost a g k m Hst Hc Hi.
  - split; [exact Hst|]. split; [exact Hc|]. exists a, g, k, m. auto.
  - assert (G : schedule prof s [e] = Ok s1) by (cbn [schedule]; rewrite H1; reflexivity).
    destruct (run_frx_done _ _ _ _ _ _ _ _ _ _ Hst Hc Hi G) as (Hst1 & Hc1 & a1 & g1 & k1 & m1 & Hi1 & L1 & L2).
    destruct (IH _ _ _ _ _ Hst1 Hc1 Hi1) as (S & C & a2 & g2 & k2 & m2 & Hi2 & L3 & L4).
    split; [exact S|]. split; [exact C|]. exists a2, g2, k2, m2. split; [exact Hi2|lia].
  - exact (IH lost a a k m Hst Hc (back_frx _ _ _ _ _ _ _ Hi)).
Qed.

Lemma frx_left lost r0 s a g k m : inv_frx lost r0 s a g k m -> left_rx s.
Proof.
  intros [(O0 & O1 & O2) Erg _ _ Edv _ Pdv _ _]. unfold left_rx, counter, succ4. rewrite Erg, Edv. split; [lia|]. split; [lia|].
  assert (Hc : length (s_offered s) = a \/ length (s_offered s) = S a) by lia.
  destruct Hc as [-> | Hc]; [left; reflexivity|right].
  unfold presents in Pdv. destruct (ri_data_available (s_device s)); [|lia]. split; [reflexivity|]. rewrite Hc. lia.
Qed.

Lemma ready_frx s : ready_rx s -> p_init_state (s_proc s) = stage (s_cycles s) /\ exists r0 a k m, inv_frx 0 r0 s a k k m.
Proof.
  intros (Hst & r0 & a & k & m & [(O1 & O2) Erg Eim Elt Edv Plt Pdv Rin Rrc]). split; [exact Hst|].
  exists r0, a, k, m. constructor; auto. lia.
Qed.

Lemma lives_rx prof i l ioff ooff t ws t' : torn_lives prof i l ioff ooff t ws t' -> forall s,
  alike_plant i l ioff ooff t s -> left_rx s -> exists s', alike_plant i l ioff ooff t' s' /\ left_rx s'.
Proof.
  induction 1 as [t|t t1 es t2 n ws t3 H1 H2 Hf _ IH]; intros s Ha Hl; [eauto|].
  pose proof (restart_alike _ _ _ _ _ _ _ Ha H1) as Ar.
  destruct (torn_drun _ _ _ _ _ _ _ _ _ H2 Hf _ Ar) as (s2 & D & A2).
  destruct (ready_frx _ (restart_ready l s Hl)) as (Hst & r0 & a & k & m & Hi).
  destruct (drun_frx_init _ r0 _ _ _ D 0%nat _ _ _ _ Hst ltac:(lia) Hi) as (_ & lost & a' & g' & k' & m' & _ & Hi').
  exact (IH s2 A2 (frx_left _ _ _ _ _ _ _ Hi')).
Qed.

(** The last of several programs, after its two first cycles. *)
Lemma last_rx prof i l ioff ooff t0 ws t t' es t1 n : plant_start i l ioff ooff t0 ->
  torn_lives prof i l ioff ooff t0 ws t -> plant_restart i l ioff ooff t t' ->
  torn_runs prof i l ioff ooff t' es t1 n -> Forall (unsplit l ooff) es ->
  exists s1, alike_plant i l ioff ooff t1 s1 /\ p_init_state (s_proc s1) = stage (s_cycles s1) /\
    exists lost r0 a g k m, (lost <= length (s_offered s1))%nat /\ inv_frx lost r0 s1 a g k m.
Proof.
  intros H0 H Hr H1 Hf. destruct (plant_starts _ _ _ _ _ H0) as (s0 & S0 & A0).
  assert (L0 : left_rx s0) by exact (frx_left _ _ _ _ _ _ _ (start_frx _ _ S0)).
  destruct (lives_rx _ _ _ _ _ _ _ _ H s0 A0 L0) as (s & A & Hl).
  pose proof (restart_alike _ _ _ _ _ _ _ A Hr) as Ar.
  destruct (torn_drun _ _ _ _ _ _ _ _ _ H1 Hf _ Ar) as (s1 & D & A1).
  destruct (ready_frx _ (restart_ready l s Hl)) as (Hst & r0 & a & k & m & Hi).
  destruct (drun_frx_init _ r0 _ _ _ D 0%nat _ _ _ _ Hst ltac:(lia) Hi) as (Hst1 & lost & a' & g' & k' & m' & Hl' & Hi').
  exists s1. split; [exact A1|]. split; [exact Hst1|]. exists lost, r0, a', g', k', m'. auto.
Qed.

Lemma C103_reception_all : forall prof i l ioff ooff t0 ws t t' es1 t1 n1 es2 t2 n2, plant_start i l ioff ooff t0 ->
  torn_lives prof i l ioff ooff t0 ws t -> plant_restart i l ioff ooff t t' ->
  torn_runs prof i l ioff ooff t' es1 t1 n1 -> (2 <= t_cycles t1)%nat -> torn_runs prof i l ioff ooff t1 es2 t2 n2 ->
  Forall (unsplit l ooff) (es1 ++ es2) ->
  exists lost fetched,
    (lost <= length (t_offered t1))%nat /\
    (lost + fetched <= length (t_offered t2) <= lost + fetched + 1)%nat /\
    t_delivered t2 ++ readable_in (t_coupler t2) i = concat (firstn fetched (skipn lost (t_offered t2))).
Proof.
  intros prof i l ioff ooff t0 ws t t' es1 t1 n1 es2 t2 n2 H0 H Hr H1 Hc H2 Hf. apply Forall_app in Hf. destruct Hf as (Hf1 & Hf2).
  destruct (last_rx _ _ _ _ _ _ _ _ _ _ _ _ H0 H Hr H1 Hf1) as (s1 & A1 & Hst1 & lost & r0 & a & g & k & m & Hl & Hi).
  assert (Hc1 : (2 <= s_cycles s1)%nat) by (destruct A1; congruence).
  destruct (torn_drun _ _ _ _ _ _ _ _ _ H2 Hf2 _ A1) as (s2 & D & A2).
  destruct (drun_frx_done _ _ _ _ _ D _ _ _ _ _ Hst1 Hc1 Hi) as (_ & Hc2 & a2 & g2 & k2 & m2 & Hi2 & _).
  destruct (frx_accounted _ _ _ _ _ _ _ Hi2 Hc2) as (lost' & f & F1 & F2 & F3 & F4).
  exists lost', f. destruct (alike_on_its_way _ _ _ _ _ _ A2) as (_ & _ & -> & _). unfold received in *.
  destruct A1 as [_ _ _ _ _ _ _ _ _ -> _ _]. destruct A2 as [_ _ _ _ _ _ _ _ _ -> -> _]. repeat split; auto; lia.
Qed.

Lemma C103_reception_progress_all : forall prof i l ioff ooff t0 ws t t' es0 ti n es1 t1 n1 a input b c t2 n2,
  plant_start i l ioff ooff t0 -> torn_lives prof i l ioff ooff t0 ws t -> plant_restart i l ioff ooff t t' ->
  torn_runs prof i l ioff ooff t' es0 ti n -> (2 <= t_cycles ti)%nat -> torn_runs prof i l ioff ooff ti es1 t1 n1 ->
  torn_runs prof i l ioff ooff t1 (a ++ [Disturbed (Undisturbed (PInput input))] ++ b ++ [Disturbed (Undisturbed PCycle)] ++ c) t2 n2 ->
  Forall (unsplit l ooff) (es0 ++ es1 ++ a ++ b ++ c) ->
  exists lost fetched,
    (lost <= length (t_offered ti))%nat /\
    (length (t_offered t1) <= lost + fetched <= length (t_offered t2))%nat /\
    t_delivered t2 ++ readable_in (t_coupler t2) i = concat (firstn fetched (skipn lost (t_offered t2))).
Proof.
  intros prof i l ioff ooff t0 ws t t' es0 ti n es1 t1 n1 a input b c t2 n2 H0 H Hr Hi Hc H1 H2 Hf.
  do 4 (apply Forall_app in Hf; let X := fresh "U" in destruct Hf as (X & Hf)).
  destruct (last_rx _ _ _ _ _ _ _ _ _ _ _ _ H0 H Hr Hi U) as (si & Ai & Hsti & lost & r0 & ai & gi & ki & mi & Hl & Ii).
  assert (Hci : (2 <= s_cycles si)%nat) by (destruct Ai; congruence).
  destruct (torn_drun _ _ _ _ _ _ _ _ _ H1 U0 _ Ai) as (s1 & D1 & A1).
  destruct (drun_frx_done _ _ _ _ _ D1 _ _ _ _ _ Hsti Hci Ii) as (Hst1 & Hc1 & a1 & g1 & k1 & m1 & I1 & _ & _).
  apply torn_runs_app in H2. destruct H2 as (u1 & x1 & y1 & X1 & H2).
  pose proof (torn_offered _ _ _ _ _ _ _ _ _ X1) as O1.
  destruct (torn_drun _ _ _ _ _ _ _ _ _ X1 U1 _ A1) as (v1 & E1 & B1).
  destruct (drun_frx_done _ _ _ _ _ E1 _ _ _ _ _ Hst1 Hc1 I1) as (St1 & C1 & a2 & g2 & k2 & m2 & J1 & _ & _).
  cbn [app] in H2. inversion H2 as [|? ? u2 ? ? ? X2 H3]; subst. clear H2. apply torn_plain in X2.
  destruct (plant_simulates _ _ _ _ _ _ _ _ _ B1 X2) as (e2 & v2 & G2 & B2 & ->).
  cbn [schedule] in G2. apply bind_ok in G2. destruct G2 as (v2' & G2 & G2'). apply Ok_inj in G2'. subst v2'.
  destruct (step_frx _ _ _ _ _ _ _ _ _ _ St1 J1 G2) as (St2 & a3 & g3 & k3 & m3 & J2 & _ & _ & M3 & _).
  specialize (M3 eq_refl). replace (Nat.ltb (s_cycles v1) 2) with false in J2 by lia.
  pose proof (happen_mono _ _ _ _ G2) as (C2 & _).
  apply torn_runs_app in H3. destruct H3 as (u3 & x3 & y3 & X3 & H3).
  destruct (torn_drun _ _ _ _ _ _ _ _ _ X3 U2 _ B2) as (v3 & E3 & B3).
  destruct (drun_frx_done _ _ _ _ _ E3 _ _ _ _ _ St2 ltac:(lia) J2) as (St3 & C3 & a4 & g4 & k4 & m4 & J3 & _ & M4).
  cbn [app] in H3. inversion H3 as [|? ? u4 ? ? ? X4 H4]; subst. clear H3. apply torn_plain in X4.
  destruct (plant_simulates _ _ _ _ _ _ _ _ _ B3 X4) as (e4 & v4 & G4 & B4 & (w & ->)).
  rewrite schedule_app in G4. apply bind_ok in G4. destruct G4 as (v4' & G4 & G5).
  destruct (run_frx_done _ _ _ _ _ _ _ _ _ _ St3 C3 J3 G4) as (St4 & C4 & a5 & g5 & k5 & m5 & J4 & _ & M5).
  cbn [schedule] in G5. apply bind_ok in G5. destruct G5 as (v4'' & G5 & G5'). apply Ok_inj in G5'. subst v4''.
  destruct (step_frx _ _ _ _ _ _ _ _ _ _ St4 J4 G5) as (St5 & a6 & g6 & k6 & m6 & J5 & _ & _ & _ & K6).
  specialize (K6 eq_refl). replace (Nat.ltb (s_cycles v4') 2) with false in J5 by lia.
  pose proof (happen_mono _ _ _ _ G5) as (C5 & _).
  destruct (torn_drun _ _ _ _ _ _ _ _ _ H4 Hf _ B4) as (s2 & E5 & A2).
  destruct (drun_frx_done _ _ _ _ _ E5 _ _ _ _ _ St5 ltac:(lia) J5) as (St6 & C6 & a7 & g7 & k7 & m7 & J6 & K7 & _).
  destruct (frx_accounted _ _ _ _ _ _ _ J6 C6) as (lost' & f & F1 & F2 & F3 & F4).
  exists lost', f. destruct (alike_on_its_way _ _ _ _ _ _ A2) as (_ & _ & -> & _). unfold received in *.
  destruct Ai as [_ _ _ _ _ _ _ _ _ Eoi _ _]. destruct B1 as [_ _ _ _ _ _ _ _ _ Eo1 _ _].
  destruct A2 as [_ _ _ _ _ _ _ _ _ Eo2 Ed2 _]. rewrite Eo1 in O1. rewrite Eoi, Eo2, Ed2.
  repeat split; auto; lia.
Qed.
