(** Proofs about the dialogue with a serial module that answers in any way whatsoever (C84). *)
From Coq Require Import ZArith List Bool Lia ZifyBool ZifyNat.
From Verif Require Import Base F32 Types Lib Com Fbc Facts SpecCodec SpecSerial SpecCoupler SpecImage SpecSystem SpecShown SpecProtocol
  ProofsSerial ProofsLoop ProofsCycle ProofsCoupler ProofsSystem ProofsGlitch ProofsShown.
Import ListNotations.
Local Open Scope Z_scope.

Definition segments_ok (p : processor) : Prop := Forall (fun c => c <> []) (p_out_data p).

Lemma segmented_nonempty n b segs : (0 < n)%nat -> segmented n b segs -> Forall (fun c => c <> []) segs.
Proof.
  intros Hn H. induction H as [|c Hc|c rest segs Hc Hr _ IH]; constructor; try assumption; try constructor; intros ->; cbn [length] in *; lia.
Qed.

Lemma write_segments p b : segments_ok p -> segments_ok (fst (processor_write p b)).
Proof.
  unfold segments_ok, processor_write. cbn [fst p_out_data]. intros H. apply Forall_app. split; [exact H|].
  assert (Hp : (0 < user_data_len (p_process_data_len p))%nat) by (rewrite user_data_len_payload; apply payload_pos).
  exact (segmented_nonempty _ _ _ Hp (chunks_spec _ b Hp)).
Qed.

Lemma fed_same p r : p_init_state (fed p r) = p_init_state p /\ p_last_rx_cnt (fed p r) = p_last_rx_cnt p /\ p_in_data (fed p r) = p_in_data p /\
  (segments_ok p -> segments_ok (fed p r)).
Proof. unfold fed. destruct r as [[]|]; repeat (split; [reflexivity|]); try (intros H; exact H). apply write_segments. Qed.

Lemma queued_nil p : segments_ok p -> queued p = [] -> p_out_data p = [].
Proof. unfold segments_ok, queued. destruct (p_out_data p) as [|s t]; [reflexivity|]. intros H E. apply Forall_inv in H. cbn [concat] in E. destruct s; [contradiction|discriminate]. Qed.

(** What is known of the processor of the module. *)
Record talk_ok (i : nat) (t : talk) : Prop := {
  t_ok : coupler_ok (k_coupler t);
  t_proc : forall l ch, nth_error (c_modules (k_coupler t)) i = Some (MCOM l ch) -> exists p, serial (k_coupler t) i = Some p /\
    p_init_state p = stage (k_cycles t) /\ segments_ok p /\
    k_handed t = k_sent t ++ queued p /\ k_got t = k_read t ++ buffered p /\
    ((2 <= k_cycles t)%nat -> p_last_rx_cnt p = match k_seen t with Some z => z | None => 4 end) /\
    ((k_cycles t < 2)%nat -> k_seen t = None) }.

Lemma fresh_none n seen rin : (n < 2)%nat -> fresh n seen rin = false.
Proof. intros H. unfold fresh. destruct n as [|[|n]]; [reflexivity|reflexivity|lia]. Qed.

Lemma talk_cycle prof i l ioff ooff c n handed sent got read seen input output c' image rin rout rs :
  talk_ok i (mk_talk c n handed sent got read seen) -> serial_at c i l ioff ooff -> cycle prof c input output c' (Ok image) ->
  rs_in_from_bytes (in_part l ioff input) = Ok rin -> rs_out_from_bytes (out_part l ooff output) = Ok rout ->
  rs_out_from_bytes (out_part l ooff image) = Ok rs ->
  handshake l n (waiting_in c i ++ pending c i) (waiting_in c' i) rin rout rs /\
  talk_ok i (mk_talk c' (S n) (handed ++ pending c i) (sent ++ if ro_tx_cnt rs =? ro_tx_cnt rout then [] else ro_data rs)
         (got ++ if fresh n seen rin then ri_data rin else []) read (if fresh n seen rin then Some (ri_rx_cnt rin) else seen)).
Proof.
  intros [Hok Hp] Hat Hc Ei Eo Er. cbn [k_coupler k_cycles k_handed k_sent k_got k_read k_seen] in *.
  destruct (serial_cycle _ _ _ _ _ _ _ _ _ _ Hok Hc Hat) as (p & p' & rin' & rout' & rs' & S1 & S2 & S3 & Gi & S4 & Go & S5 & Gs & _ & S7 & _).
  rewrite Ei in S3. apply Ok_inj in S3. subst rin'. rewrite Eo in S4. apply Ok_inj in S4. subst rout'. rewrite Er in S7. apply Ok_inj in S7. subst rs'.
  pose proof Hat as ((ch & Hm & _) & _). destruct (Hp _ _ Hm) as (q & Q1 & Q2 & Q3 & Q4 & Q5 & Q6 & Q7). rewrite S1 in Q1. apply Some_inj in Q1. subst q.
  destruct (cycle_static _ _ _ _ _ _ Hc) as (M1 & M2).
  destruct (fed_same p (requested c (mk_address i 0))) as (F1 & F2 & F3 & F4). specialize (F4 Q3).
  assert (Hk : p_init_state (fed p (requested c (mk_address i 0))) = stage n) by congruence.
  assert (EQ : waiting_in c i ++ pending c i = queued (fed p (requested c (mk_address i 0)))). { unfold waiting_in. rewrite S1. symmetry. apply fed_queued. }
  assert (EW : waiting_in c' i = queued p') by (unfold waiting_in; rewrite S2; reflexivity).
  pose proof (cycle_waiting _ _ _ _ _ _ _ _ _ _ Hok Hc Hat) as HB. unfold not_yet_shown in HB. rewrite Eo, Er in HB.
  destruct (next_cases _ _ _ _ _ _ _ Hk S5) as (N1 & _ & N2 & N3 & Lo & Hi).
  assert (HS : segments_ok p').
  { destruct (Nat.ltb_spec n 2) as [Hlt|Hge].
    - destruct (Lo Hlt) as (_ & _ & _ & _ & _ & E6 & _). unfold segments_ok. rewrite E6. exact F4.
    - destruct (Hi Hge) as (_ & _ & _ & [(E6 & _)|(x & E6 & _)] & _); unfold segments_ok in *.
      + rewrite E6. exact F4.
      + rewrite E6 in F4. exact (Forall_inv_tail F4). }
  split.
  - unfold handshake. split; [exact N2|]. split; [exact N3|]. rewrite EQ, EW. destruct n as [|[|n]].
    + destruct (Lo ltac:(lia)) as (E1 & E2 & E3 & E4 & E5 & E6 & _). split; [unfold flags; rewrite E1, E2, E3; reflexivity|].
      split; [exact E5|]. split; [exact E4|]. unfold queued. rewrite E6. reflexivity.
    + destruct (Lo ltac:(lia)) as (E1 & E2 & E3 & E4 & E5 & E6 & _). split; [unfold flags; rewrite E1, E2, E3; reflexivity|].
      split; [exact E5|]. split; [exact E4|]. unfold queued. rewrite E6. reflexivity.
    + destruct (Hi ltac:(lia)) as (E1 & E2 & E3 & HQ & _). split; [unfold flags; rewrite E1, E2, E3; reflexivity|].
      destruct Gi as ((_ & Ga) & _). pose proof (inc_cnt_counter prof _ Ga) as HI.
      destruct HQ as [(E4 & E5 & E6 & E7)|(x & E4 & E5 & E6 & E7)].
      * split; [intros _; split; [exact E5|]; split; [exact E6|]; unfold queued; rewrite E4; reflexivity|].
        intros H1 H2. destruct E7 as [E7|E7]; [exfalso; apply H1; unfold queued; rewrite E7; reflexivity|].
        exfalso. apply H2. rewrite HI in E7. apply Ok_inj in E7. symmetry. exact E7.
      * assert (ET : ro_tx_cnt rs = succ4 (ri_tx_cnt_ack rin)) by (rewrite HI in E6; apply Ok_inj in E6; symmetry; exact E6).
        split.
        { intros [H|H]; [apply (queued_nil _ F4) in H; rewrite H in E4; discriminate|]. exfalso. apply E7. congruence. }
        intros _ _. split; [exact ET|]. destruct Gs as ((_ & _ & Gl) & _).
        split; [|unfold queued; rewrite E4, E5; reflexivity]. split; [|exact Gl].
        unfold segments_ok in F4. rewrite E4 in F4. apply Forall_inv in F4. rewrite E5. destruct x; [contradiction|cbn [length]; lia].
  - split; cbn [k_coupler k_cycles k_handed k_sent k_got k_read k_seen]; [exact (cycle_ok _ _ _ _ _ _ Hok Hc)|].
    intros l' ch' _. exists p'. split; [exact S2|]. split; [exact N1|]. split; [exact HS|].
    split. { rewrite Q4, <- !app_assoc. f_equal. unfold waiting_in in HB. rewrite S1, S2 in HB. exact HB. }
    destruct (Nat.ltb_spec n 2) as [Hlt|Hge].
    + destruct (Lo Hlt) as (_ & _ & _ & _ & _ & _ & E7 & E8). rewrite fresh_none by exact Hlt. rewrite app_nil_r.
      split; [rewrite Q5; unfold buffered; rewrite E7, F3; reflexivity|]. specialize (Q7 Hlt). subst seen. split; [|reflexivity].
      intros H2. apply E8. lia.
    + destruct (Hi Hge) as (_ & _ & _ & _ & HF & HN). specialize (Q6 Hge). rewrite F2, F3 in *.
      assert (HC : 0 <= ri_rx_cnt rin <= 3) by (destruct Gi as ((Gc & _) & _); exact Gc).
      assert (EF : fresh n seen rin = ri_data_available rin && negb (p_last_rx_cnt p =? ri_rx_cnt rin)).
      { unfold fresh. replace (Nat.leb 2 n) with true by lia. cbn [andb]. f_equal. rewrite Q6. destruct seen as [z|]; [reflexivity|]. lia. }
      rewrite EF. destruct (ri_data_available rin) eqn:Ea; cbn [andb].
      * destruct (Z.eqb_spec (p_last_rx_cnt p) (ri_rx_cnt rin)) as [E|E]; cbn [negb].
        -- destruct (HN (or_intror E)) as (D1 & D2). rewrite app_nil_r. split; [rewrite Q5; unfold buffered; rewrite D1; reflexivity|].
           split; [intros _; rewrite D2; exact Q6|intros Hlt; lia].
        -- destruct (HF eq_refl E) as (D1 & D2). split; [rewrite Q5; unfold buffered; rewrite D1, app_assoc; reflexivity|].
           split; [intros _; exact D2|intros Hlt; lia].
      * destruct (HN (or_introl eq_refl)) as (D1 & D2). rewrite app_nil_r. split; [rewrite Q5; unfold buffered; rewrite D1; reflexivity|].
        split; [intros _; rewrite D2; exact Q6|intros Hlt; lia].
Qed.

Lemma talks_ok prof i l ioff ooff t : talks prof i l ioff ooff t -> serial_at (k_coupler t) i l ioff ooff -> talk_ok i t.
Proof.
  intros H. induction H as [cfg c Hcfg Hnew|c n handed sent got read seen a v _ IH Hv|c n handed sent got read seen j size c' r _ IH Hr
    |c n handed sent got read seen j buf _ IH Hb|c n handed sent got read seen input output c' image rin rout rs _ IH Hc Ei Eo Er
    |c n handed sent got read seen input output c' _ IH Hc]; cbn [k_coupler] in *; intros Hat.
  - pose proof (new_ok _ _ Hcfg Hnew) as Hok. split; [exact Hok|]. cbn [k_coupler k_cycles k_handed k_sent k_got k_read k_seen].
    intros l' ch Hm. destruct (ok_com c Hok i _ _ Hm) as (p & Hp). exists p. pose proof (new_processor _ _ _ _ _ _ Hnew Hm Hp) as E.
    subst p. split; [exact Hp|]. split; [reflexivity|]. split; [constructor|]. split; [reflexivity|]. split; [reflexivity|]. split; [lia|reflexivity].
  - destruct (set_static c a v) as (_ & _ & M1 & M2 & M3 & _).
    specialize (IH (serial_at_static _ _ _ _ _ _ (eq_sym M1) (eq_sym M2) Hat)). destruct IH as [Hok Hp].
    split; cbn [k_coupler k_cycles k_handed k_sent k_got k_read k_seen] in *; [exact (set_ok _ _ _ Hok Hv)|].
    intros l' ch Hm. rewrite M1 in Hm. unfold serial. rewrite M3. exact (Hp _ _ Hm).
  - pose proof (read_static c j size) as (_ & _ & M1 & M2 & _ & _). rewrite Hr in M1, M2. cbn [fst] in M1, M2.
    specialize (IH (serial_at_static _ _ _ _ _ _ (eq_sym M1) (eq_sym M2) Hat)). destruct IH as [Hok Hp].
    split; cbn [k_coupler k_cycles k_handed k_sent k_got k_read k_seen] in *; [pose proof (read_ok c j size Hok) as R; rewrite Hr in R; exact R|].
    intros l' ch Hm. rewrite M1 in Hm. destruct (Hp _ _ Hm) as (p & Q1 & Q2 & Q3 & Q4 & Q5 & Q6 & Q7).
    unfold coupler_read in Hr. destruct (map_get Nat.eqb j (c_processors c)) as [p0|] eqn:E.
    2: { injection Hr as <- <-. exists p. rewrite app_nil_r. auto 10. }
    destruct (processor_read p0 size) as (p1 & b) eqn:Ep. injection Hr as <- <-. rewrite serial_with.
    destruct (Nat.eqb_spec j i) as [->|Hj]; [|exists p; rewrite app_nil_r; auto 10].
    unfold serial in Q1. rewrite E in Q1. apply Some_inj in Q1. subst p0. exists p1.
    pose proof (read_spec p size) as (R1 & R2 & R3 & R4 & R5 & _). rewrite Ep in *. cbn [fst snd] in *.
    split; [reflexivity|]. split; [congruence|]. split; [unfold segments_ok; rewrite R3; exact Q3|]. split; [unfold queued; rewrite R3; exact Q4|].
    split; [|rewrite R5; auto]. rewrite Q5, <- app_assoc. f_equal. unfold buffered. rewrite R1, R2, firstn_skipn. reflexivity.
  - destruct (write_static c j buf) as (_ & _ & M1 & M2 & _ & _).
    specialize (IH (serial_at_static _ _ _ _ _ _ (eq_sym M1) (eq_sym M2) Hat)). destruct IH as [Hok Hp].
    split; cbn [k_coupler k_cycles k_handed k_sent k_got k_read k_seen] in *; [exact (write_ok _ _ _ Hok Hb)|].
    intros l' ch Hm. rewrite M1 in Hm. destruct (Hp _ _ Hm) as (p & Q1 & Q2 & Q3 & Q4 & Q5 & Q6 & Q7).
    unfold coupler_write. destruct (map_get Nat.eqb j (c_processors c)) as [p0|] eqn:E.
    2: { cbn [fst]. exists p. destruct (Nat.eqb_spec j i) as [->|Hj]; [unfold serial in Q1; congruence|rewrite app_nil_r; auto 10]. }
    destruct (processor_write p0 buf) as (p1 & b) eqn:Ep. cbn [fst]. rewrite serial_with.
    destruct (Nat.eqb_spec j i) as [->|Hj]; [|exists p; rewrite app_nil_r; auto 10].
    unfold serial in Q1. rewrite E in Q1. apply Some_inj in Q1. subst p0. exists p1.
    pose proof (write_segments p buf Q3) as W1. pose proof (write_queued p buf) as W2. rewrite Ep in *. cbn [fst] in *.
    assert (W3 : p_init_state p1 = p_init_state p /\ p_in_data p1 = p_in_data p /\ p_last_rx_cnt p1 = p_last_rx_cnt p) by
      (unfold processor_write in Ep; injection Ep as <- _; auto). destruct W3 as (W3 & W4 & W5).
    split; [reflexivity|]. split; [congruence|]. split; [exact W1|]. split; [rewrite W2, Q4, app_assoc; reflexivity|].
    split; [unfold buffered; rewrite W4; exact Q5|]. rewrite W5. auto.
  - destruct (cycle_static _ _ _ _ _ _ Hc) as (M1 & M2). pose proof (serial_at_static _ _ _ _ _ _ (eq_sym M1) (eq_sym M2) Hat) as Hat0.
    exact (proj2 (talk_cycle prof i l ioff ooff c n handed sent got read seen input output c' image rin rout rs (IH Hat0) Hat0 Hc Ei Eo Er)).
  - destruct (cycle_static _ _ _ _ _ _ Hc) as (M1 & M2). specialize (IH (serial_at_static _ _ _ _ _ _ (eq_sym M1) (eq_sym M2) Hat)). destruct IH as [Hok Hp].
    cbn [k_coupler k_cycles k_handed k_sent k_got k_read k_seen] in *. 
    pose proof (cycle_ok _ _ _ _ _ _ Hok Hc) as Hok'. destruct (short_cycle _ _ _ _ _ Hok Hc) as (ins & ->).
    split; cbn [k_coupler k_cycles k_handed k_sent k_got k_read k_seen]; [exact Hok'|]. exact Hp.
Qed.

Lemma C84_streams_all : forall prof i l ioff ooff t, talks prof i l ioff ooff t -> serial_at (k_coupler t) i l ioff ooff ->
  k_handed t = k_sent t ++ waiting_in (k_coupler t) i /\ k_got t = k_read t ++ readable_in (k_coupler t) i.
Proof.
  intros prof i l ioff ooff t H Hat. pose proof (talks_ok _ _ _ _ _ _ H Hat) as [_ Hp]. destruct Hat as ((ch & Hm & _) & _).
  destruct (Hp _ _ Hm) as (p & Q1 & _ & _ & Q4 & Q5 & _). unfold waiting_in, readable_in. rewrite Q1. auto.
Qed.

Lemma C84_handshake_all : forall prof i l ioff ooff t input output c' image, talks prof i l ioff ooff t ->
  serial_at (k_coupler t) i l ioff ooff -> cycle prof (k_coupler t) input output c' (Ok image) ->
  exists rin rout rs, rs_in_from_bytes (in_part l ioff input) = Ok rin /\ rs_out_from_bytes (out_part l ooff output) = Ok rout /\
    rs_out_from_bytes (out_part l ooff image) = Ok rs /\
    handshake l (k_cycles t) (waiting_in (k_coupler t) i ++ pending (k_coupler t) i) (waiting_in c' i) rin rout rs.
Proof.
  intros prof i l ioff ooff t input output c' image H Hat Hc. pose proof (talks_ok _ _ _ _ _ _ H Hat) as Ht. destruct t as [c n handed sent got read seen]. cbn [k_coupler k_cycles] in *.
  destruct (serial_cycle _ _ _ _ _ _ _ _ _ _ (t_ok _ _ Ht) Hc Hat) as (_ & _ & rin & rout & rs & _ & _ & Ei & _ & Eo & _ & _ & _ & _ & Er & _).
  exists rin, rout, rs. split; [exact Ei|]. split; [exact Eo|]. split; [exact Er|].
  exact (proj1 (talk_cycle prof i l ioff ooff c n handed sent got read seen input output c' image rin rout rs Ht Hat Hc Ei Eo Er)).
Qed.
