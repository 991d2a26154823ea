(** Proofs for C29 - C32: histories of the serial message processor. *)
From Coq Require Import ZArith List Bool Lia ZifyBool ZifyNat.
From Verif Require Import Base Facts Types Lib Util Com SpecCodec ProofsSerialCodec SpecSerial.
Import ListNotations.
Local Open Scope Z_scope.
Ltac Zify.zify_post_hook ::= Z.div_mod_to_equations.

Lemma user_data_len_payload l : user_data_len l = payload_size l.
Proof. destruct l; reflexivity. Qed.

(** *** Chunks *)

Lemma chunks_fuel_spec n : (0 < n)%nat -> forall fuel l, (length l <= fuel)%nat ->
  segmented n l (chunks_fuel fuel n l).
Proof.
  intros Hn. induction fuel as [|f IH]; intros l Hl.
  - destruct l; [constructor|cbn [length] in Hl; lia].
  - cbn [chunks_fuel]. destruct l as [|x l']; [constructor|].
    set (l := x :: l') in *.
    assert (Hpos : (0 < length l)%nat) by (subst l; cbn [length]; lia).
    destruct (Nat.leb_spec (length l) n) as [Hle|Hgt].
    + rewrite firstn_all2, skipn_all2 by lia. replace (chunks_fuel f n []) with (@nil (list Z)) by (destruct f; reflexivity).
      constructor. lia.
    + rewrite <- (firstn_skipn n l) at 1. apply Seg_full.
      * rewrite firstn_length. lia.
      * intros E. apply (f_equal (@length Z)) in E. rewrite skipn_length in E. cbn [length] in E. lia.
      * apply IH. rewrite skipn_length. lia.
Qed.

Lemma chunks_spec n l : (0 < n)%nat -> segmented n l (chunks n l).
Proof. intros H. apply chunks_fuel_spec; [exact H|lia]. Qed.

Lemma segmented_concat n l segs : segmented n l segs -> concat segs = l.
Proof.
  induction 1 as [| c H | c rest segs H1 H2 H3 IH]; cbn [concat].
  - reflexivity.
  - rewrite app_nil_r. reflexivity.
  - rewrite IH. reflexivity.
Qed.

Lemma segmented_sizes n l segs : (0 < n)%nat -> segmented n l segs ->
  Forall (fun c => (0 < length c <= n)%nat) segs.
Proof.
  intros Hn. induction 1 as [| c H | c rest segs H1 H2 H3 IH].
  - constructor.
  - constructor; [exact H|constructor].
  - constructor; [lia|exact IH].
Qed.

Lemma payload_pos l : (0 < payload_size l)%nat.
Proof. destruct l; cbn; lia. Qed.

(** *** The step of the processor *)

Lemma write_queued p buf : queued (fst (processor_write p buf)) = queued p ++ buf.
Proof.
  unfold processor_write, queued. cbn [fst p_out_data]. rewrite concat_app. f_equal.
  apply segmented_concat with (n := user_data_len (p_process_data_len p)). apply chunks_spec.
  rewrite user_data_len_payload. apply payload_pos.
Qed.

Lemma read_spec p n :
  snd (processor_read p n) = firstn n (p_in_data p) /\
  p_in_data (fst (processor_read p n)) = skipn n (p_in_data p) /\
  p_out_data (fst (processor_read p n)) = p_out_data p /\
  p_init_state (fst (processor_read p n)) = p_init_state p /\
  p_last_rx_cnt (fst (processor_read p n)) = p_last_rx_cnt p /\
  p_process_data_len (fst (processor_read p n)) = p_process_data_len p.
Proof.
  unfold processor_read. destruct (p_in_data p) as [|x t] eqn:E.
  - cbn [fst snd]. rewrite E, firstn_nil, skipn_nil. repeat split; reflexivity.
  - cbn [fst snd p_in_data p_out_data p_init_state p_last_rx_cnt p_process_data_len].
    set (l := x :: t). repeat split.
    + destruct (Nat.leb_spec n (length l)) as [H|H].
      * rewrite Nat.min_l by lia. reflexivity.
      * rewrite Nat.min_r by lia. rewrite !firstn_all2 by lia. reflexivity.
    + destruct (Nat.leb_spec n (length l)) as [H|H].
      * rewrite Nat.min_l by lia. reflexivity.
      * rewrite Nat.min_r by lia. rewrite !skipn_all2 by lia. reflexivity.
Qed.

(** The number of cycles a processor has done, up to two. *)
Definition stage (k : nat) : init_state :=
  match k with O => ClearBuffers | 1%nat => ResetState | _ => Done end.

Lemma stage_done k : (2 <= k)%nat -> stage k = Done.
Proof. destruct k as [|[|k]]; [lia|lia|reflexivity]. Qed.

(** Case analysis of a cycle. *)
Lemma next_cases prof p i o p' r k : p_init_state p = stage k ->
  processor_next prof p i o = Ok (p', r) ->
  p_init_state p' = stage (S k) /\ p_process_data_len p' = p_process_data_len p /\
  ro_rx_cnt_ack r = ri_rx_cnt i /\ ro_disable_tx_hw_buffer r = ro_disable_tx_hw_buffer o /\
  ((k < 2)%nat ->
     ro_rx_buf_flush r = Nat.eqb k 0 /\ ro_tx_buf_flush r = Nat.eqb k 0 /\
     ro_reset r = Nat.eqb k 1 /\ ro_data r = [] /\ ro_tx_cnt r = ro_tx_cnt o /\
     p_out_data p' = p_out_data p /\ p_in_data p' = p_in_data p /\
     (k = 1%nat -> p_last_rx_cnt p' = 4)) /\
  ((2 <= k)%nat ->
     ro_rx_buf_flush r = ro_rx_buf_flush o /\ ro_tx_buf_flush r = ro_tx_buf_flush o /\
     ro_reset r = ro_reset o /\
     ((p_out_data p' = p_out_data p /\ ro_tx_cnt r = ro_tx_cnt o /\ ro_data r = ro_data o /\
       (p_out_data p = [] \/ inc_cnt prof (ri_tx_cnt_ack i) = Ok (ro_tx_cnt o))) \/
      (exists c, p_out_data p = c :: p_out_data p' /\ ro_data r = c /\
         inc_cnt prof (ri_tx_cnt_ack i) = Ok (ro_tx_cnt r) /\ ro_tx_cnt r <> ro_tx_cnt o)) /\
     (ri_data_available i = true -> p_last_rx_cnt p <> ri_rx_cnt i ->
        p_in_data p' = p_in_data p ++ ri_data i /\ p_last_rx_cnt p' = ri_rx_cnt i) /\
     (ri_data_available i = false \/ p_last_rx_cnt p = ri_rx_cnt i ->
        p_in_data p' = p_in_data p /\ p_last_rx_cnt p' = p_last_rx_cnt p)).
Proof.
  intros Hk H. unfold processor_next in H. rewrite Hk in H.
  destruct k as [|[|k]]; cbn [stage] in H.
  - apply Ok_inj, pair_inj in H. destruct H as [<- <-].
    cbn [p_init_state p_process_data_len ro_rx_cnt_ack ro_disable_tx_hw_buffer ro_rx_buf_flush
         ro_tx_buf_flush ro_reset ro_data ro_tx_cnt p_out_data p_in_data p_last_rx_cnt].
    repeat split; try reflexivity; intros; try lia.
  - apply Ok_inj, pair_inj in H. destruct H as [<- <-].
    cbn [p_init_state p_process_data_len ro_rx_cnt_ack ro_disable_tx_hw_buffer ro_rx_buf_flush
         ro_tx_buf_flush ro_reset ro_data ro_tx_cnt p_out_data p_in_data p_last_rx_cnt].
    repeat split; try reflexivity; intros; try lia.
  - apply bind_ok in H. destruct H as (((q & t) & dat) & Hq & H).
    apply Ok_inj, pair_inj in H. destruct H as [<- <-].
    cbn [p_init_state p_process_data_len ro_rx_cnt_ack ro_disable_tx_hw_buffer ro_rx_buf_flush
         ro_tx_buf_flush ro_reset ro_data ro_tx_cnt p_out_data p_in_data p_last_rx_cnt].
    split; [reflexivity|]. split; [reflexivity|]. split; [reflexivity|]. split; [reflexivity|].
    split; [intros; lia|]. intros _. split; [reflexivity|]. split; [reflexivity|]. split; [reflexivity|].
    split; [|split].
    + destruct (p_out_data p) as [|c rest].
      * apply Ok_inj, pair_inj in Hq. destruct Hq as [Hq <-]. apply pair_inj in Hq. destruct Hq as [<- <-].
        left. repeat split; auto.
      * apply bind_ok in Hq. destruct Hq as (n & Hn & Hq). destruct (Z.eqb_spec n (ro_tx_cnt o)) as [En|En];
          cbn [negb] in Hq; apply Ok_inj, pair_inj in Hq; destruct Hq as [Hq <-]; apply pair_inj in Hq;
          destruct Hq as [<- <-].
        -- left. repeat split; auto. right. rewrite Hn, En. reflexivity.
        -- right. exists c. repeat split; auto.
    + intros Ha Hl. rewrite Ha. destruct (Z.eqb_spec (p_last_rx_cnt p) (ri_rx_cnt i)); [contradiction|].
      cbn [andb negb]. split; reflexivity.
    + intros Ha. destruct (ri_data_available i), (Z.eqb_spec (p_last_rx_cnt p) (ri_rx_cnt i));
        cbn [andb negb]; try (split; reflexivity). destruct Ha; [discriminate|contradiction].
Qed.

Lemma inc_cnt_counter prof c : counter c -> inc_cnt prof c = Ok (succ4 c).
Proof.
  intros H. unfold counter, succ4 in *.
  assert (Hc : c = 0 \/ c = 1 \/ c = 2 \/ c = 3) by lia.
  destruct Hc as [->|[->|[->| ->]]]; destruct prof; reflexivity.
Qed.

Lemma next_ok prof p i o k : p_init_state p = stage k -> counter (ri_tx_cnt_ack i) ->
  exists p' r, processor_next prof p i o = Ok (p', r).
Proof.
  intros Hk Hc. unfold processor_next. rewrite Hk. destruct k as [|[|k]]; cbn [stage]; eauto.
  destruct (p_out_data p); cbn [bind]; eauto. rewrite inc_cnt_counter by exact Hc. cbn [bind].
  destruct (negb _); cbn [bind]; eauto.
Qed.

(** *** Induction over histories *)

Lemma operate_write prof p buf : operate prof p (Write buf) =
  Ok (fst (processor_write p buf), Written buf (length buf)).
Proof. reflexivity. Qed.
Lemma operate_read prof p n : operate prof p (Read n) =
  Ok (fst (processor_read p n), Was_read n (snd (processor_read p n))).
Proof. unfold operate. destruct (processor_read p n). reflexivity. Qed.

Lemma history_cons prof p op ops p' os : history prof p (op :: ops) = Ok (p', os) ->
  exists p1 o os', operate prof p op = Ok (p1, o) /\ history prof p1 ops = Ok (p', os') /\ os = o :: os'.
Proof.
  cbn [history]. intros H. apply bind_ok in H. destruct H as ((p1 & o) & H1 & H).
  apply bind_ok in H. destruct H as ((p2 & os') & H2 & H). apply Ok_inj, pair_inj in H.
  destruct H as [<- <-]. exists p1, o, os'. auto.
Qed.

Lemma operate_cycle prof p i o p1 ob : operate prof p (Cycle i o) = Ok (p1, ob) ->
  exists r, processor_next prof p i o = Ok (p1, r) /\ ob = Cycled i o r.
Proof.
  cbn [operate]. intros H. apply bind_ok in H. destruct H as ((p2 & r) & H1 & H).
  apply Ok_inj, pair_inj in H. destruct H as [<- <-]. exists r. auto.
Qed.

Lemma write_same p buf :
  p_init_state (fst (processor_write p buf)) = p_init_state p /\
  p_last_rx_cnt (fst (processor_write p buf)) = p_last_rx_cnt p /\
  p_in_data (fst (processor_write p buf)) = p_in_data p /\
  p_process_data_len (fst (processor_write p buf)) = p_process_data_len p.
Proof. repeat split. Qed.

Lemma C29_gen prof ops : forall k p p' os, p_init_state p = stage k ->
  history prof p ops = Ok (p', os) ->
  (forall n i o r, nth_error (cycles os) n = Some (i, o, r) ->
     ro_disable_tx_hw_buffer r = ro_disable_tx_hw_buffer o /\
     ((k + n = 0)%nat -> flags r = (true, true, false)) /\
     ((k + n = 1)%nat -> flags r = (false, false, true)) /\
     ((k + n < 2)%nat -> ro_data r = [] /\ ro_tx_cnt r = ro_tx_cnt o) /\
     ((2 <= k + n)%nat -> flags r = flags o)) /\
  ((k + length (cycles os) <= 2)%nat -> queued p' = queued p ++ all_written os).
Proof.
  induction ops as [|op ops IH]; intros k p p' os Hk H.
  - cbn [history] in H. apply Ok_inj, pair_inj in H. destruct H as [<- <-]. split.
    + intros n i o r Hn. cbn [cycles] in Hn. destruct n; discriminate.
    + intros _. cbn [all_written]. rewrite app_nil_r. reflexivity.
  - apply history_cons in H. destruct H as (p1 & ob & os' & H1 & H2 & ->).
    destruct op as [buf|size|i0 o0].
    + rewrite operate_write in H1. apply Ok_inj, pair_inj in H1. destruct H1 as [<- <-].
      destruct (IH k (fst (processor_write p buf)) _ _ Hk H2) as (A & B). cbn [cycles all_written]. split; [exact A|].
      intros Hl. rewrite (B Hl), write_queued, <- app_assoc. reflexivity.
    + rewrite operate_read in H1. apply Ok_inj, pair_inj in H1. destruct H1 as [<- <-].
      destruct (read_spec p size) as (R1 & R2 & R3 & R4 & R5 & R6).
      rewrite <- R4 in Hk. destruct (IH k _ _ _ Hk H2) as (A & B). cbn [cycles all_written].
      split; [exact A|]. intros Hl. rewrite (B Hl). unfold queued. rewrite R3. reflexivity.
    + apply operate_cycle in H1. destruct H1 as (r0 & H1 & ->).
      destruct (next_cases prof p i0 o0 p1 r0 k Hk H1) as (S1 & S2 & S3 & S4 & S5 & S6).
      destruct (IH (S k) _ _ _ S1 H2) as (A & B). cbn [cycles all_written length]. split.
      * intros [|n] i o r Hn.
        -- cbn [nth_error] in Hn. apply Some_inj, pair_inj in Hn. destruct Hn as [Hn <-].
           apply pair_inj in Hn. destruct Hn as [<- <-]. rewrite Nat.add_0_r. split; [exact S4|].
           unfold flags. split; [|split; [|split]].
           ++ intros ->. destruct S5 as (-> & -> & -> & _); [lia|]. reflexivity.
           ++ intros ->. destruct S5 as (-> & -> & -> & _); [lia|]. reflexivity.
           ++ intros Hlt. destruct (S5 Hlt) as (_ & _ & _ & -> & -> & _). auto.
           ++ intros Hge. destruct (S6 Hge) as (-> & -> & -> & _). reflexivity.
        -- cbn [nth_error] in Hn. replace (k + S n)%nat with (S k + n)%nat by lia. apply (A n i o r Hn).
      * intros Hl. rewrite B by lia. destruct S5 as (_ & _ & _ & _ & _ & E & _); [lia|].
        unfold queued. rewrite E. reflexivity.
Qed.

Lemma C29_all : forall prof l ops p os, history prof (processor_new l) ops = Ok (p, os) ->
  (forall n i o r, nth_error (cycles os) n = Some (i, o, r) ->
     ro_disable_tx_hw_buffer r = ro_disable_tx_hw_buffer o /\
     (n = 0%nat -> flags r = (true, true, false)) /\
     (n = 1%nat -> flags r = (false, false, true)) /\
     ((n < 2)%nat -> ro_data r = [] /\ ro_tx_cnt r = ro_tx_cnt o) /\
     ((2 <= n)%nat -> flags r = flags o)) /\
  ((length (cycles os) <= 2)%nat -> queued p = all_written os).
Proof.
  intros prof l ops p os H. apply (C29_gen prof ops 0 (processor_new l) p os); [reflexivity|exact H].
Qed.

Lemma C30_all :
  (forall p buf, exists segs,
     snd (processor_write p buf) = length buf /\
     segmented (payload_size (p_process_data_len p)) buf segs /\
     Forall (fun c => (0 < length c <= payload_size (p_process_data_len p))%nat) segs /\
     concat segs = buf /\
     fst (processor_write p buf) =
       mk_processor (p_init_state p) (p_last_rx_cnt p) (p_in_data p) (p_out_data p ++ segs)
                    (p_process_data_len p)) /\
  (forall prof l bufs p os, history prof (processor_new l) (map Write bufs) = Ok (p, os) ->
     queued p = concat bufs /\ all_written os = concat bufs) /\
  (forall p buf1 buf2,
     queued (fst (processor_write (fst (processor_write p buf1)) buf2)) =
     queued (fst (processor_write p (buf1 ++ buf2)))).
Proof.
  split; [|split].
  - intros p buf. exists (chunks (user_data_len (p_process_data_len p)) buf).
    assert (H : segmented (payload_size (p_process_data_len p)) buf
                  (chunks (user_data_len (p_process_data_len p)) buf)).
    { apply (chunks_spec (payload_size (p_process_data_len p))), payload_pos. }
    split; [reflexivity|]. split; [exact H|]. split; [eapply segmented_sizes; [apply payload_pos|exact H]|].
    split; [apply segmented_concat in H; exact H|reflexivity].
  - intros prof l bufs p os.
    assert (G : forall bufs p0 p os, history prof p0 (map Write bufs) = Ok (p, os) ->
              queued p = queued p0 ++ concat bufs /\ all_written os = concat bufs).
    { induction bufs0 as [|b bs IH]; intros p0 p1 os1 H; cbn [map] in H.
      - cbn [history] in H. apply Ok_inj, pair_inj in H. destruct H as [<- <-].
        cbn [concat all_written]. rewrite app_nil_r. auto.
      - apply history_cons in H. destruct H as (p2 & ob & os' & H1 & H2 & ->).
        rewrite operate_write in H1. apply Ok_inj, pair_inj in H1. destruct H1 as [<- <-].
        destruct (IH _ _ _ H2) as (E1 & E2). cbn [concat all_written]. rewrite E1, E2, write_queued, <- app_assoc.
        auto. }
    intros H. apply G in H. exact H.
  - intros p buf1 buf2. rewrite !write_queued, <- app_assoc. reflexivity.
Qed.

Definition last_of (o : option Z) (z : Z) : Prop :=
  match o with Some c => z = c | None => z = 4 end.

Lemma C31_gen prof l ops : forall k last p p' os, p_init_state p = stage k ->
  ((2 <= k)%nat -> last_of last (p_last_rx_cnt p)) -> ((k < 2)%nat -> last = None) ->
  Forall (decoded_operation l) ops ->
  history prof p ops = Ok (p', os) ->
  all_read os ++ buffered p' = buffered p ++ receptions k last os.
Proof.
  induction ops as [|op ops IH]; intros k last p p' os Hk Hl Hn Hops H.
  - cbn [history] in H. apply Ok_inj, pair_inj in H. destruct H as [<- <-].
    cbn [all_read receptions app]. rewrite app_nil_r. reflexivity.
  - apply history_cons in H. destruct H as (p1 & ob & os' & H1 & H2 & ->).
    inversion Hops as [|? ? Hop Hops']; subst.
    destruct op as [buf|size|i0 o0].
    + rewrite operate_write in H1. apply Ok_inj, pair_inj in H1. destruct H1 as [<- <-].
      cbn [all_read receptions]. apply (IH k last (fst (processor_write p buf)) _ _ Hk Hl Hn Hops' H2).
    + rewrite operate_read in H1. apply Ok_inj, pair_inj in H1. destruct H1 as [<- <-].
      destruct (read_spec p size) as (R1 & R2 & R3 & R4 & R5 & R6).
      rewrite <- R4 in Hk. rewrite <- R5 in Hl. cbn [all_read receptions]. rewrite R1.
      specialize (IH k last _ _ _ Hk Hl Hn Hops' H2). unfold buffered in *. rewrite R2 in IH.
      rewrite <- app_assoc, IH, app_assoc, firstn_skipn. reflexivity.
    + apply operate_cycle in H1. destruct H1 as (r0 & H1 & ->).
      destruct (next_cases prof p i0 o0 p1 r0 k Hk H1) as (S1 & S2 & S3 & S4 & S5 & S6).
      cbn [decoded_operation] in Hop. destruct Hop as ((Hrx & _) & _). unfold counter in Hrx.
      cbn [all_read receptions]. destruct (Nat.leb_spec 2 k) as [Hge|Hlt].
      * destruct (S6 Hge) as (_ & _ & _ & _ & F1 & F2). specialize (Hl Hge).
        assert (Hne : match last with Some c => negb (c =? ri_rx_cnt i0) | None => true end
                      = negb (p_last_rx_cnt p =? ri_rx_cnt i0)).
        { destruct last; cbn [last_of] in Hl; rewrite Hl; [reflexivity|]. lia. }
        cbn [andb]. rewrite Hne.
        destruct (ri_data_available i0) eqn:Ea, (Z.eqb_spec (p_last_rx_cnt p) (ri_rx_cnt i0)) as [E|E];
          cbn [andb negb].
        -- destruct F2 as (G1 & G2); [auto|]. unfold buffered. rewrite <- G1.
           apply (IH (S k) last _ _ _ S1); [intros _; rewrite G2; exact Hl|lia|exact Hops'|exact H2].
        -- destruct F1 as (G1 & G2); [auto|auto|]. unfold buffered in *. rewrite app_assoc, <- G1.
           apply (IH (S k) (Some (ri_rx_cnt i0)) _ _ _ S1); [intros _; exact G2|lia|exact Hops'|exact H2].
        -- destruct F2 as (G1 & G2); [auto|]. unfold buffered. rewrite <- G1.
           apply (IH (S k) last _ _ _ S1); [intros _; rewrite G2; exact Hl|lia|exact Hops'|exact H2].
        -- destruct F2 as (G1 & G2); [auto|]. unfold buffered. rewrite <- G1.
           apply (IH (S k) last _ _ _ S1); [intros _; rewrite G2; exact Hl|lia|exact Hops'|exact H2].
      * cbn [andb]. destruct (S5 Hlt) as (_ & _ & _ & _ & _ & _ & E & G). unfold buffered. rewrite <- E.
        specialize (Hn Hlt). subst last.
        apply (IH (S k) None _ _ _ S1); [|reflexivity|exact Hops'|exact H2].
        intros Hge. cbn [last_of]. apply G. lia.
Qed.

Lemma C31_all :
  (forall p n,
     snd (processor_read p n) = firstn n (buffered p) /\
     buffered (fst (processor_read p n)) = skipn n (buffered p) /\
     queued (fst (processor_read p n)) = queued p) /\
  (forall prof l ops p os, Forall (decoded_operation l) ops ->
     history prof (processor_new l) ops = Ok (p, os) ->
     all_read os ++ buffered p = receptions 0 None os).
Proof.
  split.
  - intros p n. destruct (read_spec p n) as (R1 & R2 & R3 & _). unfold buffered, queued.
    rewrite R1, R2, R3. auto.
  - intros prof l ops p os Ho H.
    apply (C31_gen prof l ops 0 None (processor_new l) p os); [reflexivity|lia|auto|exact Ho|exact H].
Qed.

Lemma C32_gen prof l ops : forall k p, p_init_state p = stage k -> p_process_data_len p = l ->
  Forall (fun c => (length c <= payload_size l)%nat) (p_out_data p) ->
  Forall (decoded_operation l) ops ->
  exists p' os, history prof p ops = Ok (p', os) /\
    forall i o r, In (i, o, r) (cycles os) -> encodable l r /\ ro_rx_cnt_ack r = ri_rx_cnt i.
Proof.
  induction ops as [|op ops IH]; intros k p Hk Hl Hq Hops.
  - exists p, []. split; [reflexivity|]. intros i o r [].
  - inversion Hops as [|? ? Hop Hops']; subst.
    cbn [history]. destruct op as [buf|size|i0 o0].
    + rewrite operate_write. cbn [bind].
      destruct (IH k (fst (processor_write p buf))) as (p' & os & -> & H); auto.
      { unfold processor_write. cbn [fst p_out_data]. apply Forall_app. split; [exact Hq|].
        eapply Forall_impl;
          [|apply (segmented_sizes _ _ _ (payload_pos _)
              (chunks_spec (payload_size (p_process_data_len p)) buf (payload_pos _)))].
        cbv beta. intros; lia. }
      exists p', (Written buf (length buf) :: os). split; [reflexivity|exact H].
    + rewrite operate_read. cbn [bind]. destruct (read_spec p size) as (R1 & R2 & R3 & R4 & R5 & R6).
      destruct (IH k (fst (processor_read p size))) as (p' & os & -> & H); try congruence; auto.
      exists p', (Was_read size (snd (processor_read p size)) :: os). split; [reflexivity|exact H].
    + cbn [operate]. cbn [decoded_operation] in Hop. destruct Hop as ((Hrx & Hack) & Ht & Hra & Hd).
      destruct (next_ok prof p i0 o0 k Hk Hack) as (p1 & r0 & H1). rewrite H1. cbn [bind].
      destruct (next_cases prof p i0 o0 p1 r0 k Hk H1) as (S1 & S2 & S3 & S4 & S5 & S6).
      assert (Hr : encodable (p_process_data_len p) r0 /\
                   Forall (fun c => (length c <= payload_size (p_process_data_len p))%nat) (p_out_data p1)).
      { unfold encodable, counter, succ4 in *. rewrite S3. destruct (Nat.ltb_spec k 2) as [Hlt|Hge].
        - destruct (S5 Hlt) as (_ & _ & _ & -> & -> & -> & _). cbn [length]. repeat split; auto; lia.
        - destruct (S6 Hge) as (_ & _ & _ & Hc & _).
          destruct Hc as [(-> & -> & -> & _)|(c & Ec & -> & Hi & _)].
          + repeat split; auto; lia.
          + rewrite Ec in Hq. inversion Hq as [|? ? Hc1 Hc2]; subst. rewrite inc_cnt_counter in Hi by exact Hack.
            apply Ok_inj in Hi. rewrite <- Hi. unfold succ4. repeat split; auto; lia. }
      destruct Hr as (Hr & Hq1).
      destruct (IH (S k) p1) as (p' & os & -> & H); auto.
      exists p', (Cycled i0 o0 r0 :: os). split; [reflexivity|]. intros i o r [E|Hin].
      * apply pair_inj in E. destruct E as [E <-]. apply pair_inj in E. destruct E as [<- <-]. auto.
      * apply (H i o r Hin).
Qed.

Lemma C32_all :
  (forall prof l ops, Forall (decoded_operation l) ops ->
     exists p os, history prof (processor_new l) ops = Ok (p, os) /\
       forall i o r, In (i, o, r) (cycles os) ->
         encodable l r /\ ro_rx_cnt_ack r = ri_rx_cnt i /\
         exists bytes, rs_out_to_bytes r l = Ok bytes /\ length bytes = message_size l) /\
  (forall bytes i, Forall is_u8 bytes -> rs_in_from_bytes bytes = Ok i -> decoded_in i) /\
  (forall l bytes o, Forall is_u8 bytes -> length bytes = message_size l ->
     rs_out_from_bytes bytes = Ok o -> encodable l o).
Proof.
  split; [|split].
  - intros prof l ops H.
    destruct (C32_gen prof l ops 0 (processor_new l)) as (p & os & H1 & H2); try reflexivity; auto.
    { constructor. }
    exists p, os. split; [exact H1|]. intros i o r Hin. destruct (H2 i o r Hin) as (He & Ha).
    split; [exact He|]. split; [exact Ha|]. destruct He as (E1 & E2 & E3). unfold counter in *.
    eexists. split; [apply rs_out_encode; [unfold good_counters; lia|exact E3]|].
    apply (message_length r l E3).
  - intros bytes i Hu Hd. destruct (C27_all bytes Hu) as (Hi & _). apply Hi in Hd.
    destruct Hd as (s & d & Ha & Hm). destruct Hm as (_ & _ & E1 & E2 & _).
    unfold decoded_in, counter. rewrite E1, E2. lia.
  - intros l bytes o Hu Hl Hd. destruct (C27_all bytes Hu) as (_ & Ho & _). apply Ho in Hd.
    destruct Hd as (s & d & Ha & Hm).
    assert (Hs : is_u8 s). { destruct Ha as (rest & ->). inversion Hu; subst; assumption. }
    destruct (announces_message bytes s d o l Hs Ha Hm Hl) as (_ & Hp & Hc).
    destruct Hm as (_ & _ & _ & _ & _ & _ & E). unfold encodable, counter. rewrite E.
    unfold good_counters in Hc. repeat split; try lia; exact Hp.
Qed.
