(** Lemmas for C74. *)
From Coq Require Import ZArith List Bool Lia ZifyBool ZifyNat Permutation.
From Verif Require Import Base Facts Types Lib Util Com Fbc SpecCodec SpecSerial SpecImage SpecCoupler SpecStore
  ProofsCodec ProofsSerialCodec ProofsSerial ProofsModule ProofsImage ProofsLayout ProofsLoop ProofsNew ProofsCycle ProofsCoupler ProofsOrder.
Import ListNotations.
Local Open Scope nat_scope.

(** *** No key twice, no empty chunk *)

Definition tidy_proc (p : processor) : Prop := Forall (fun c => 0 < length c) (p_out_data p).
Definition tidy_maps (write : list (address * channel_value)) (ps : list (nat * processor)) : Prop :=
  NoDup (map fst write) /\ NoDup (map fst ps) /\ forall i p, map_get Nat.eqb i ps = Some p -> tidy_proc p.
Definition tidy (c : coupler) : Prop := tidy_maps (c_write c) (c_processors c).

Lemma write_tidy p b : tidy_proc p -> tidy_proc (fst (processor_write p b)).
Proof.
  intros H. unfold tidy_proc, processor_write. cbn [fst p_out_data]. apply Forall_app. split; [exact H|].
  assert (Hx : forall k b ss, segmented k b ss -> 0 < k -> Forall (fun c => 0 < length c) ss).
  { induction 1; intros Hk; constructor; auto; lia. }
  refine (Hx _ _ _ (chunks_spec _ b _) _); destruct (p_process_data_len p); cbn; lia.
Qed.

Lemma read_tidy p n : tidy_proc p -> tidy_proc (fst (processor_read p n)).
Proof. intros H. unfold processor_read. destruct (p_in_data p); exact H. Qed.

Lemma next_tidy prof p i o p' r : processor_next prof p i o = Ok (p', r) -> tidy_proc p -> tidy_proc p'.
Proof.
  intros H Hp. destruct (next_queue _ _ _ _ _ _ H) as (segs & _ & Hq). unfold tidy_proc in *. rewrite Hq in Hp.
  apply Forall_app in Hp. tauto.
Qed.

Lemma insert_tidy w ps i p : tidy_maps w ps -> tidy_proc p -> tidy_maps w (map_insert Nat.eqb i p ps).
Proof.
  intros (H1 & H2 & H3) Hp. split; [exact H1|]. split; [apply (nodup_insert Nat.eqb Nat.eqb_spec); exact H2|].
  intros j q. rewrite (map_get_insert Nat.eqb Nat.eqb_spec). destruct (Nat.eqb_spec i j) as [->|Hne]; [|apply H3].
  intros E. apply Some_inj in E. subst q. exact Hp.
Qed.

Lemma remove_tidy w ps a : tidy_maps w ps -> tidy_maps (map_remove address_eqb a w) ps.
Proof. intros (H1 & H2 & H3). split; [apply (nodup_remove address_eqb address_eqb_spec); exact H1|auto]. Qed.

Lemma apply_tidy m_nr ps chs : forall w outs w' outs', apply_writes m_nr chs w outs = Ok (w', outs') -> tidy_maps w ps -> tidy_maps w' ps.
Proof.
  induction chs as [|i chs IH]; intros w outs w' outs' H Ht; cbn [apply_writes] in H.
  - apply Ok_inj, pair_inj in H. destruct H as [<- <-]. exact Ht.
  - destruct (map_get address_eqb (mk_address m_nr i) w) as [v|]; [|exact (IH _ _ _ _ H Ht)].
    apply bind_ok in H. destruct H as (o1 & _ & H). exact (IH _ _ _ _ H (remove_tidy _ _ _ Ht)).
Qed.

Lemma step_tidy prof m_nr iv ov s s' : next_step prof m_nr iv ov s = Ok s' ->
  tidy_maps (l_write s) (l_processors s) -> tidy_maps (l_write s') (l_processors s').
Proof.
  unfold next_step. intros H Ht. destruct (map_get Nat.eqb m_nr (l_processors s)) as [p|] eqn:Ep.
  - apply bind_ok in H. destruct H as (i0 & _ & H). destruct i0; try (apply Ok_inj in H; subst s'; exact Ht).
    apply bind_ok in H. destruct H as (o0 & _ & H). destruct o0; try (apply Ok_inj in H; subst s'; exact Ht).
    apply bind_ok in H. destruct H as ([p' rs] & Hn & H). apply bind_ok in H. destruct H as (no & _ & H). apply Ok_inj in H. subst s'.
    cbn [l_write l_processors]. apply insert_tidy; [apply remove_tidy; exact Ht|]. eapply next_tidy; [exact Hn|].
    pose proof (proj2 (proj2 Ht) _ _ Ep) as Hp.
    destruct (map_get address_eqb _ _) as [v|]; [|exact Hp]. destruct v; try exact Hp. apply write_tidy. exact Hp.
  - apply bind_ok in H. destruct H as ([w no] & Hw & H). apply Ok_inj in H. subst s'. cbn [l_write l_processors].
    exact (apply_tidy _ _ _ _ _ _ _ Hw Ht).
Qed.

Lemma loop_tidy prof l : forall s s', next_loop prof l s = Ok s' ->
  tidy_maps (l_write s) (l_processors s) -> tidy_maps (l_write s') (l_processors s').
Proof.
  induction l as [|[m [iv ov]] l IH]; intros s s' H Ht; cbn [next_loop] in H.
  - apply Ok_inj in H. subst s'. exact Ht.
  - apply bind_ok in H. destruct H as (s1 & H1 & H). exact (IH _ _ H (step_tidy _ _ _ _ _ _ H1 Ht)).
Qed.

Lemma reachable_tidy prof c : reachable prof c -> tidy c.
Proof.
  induction 1 as [cfg c Hc Hn|c a v Hr IH Hv|c i n Hr IH|c i b Hr IH Hb|c oi oo input output c' r Hr IH Hi Ho Hui Huo Hn Hp].
  - destruct (length (cfg_params cfg) =? length (cfg_modules cfg)) eqn:E1.
    2:{ exfalso. unfold coupler_new, validate in Hn. rewrite Nat.eqb_sym, E1 in Hn. discriminate. }
    apply Nat.eqb_eq in E1.
    destruct (Nat.eq_dec (length (cfg_offsets cfg)) (2 * length (cfg_modules cfg))) as [E2|E2].
    2:{ exfalso. destruct C11_all as (_ & B & _). rewrite (B _ E1 E2) in Hn. discriminate. }
    destruct (coupler_new_closed cfg E1 E2) as (offs & _ & _ & E). rewrite E in Hn.
    apply bind_ok in Hn. destruct Hn as (ms & _ & Hn). apply Ok_inj in Hn. subst c. unfold tidy, tidy_maps. cbn [c_write c_processors].
    split; [constructor|]. split; [apply processors_from_nodup; constructor|].
    assert (Hx : forall ms k ps, (forall i p, map_get Nat.eqb i ps = Some p -> tidy_proc p) ->
              forall i p, map_get Nat.eqb i (processors_from k ms ps) = Some p -> tidy_proc p).
    { clear. induction ms as [|m ms IH]; intros k ps Hps i p H; cbn [processors_from] in H; [exact (Hps i p H)|].
      eapply IH; [|exact H]. intros j q. destruct m; try apply Hps. rewrite (map_get_insert Nat.eqb Nat.eqb_spec).
      destruct (Nat.eqb k j); [|apply Hps]. intros E. apply Some_inj in E. subst q. constructor. }
    intros i p. apply Hx. discriminate.
  - unfold set_output. destruct (is_valid_addr c a) as [[|]| |]; try exact IH. destruct IH as (H1 & H2 & H3).
    split; [apply (nodup_insert address_eqb address_eqb_spec); exact H1|auto].
  - unfold coupler_read. destruct (map_get Nat.eqb i (c_processors c)) as [p|] eqn:E; [|exact IH].
    pose proof (read_tidy p n (proj2 (proj2 IH) _ _ E)) as Hp. destruct (processor_read p n) as [p' bs].
    apply insert_tidy; [exact IH|exact Hp].
  - unfold coupler_write. destruct (map_get Nat.eqb i (c_processors c)) as [p|] eqn:E; [|exact IH].
    pose proof (write_tidy p b (proj2 (proj2 IH) _ _ E)) as Hp. destruct (processor_write p b) as [p' bs].
    apply insert_tidy; [exact IH|exact Hp].
  - unfold next in Hn.
    destruct (process_input_data prof (infos c) input) as [ins|e|q]; [|apply pair_inj in Hn; destruct Hn as [<- _]; exact IH..].
    destruct (process_output_data prof (infos c) output) as [outs|e|q]; [|apply pair_inj in Hn; destruct Hn as [<- _]; exact IH..].
    destruct (next_loop prof _ _) as [s|e|q] eqn:El; [|apply pair_inj in Hn; destruct Hn as [<- _]; exact IH..].
    apply loop_tidy in El; [|exact IH].
    destruct (patch (oi _) ins) as [ins'|e|q]; [|apply pair_inj in Hn; destruct Hn as [<- _]; exact IH..].
    destruct (patch (oo _) outs) as [outs'|e|q]; [|apply pair_inj in Hn; destruct Hn as [<- _]; exact IH..].
    apply pair_inj in Hn. destruct Hn as [<- _]. exact El.
Qed.

(** *** Counting *)

Definition all_addresses (k : nat) (ms : list module) : list address :=
  flat_map (fun im => map (mk_address (fst im)) (seq 0 (channels (snd im)))) (enumerate_from k ms).

Lemma all_addresses_length ms : forall k, length (all_addresses k ms) = list_sum (map channels ms).
Proof.
  induction ms as [|m ms IH]; intros k; [reflexivity|]. unfold all_addresses in *. cbn [enumerate_from flat_map fst snd map list_sum fold_right].
  rewrite app_length, map_length, seq_length, IH. reflexivity.
Qed.

Lemma all_addresses_in ms : forall k i m j, nth_error ms i = Some m -> j < channels m -> In (mk_address (k + i) j) (all_addresses k ms).
Proof.
  intros k i m j Hm Hj. unfold all_addresses. apply in_flat_map. exists (k + i, m). split.
  - apply (nth_error_In _ i). rewrite nth_error_enumerate_from, Hm. reflexivity.
  - cbn [fst snd]. apply in_map. apply in_seq. lia.
Qed.

Lemma requests_bounded prof c : reachable prof c -> length (c_write c) <= total_channels c.
Proof.
  intros Hr. pose proof (reachable_ok _ _ Hr) as Hok. pose proof (reachable_tidy _ _ Hr) as (Hnd & _).
  rewrite <- (map_length fst). unfold total_channels. rewrite <- (all_addresses_length _ 0).
  apply NoDup_incl_length; [exact Hnd|]. intros a Ha.
  destruct (requested c a) as [v|] eqn:Er.
  - destruct (ok_req c Hok a v Er) as (_ & m & Hm & Hj). destruct a as [i j]. cbn [a_module a_channel] in *.
    exact (all_addresses_in _ 0 i m j Hm Hj).
  - exfalso. apply (map_get_none address_eqb address_eqb_spec) in Er. exact (Er Ha).
Qed.

Definition serial_indices (k : nat) (ms : list module) : list nat := map fst (filter (fun im => is_serial (snd im)) (enumerate_from k ms)).

Lemma serial_indices_length ms : forall k, length (serial_indices k ms) = length (filter is_serial ms).
Proof.
  unfold serial_indices. induction ms as [|m ms IH]; intros k; [reflexivity|]. cbn [enumerate_from filter snd].
  destruct (is_serial m); cbn [map length]; rewrite IH; reflexivity.
Qed.

Lemma serial_indices_in ms : forall k i, In i (serial_indices k ms) <-> exists m, k <= i /\ nth_error ms (i - k) = Some m /\ is_serial m = true.
Proof.
  intros k i. unfold serial_indices. rewrite in_map_iff. split.
  - intros ([i' m] & <- & H). apply filter_In in H. destruct H as [H Hs]. cbn [fst snd] in *. apply In_nth_error in H.
    destruct H as (n & H). rewrite nth_error_enumerate_from in H. destruct (nth_error ms n) as [m'|] eqn:E; [|discriminate].
    cbn [option_map] in H. apply Some_inj, pair_inj in H. destruct H as [<- <-]. exists m'. split; [lia|].
    replace (k + n - k) with n by lia. auto.
  - intros (m & Hk & Hm & Hs). exists (i, m). split; [reflexivity|]. apply filter_In. split; [|exact Hs].
    apply (nth_error_In _ (i - k)). rewrite nth_error_enumerate_from, Hm. cbn [option_map]. do 2 f_equal. lia.
Qed.

Lemma serial_indices_nodup ms : forall k, NoDup (serial_indices k ms).
Proof.
  induction ms as [|m ms IH]; intros k; [constructor|]. unfold serial_indices in *. cbn [enumerate_from filter snd].
  destruct (is_serial m); [|apply IH]. cbn [map fst]. constructor; [|apply IH]. intros H. apply (serial_indices_in ms (S k) k) in H.
  destruct H as (x & Hx & _). lia.
Qed.

Lemma processors_counted prof c : reachable prof c -> length (c_processors c) = serial_modules c.
Proof.
  intros Hr. pose proof (reachable_ok _ _ Hr) as Hok. pose proof (reachable_tidy _ _ Hr) as (_ & Hnd & _).
  rewrite <- (map_length fst). unfold serial_modules. rewrite <- (serial_indices_length _ 0).
  apply Nat.le_antisymm; apply NoDup_incl_length; [exact Hnd| |apply serial_indices_nodup|]; intros i Hi.
  - destruct (serial c i) as [p|] eqn:E; [|exfalso; apply (map_get_none Nat.eqb Nat.eqb_spec) in E; exact (E Hi)].
    destruct (ok_proc c Hok i p E) as (l & ch & Hm & _). apply serial_indices_in. exists (MCOM l ch). split; [lia|].
    rewrite Nat.sub_0_r. auto.
  - apply serial_indices_in in Hi. destruct Hi as (m & _ & Hm & Hs). rewrite Nat.sub_0_r in Hm. destruct m; try discriminate.
    destruct (ok_com c Hok i _ _ Hm) as (p & Hp). destruct (in_dec Nat.eq_dec i (map fst (c_processors c))) as [H|H]; [exact H|].
    apply (map_get_none Nat.eqb Nat.eqb_spec) in H. unfold serial in Hp. congruence.
Qed.

Lemma chunks_counted p : tidy_proc p -> length (p_out_data p) <= length (queued p).
Proof.
  unfold tidy_proc, queued. induction 1 as [|x l Hx Hl IH]; cbn [concat length]; [lia|]. rewrite app_length. lia.
Qed.

Lemma C74_storage_all : forall prof c, reachable prof c ->
  NoDup (map fst (c_write c)) /\ length (c_write c) <= total_channels c /\
  length (c_processors c) = serial_modules c /\
  (forall i p, serial c i = Some p -> length (p_out_data p) <= length (queued p)).
Proof.
  intros prof c Hr. pose proof (reachable_tidy _ _ Hr) as (H1 & _ & H3).
  split; [exact H1|]. split; [exact (requests_bounded _ _ Hr)|]. split; [exact (processors_counted _ _ Hr)|].
  intros i p Hp. apply chunks_counted. exact (H3 i p Hp).
Qed.

(** *** Growth *)

Lemma in_row_payload prof l ch o data rin : Forall is_u16 data -> (forall off, mo_input o = Some off -> is_u16 off) ->
  input_row prof (MCOM l ch, o) data = Ok [ComRsIn rin] -> length (ri_data rin) <= payload_size l.
Proof.
  intros Hd Hoff H. unfold input_row in H. cbn [fst snd] in H.
  destruct (mo_input o) as [off|] eqn:Eo; [|apply Ok_inj in H; discriminate].
  apply bind_ok in H. destruct H as (raw & Hp & H).
  destruct (prepare_any _ _ _ _ _ _ (Hoff off eq_refl) Hd Hp) as (Hl & Hu).
  cbn [mod_process_input_data] in H. unfold com_process_input_data in H.
  apply bind_ok in H. destruct H as (rin' & Hr & H). apply Ok_inj in H. injection H as ->. rewrite words_to_bytes_spec in Hr.
  pose proof (bytes_of_words_u8 raw Hu) as Hb.
  assert (Hml : length (bytes_of_words raw) = message_size l).
  { rewrite bytes_of_words_length, Hl. destruct l; reflexivity. }
  destruct (rs_in_decode _ Hb) as [(i' & s & d & E & Ha & Hm)|(_ & E)]; rewrite E in Hr; [|discriminate].
  apply Ok_inj in Hr. subst i'. destruct Hm as (_ & _ & _ & _ & _ & E3). rewrite E3. destruct Ha as (rest & Ha).
  apply (f_equal (@length Z)) in Ha. rewrite Hml in Ha. cbn [length] in Ha. rewrite app_length in Ha.
  destruct l; cbn [message_size payload_size] in *; lia.
Qed.

Lemma next_buffered prof p i o p' r : processor_next prof p i o = Ok (p', r) ->
  length (buffered p') <= length (buffered p) + length (ri_data i).
Proof.
  intros H. destruct (any_stage p) as (k & Hk). destruct (next_cases _ _ _ _ _ _ _ Hk H) as (_ & _ & _ & _ & Lo & Hi).
  unfold buffered. destruct (Nat.ltb_spec k 2) as [Hlt|Hge].
  - destruct (Lo Hlt) as (_ & _ & _ & _ & _ & _ & E & _). rewrite E. lia.
  - destruct (Hi Hge) as (_ & _ & _ & _ & R1 & R2). destruct (ri_data_available i) eqn:Ea.
    + destruct (Z.eq_dec (p_last_rx_cnt p) (ri_rx_cnt i)) as [E|E].
      * destruct (R2 (or_intror E)) as [-> _]. lia.
      * destruct (R1 eq_refl E) as [-> _]. rewrite app_length. lia.
    + destruct (R2 (or_introl eq_refl)) as [-> _]. lia.
Qed.

Definition serial_size (c : coupler) (i unread unsent : nat) : Prop :=
  exists p, serial c i = Some p /\ length (buffered p) = unread /\ length (queued p) + pending_bytes c i = unsent.

Lemma cycle_size prof c input output c' r i l ch u s : reachable prof c -> cycle prof c input output c' r ->
  nth_error (c_modules c) i = Some (MCOM l ch) -> serial_size c i u s ->
  exists u' s', serial_size c' i u' s' /\ u' <= u + payload_size l /\ s' <= s.
Proof.
  intros Hr H Hm (p & Hp & Hu & Hs). pose proof (reachable_ok _ _ Hr) as Hok. assert (Hui : Forall is_u16 input) by apply H.
  assert (Same : forall d, serial d i = serial c i -> requested d (mk_address i 0) = requested c (mk_address i 0) ->
            exists u' s', serial_size d i u' s' /\ u' <= u + payload_size l /\ s' <= s).
  { intros d E1 E2. exists u, s. split; [|lia]. exists p. unfold pending_bytes. rewrite E1, E2. auto. }
  destruct (cycle_inv _ _ _ _ _ _ Hok H) as [(-> & _)|[(ins & _ & -> & _)|(ins & outs & sent & _ & _ & _ & _ & _ & _ & _ & _ & E7)]];
    [apply Same; reflexivity..|].
  destruct (module_exists c i Hok (nth_error_Some_lt _ _ _ Hm)) as (m' & o & Hat).
  pose proof Hat as [Hm' _]. rewrite Hm in Hm'. apply Some_inj in Hm'. subst m'.
  destruct (E7 i _ o Hat) as (iv & ov & _ & _ & Hri & _ & Hc).
  destruct Hc as [row S1 S2 S3 S4 S5 S6 S6' S7 S8|l' ch' rin rout p0 p' rs last Em -> -> G1 G2 G3 _ _ S1 S2 S3 S4 S5 S6 S7
                     |l' ch' Em S1 S2 S3 S4 S5 S6 S7]; [discriminate| |apply Same; auto].
  rewrite Hp in S1. apply Some_inj in S1. subst p0.
  exists (length (buffered p')), (length (queued p')). split; [|split].
  - exists p'. split; [exact S3|]. split; [reflexivity|]. unfold pending_bytes. rewrite S5. lia.
  - pose proof (next_buffered _ _ _ _ _ _ S2) as Hb.
    assert (Hf : buffered (fed p (requested c (mk_address i 0))) = buffered p) by (unfold fed; destruct (requested c (mk_address i 0)) as [v|]; [destruct v|]; reflexivity).
    rewrite Hf, Hu in Hb. pose proof (in_row_payload _ _ _ _ _ _ Hui (proj1 (ok_off c Hok i _ _ Hat)) Hri). lia.
  - destruct (next_queue _ _ _ _ _ _ S2) as (segs & _ & Hq).
    pose proof (fed_queued p (requested c (mk_address i 0))) as Hf. unfold queued at 1 in Hf. rewrite Hq, concat_app in Hf.
    apply (f_equal (@length Z)) in Hf. rewrite !app_length in Hf. fold (queued p') in Hf.
    assert (length (match requested c (mk_address i 0) with Some (Bytes b) => b | _ => [] end) = pending_bytes c i).
    { unfold pending_bytes. destruct (requested c (mk_address i 0)) as [v|]; [destruct v|]; reflexivity. }
    lia.
Qed.

Lemma runs_size prof c xs c' answers i l ch : runs prof c xs c' answers -> forall u s, reachable prof c ->
  nth_error (c_modules c) i = Some (MCOM l ch) -> serial_size c i u s ->
  exists u' s', serial_size c' i u' s' /\ u' + fetched i xs answers <= u + payload_size l * cycles xs /\ s' <= s + offered i xs.
Proof.
  induction 1 as [c|c x d a xs c' xa Hx HR IH]; intros u s Hr Hm Hs.
  { exists u, s. cbn [fetched cycles offered]. split; [exact Hs|]. lia. }
  assert (Step : exists u1 s1, serial_size d i u1 s1 /\ nth_error (c_modules d) i = Some (MCOM l ch) /\
            u1 + fetched i [x] [a] <= u + payload_size l * cycles [x] /\ s1 <= s + offered i [x]).
  { destruct Hx as [c a v Hv|c j n|c j b Hb|c input output c1 r Hc Hp].
    - destruct (set_static c a v) as (_ & _ & Em & _ & Ep & _). rewrite Em. destruct Hs as (p & Hp & Hu & Hq).
      exists (length (buffered p)), (length (queued p) + pending_bytes (fst (set_output c a v)) i). split.
      { exists p. unfold serial in *. rewrite Ep. auto. }
      split; [exact Hm|]. cbn [fetched cycles]. split; [lia|].
      enough (pending_bytes (fst (set_output c a v)) i <= pending_bytes c i + offered i [SetOutput a v]) by lia.
      destruct (valid_address_dec c a) as [Hva|Hva].
      + unfold pending_bytes at 1. rewrite set_requested by exact Hva. destruct (address_eqb_spec a (mk_address i 0)) as [->|Hne].
        * cbn [offered]. destruct v; try lia. destruct (address_eqb_spec (mk_address i 0) (mk_address i 0)); [lia|congruence].
        * fold (pending_bytes c i). lia.
      + rewrite (set_output_invalid c a v Hva). cbn [fst]. lia.
    - destruct (read_static c j n) as (_ & _ & Em & _ & Ew & _). rewrite Em. destruct Hs as (p & Hp & Hu & Hq).
      assert (Hpb : pending_bytes (fst (coupler_read c j n)) i = pending_bytes c i) by (unfold pending_bytes, requested; rewrite Ew; reflexivity).
      unfold coupler_read in *. destruct (map_get Nat.eqb j (c_processors c)) as [q|] eqn:Eq.
      + destruct (processor_read q n) as [q' bs] eqn:Er. cbn [fst snd] in *.
        destruct (Nat.eqb_spec j i) as [->|Hne].
        * unfold serial in Hp. rewrite Eq in Hp. apply Some_inj in Hp. subst q.
          assert (Hbs : length (buffered q') + length bs = length (buffered p) /\ queued q' = queued p).
          { unfold processor_read in Er. destruct (p_in_data p) as [|z t] eqn:Ei.
            - apply pair_inj in Er. destruct Er as [<- <-]. cbn [length]. split; [lia|reflexivity].
            - apply pair_inj in Er. destruct Er as [<- <-]. unfold buffered, queued. cbn [p_in_data p_out_data]. rewrite Ei. split; [|reflexivity].
              rewrite skipn_length, firstn_length. lia. }
          exists (length (buffered q')), (length (queued q') + pending_bytes c i). split.
          { exists q'. unfold serial. cbn [with_processors c_processors]. rewrite (map_get_insert Nat.eqb Nat.eqb_spec), Nat.eqb_refl.
            rewrite Hpb. auto. }
          split; [exact Hm|]. cbn [fetched cycles offered]. rewrite Nat.eqb_refl. rewrite (proj2 Hbs). lia.
        * exists u, s. split.
          { exists p. unfold serial. cbn [with_processors c_processors]. rewrite (map_get_insert Nat.eqb Nat.eqb_spec).
            destruct (Nat.eqb_spec j i); [contradiction|]. rewrite Hpb. auto. }
          split; [exact Hm|]. cbn [fetched cycles offered]. destruct (Nat.eqb_spec j i); [contradiction|]. lia.
      + cbn [fst snd]. exists u, s. split; [exists p; auto|]. split; [exact Hm|]. cbn [fetched cycles offered]. lia.
    - destruct (write_static c j b) as (_ & _ & Em & _ & Ew & _). rewrite Em. destruct Hs as (p & Hp & Hu & Hq).
      assert (Hpb : pending_bytes (fst (coupler_write c j b)) i = pending_bytes c i) by (unfold pending_bytes, requested; rewrite Ew; reflexivity).
      unfold coupler_write in *. destruct (map_get Nat.eqb j (c_processors c)) as [q|] eqn:Eq.
      + pose proof (write_queued q b) as Hw. pose proof (eq_refl (buffered (fst (processor_write q b)))) as Hbf.
        change (buffered (fst (processor_write q b))) with (buffered q) in Hbf at 1.
        destruct (processor_write q b) as [q' k] eqn:Er. cbn [fst snd] in *.
        destruct (Nat.eqb_spec j i) as [->|Hne].
        * unfold serial in Hp. rewrite Eq in Hp. apply Some_inj in Hp. subst q.
          exists (length (buffered q')), (length (queued q') + pending_bytes c i). split.
          { exists q'. unfold serial. cbn [with_processors c_processors]. rewrite (map_get_insert Nat.eqb Nat.eqb_spec), Nat.eqb_refl.
            rewrite Hpb. auto. }
          split; [exact Hm|]. cbn [fetched cycles offered]. rewrite Nat.eqb_refl, Hw, app_length, <- Hbf. lia.
        * exists u, s. split.
          { exists p. unfold serial. cbn [with_processors c_processors]. rewrite (map_get_insert Nat.eqb Nat.eqb_spec).
            destruct (Nat.eqb_spec j i); [contradiction|]. rewrite Hpb. auto. }
          split; [exact Hm|]. cbn [fetched cycles offered]. destruct (Nat.eqb_spec j i); [contradiction|]. lia.
      + cbn [fst snd]. exists u, s. split; [exists p; auto|]. split; [exact Hm|]. cbn [fetched cycles offered]. lia.
    - destruct (cycle_size _ _ _ _ _ _ _ _ _ _ _ Hr Hc Hm Hs) as (u1 & s1 & A1 & A2 & A3). exists u1, s1. split; [exact A1|].
      split; [rewrite (proj1 (cycle_static _ _ _ _ _ _ Hc)); exact Hm|]. cbn [fetched cycles offered]. lia. }
  destruct Step as (u1 & s1 & A1 & A2 & A3 & A4).
  destruct (IH u1 s1 (calls_reachable _ _ _ _ _ Hr Hx) A2 A1) as (u2 & s2 & B1 & B2 & B3). exists u2, s2. split; [exact B1|].
  assert (F1 : fetched i (x :: xs) (a :: xa) = fetched i [x] [a] + fetched i xs xa).
  { destruct x; cbn [fetched]; try reflexivity. destruct a; cbn [fetched]; try reflexivity. destruct r; cbn [fetched]; lia. }
  assert (F2 : cycles (x :: xs) = cycles [x] + cycles xs) by (destruct x; cbn [cycles]; lia).
  assert (F3 : offered i (x :: xs) = offered i [x] + offered i xs).
  { destruct x as [b v| | |]; cbn [offered]; try lia. destruct v; cbn [offered]; lia. }
  rewrite F1, F2, F3. nia.
Qed.

Lemma C74_growth_all : forall prof c xs c' answers i l ch p p', reachable prof c -> runs prof c xs c' answers ->
  nth_error (c_modules c) i = Some (MCOM l ch) -> serial c i = Some p -> serial c' i = Some p' ->
  length (buffered p') + fetched i xs answers <= length (buffered p) + payload_size l * cycles xs /\
  length (queued p') + pending_bytes c' i <= length (queued p) + pending_bytes c i + offered i xs.
Proof.
  intros prof c xs c' answers i l ch p p' Hr HR Hm Hp Hp'.
  destruct (runs_size _ _ _ _ _ _ _ _ HR (length (buffered p)) (length (queued p) + pending_bytes c i) Hr Hm) as (u & s & (q & Hq & Hu & Hs) & A1 & A2);
    [exists p; auto|]. rewrite Hp' in Hq. apply Some_inj in Hq. subst q. subst u s. lia.
Qed.
