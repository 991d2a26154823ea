(** Proofs about the serial messages: C26 - C28. *)
From Coq Require Import ZArith List Bool Lia ZifyBool ZifyNat.
From Verif Require Import Base Facts F32 Types Lib Util Digital Fcnt Com Fbc SpecCodec ProofsCodec.
Import ListNotations.
Local Open Scope Z_scope.
Ltac Zify.zify_post_hook ::= Z.div_mod_to_equations.

(** *** Complete sweeps over a byte *)

Lemma byte_sweep (P : Z -> bool) :
  forallb P (map Z.of_nat (seq 0 256)) = true -> forall s, is_u8 s -> P s = true.
Proof.
  intros H s Hs. rewrite forallb_forall in H. apply H. apply in_map_iff. exists (Z.to_nat s).
  unfold is_u8 in Hs. split; [lia|]. apply in_seq. lia.
Qed.

Lemma cnt_from_spec s : is_u8 s -> cnt_from_status_byte s = (s / 8) mod 4.
Proof.
  intros Hs. apply Z.eqb_eq.
  apply (byte_sweep (fun s => cnt_from_status_byte s =? (s / 8) mod 4)); [vm_compute; reflexivity|exact Hs].
Qed.
Lemma cnt_ack_from_spec s : is_u8 s -> cnt_ack_from_status_byte s = (s / 32) mod 4.
Proof.
  intros Hs. apply Z.eqb_eq.
  apply (byte_sweep (fun s => cnt_ack_from_status_byte s =? (s / 32) mod 4)); [vm_compute; reflexivity|exact Hs].
Qed.

Definition status_of (o : rs_out) : Z :=
  Z.b2z (ro_rx_buf_flush o) + 2 * Z.b2z (ro_tx_buf_flush o) + 4 * Z.b2z (ro_disable_tx_hw_buffer o)
  + 8 * ro_tx_cnt o + 32 * ro_rx_cnt_ack o + 128 * Z.b2z (ro_reset o).

Definition encode_status (o : rs_out) : Z :=
  let status := 0 in
  let status := if ro_rx_buf_flush o then set_bit status 0 else status in
  let status := if ro_tx_buf_flush o then set_bit status 1 else status in
  let status := if ro_disable_tx_hw_buffer o then set_bit status 2 else status in
  let status := cnt_to_status_byte (ro_tx_cnt o) status in
  let status := cnt_ack_to_status_byte (ro_rx_cnt_ack o) status in
  if ro_reset o then set_bit status 7 else status.

Lemma small_cases z : 0 <= z <= 3 -> z = 0 \/ z = 1 \/ z = 2 \/ z = 3.
Proof. lia. Qed.

Definition good_counters (o : rs_out) : Prop := 0 <= ro_tx_cnt o <= 3 /\ 0 <= ro_rx_cnt_ack o <= 3.

Lemma encode_status_spec o : good_counters o -> encode_status o = status_of o.
Proof.
  destruct o as [a b c t r rs d]. unfold good_counters, encode_status, status_of.
  cbn [ro_rx_buf_flush ro_tx_buf_flush ro_disable_tx_hw_buffer ro_tx_cnt ro_rx_cnt_ack ro_reset].
  intros [Ht Hr]. apply small_cases in Ht. apply small_cases in Hr.
  destruct Ht as [->|[->|[->| ->]]], Hr as [->|[->|[->| ->]]], a, b, c, rs; reflexivity.
Qed.

Lemma status_of_u8 o : good_counters o -> is_u8 (status_of o).
Proof.
  unfold good_counters, status_of, is_u8. intros [Ht Hr].
  destruct (ro_rx_buf_flush o), (ro_tx_buf_flush o), (ro_disable_tx_hw_buffer o), (ro_reset o);
    cbn [Z.b2z]; lia.
Qed.

Lemma status_of_bits o : good_counters o ->
  bit (status_of o) 0 = ro_rx_buf_flush o /\ bit (status_of o) 1 = ro_tx_buf_flush o /\
  bit (status_of o) 2 = ro_disable_tx_hw_buffer o /\ (status_of o / 8) mod 4 = ro_tx_cnt o /\
  (status_of o / 32) mod 4 = ro_rx_cnt_ack o /\ bit (status_of o) 7 = ro_reset o.
Proof.
  destruct o as [a b c t r rs d]. unfold good_counters, status_of.
  cbn [ro_rx_buf_flush ro_tx_buf_flush ro_disable_tx_hw_buffer ro_tx_cnt ro_rx_cnt_ack ro_reset].
  intros [Ht Hr]. apply small_cases in Ht. apply small_cases in Hr.
  destruct Ht as [->|[->|[->| ->]]], Hr as [->|[->|[->| ->]]], a, b, c, rs; vm_compute; tauto.
Qed.

(** A status byte is determined by its fields. *)
Lemma status_fields s : is_u8 s ->
  s = Z.b2z (bit s 0) + 2 * Z.b2z (bit s 1) + 4 * Z.b2z (bit s 2) + 8 * ((s / 8) mod 4)
      + 32 * ((s / 32) mod 4) + 128 * Z.b2z (bit s 7).
Proof.
  intros Hs. apply Z.eqb_eq.
  apply (byte_sweep (fun s => s =? Z.b2z (bit s 0) + 2 * Z.b2z (bit s 1) + 4 * Z.b2z (bit s 2)
     + 8 * ((s / 8) mod 4) + 32 * ((s / 32) mod 4) + 128 * Z.b2z (bit s 7))); [vm_compute; reflexivity|exact Hs].
Qed.

(** *** Decoding *)

Lemma slice_prefix {A} (l : list A) n : (n + 2 <= length l)%nat ->
  slice l 2 (n + 2) = Ok (firstn n (skipn 2 l)).
Proof.
  intros H. unfold slice. replace (Nat.leb 2 (n + 2) && Nat.leb (n + 2) (length l)) with true by lia.
  replace (n + 2 - 2)%nat with n by lia. reflexivity.
Qed.

Lemma announces_cases bytes : Forall is_u8 bytes ->
  (exists status data, announces bytes status data /\ is_u8 status /\
     length data = Z.to_nat (nth 1 bytes 0%Z) /\
     data = firstn (Z.to_nat (nth 1 bytes 0%Z)) (skipn 2 bytes) /\
     status = nth 0 bytes 0 /\ (2 <= length bytes)%nat /\
     (Z.to_nat (nth 1 bytes 0%Z) + 2 <= length bytes)%nat) \/
  ((forall status data, ~ announces bytes status data) /\
   ((length bytes < 2)%nat \/ (length bytes < Z.to_nat (nth 1 bytes 0%Z) + 2)%nat)).
Proof.
  intros Hu. destruct bytes as [|s [|n rest]].
  - right. split; [intros st d (r & H); discriminate|left; cbn [length]; lia].
  - right. split; [intros st d (r & H); discriminate|left; cbn [length]; lia].
  - inversion Hu as [|? ? Hs Hu1]; subst. inversion Hu1 as [|? ? Hn Hu2]; subst.
    unfold is_u8 in Hn. cbn [nth length skipn].
    destruct (Nat.leb_spec (Z.to_nat n) (length rest)) as [Hl|Hl].
    + left. exists s, (firstn (Z.to_nat n) rest).
      assert (Hf : length (firstn (Z.to_nat n) rest) = Z.to_nat n) by (rewrite firstn_length; lia).
      split.
      { exists (skipn (Z.to_nat n) rest). rewrite firstn_skipn, Hf. rewrite Z2Nat.id by lia. reflexivity. }
      split; [exact Hs|]. split; [exact Hf|]. split; [reflexivity|]. split; [reflexivity|]. lia.
    + right. split; [|right; lia]. intros st d (r & H). injection H as H1 H2 H3. subst.
      rewrite app_length in Hl. lia.
Qed.

Lemma announces_unique bytes s d s' d' : announces bytes s d -> announces bytes s' d' -> s = s' /\ d = d'.
Proof.
  intros (r & ->) (r' & H). injection H as H1 H2 H3. split; [exact H1|].
  assert (Hl : length d = length d') by lia. clear - H3 Hl.
  revert d' H3 Hl. induction d as [|a d IH]; intros [|a' d'] H3 Hl; cbn [length app] in *; try discriminate;
    [reflexivity|]. injection H3 as -> H3. f_equal. apply IH; [exact H3|lia].
Qed.

Lemma test_bit_spec s i : (i < 16)%nat -> test_bit s i = bit s i.
Proof. apply test_bit_16_spec. Qed.

Lemma rs_in_decode bytes : Forall is_u8 bytes ->
  (exists i status data, rs_in_from_bytes bytes = Ok i /\ announces bytes status data /\
     in_message i status data) \/
  ((forall status data, ~ announces bytes status data) /\ rs_in_from_bytes bytes = Err BufferLength).
Proof.
  intros Hu. destruct (announces_cases bytes Hu)
    as [(s & d & Ha & Hs & Hd & Hde & Hse & Hl & Hn)|(Ha & Hc)].
  - left. unfold rs_in_from_bytes. replace (Nat.ltb (length bytes) 2) with false by lia.
    rewrite (index_lt bytes 0 0), (index_lt bytes 1 0) by lia. cbn [bind].
    replace (Nat.ltb (length bytes) (Z.to_nat (nth 1 bytes 0%Z) + 2)) with false by lia.
    rewrite slice_prefix by exact Hn. cbn [bind]. eexists. exists s, d. split; [reflexivity|].
    split; [exact Ha|]. subst s. unfold in_message.
    cbn [ri_data_available ri_buffer_nearly_full ri_rx_cnt ri_tx_cnt_ack ri_ready ri_data].
    rewrite !test_bit_spec by lia. rewrite cnt_from_spec, cnt_ack_from_spec by exact Hs.
    rewrite Hde. repeat split; reflexivity.
  - right. split; [exact Ha|]. unfold rs_in_from_bytes.
    destruct (Nat.ltb_spec (length bytes) 2) as [Hl|Hl]; [reflexivity|].
    rewrite (index_lt bytes 0 0), (index_lt bytes 1 0) by lia. cbn [bind].
    replace (Nat.ltb (length bytes) (Z.to_nat (nth 1 bytes 0%Z) + 2)) with true by lia. reflexivity.
Qed.

Lemma rs_out_decode bytes : Forall is_u8 bytes ->
  (exists o status data, rs_out_from_bytes bytes = Ok o /\ announces bytes status data /\
     out_message o status data) \/
  ((forall status data, ~ announces bytes status data) /\ rs_out_from_bytes bytes = Err BufferLength).
Proof.
  intros Hu. destruct (announces_cases bytes Hu)
    as [(s & d & Ha & Hs & Hd & Hde & Hse & Hl & Hn)|(Ha & Hc)].
  - left. unfold rs_out_from_bytes. replace (Nat.ltb (length bytes) 2) with false by lia.
    rewrite (index_lt bytes 0 0), (index_lt bytes 1 0) by lia. cbn [bind].
    replace (Nat.ltb (length bytes) (Z.to_nat (nth 1 bytes 0%Z) + 2)) with false by lia.
    rewrite slice_prefix by exact Hn. cbn [bind]. eexists. exists s, d. split; [reflexivity|].
    split; [exact Ha|]. subst s. unfold out_message.
    cbn [ro_rx_buf_flush ro_tx_buf_flush ro_disable_tx_hw_buffer ro_tx_cnt ro_rx_cnt_ack ro_reset ro_data].
    rewrite !test_bit_spec by lia. rewrite cnt_from_spec, cnt_ack_from_spec by exact Hs.
    rewrite Hde. repeat split; reflexivity.
  - right. split; [exact Ha|]. unfold rs_out_from_bytes.
    destruct (Nat.ltb_spec (length bytes) 2) as [Hl|Hl]; [reflexivity|].
    rewrite (index_lt bytes 0 0), (index_lt bytes 1 0) by lia. cbn [bind].
    replace (Nat.ltb (length bytes) (Z.to_nat (nth 1 bytes 0%Z) + 2)) with true by lia. reflexivity.
Qed.

Lemma in_message_unique i j s d : in_message i s d -> in_message j s d -> i = j.
Proof.
  destruct i as [a1 a2 a3 a4 a5 a6], j as [b1 b2 b3 b4 b5 b6]. unfold in_message.
  cbn [ri_data_available ri_buffer_nearly_full ri_rx_cnt ri_tx_cnt_ack ri_ready ri_data].
  intros (-> & -> & -> & -> & -> & ->) (-> & -> & -> & -> & -> & ->). reflexivity.
Qed.
Lemma out_message_unique i j s d : out_message i s d -> out_message j s d -> i = j.
Proof.
  destruct i as [a1 a2 a3 a4 a5 a6 a7], j as [b1 b2 b3 b4 b5 b6 b7]. unfold out_message.
  cbn [ro_rx_buf_flush ro_tx_buf_flush ro_disable_tx_hw_buffer ro_tx_cnt ro_rx_cnt_ack ro_reset ro_data].
  intros (-> & -> & -> & -> & -> & -> & ->) (-> & -> & -> & -> & -> & -> & ->). reflexivity.
Qed.

Lemma C27_all : forall bytes, Forall is_u8 bytes ->
  (forall i, rs_in_from_bytes bytes = Ok i <->
     exists status data, announces bytes status data /\ in_message i status data) /\
  (forall o, rs_out_from_bytes bytes = Ok o <->
     exists status data, announces bytes status data /\ out_message o status data) /\
  ((forall status data, ~ announces bytes status data) ->
     rs_in_from_bytes bytes = Err BufferLength /\ rs_out_from_bytes bytes = Err BufferLength) /\
  (forall status data, announces bytes status data ->
     (exists i, rs_in_from_bytes bytes = Ok i) /\ (exists o, rs_out_from_bytes bytes = Ok o)) /\
  (forall p, rs_in_from_bytes bytes <> Panic p) /\ (forall p, rs_out_from_bytes bytes <> Panic p).
Proof.
  intros bytes Hu.
  destruct (rs_in_decode bytes Hu) as [(i & s & d & Hi & Ha & Hm)|(Hn & Hi)];
    destruct (rs_out_decode bytes Hu) as [(o & s' & d' & Ho & Ha' & Hm')|(Hn' & Ho)];
    try (exfalso; eapply Hn'; eassumption); try (exfalso; eapply Hn; eassumption);
    rewrite Hi, Ho.
  - split; [|split; [|split; [|split; [|split]]]]; try discriminate.
    + intros j. split.
      * intros H. apply Ok_inj in H. subst j. eauto.
      * intros (s1 & d1 & Ha1 & Hm1). f_equal. destruct (announces_unique _ _ _ _ _ Ha Ha1) as [<- <-].
        eapply in_message_unique; eassumption.
    + intros j. split.
      * intros H. apply Ok_inj in H. subst j. eauto.
      * intros (s1 & d1 & Ha1 & Hm1). f_equal. destruct (announces_unique _ _ _ _ _ Ha' Ha1) as [<- <-].
        eapply out_message_unique; eassumption.
    + intros H. exfalso. eapply H. exact Ha.
    + intros; split; eauto.
  - split; [|split; [|split; [|split; [|split]]]]; try discriminate.
    + intros j. split; [discriminate|]. intros (s1 & d1 & Ha1 & _). exfalso. eapply Hn. exact Ha1.
    + intros j. split; [discriminate|]. intros (s1 & d1 & Ha1 & _). exfalso. eapply Hn. exact Ha1.
    + intros _. split; reflexivity.
    + intros s d Ha. exfalso. eapply Hn. exact Ha.
Qed.

(** *** Encoding *)

Lemma copy_data_spec data : forall k msg, (2 + k + length data <= length msg)%nat ->
  copy_data msg (enumerate_from k data) =
  Ok (firstn (2 + k) msg ++ data ++ skipn (2 + k + length data) msg).
Proof.
  induction data as [|d data IH]; intros k msg Hl; cbn [enumerate_from copy_data length app].
  - rewrite Nat.add_0_r, firstn_skipn. reflexivity.
  - cbn [length] in Hl. rewrite store_ok by lia. cbn [bind]. rewrite IH.
    2:{ rewrite app_length, firstn_length. cbn [length]. rewrite skipn_length. lia. }
    f_equal. replace (2 + S k)%nat with (2 + k + 1)%nat by lia.
    rewrite !firstn_app, !skipn_app, !firstn_length, !firstn_firstn.
    replace (Nat.min (2 + k) (length msg)) with (2 + k)%nat by lia.
    replace (Nat.min (2 + k + 1) (2 + k)) with (2 + k)%nat by lia.
    replace (2 + k + 1 - (2 + k))%nat with 1%nat by lia.
    cbn [firstn]. rewrite <- app_assoc. cbn [app]. do 2 f_equal.
    replace (2 + k + 1 + length data - (2 + k))%nat with (S (length data)) by lia.
    rewrite skipn_cons.
    rewrite skipn_all2 by (rewrite firstn_length; lia). cbn [app].
    rewrite skipn_skipn_add. f_equal. f_equal. lia.
Qed.

Lemma rs_out_encode o l : good_counters o -> (length (ro_data o) <= payload_size l)%nat ->
  rs_out_to_bytes o l =
  Ok (status_of o :: Z.of_nat (length (ro_data o)) :: ro_data o ++
      repeat 0 (payload_size l - length (ro_data o))).
Proof.
  intros Hc Hl. unfold rs_out_to_bytes.
  replace ((3 <? ro_tx_cnt o) || (3 <? ro_rx_cnt_ack o)) with false
    by (unfold good_counters in Hc; lia).
  replace (Nat.ltb (user_data_len l) (length (ro_data o))) with false
    by (destruct l; cbn [user_data_len payload_size] in *; lia).
  cbv zeta. fold (encode_status o).
  rewrite encode_status_spec by exact Hc.
  assert (H8 : as_u8 (Z.of_nat (length (ro_data o))) = Z.of_nat (length (ro_data o))).
  { unfold as_u8. apply Z.mod_small. destruct l; cbn [payload_size] in Hl; lia. }
  rewrite H8.
  assert (Hm : repeat 0 (process_data_byte_count l) = 0 :: 0 :: repeat 0 (payload_size l))
    by (destruct l; reflexivity).
  rewrite Hm. cbn [store bind]. unfold enumerate. rewrite copy_data_spec.
  2:{ cbn [length]. rewrite repeat_length. lia. }
  cbn [Nat.add firstn skipn app]. do 4 f_equal.
  clear. revert l. generalize (payload_size). intros f l. generalize (f l). clear. intros n.
  generalize (length (ro_data o)). intros k. revert k. induction n as [|n IH]; intros [|k]; try reflexivity.
  cbn [repeat skipn Nat.sub]. apply IH.
Qed.

(** *** Words and bytes *)

Lemma words_to_bytes_flat words :
  words_to_bytes words = flat_map (fun w => [Z.land w 255; Z.shiftr w 8]) words.
Proof.
  unfold words_to_bytes.
  assert (H : forall l acc, fold_left (fun x elem => (x ++ [Z.land elem 255]) ++ [Z.shiftr elem 8]) l acc
              = acc ++ flat_map (fun w => [Z.land w 255; Z.shiftr w 8]) l).
  { induction l as [|w l IH]; intros acc; cbn [fold_left flat_map].
    - rewrite app_nil_r. reflexivity.
    - rewrite IH, <- !app_assoc. reflexivity. }
  apply H.
Qed.

Lemma word_bytes w : [Z.land w 255; Z.shiftr w 8] = [w mod 256; w / 256].
Proof.
  change 255 with (2 ^ 8 - 1). rewrite land_pow2_mask, Z.shiftr_div_pow2 by lia. reflexivity.
Qed.

Lemma words_to_bytes_spec words : words_to_bytes words = bytes_of_words words.
Proof.
  rewrite words_to_bytes_flat. unfold bytes_of_words. apply flat_map_ext. intros w. apply word_bytes.
Qed.

Lemma bytes_of_words_u8 words : Forall is_u16 words -> Forall is_u8 (bytes_of_words words).
Proof.
  induction 1 as [|w words Hw _ IH]; cbn [bytes_of_words flat_map app]; [constructor|].
  unfold is_u16, is_u8 in *. constructor; [lia|]. constructor; [lia|]. exact IH.
Qed.

Lemma bytes_of_words_length words : length (bytes_of_words words) = (2 * length words)%nat.
Proof.
  induction words as [|w words IH]; [reflexivity|].
  unfold bytes_of_words in *. cbn [flat_map app length]. lia.
Qed.

Lemma pair_ind {A} (P : list A -> Prop) :
  P [] -> (forall a, P [a]) -> (forall a b l, P l -> P (a :: b :: l)) -> forall l, P l.
Proof.
  intros H0 H1 H2. fix IH 1. intros [|a [|b l]]; [exact H0|apply H1|apply H2, IH].
Qed.

Lemma u8_to_u16_bytes bytes : Forall is_u8 bytes -> Nat.Even (length bytes) ->
  Forall is_u16 (u8_to_u16 bytes) /\ bytes_of_words (u8_to_u16 bytes) = bytes /\
  (2 * length (u8_to_u16 bytes) = length bytes)%nat.
Proof.
  induction bytes as [|a|a b l IH] using pair_ind; intros Hu He.
  - repeat split; constructor.
  - exfalso. destruct He as (k & He). cbn [length] in He. lia.
  - inversion Hu as [|? ? Ha Hu1]; subst. inversion Hu1 as [|? ? Hb Hu2]; subst.
    destruct IH as (H1 & H2 & H3).
    + exact Hu2.
    + destruct He as (k & He). exists (k - 1)%nat. cbn [length] in He. lia.
    + cbn [u8_to_u16]. unfold is_u8, is_u16 in *. rewrite lor_shiftl_add by lia.
      change (2 ^ 8) with 256. split; [constructor; [lia|exact H1]|].
      cbn [bytes_of_words flat_map app length]. fold (bytes_of_words (u8_to_u16 l)). rewrite H2.
      split; [|lia]. f_equal; [lia|]. f_equal. lia.
Qed.

Lemma bytes_of_words_inj words words' : Forall is_u16 words -> Forall is_u16 words' ->
  bytes_of_words words = bytes_of_words words' -> words = words'.
Proof.
  intros H. revert words'. induction H as [|w words Hw _ IH]; intros [|w' words'] H' E;
    cbn [bytes_of_words flat_map app] in E; try discriminate; [reflexivity|].
  inversion H' as [|? ? Hw' H'']; subst.
  assert (E1 : w mod 256 = w' mod 256) by congruence.
  assert (E2 : w / 256 = w' / 256) by congruence.
  assert (E3 : bytes_of_words words = bytes_of_words words') by (unfold bytes_of_words; congruence).
  f_equal; [lia|]. apply IH; assumption.
Qed.

Lemma u8_to_u16_of_words words : Forall is_u16 words -> u8_to_u16 (bytes_of_words words) = words.
Proof.
  intros H. pose proof (bytes_of_words_u8 words H) as Hu.
  destruct (u8_to_u16_bytes (bytes_of_words words) Hu) as (H1 & H2 & _).
  { exists (length words). apply bytes_of_words_length. }
  apply bytes_of_words_inj; assumption.
Qed.

(** *** C26 *)

Definition message (o : rs_out) (l : process_data_length) : list Z :=
  status_of o :: Z.of_nat (length (ro_data o)) :: ro_data o ++
    repeat 0 (payload_size l - length (ro_data o)).

Lemma message_length o l : (length (ro_data o) <= payload_size l)%nat ->
  length (message o l) = message_size l.
Proof.
  intros H. unfold message. cbn [length]. rewrite app_length, repeat_length.
  destruct l; cbn [payload_size message_size] in *; lia.
Qed.

Lemma message_u8 o l : good_counters o -> (length (ro_data o) <= payload_size l)%nat ->
  Forall is_u8 (ro_data o) -> Forall is_u8 (message o l).
Proof.
  intros Hc Hl Hd. unfold message. constructor; [apply status_of_u8; exact Hc|].
  constructor. { unfold is_u8. destruct l; cbn [payload_size] in Hl; lia. }
  apply Forall_app. split; [exact Hd|]. apply Forall_forall. intros x Hx. apply repeat_spec in Hx.
  subst x. unfold is_u8. lia.
Qed.

Lemma message_decodes o l : good_counters o -> (length (ro_data o) <= payload_size l)%nat ->
  Forall is_u8 (ro_data o) -> rs_out_from_bytes (message o l) = Ok o.
Proof.
  intros Hc Hl Hd. pose proof (message_u8 o l Hc Hl Hd) as Hu.
  destruct (C27_all _ Hu) as (_ & H & _). apply H. exists (status_of o), (ro_data o). split.
  - exists (repeat 0 (payload_size l - length (ro_data o))). reflexivity.
  - destruct (status_of_bits o Hc) as (H1 & H2 & H3 & H4 & H5 & H6). unfold out_message.
    rewrite H1, H2, H3, H4, H5, H6. repeat split; reflexivity.
Qed.

Lemma com_values_one prof l ch o : (length (ro_data o) <= payload_size l)%nat ->
  mod_process_output_values prof (MCOM l ch) [ComRsOut o] =
  let? msg := rs_out_to_bytes o l in Ok (u8_to_u16 msg).
Proof.
  intros H. cbn [mod_process_output_values]. unfold com_process_output_values.
  cbn [length Nat.eqb negb index nth_error bind].
  replace (Nat.ltb (user_data_len l) (length (ro_data o))) with false
    by (destruct l; cbn [user_data_len payload_size] in *; lia). reflexivity.
Qed.

Lemma C26_all : forall l o, in_counters o -> Forall is_u8 (ro_data o) ->
  (3 < ro_tx_cnt o \/ 3 < ro_rx_cnt_ack o -> rs_out_to_bytes o l = Err SequenceNumber) /\
  (ro_tx_cnt o <= 3 -> ro_rx_cnt_ack o <= 3 -> (payload_size l < length (ro_data o))%nat ->
     rs_out_to_bytes o l = Err DataLength) /\
  (ro_tx_cnt o <= 3 -> ro_rx_cnt_ack o <= 3 -> (length (ro_data o) <= payload_size l)%nat ->
     (exists bytes, rs_out_to_bytes o l = Ok bytes /\ length bytes = message_size l /\
        Forall is_u8 bytes /\ rs_out_from_bytes bytes = Ok o) /\
     (forall prof ch, exists words,
        mod_process_output_values prof (MCOM l ch) [ComRsOut o] = Ok words /\
        (2 * length words = message_size l)%nat /\ Forall is_u16 words /\
        mod_process_output_data (MCOM l ch) words = Ok [ComRsOut o])) /\
  (forall p, rs_out_to_bytes o l <> Panic p).
Proof.
  intros l o [Ht Hr] Hd. unfold is_usize in *.
  assert (Hex : ro_tx_cnt o <= 3 -> ro_rx_cnt_ack o <= 3 -> (length (ro_data o) <= payload_size l)%nat ->
     rs_out_to_bytes o l = Ok (message o l)).
  { intros H1 H2 H3. apply rs_out_encode; [unfold good_counters; lia|exact H3]. }
  assert (Hs : 3 < ro_tx_cnt o \/ 3 < ro_rx_cnt_ack o -> rs_out_to_bytes o l = Err SequenceNumber).
  { intros H. unfold rs_out_to_bytes.
    replace ((3 <? ro_tx_cnt o) || (3 <? ro_rx_cnt_ack o)) with true by lia. reflexivity. }
  assert (Hlen : ro_tx_cnt o <= 3 -> ro_rx_cnt_ack o <= 3 -> (payload_size l < length (ro_data o))%nat ->
     rs_out_to_bytes o l = Err DataLength).
  { intros H1 H2 H3. unfold rs_out_to_bytes.
    replace ((3 <? ro_tx_cnt o) || (3 <? ro_rx_cnt_ack o)) with false by lia.
    replace (Nat.ltb (user_data_len l) (length (ro_data o))) with true
      by (destruct l; cbn [user_data_len payload_size] in *; lia). reflexivity. }
  split; [exact Hs|]. split; [exact Hlen|]. split.
  - intros H1 H2 H3. assert (Hc : good_counters o) by (unfold good_counters; lia).
    split.
    + exists (message o l). split; [apply Hex; assumption|]. split; [apply message_length; exact H3|].
      split; [apply message_u8; assumption|apply message_decodes; assumption].
    + intros prof ch. exists (u8_to_u16 (message o l)). rewrite com_values_one by exact H3.
      rewrite Hex by assumption. split; [reflexivity|].
      destruct (u8_to_u16_bytes (message o l)) as (W1 & W2 & W3).
      { apply message_u8; assumption. }
      { rewrite message_length by exact H3. destruct l; [exists 4%nat|exists 8%nat]; reflexivity. }
      rewrite message_length in W3 by exact H3. split; [exact W3|]. split; [exact W1|].
      cbn [mod_process_output_data]. unfold com_process_output_data. rewrite words_to_bytes_spec, W2.
      rewrite message_decodes by assumption. reflexivity.
  - intros p.
    destruct (Z.ltb_spec 3 (ro_tx_cnt o)); [rewrite Hs by lia; discriminate|].
    destruct (Z.ltb_spec 3 (ro_rx_cnt_ack o)); [rewrite Hs by lia; discriminate|].
    destruct (Nat.ltb_spec (payload_size l) (length (ro_data o))); [rewrite Hlen by lia; discriminate|].
    rewrite Hex by lia. discriminate.
Qed.

(** *** C28 *)

Lemma announces_message bytes status data o l : is_u8 status ->
  announces bytes status data -> out_message o status data ->
  length bytes = message_size l ->
  message o l = firstn (2 + length data) bytes ++ repeat 0 (message_size l - 2 - length data) /\
  (length data <= payload_size l)%nat /\ good_counters o.
Proof.
  intros Hs (rest & ->) Hm Hl. destruct Hm as (H1 & H2 & H3 & H4 & H5 & H6 & H7).
  assert (Hst : status_of o = status).
  { unfold status_of. rewrite H1, H2, H3, H4, H5, H6. symmetry. apply status_fields. exact Hs. }
  cbn [length] in Hl. rewrite app_length in Hl. split; [|split].
  - unfold message. rewrite Hst, H7. cbn [Nat.add firstn app]. f_equal. f_equal.
    rewrite firstn_app, firstn_all, Nat.sub_diag. cbn [firstn]. rewrite app_nil_r. f_equal. f_equal.
    destruct l; cbn [payload_size message_size]; lia.
  - destruct l; cbn [payload_size message_size] in *; lia.
  - unfold good_counters. rewrite H4, H5. lia.
Qed.

Lemma C28_all :
  (forall l bytes o, length bytes = message_size l -> Forall is_u8 bytes ->
     rs_out_from_bytes bytes = Ok o ->
     rs_out_to_bytes o l =
     Ok (firstn (2 + length (ro_data o)) bytes ++ repeat 0 (message_size l - 2 - length (ro_data o)))) /\
  (forall prof l ch words vs, (2 * length words = message_size l)%nat -> Forall is_u16 words ->
     mod_process_output_data (MCOM l ch) words = Ok vs ->
     exists o words', vs = [ComRsOut o] /\
       mod_process_output_values prof (MCOM l ch) vs = Ok words' /\
       bytes_of_words words' = firstn (2 + length (ro_data o)) (bytes_of_words words) ++
                               repeat 0 (message_size l - 2 - length (ro_data o))).
Proof.
  assert (H : forall l bytes o, length bytes = message_size l -> Forall is_u8 bytes ->
     rs_out_from_bytes bytes = Ok o ->
     rs_out_to_bytes o l = Ok (message o l) /\
     message o l = firstn (2 + length (ro_data o)) bytes ++ repeat 0 (message_size l - 2 - length (ro_data o)) /\
     (length (ro_data o) <= payload_size l)%nat /\ good_counters o /\ Forall is_u8 (ro_data o)).
  { intros l bytes o Hl Hu Hd. destruct (C27_all bytes Hu) as (_ & Ho & _). apply Ho in Hd.
    destruct Hd as (s & d & Ha & Hm).
    assert (Hs : is_u8 s).
    { destruct Ha as (rest & ->). inversion Hu; subst; assumption. }
    destruct (announces_message bytes s d o l Hs Ha Hm Hl) as (E & Hp & Hc).
    destruct Hm as (_ & _ & _ & _ & _ & _ & Hd'). rewrite Hd'. split; [|split; [exact E|split; [exact Hp|split; [exact Hc|]]]].
    - apply rs_out_encode; [exact Hc|]. rewrite Hd'. exact Hp.
    - destruct Ha as (rest & ->). inversion Hu as [|? ? _ Hu1]; subst. inversion Hu1 as [|? ? _ Hu2]; subst.
      apply Forall_app in Hu2. apply Hu2. }
  split.
  - intros l bytes o Hl Hu Hd. destruct (H l bytes o Hl Hu Hd) as (-> & E & _). rewrite E. reflexivity.
  - intros prof l ch words vs Hl Hu Hd. cbn [mod_process_output_data] in Hd.
    unfold com_process_output_data in Hd. rewrite words_to_bytes_spec in Hd.
    apply bind_ok in Hd. destruct Hd as (o & Hd & Hv). apply Ok_inj in Hv. subst vs.
    destruct (H l (bytes_of_words words) o) as (He & E & Hp & Hc & H8).
    { rewrite bytes_of_words_length. exact Hl. }
    { apply bytes_of_words_u8. exact Hu. }
    { exact Hd. }
    exists o. rewrite com_values_one by exact Hp. rewrite He. cbn [bind]. eexists. split; [reflexivity|].
    split; [reflexivity|]. rewrite <- E.
    apply u8_to_u16_bytes; [apply message_u8; assumption|]. rewrite message_length by exact Hp.
    destruct l; [exists 4%nat|exists 8%nat]; reflexivity.
Qed.
