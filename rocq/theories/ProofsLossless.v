(** Proofs about what the decoded values keep of the registers (C81). *)
From Coq Require Import ZArith List Bool Lia SpecFloat ZifyBool ZifyNat.
From Verif Require Import Base F32 Types Lib Util Digital Analog Fcnt Com Fbc Facts SpecCodec SpecCoupler SpecAnalog SpecResolution SpecImage SpecLossless
  ProofsCodec ProofsFcnt ProofsSerialCodec ProofsAnalog ProofsModule ProofsImage ProofsDigital ProofsCycle ProofsCoupler ProofsResolution ProofsEqual.
Import ListNotations.
Local Open Scope Z_scope.
Ltac Zify.zify_post_hook ::= Z.div_mod_to_equations.

(** *** Bits *)

Lemma bit_mod w k : Z.b2z (bit w k) = (w / 2 ^ Z.of_nat k) mod 2.
Proof. unfold bit. apply Z.testbit_spec'. lia. Qed.

Lemma bits_row n w w' : map (fun i => Bit (bit w i)) (seq 0 n) = map (fun i => Bit (bit w' i)) (seq 0 n) <-> same_bits (seq 0 n) w w'.
Proof.
  unfold same_bits. generalize (seq 0 n). intros l. split.
  - intros H k Hk. induction l as [|i l IH]; [destruct Hk|]. cbn [map] in H.
    assert (E1 : Bit (bit w i) = Bit (bit w' i)) by congruence. assert (E2 : map (fun i => Bit (bit w i)) l = map (fun i => Bit (bit w' i)) l) by congruence.
    destruct Hk as [<-|Hk]; [congruence|exact (IH E2 Hk)].
  - intros H. apply map_ext_in. intros i Hi. rewrite (H i Hi). reflexivity.
Qed.

Lemma digital_row n f a b u v : digital_decoder n f -> f a = Ok u -> f b = Ok v -> (u = v <-> same_bits (seq 0 n) (reg a 0) (reg b 0)).
Proof.
  intros (D1 & D2) Ha Hb.
  destruct (Nat.eq_dec (length a) 1) as [La|La]; [|rewrite (D1 a La) in Ha; discriminate].
  destruct (Nat.eq_dec (length b) 1) as [Lb|Lb]; [|rewrite (D1 b Lb) in Hb; discriminate].
  destruct a as [|w [|? ?]]; try discriminate La. destruct b as [|w' [|? ?]]; try discriminate Lb.
  rewrite D2 in Ha, Hb. apply Ok_inj in Ha, Hb. subst u v. cbn [reg nth]. apply bits_row.
Qed.

(** *** Serial messages *)

Lemma announces_inj bytes s s' d d' : announces bytes s d -> announces bytes s' d' -> s = s' /\ d = d'.
Proof.
  intros (r & ->) (r' & E). assert (E1 : s = s') by congruence. split; [exact E1|].
  assert (E2 : Z.of_nat (length d) = Z.of_nat (length d')) by congruence. assert (E3 : d ++ r = d' ++ r') by congruence.
  assert (L : length d = length d') by lia. clear -E3 L. revert d' L E3. induction d as [|x d IH]; intros [|y d'] L E3; try discriminate; [reflexivity|].
  cbn [app] in E3. cbn [length] in L. assert (x = y) by congruence. f_equal; [assumption|]. apply IH; [lia|congruence].
Qed.

Lemma fields_in s s' : 0 <= s < 256 -> 0 <= s' < 256 ->
  (bit s 0 = bit s' 0 /\ bit s 1 = bit s' 1 /\ (s / 8) mod 4 = (s' / 8) mod 4 /\ (s / 32) mod 4 = (s' / 32) mod 4 /\ bit s 7 = bit s' 7
   <-> same_bits [0; 1; 3; 4; 5; 6; 7]%nat s s').
Proof.
  intros Hs Hs'. unfold same_bits. cbn [In].
  assert (B : forall k, bit s k = bit s' k <-> (s / 2 ^ Z.of_nat k) mod 2 = (s' / 2 ^ Z.of_nat k) mod 2).
  { intros k. rewrite <- !bit_mod. split; [intros ->; reflexivity|]. destruct (bit s k), (bit s' k); cbn [Z.b2z]; intros; congruence || lia. }
  split.
  - intros (H0 & H1 & H2 & H3 & H7) k Hk. apply B. rewrite B in H0, H1, H7.
    destruct Hk as [<-|[<-|[<-|[<-|[<-|[<-|[<-|[]]]]]]]]; try assumption; change (2 ^ Z.of_nat 3) with 8; change (2 ^ Z.of_nat 4) with 16;
      change (2 ^ Z.of_nat 5) with 32; change (2 ^ Z.of_nat 6) with 64; lia.
  - intros H. pose proof (proj1 (B 3%nat) (H 3%nat ltac:(tauto))) as H3. pose proof (proj1 (B 4%nat) (H 4%nat ltac:(tauto))) as H4.
    pose proof (proj1 (B 5%nat) (H 5%nat ltac:(tauto))) as H5. pose proof (proj1 (B 6%nat) (H 6%nat ltac:(tauto))) as H6.
    change (2 ^ Z.of_nat 3) with 8 in H3. change (2 ^ Z.of_nat 4) with 16 in H4. change (2 ^ Z.of_nat 5) with 32 in H5. change (2 ^ Z.of_nat 6) with 64 in H6.
    split; [apply H; tauto|]. split; [apply H; tauto|]. split; [lia|]. split; [lia|]. apply H; tauto.
Qed.

Lemma fields_out s s' : 0 <= s < 256 -> 0 <= s' < 256 ->
  (bit s 2 = bit s' 2 /\ same_bits [0; 1; 3; 4; 5; 6; 7]%nat s s' <-> same_bits (seq 0 8) s s').
Proof.
  intros Hs Hs'. unfold same_bits. cbn [In seq]. split.
  - intros (H2 & H) k Hk. destruct (Nat.eq_dec k 2) as [->|]; [exact H2|]. apply H. lia.
  - intros H. split; [apply H; tauto|]. intros k Hk. apply H. tauto.
Qed.

Lemma announced_u8 bytes s d : Forall is_u8 bytes -> announces bytes s d -> 0 <= s < 256.
Proof. intros H (r & ->). inversion H. assumption. Qed.

Lemma com_in_lossless a b u v : Forall is_u16 a -> Forall is_u16 b -> com_process_input_data a = Ok u -> com_process_input_data b = Ok v ->
  (u = v <-> same_message [0; 1; 3; 4; 5; 6; 7]%nat a b).
Proof.
  intros Ua Ub Ha Hb. unfold com_process_input_data in *. apply bind_ok in Ha, Hb. destruct Ha as (i & Ha & E1), Hb as (j & Hb & E2).
  apply Ok_inj in E1, E2. subst u v. rewrite words_to_bytes_spec in Ha, Hb.
  pose proof (bytes_of_words_u8 a Ua) as Pa. pose proof (bytes_of_words_u8 b Ub) as Pb.
  destruct (C27_all _ Pa) as (Ia & _). destruct (C27_all _ Pb) as (Ib & _). apply Ia in Ha. apply Ib in Hb.
  destruct Ha as (s & d & Aa & Ma), Hb as (s' & d' & Ab & Mb). pose proof (announced_u8 _ _ _ Pa Aa) as Hs. pose proof (announced_u8 _ _ _ Pb Ab) as Hs'.
  destruct i as [i1 i2 i3 i4 i5 i6], j as [j1 j2 j3 j4 j5 j6]. unfold in_message in Ma, Mb. cbn [ri_data_available ri_buffer_nearly_full ri_rx_cnt ri_tx_cnt_ack ri_ready ri_data] in Ma, Mb.
  destruct Ma as (-> & -> & -> & -> & -> & ->), Mb as (-> & -> & -> & -> & -> & ->). unfold same_message. split.
  - intros E. exists s, s', d. split; [exact Aa|]. assert (d' = d) as -> by congruence. split; [exact Ab|].
    apply (fields_in s s' Hs Hs'). split; [congruence|]. split; [congruence|]. split; [congruence|]. split; congruence.
  - intros (t & t' & dd & Ta & Tb & HB). destruct (announces_inj _ _ _ _ _ Aa Ta) as [<- <-]. destruct (announces_inj _ _ _ _ _ Ab Tb) as [<- ->].
    apply (fields_in s s' Hs Hs') in HB. destruct HB as (-> & -> & -> & -> & ->). reflexivity.
Qed.

Lemma com_out_lossless a b u v : Forall is_u16 a -> Forall is_u16 b -> com_process_output_data a = Ok u -> com_process_output_data b = Ok v ->
  (u = v <-> same_message (seq 0 8) a b).
Proof.
  intros Ua Ub Ha Hb. unfold com_process_output_data in *. apply bind_ok in Ha, Hb. destruct Ha as (i & Ha & E1), Hb as (j & Hb & E2).
  apply Ok_inj in E1, E2. subst u v. rewrite words_to_bytes_spec in Ha, Hb.
  pose proof (bytes_of_words_u8 a Ua) as Pa. pose proof (bytes_of_words_u8 b Ub) as Pb.
  destruct (C27_all _ Pa) as (_ & Ia & _). destruct (C27_all _ Pb) as (_ & Ib & _). apply Ia in Ha. apply Ib in Hb.
  destruct Ha as (s & d & Aa & Ma), Hb as (s' & d' & Ab & Mb). pose proof (announced_u8 _ _ _ Pa Aa) as Hs. pose proof (announced_u8 _ _ _ Pb Ab) as Hs'.
  destruct i as [i1 i2 i3 i4 i5 i6 i7], j as [j1 j2 j3 j4 j5 j6 j7]. unfold out_message in Ma, Mb.
  cbn [ro_rx_buf_flush ro_tx_buf_flush ro_disable_tx_hw_buffer ro_tx_cnt ro_rx_cnt_ack ro_reset ro_data] in Ma, Mb.
  destruct Ma as (-> & -> & -> & -> & -> & -> & ->), Mb as (-> & -> & -> & -> & -> & -> & ->). unfold same_message. split.
  - intros E. exists s, s', d. split; [exact Aa|]. assert (d' = d) as -> by congruence. split; [exact Ab|].
    apply (fields_out s s' Hs Hs'). split; [congruence|]. apply (fields_in s s' Hs Hs'). split; [congruence|]. split; [congruence|].
    split; [congruence|]. split; congruence.
  - intros (t & t' & dd & Ta & Tb & HB). destruct (announces_inj _ _ _ _ _ Aa Ta) as [<- <-]. destruct (announces_inj _ _ _ _ _ Ab Tb) as [<- ->].
    apply (fields_out s s' Hs Hs') in HB. destruct HB as (E2 & HB). apply (fields_in s s' Hs Hs') in HB. destruct HB as (-> & -> & -> & -> & ->). rewrite E2. reflexivity.
Qed.

(** *** Counters *)

Lemma word32_inj h l h' l' : is_u16 l -> is_u16 l' -> word32 h l = word32 h' l' -> h = h' /\ l = l'.
Proof. unfold is_u16, word32. lia. Qed.

Lemma duration_inj d d' : valid_duration d -> valid_duration d' -> nanoseconds d = nanoseconds d' -> d = d'.
Proof. destruct d as [s n], d' as [s' n']. unfold valid_duration, nanoseconds. cbn [d_secs d_nanos]. intros. f_equal; lia. Qed.

Lemma reg_u16 data j : Forall is_u16 data -> is_u16 (reg data j).
Proof.
  intros H. unfold reg. destruct (Nat.ltb_spec j (length data)) as [Hj|Hj].
  - rewrite Forall_forall in H. apply H, nth_In, Hj.
  - rewrite nth_overflow by exact Hj. unfold is_u16. lia.
Qed.

Lemma count_lossless k a b i j : Forall is_u16 a -> Forall is_u16 b ->
  (let raw := word32 (nth (4 * k) a 0) (nth (4 * k + 1) a 0) in
   fi_count i = word32 (nth (4 * k + 2) a 0) (nth (4 * k + 3) a 0) /\ fi_active i = bit (nth (8 + k) a 0) 8 /\
   (fi_duration i = None <-> 0x07FFFFFF <= raw) /\ (forall d, fi_duration i = Some d -> valid_duration d /\ nanoseconds d = 125 * raw)) ->
  (let raw := word32 (nth (4 * k) b 0) (nth (4 * k + 1) b 0) in
   fi_count j = word32 (nth (4 * k + 2) b 0) (nth (4 * k + 3) b 0) /\ fi_active j = bit (nth (8 + k) b 0) 8 /\
   (fi_duration j = None <-> 0x07FFFFFF <= raw) /\ (forall d, fi_duration j = Some d -> valid_duration d /\ nanoseconds d = 125 * raw)) ->
  (i = j <->
     (let period w := word32 (reg w (4 * k)) (reg w (4 * k + 1)) in period a = period b \/ 0x07FFFFFF <= period a /\ 0x07FFFFFF <= period b) /\
     reg a (4 * k + 2) = reg b (4 * k + 2) /\ reg a (4 * k + 3) = reg b (4 * k + 3) /\ bit (reg a (8 + k)) 8 = bit (reg b (8 + k)) 8).
Proof.
  intros Ua Ub (C1 & A1 & N1 & D1) (C2 & A2 & N2 & D2). pose proof (fun j => reg_u16 a j Ua) as Ra. pose proof (fun j => reg_u16 b j Ub) as Rb.
  unfold reg in *. cbv zeta in *.
  destruct i as [di ci ai], j as [dj cj aj]. cbn [fi_duration fi_count fi_active] in *. subst ci cj ai aj. split.
  - intros E. assert (Ed : di = dj) by congruence.
    assert (Ec : word32 (nth (4 * k + 2) a 0) (nth (4 * k + 3) a 0) = word32 (nth (4 * k + 2) b 0) (nth (4 * k + 3) b 0)) by congruence.
    apply word32_inj in Ec; [|apply Ra|apply Rb]. destruct Ec as [Eh El]. split; [|split; [exact Eh|split; [exact El|congruence]]].
    subst dj. destruct di as [d|].
    + left. destruct (D1 d eq_refl) as [_ E1]. destruct (D2 d eq_refl) as [_ E2]. lia.
    + right. split; [apply N1; reflexivity|apply N2; reflexivity].
  - intros (Ep & Eh & El & Ea). rewrite Eh, El, Ea. f_equal. destruct di as [d|], dj as [d'|]; try reflexivity.
    + f_equal. destruct (D1 d eq_refl) as [V1 E1]. destruct (D2 d' eq_refl) as [V2 E2]. apply duration_inj; [exact V1|exact V2|].
      destruct Ep as [Ep|[Ep _]]; [rewrite E1, E2, Ep; reflexivity|]. apply N1 in Ep. discriminate.
    + exfalso. destruct (proj1 N2 eq_refl). assert (0x07FFFFFF <= word32 (nth (4 * k) a 0) (nth (4 * k + 1) a 0)) as H
        by (destruct Ep as [->|[Ep _]]; [apply N2; reflexivity|exact Ep]). apply N1 in H. discriminate.
    + exfalso. assert (0x07FFFFFF <= word32 (nth (4 * k) b 0) (nth (4 * k + 1) b 0)) as H
        by (destruct Ep as [<-|[_ Ep]]; [apply N1; reflexivity|exact Ep]). apply N2 in H. discriminate.
Qed.

Lemma fcnt_in_lossless ch a b u v : length ch = 2%nat -> Forall is_u16 a -> Forall is_u16 b ->
  mod_process_input_data (MFCNT ch) a = Ok u -> mod_process_input_data (MFCNT ch) b = Ok v -> (u = v <-> same_input (MFCNT ch) a b).
Proof.
  intros Hc Ua Ub Ha Hb. destruct (C24_all ch a Hc Ua) as [La Da]. destruct (C24_all ch b Hc Ub) as [Lb Db].
  destruct (Nat.eq_dec (length a) 10) as [E|E]; [|rewrite (La E) in Ha; discriminate]. destruct (Da E) as (i0 & i1 & Fa & Ka). clear E.
  destruct (Nat.eq_dec (length b) 10) as [E|E]; [|rewrite (Lb E) in Hb; discriminate]. destruct (Db E) as (j0 & j1 & Fb & Kb). clear E.
  rewrite Fa in Ha. rewrite Fb in Hb. apply Ok_inj in Ha, Hb. subst u v.
  pose proof (count_lossless 0 a b i0 j0 Ua Ub (Ka 0%nat i0 ltac:(auto)) (Kb 0%nat j0 ltac:(auto))) as K0.
  pose proof (count_lossless 1 a b i1 j1 Ua Ub (Ka 1%nat i1 ltac:(auto)) (Kb 1%nat j1 ltac:(auto))) as K1.
  cbn [same_input]. split.
  - intros HE k Hk. assert (E0 : i0 = j0) by congruence. assert (E1 : i1 = j1) by congruence.
    destruct k as [|[|k]]; [apply K0; exact E0|apply K1; exact E1|lia].
  - intros HH. f_equal; [f_equal; apply K0; apply (HH 0%nat); lia|]. do 2 f_equal. apply K1. apply (HH 1%nat). lia.
Qed.

Lemma preset_lossless h l c h' l' c' : is_u16 h -> is_u16 l -> is_u16 h' -> is_u16 l' ->
  (mk_fcnt_out (duration_from_nanos (u32_of_words h l * 1000))
     (if test_bit_16 c 8 then Some Start else if test_bit_16 c 9 then Some Stop else None) =
   mk_fcnt_out (duration_from_nanos (u32_of_words h' l' * 1000))
     (if test_bit_16 c' 8 then Some Start else if test_bit_16 c' 9 then Some Stop else None)
   <-> h = h' /\ l = l' /\ bit c 8 = bit c' 8 /\ (bit c 8 = false -> bit c 9 = bit c' 9)).
Proof.
  intros Hh Hl Hh' Hl'. rewrite !u32_of_words_spec, !test_bit_16_spec by (assumption || lia). split.
  - intros E. assert (E1 : duration_from_nanos (word32 h l * 1000) = duration_from_nanos (word32 h' l' * 1000)) by congruence.
    unfold duration_from_nanos in E1.
    assert (E2 : word32 h l * 1000 / 1000000000 = word32 h' l' * 1000 / 1000000000) by congruence.
    assert (E3 : (word32 h l * 1000) mod 1000000000 = (word32 h' l' * 1000) mod 1000000000) by congruence.
    assert (E4 : word32 h l = word32 h' l') by lia. apply word32_inj in E4; [|assumption|assumption]. destruct E4 as [-> ->].
    split; [reflexivity|]. split; [reflexivity|].
    assert (E5 : (if bit c 8 then Some Start else if bit c 9 then Some Stop else None) = (if bit c' 8 then Some Start else if bit c' 9 then Some Stop else None)) by congruence.
    destruct (bit c 8), (bit c' 8), (bit c 9), (bit c' 9); try discriminate; split; (reflexivity || (intros; congruence)).
  - intros (-> & -> & E8 & E9). rewrite <- E8. destruct (bit c 8); [reflexivity|]. rewrite E9; reflexivity.
Qed.

Lemma fcnt_out_lossless ch a b u v : Forall is_u16 a -> Forall is_u16 b ->
  mod_process_output_data (MFCNT ch) a = Ok u -> mod_process_output_data (MFCNT ch) b = Ok v -> (u = v <-> same_output (MFCNT ch) a b).
Proof.
  intros Ua Ub Ha Hb. cbn [mod_process_output_data] in *. unfold fcnt_process_output_data in *.
  destruct (negb _) eqn:La in Ha; [discriminate|]. destruct (negb _) eqn:Lb in Hb; [discriminate|]. apply check_length in La, Lb.
  pose proof (fun j => reg_u16 a j Ua) as Ra. pose proof (fun j => reg_u16 b j Ub) as Rb.
  destruct a as [|a0 [|a1 [|a2 [|a3 [|a4 [|a5 [|a6 a]]]]]]]; try discriminate La. destruct b as [|b0 [|b1 [|b2 [|b3 [|b4 [|b5 [|b6 b]]]]]]]; try discriminate Lb.
  cbn [traverse seq Nat.mul Nat.add index nth_error bind] in Ha, Hb. apply Ok_inj in Ha, Hb. subst u v.
  pose proof (preset_lossless a0 a1 a4 b0 b1 b4 (Ra 0%nat) (Ra 1%nat) (Rb 0%nat) (Rb 1%nat)) as K0.
  pose proof (preset_lossless a2 a3 a5 b2 b3 b5 (Ra 2%nat) (Ra 3%nat) (Rb 2%nat) (Rb 3%nat)) as K1.
  cbn [same_output]. split.
  - intros E. assert (E0 := proj1 K0 ltac:(congruence)). assert (E1 := proj1 K1 ltac:(congruence)).
    intros [|[|k]] Hk; [exact E0|exact E1|lia].
  - intros HH. pose proof (HH 0%nat ltac:(lia)) as H0. pose proof (HH 1%nat ltac:(lia)) as H1. cbn [reg nth Nat.mul Nat.add] in H0, H1.
    f_equal; [f_equal; apply K0; exact H0|]. do 2 f_equal. apply K1. exact H1.
Qed.

(** *** Analog outputs *)

Lemma output_channel m k r f d v : analog_output m k = Some (r, f) -> reads_back m k d v -> v = analog_value (u16_to_analog_ui_value d r f).
Proof. intros Ha S. exact (read_back_analog _ _ _ _ _ _ Ha S). Qed.

Lemma ao_lossless m a b u v : (forall k, (k < 4)%nat <-> analog_output m k <> None) -> length a = 4%nat -> length b = 4%nat ->
  length u = 4%nat -> length v = 4%nat -> Forall is_u16 a -> Forall is_u16 b ->
  mod_process_output_data m a = Ok u -> mod_process_output_data m b = Ok v ->
  (u = v <-> forall k r f, analog_output m k = Some (r, f) -> r <> UI_Disabled -> nth_error a k = nth_error b k).
Proof.
  intros HA La Lb Lu Lv Ua Ub Ha Hb.
  assert (HG : forall k r f, analog_output m k = Some (r, f) -> exists d1 d2 v1 v2, nth_error a k = Some d1 /\ nth_error b k = Some d2 /\
     nth_error u k = Some v1 /\ nth_error v k = Some v2 /\ is_u16 d1 /\ is_u16 d2 /\ reads_back m k d1 v1 /\ reads_back m k d2 v2).
  { intros k r f E. assert (Hk : (k < 4)%nat) by (apply HA; congruence).
    destruct (nth_error_lt_Some a k) as (d1 & E1); [lia|]. destruct (nth_error_lt_Some b k) as (d2 & E2); [lia|].
    destruct (nth_error_lt_Some u k) as (v1 & E3); [lia|]. destruct (nth_error_lt_Some v k) as (v2 & E4); [lia|].
    exists d1, d2, v1, v2. do 4 (split; [assumption|]).
    split; [exact (proj1 (Forall_forall _ _) Ua _ (nth_error_In _ _ E1))|]. split; [exact (proj1 (Forall_forall _ _) Ub _ (nth_error_In _ _ E2))|].
    split; [exists a, u; auto|exists b, v; auto]. }
  split.
  - intros <- k r f E Hr. destruct (HG k r f E) as (d1 & d2 & v1 & v2 & E1 & E2 & E3 & E4 & U1 & U2 & S1 & S2).
    assert (v2 = v1) as -> by congruence. rewrite E1, E2. f_equal.
    pose proof (output_channel _ _ _ _ _ _ E S1) as W1. destruct (u16_to_analog_ui_value d1 r f) as [x|] eqn:Ex; [|destruct r; try discriminate; elim Hr; reflexivity].
    cbn [analog_value] in W1. subst v1. destruct (readback_all m k r f d1 d2 x x E U1 U2 S1 S2) as (F & _ & _ & HE). apply HE.
    pose proof (analog_clean d1 r f U1) as C. rewrite Ex in C. apply (clean_equal x x C C). reflexivity.
  - intros HH. apply nth_error_ext. intros k. destruct (analog_output m k) as [(r & f)|] eqn:E.
    + destruct (HG k r f E) as (d1 & d2 & v1 & v2 & E1 & E2 & E3 & E4 & U1 & U2 & S1 & S2). rewrite E3, E4. f_equal.
      rewrite (output_channel _ _ _ _ _ _ E S1), (output_channel _ _ _ _ _ _ E S2).
      assert (DR : r = UI_Disabled \/ r <> UI_Disabled) by (destruct r; (left; reflexivity) || (right; discriminate)).
      destruct DR as [->|Hr]; [reflexivity|]. pose proof (HH k r f E Hr). congruence.
    + assert (Hk : (4 <= k)%nat). { destruct (Nat.le_gt_cases 4 k) as [|Hk]; [assumption|]. apply HA in Hk. congruence. }
      rewrite (proj2 (nth_error_None u k)), (proj2 (nth_error_None v k)) by lia. reflexivity.
Qed.

(** *** All modules *)

Lemma none_row m a b u v : default_process_data m a = Ok u -> default_process_data m b = Ok v -> (u = v <-> True).
Proof.
  unfold default_process_data. destruct a; [|discriminate]. destruct b; [|discriminate]. intros Ha Hb. apply Ok_inj in Ha, Hb. subst u v. tauto.
Qed.

Lemma clean_rows_same u v : Forall clean_value u -> Forall clean_value v -> (u = v <-> Forall2 same_value u v).
Proof. intros Hu Hv. symmetry. apply clean_row; assumption. Qed.

Lemma C81_inputs_all : forall m a b u v, all_settings m -> Forall is_u16 a -> Forall is_u16 b ->
  mod_process_input_data m a = Ok u -> mod_process_input_data m b = Ok v -> (u = v <-> same_input m a b).
Proof.
  intros m a b u v Hm Ua Ub Ha Hb.
  assert (HM : measuring_module m -> fully_configured m -> (u = v <-> forall k, measures m k <> None -> nth_error a k = nth_error b k)).
  { intros H1 H2. rewrite (clean_rows_same u v (input_clean _ _ _ Ua Ha) (input_clean _ _ _ Ub Hb)). exact (row_all m a b u v H1 H2 Ua Ub Ha Hb). }
  destruct m as [w ch|w ch| |ch|ch|ch|t ch|f ch|w f ch|f ch|t ch|ch|l ch| ];
    try (apply HM; [exact I|exact Hm]); try exact (none_row _ _ _ _ _ Ha Hb).
  - cbn [same_input]. apply (digital_row (channels (MDI w ch)) (mod_process_input_data (MDI w ch))); [|exact Ha|exact Hb].
    apply di_decoder. destruct w; reflexivity.
  - apply fcnt_in_lossless; assumption.
  - apply com_in_lossless; assumption.
  - cbn [same_input]. destruct C15_all as [L D].
    destruct (Nat.eq_dec (length a) 2) as [La|La]; [|rewrite (L a La) in Ha; discriminate].
    destruct (Nat.eq_dec (length b) 2) as [Lb|Lb]; [|rewrite (L b Lb) in Hb; discriminate].
    destruct a as [|a0 [|a1 [|? ?]]]; try discriminate La. destruct b as [|b0 [|b1 [|? ?]]]; try discriminate Lb.
    rewrite D in Ha by (inversion Ua; assumption). rewrite D in Hb by (inversion Ub; assumption). apply Ok_inj in Ha, Hb. subst u v.
    unfold same_bits. cbn [reg nth In]. split.
    + intros E k Hk. repeat (destruct Hk as [<-|Hk]; [congruence|]). destruct Hk.
    + intros E. rewrite (E 0%nat), (E 2%nat), (E 3%nat), (E 4%nat), (E 5%nat), (E 8%nat), (E 10%nat) by tauto. reflexivity.
Qed.

Lemma C81_outputs_all : forall m a b u v, all_settings m -> Forall is_u16 a -> Forall is_u16 b ->
  mod_process_output_data m a = Ok u -> mod_process_output_data m b = Ok v -> (u = v <-> same_output m a b).
Proof.
  intros m a b u v Hm Ua Ub Ha Hb.
  assert (HD : forall n, digital_outputs m = Some n -> (u = v <-> same_bits (seq 0 n) (reg a 0) (reg b 0))).
  { intros n Hn. exact (digital_row n _ a b u v (do_decoder m n Hn) Ha Hb). }
  destruct m as [w ch|w ch| |ch|ch|ch|t ch|f ch|w f ch|f ch|t ch|ch|l ch| ]; try exact (none_row _ _ _ _ _ Ha Hb).
  - cbn [same_output]. apply HD. destruct w; reflexivity.
  - apply (HD 16%nat). reflexivity.
  - apply (HD 4%nat). reflexivity.
  - cbn [same_output all_settings] in *. pose proof (output_length _ _ _ Ha) as Lu. pose proof (output_length _ _ _ Hb) as Lv.
    pose proof Ha as Da. pose proof Hb as Db. cbn [mod_process_output_data] in Da, Db. unfold ao_process_output_data in Da, Db.
    destruct (negb _) eqn:La in Da; [discriminate|]. destruct (negb _) eqn:Lb in Db; [discriminate|]. apply check_length in La, Lb.
    apply ao_lossless; try assumption. intros k. cbn [analog_output]. rewrite <- Hm, <- nth_error_Some. destruct (nth_error ch k); cbn [option_map]; split; congruence.
  - cbn [same_output all_settings] in *. pose proof (output_length _ _ _ Ha) as Lu. pose proof (output_length _ _ _ Hb) as Lv.
    pose proof Ha as Da. pose proof Hb as Db. cbn [mod_process_output_data] in Da, Db. unfold ao_diag_process_output_data in Da, Db.
    destruct (negb _) eqn:La in Da; [discriminate|]. destruct (negb _) eqn:Lb in Db; [discriminate|]. apply check_length in La, Lb.
    apply ao_lossless; try assumption. intros k. cbn [analog_output]. rewrite <- Hm, <- nth_error_Some. destruct (nth_error ch k); cbn [option_map]; split; congruence.
  - cbn [same_output]. cbn [mod_process_output_data] in Ha, Hb. unfold ai_ui_diag_process_output_data in Ha, Hb.
    destruct a; [|discriminate]. destruct b; [|discriminate]. apply Ok_inj in Ha, Hb. subst u v. tauto.
  - apply fcnt_out_lossless; assumption.
  - apply com_out_lossless; assumption.
Qed.

(** *** In a coupler *)

Lemma prepared prof base off n data raw : is_u16 off -> 0 <= base <= off / 16 -> Forall is_u16 data -> placed off n ->
  prepare_raw_data_to_process prof off base n data = Ok raw ->
  Forall is_u16 raw /\ length raw = word_count n /\ forall j, (j < word_count n)%nat -> nth_error raw j = nth_error (registers_at base data off) j.
Proof.
  intros Ho Hb Hu Hp H. destruct (prepare_any _ _ _ _ _ _ Ho Hu H) as [Hl Hr]. split; [exact Hr|]. split; [exact Hl|].
  rewrite prepare_eq in H by assumption. cbv zeta in H. unfold registers_at. cbv zeta.
  destruct (Nat.ltb_spec (length data) (Z.to_nat (off / 16 - base) + word_count n)) as [Hlt|Hge]; [discriminate|].
  destruct Hp as [Hp|[Hp ->]]; rewrite Hp in *; cbn [Z.eqb Pos.eqb] in *.
  - apply Ok_inj in H. subst raw. intros j Hj. apply nth_error_firstn_lt. exact Hj.
  - change (word_count 1) with 1%nat in *. intros j Hj. assert (j = 0)%nat as -> by lia.
    destruct (skipn (Z.to_nat (off / 16 - base)) data) as [|w rest] eqn:Es.
    { apply (f_equal (@length Z)) in Es. rewrite skipn_length in Es. cbn [length] in Es. lia. }
    cbn [firstn] in H. unfold shift_data, u16_to_u8 in H. cbn [flat_map app u8_to_u16] in H. apply Ok_inj in H. subst raw.
    unfold reg. cbn [nth nth_error]. rewrite Z.shiftl_0_l, Z.lor_0_r, Z.shiftr_div_pow2 by lia. reflexivity.
Qed.

Lemma prefix_reg a a' n j : (forall j, (j < n)%nat -> nth_error a j = nth_error a' j) -> (j < n)%nat -> reg a j = reg a' j.
Proof. intros H Hj. unfold reg. specialize (H j Hj). rewrite <- !nth_default_eq. unfold nth_default. rewrite H. reflexivity. Qed.

Lemma input_prefix m a a' b b' : all_settings m -> is_serial m = false ->
  (forall j, (j < word_count (input_bytes m))%nat -> nth_error a j = nth_error a' j) ->
  (forall j, (j < word_count (input_bytes m))%nat -> nth_error b j = nth_error b' j) ->
  (same_input m a b <-> same_input m a' b').
Proof.
  intros Hm Hs Ha Hb.
  assert (HM : measuring_module m -> fully_configured m ->
    ((forall k, measures m k <> None -> nth_error a k = nth_error b k) <-> (forall k, measures m k <> None -> nth_error a' k = nth_error b' k))).
  { intros H1 H2. assert (HK : forall k, measures m k <> None -> nth_error a k = nth_error a' k /\ nth_error b k = nth_error b' k).
    { intros k Hk. destruct (measures m k) as [code|] eqn:E; [|congruence]. pose proof (measures_channel m k code H1 H2 E) as Hc.
      assert (Hw : (channels m <= word_count (input_bytes m))%nat).
      { destruct m as [w ch|w ch| |ch|ch|ch|t ch|f ch|w f ch|f ch|t ch|ch|l ch| ]; try destruct H1; try destruct w; vm_compute; lia. }
      split; [apply Ha; lia|apply Hb; lia]. }
    split; intros HH k Hk; specialize (HH k Hk); destruct (HK k Hk) as [E1 E2]; congruence. }
  pose proof (fun j => prefix_reg a a' (word_count (input_bytes m)) j Ha) as Ra. pose proof (fun j => prefix_reg b b' (word_count (input_bytes m)) j Hb) as Rb.
  destruct m as [w ch|w ch| |ch|ch|ch|t ch|f ch|w f ch|f ch|t ch|ch|l ch| ]; try discriminate Hs; try (apply HM; [exact I|exact Hm]); try (cbn [same_input]; tauto).
  - cbn [same_input]. rewrite (Ra 0%nat), (Rb 0%nat) by apply word_count_pos. reflexivity.
  - cbn [same_input]. change (word_count (input_bytes (MFCNT ch))) with 10%nat in *.
    assert (HK : forall k, (k < 2)%nat -> reg a (4 * k) = reg a' (4 * k) /\ reg a (4 * k + 1) = reg a' (4 * k + 1) /\ reg a (4 * k + 2) = reg a' (4 * k + 2) /\
      reg a (4 * k + 3) = reg a' (4 * k + 3) /\ reg a (8 + k) = reg a' (8 + k) /\ reg b (4 * k) = reg b' (4 * k) /\ reg b (4 * k + 1) = reg b' (4 * k + 1) /\
      reg b (4 * k + 2) = reg b' (4 * k + 2) /\ reg b (4 * k + 3) = reg b' (4 * k + 3) /\ reg b (8 + k) = reg b' (8 + k)).
    { intros k Hk. repeat match goal with |- _ /\ _ => split end; (apply Ra; lia) || (apply Rb; lia). }
    split; intros HH k Hk; specialize (HH k Hk); destruct (HK k Hk) as (E1 & E2 & E3 & E4 & E5 & F1 & F2 & F3 & F4 & F5); cbv zeta in *; congruence.
  - cbn [same_input]. rewrite (Ra 0%nat), (Rb 0%nat) by apply word_count_pos. reflexivity.
Qed.

Lemma output_prefix m a a' b b' : all_settings m -> is_serial m = false ->
  (forall j, (j < word_count (output_bytes m))%nat -> nth_error a j = nth_error a' j) ->
  (forall j, (j < word_count (output_bytes m))%nat -> nth_error b j = nth_error b' j) ->
  (same_output m a b <-> same_output m a' b').
Proof.
  intros Hm Hs Ha Hb.
  pose proof (fun j => prefix_reg a a' (word_count (output_bytes m)) j Ha) as Ra. pose proof (fun j => prefix_reg b b' (word_count (output_bytes m)) j Hb) as Rb.
  destruct m as [w ch|w ch| |ch|ch|ch|t ch|f ch|w f ch|f ch|t ch|ch|l ch| ]; try discriminate Hs; cbn [same_output]; try tauto.
  1-3: rewrite (Ra 0%nat), (Rb 0%nat) by apply word_count_pos; reflexivity.
  - assert (HK : forall k r f, analog_output (M4AO ch) k = Some (r, f) -> (k < 4)%nat).
    { intros k r f E. cbn [all_settings] in Hm. rewrite <- Hm. cbn [analog_output] in E. destruct (nth_error ch k) eqn:En; [|discriminate]. exact (nth_error_Some_lt _ _ _ En). }
    split; intros HH k r f E Hr; pose proof (HK k r f E) as Hk; specialize (HH k r f E Hr); [rewrite <- Ha, <- Hb by exact Hk|rewrite Ha, Hb by exact Hk]; exact HH.
  - assert (HK : forall k r f, analog_output (M4AODIAG ch) k = Some (r, f) -> (k < 4)%nat).
    { intros k r f E. cbn [all_settings] in Hm. rewrite <- Hm. cbn [analog_output] in E. destruct (nth_error ch k) eqn:En; [|discriminate]. exact (nth_error_Some_lt _ _ _ En). }
    split; intros HH k r f E Hr; pose proof (HK k r f E) as Hk; specialize (HH k r f E Hr); [rewrite <- Ha, <- Hb by exact Hk|rewrite Ha, Hb by exact Hk]; exact HH.
  - change (word_count (output_bytes (MFCNT ch))) with 6%nat in *.
  assert (HK : forall k, (k < 2)%nat -> reg a (2 * k) = reg a' (2 * k) /\ reg a (2 * k + 1) = reg a' (2 * k + 1) /\ reg a (4 + k) = reg a' (4 + k) /\
    reg b (2 * k) = reg b' (2 * k) /\ reg b (2 * k + 1) = reg b' (2 * k + 1) /\ reg b (4 + k) = reg b' (4 + k)).
  { intros k Hk. repeat match goal with |- _ /\ _ => split end; (apply Ra; lia) || (apply Rb; lia). }
  split; intros HH k Hk; specialize (HH k Hk); destruct (HK k Hk) as (E1 & E2 & E3 & F1 & F2 & F3); cbv zeta in *; congruence.
Qed.

Lemma complete_settings m : complete m -> all_settings m.
Proof. destruct m as [[]|[]| | | | | | | | | | | | ]; cbn [complete all_settings fully_configured]; auto. Qed.

Lemma shown_rows prof c input output c' image i m o : reachable prof c -> cycle prof c input output c' (Ok image) ->
  module_at c i m o -> is_serial m = false -> all_settings m /\ offsets_u16 (m, o) /\ Forall is_u16 input /\ Forall is_u16 output /\
  exists iv ov, nth_error (inputs c') i = Some iv /\ nth_error (outputs c') i = Some ov /\ input_row prof (m, o) input = Ok iv /\ output_row prof (m, o) output = Ok ov.
Proof.
  intros Hr H Hat Hs. pose proof (reachable_ok _ _ Hr) as Hok. pose proof H as (Hui & Huo & _).
  destruct (ok_cycle _ _ _ _ _ _ Hok H) as (ins & outs & sent & E1 & E2 & E3 & E4 & E5 & E6 & E6' & E7).
  assert (Hi : nth_error (infos c) i = Some (m, o)) by (apply infos_at; exact Hat).
  split; [apply complete_settings; exact (ok_complete c i m o Hok Hi)|]. split; [exact (ok_off c Hok i m o Hat)|]. split; [exact Hui|]. split; [exact Huo|].
  destruct (E7 i m o Hat) as (iv & ov & Hiv & Hov & Hri & Hro & _).
  destruct (C54_all prof c input output c' (Ok image) Hr H ins outs E1 E2) as (_ & _ & HC). destruct (HC i m o Hat) as (iv' & ov' & F1 & F1' & F2 & _).
  assert (iv' = iv) as -> by congruence. assert (ov' = ov) as -> by congruence. destruct (F2 Hs) as [G1 G2].
  exists iv, ov. auto.
Qed.

Lemma low_base off : is_u16 off -> 0 <= ADDR_PACKED_PROCESS_INPUT_DATA <= off / 16.
Proof. intros [H _]. unfold ADDR_PACKED_PROCESS_INPUT_DATA. lia. Qed.
Lemma high_base off : 0x8000 <= off -> 0 <= ADDR_PACKED_PROCESS_OUTPUT_DATA <= off / 16.
Proof. intros H. unfold ADDR_PACKED_PROCESS_OUTPUT_DATA. lia. Qed.

Lemma C81_shown_inputs_all : forall prof prof2 c input output c' image d input2 output2 d' image2 i j m o o2 off off2,
  reachable prof c -> cycle prof c input output c' (Ok image) -> reachable prof2 d -> cycle prof2 d input2 output2 d' (Ok image2) ->
  module_at c i m o -> module_at d j m o2 -> is_serial m = false -> mo_input o = Some off -> mo_input o2 = Some off2 ->
  placed off (input_bytes m) -> placed off2 (input_bytes m) ->
  (nth_error (inputs c') i = nth_error (inputs d') j <-> same_input m (registers_at 0 input off) (registers_at 0 input2 off2)).
Proof.
  intros prof prof2 c input output c' image d input2 output2 d' image2 i j m o o2 off off2 Hr H Hr2 H2 Hat Hat2 Hs Eo Eo2 P P2.
  destruct (shown_rows _ _ _ _ _ _ _ _ _ Hr H Hat Hs) as (Hm & (O1 & _) & Hu & _ & iv & ov & N1 & _ & R1 & _).
  destruct (shown_rows _ _ _ _ _ _ _ _ _ Hr2 H2 Hat2 Hs) as (_ & (O2 & _) & Hu2 & _ & iv2 & ov2 & N2 & _ & R2 & _).
  cbn [snd] in O1, O2. specialize (O1 off Eo). specialize (O2 off2 Eo2). rewrite N1, N2.
  unfold input_row in R1, R2. cbn [fst snd] in R1, R2. rewrite Eo in R1. rewrite Eo2 in R2. apply bind_ok in R1, R2.
  destruct R1 as (raw & Q1 & R1), R2 as (raw2 & Q2 & R2).
  destruct (prepared _ _ _ _ _ _ O1 (low_base _ O1) Hu P Q1) as (U1 & _ & K1).
  destruct (prepared _ _ _ _ _ _ O2 (low_base _ O2) Hu2 P2 Q2) as (U2 & _ & K2).
  change ADDR_PACKED_PROCESS_INPUT_DATA with 0 in *.
  rewrite <- (input_prefix m raw _ raw2 _ Hm Hs K1 K2), <- (C81_inputs_all m raw raw2 iv iv2 Hm U1 U2 R1 R2). split; congruence.
Qed.

Lemma C81_shown_outputs_all : forall prof prof2 c input output c' image d input2 output2 d' image2 i j m o o2 off off2,
  reachable prof c -> cycle prof c input output c' (Ok image) -> reachable prof2 d -> cycle prof2 d input2 output2 d' (Ok image2) ->
  module_at c i m o -> module_at d j m o2 -> is_serial m = false -> mo_output o = Some off -> mo_output o2 = Some off2 ->
  0x8000 <= off -> 0x8000 <= off2 -> placed off (output_bytes m) -> placed off2 (output_bytes m) ->
  (nth_error (outputs c') i = nth_error (outputs d') j <-> same_output m (registers_at 0x0800 output off) (registers_at 0x0800 output2 off2)).
Proof.
  intros prof prof2 c input output c' image d input2 output2 d' image2 i j m o o2 off off2 Hr H Hr2 H2 Hat Hat2 Hs Eo Eo2 B B2 P P2.
  destruct (shown_rows _ _ _ _ _ _ _ _ _ Hr H Hat Hs) as (Hm & (_ & O1) & _ & Hu & iv & ov & _ & N1 & _ & R1).
  destruct (shown_rows _ _ _ _ _ _ _ _ _ Hr2 H2 Hat2 Hs) as (_ & (_ & O2) & _ & Hu2 & iv2 & ov2 & _ & N2 & _ & R2).
  cbn [snd] in O1, O2. specialize (O1 off Eo). specialize (O2 off2 Eo2). rewrite N1, N2.
  unfold output_row in R1, R2. cbn [fst snd] in R1, R2. rewrite Eo in R1. rewrite Eo2 in R2. apply bind_ok in R1, R2.
  destruct R1 as (raw & Q1 & R1), R2 as (raw2 & Q2 & R2).
  destruct (prepared _ _ _ _ _ _ O1 (high_base _ B) Hu P Q1) as (U1 & _ & K1).
  destruct (prepared _ _ _ _ _ _ O2 (high_base _ B2) Hu2 P2 Q2) as (U2 & _ & K2).
  change ADDR_PACKED_PROCESS_OUTPUT_DATA with 0x0800 in *.
  rewrite <- (output_prefix m raw _ raw2 _ Hm Hs K1 K2), <- (C81_outputs_all m raw raw2 ov ov2 Hm U1 U2 R1 R2). split; congruence.
Qed.
