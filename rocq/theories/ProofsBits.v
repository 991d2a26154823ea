(** Proofs about the bits of the output image that have a meaning (C93). *)
From Coq Require Import ZArith List Bool Lia ZifyBool ZifyNat.
From Verif Require Import Base Facts F32 Types Lib Util Digital Analog Fcnt Com Fbc SpecCodec SpecSerial SpecCoupler SpecAnalog SpecImage SpecSystem SpecBits
  ProofsCodec ProofsFcnt ProofsSerialCodec ProofsAnalog ProofsModule ProofsImage ProofsLayout ProofsDigital ProofsCycle ProofsCoupler ProofsIdle ProofsDrift ProofsSystem.
Import ListNotations.
Local Open Scope Z_scope.
Ltac Zify.zify_post_hook ::= Z.div_mod_to_equations.

Lemma bytes_nth words k b : nth_error (bytes_of_words words) k = Some b ->
  exists w, nth_error words (k / 2) = Some w /\ b = if Nat.even k then w mod 256 else w / 256.
Proof.
  revert k. induction words as [|w words IH]; intros k H; [destruct k; discriminate|].
  destruct k as [|[|k]]; cbn [bytes_of_words flat_map app] in H; cbn [nth_error] in H.
  - apply Some_inj in H. exists w. auto.
  - apply Some_inj in H. exists w. auto.
  - destruct (IH k H) as (x & E & ->). exists x.
    replace (S (S k) / 2)%nat with (S (k / 2)) by lia. auto.
Qed.

Lemma bit_low w t : bit (w mod 256) t = true -> (t < 8)%nat /\ bit w t = true.
Proof.
  unfold bit. intros H. change 256 with (2 ^ 8) in H. destruct (Z_lt_le_dec (Z.of_nat t) 8) as [L|L].
  - rewrite Z.mod_pow2_bits_low in H by lia. split; [lia|exact H].
  - rewrite Z.mod_pow2_bits_high in H by lia. discriminate.
Qed.
Lemma bit_high w t : bit (w / 256) t = true -> bit w (8 + t) = true.
Proof. unfold bit. change 256 with (2 ^ 8). rewrite Z.div_pow2_bits by lia. intros H. rewrite Nat2Z.inj_add, Z.add_comm. exact H. Qed.
Lemma bit_bound w t n : 0 <= w < 2 ^ Z.of_nat n -> bit w t = true -> (t < n)%nat.
Proof.
  intros Hw H. unfold bit in H. destruct (Nat.lt_ge_cases t n) as [L|L]; [exact L|].
  destruct (Z.eq_dec w 0) as [->|N]; [rewrite Z.bits_0 in H; discriminate|].
  rewrite Z.bits_above_log2 in H; [discriminate|apply Hw|].
  destruct Hw as [Hw0 Hw]. apply Z.log2_lt_pow2; [lia|]. eapply Z.lt_le_trans; [exact Hw|]. apply Z.pow_le_mono_r; lia.
Qed.

Lemma analog_four m ch : length ch = 4%nat -> m = M4AO ch -> all_analog_outputs m.
Proof.
  intros Hl -> k. cbn [analog_output]. rewrite <- Hl, <- nth_error_Some. destruct (nth_error ch k); cbn [option_map]; split; congruence.
Qed.
Lemma analog_four_diag m ch : length ch = 4%nat -> m = M4AODIAG ch -> all_analog_outputs m.
Proof.
  intros Hl -> k. cbn [analog_output]. rewrite <- Hl, <- nth_error_Some. destruct (nth_error ch k); cbn [option_map]; split; congruence.
Qed.

Lemma digital_bits prof m n vs d : digital_outputs m = Some n -> mod_process_output_values prof m vs = Ok d ->
  exists w, d = [w] /\ is_u16 w /\ forall i, (n <= i)%nat -> bit w i = false.
Proof.
  intros Hn H. destruct (C14_all prof m n Hn) as (H1 & H2 & _).
  destruct (Nat.eq_dec (length vs) n) as [El|El]. 2:{ rewrite H1 in H by (left; exact El). discriminate. }
  destruct (switches_dec vs) as [Es|Es]. 2:{ rewrite H1 in H by (right; exact Es). discriminate. }
  destruct (H2 vs El Es) as (w & Hw & Hu & _ & Hb). rewrite Hw in H. apply Ok_inj in H. subst d. exists w. auto.
Qed.

(** The bits of encoded data. *)
Lemma encoded_bits prof m vs d b x t : complete m -> Forall wire_value vs -> mod_process_output_values prof m vs = Ok d ->
  nth_error (bytes_of_words d) b = Some x -> bit x t = true -> output_bits m b t.
Proof.
  intros Hm Hw He Hb Ht. destruct (encoded_words _ _ _ _ Hw He) as (Hl & Hu).
  assert (HD : digital_outputs m = Some (channels m) -> (8 * b + t < channels m)%nat).
  { intros Hn. destruct (digital_bits _ _ _ _ _ Hn He) as (w & -> & _ & Hz).
    destruct (Nat.lt_ge_cases (8 * b + t) (channels m)) as [L|L]; [exact L|]. exfalso. specialize (Hz _ L).
    destruct b as [|[|b]]; cbn [bytes_of_words flat_map app nth_error] in Hb; try (destruct b; discriminate Hb); apply Some_inj in Hb; subst x.
    - apply bit_low in Ht. destruct Ht as [_ Ht]. cbn [Nat.mul Nat.add] in Hz. congruence.
    - apply bit_high in Ht. replace (8 * 1 + t)%nat with (8 + t)%nat in Hz by lia. congruence. }
  assert (HA : all_analog_outputs m -> length d = 4%nat -> exists r f, analog_output m (b / 2) = Some (r, f) /\ r <> UI_Disabled).
  { intros Ha L4. destruct (bytes_nth _ _ _ Hb) as (w & Ew & Ex).
    assert (Hk : (b / 2 < 4)%nat) by (apply nth_error_Some_lt in Ew; lia).
    destruct (analog_output m (b / 2)) as [[r f]|] eqn:Ea; [|exfalso; apply Ha in Hk; exact (Hk Ea)].
    exists r, f. split; [reflexivity|]. intros ->.
    rewrite (disabled_zero prof m (b / 2) f vs d Ha Ea He Hw L4) in Ew. apply Some_inj in Ew. subst w.
    assert (X : x = 0) by (destruct (Nat.even b); exact Ex). rewrite X in Ht. unfold bit in Ht. rewrite Z.bits_0 in Ht. discriminate. }
  destruct m as [v ch|v ch| |ch|ch|ch|u ch|f ch|v f ch|f ch|u ch|ch|l ch| ]; cbn [output_bits].
  - cbn [output_words] in Hl. destruct d; [destruct b; discriminate Hb|discriminate Hl].
  - destruct v; apply HD; reflexivity.
  - apply HD. reflexivity.
  - apply HD. reflexivity.
  - apply HA; [|exact Hl]. exact (analog_four _ ch Hm eq_refl).
  - apply HA; [|exact Hl]. exact (analog_four_diag _ ch Hm eq_refl).
  - cbn [output_words] in Hl. destruct d; [destruct b; discriminate Hb|discriminate Hl].
  - cbn [output_words] in Hl. destruct d; [destruct b; discriminate Hb|discriminate Hl].
  - cbn [output_words] in Hl. destruct d; [destruct b; discriminate Hb|discriminate Hl].
  - cbn [output_words] in Hl. destruct d; [destruct b; discriminate Hb|discriminate Hl].
  - cbn [output_words] in Hl. destruct d; [destruct b; discriminate Hb|discriminate Hl].
  - cbn [complete] in Hm. rewrite (fcnt_values_cases prof ch vs Hm) in He. destruct vs as [|v1 [|v2 [|v3 vs]]]; try discriminate He.
    pose proof (wire_presets _ Hw) as Hp. inversion Hp as [|? ? P1 Hp']. inversion Hp' as [|? ? P2 _]. subst.
    rewrite encode_two in He by (intros o ->; assumption). destruct (preset v1) as [p|] eqn:E1, (preset v2) as [q|] eqn:E2; try discriminate He.
    split_if He. apply Ok_inj in He. subst d.
    assert (V : forall v o, valid_preset v -> preset v = Some o -> valid_duration (fo_duration o)).
    { intros v o P E. destruct v; try discriminate E; cbn [preset] in E; apply Some_inj in E; subst o; [exact P|]. unfold valid_duration, is_u64. cbn; lia. }
    pose proof (micros_bound _ (V _ _ P1 E1)) as B1. pose proof (micros_bound _ (V _ _ P2 E2)) as B2.
    apply orb_false_iff in Heqb0. destruct Heqb0 as [M1 M2]. apply Z.ltb_ge in M1. apply Z.ltb_ge in M2. specialize (B1 M1). specialize (B2 M2).
    set (a := micros_of (fo_duration p)) in *. set (e := micros_of (fo_duration q)) in *.
    assert (HC : forall c, (control_of c mod 256 = 0) /\ 0 <= control_of c / 256 < 2 ^ Z.of_nat 2).
    { intros [[|]|]; cbn; lia. }
    assert (Z0 : x <> 0) by (intros ->; unfold bit in Ht; rewrite Z.bits_0 in Ht; discriminate).
    destruct b as [|[|[|[|[|[|[|[|[|[|[|[|b]]]]]]]]]]]]; cbn [preset_words bytes_of_words flat_map app nth_error] in Hb; try (apply Some_inj in Hb).
    13:{ destruct b; discriminate Hb. }
    + left. split; [auto|]. apply (bit_bound x); [|exact Ht]. change (2 ^ Z.of_nat 7) with 128. subst x. fold a. lia.
    + exfalso. subst x. fold a in Z0. lia.
    + right. left. cbn; auto.
    + right. left. cbn; auto.
    + left. split; [auto|]. apply (bit_bound x); [|exact Ht]. change (2 ^ Z.of_nat 7) with 128. subst x. fold e. lia.
    + exfalso. subst x. fold e in Z0. lia.
    + right. left. cbn; auto.
    + right. left. cbn; auto.
    + exfalso. destruct (HC (fo_command p)) as [C1 C2]. congruence.
    + right. right. split; [auto|]. apply (bit_bound x); [|exact Ht]. subst x. apply HC.
    + exfalso. destruct (HC (fo_command q)) as [C1 C2]. congruence.
    + right. right. split; [auto|]. apply (bit_bound x); [|exact Ht]. subst x. apply HC.
  - destruct (com_encoded _ _ _ _ _ Hw He) as (o & -> & (Ho & _) & Ed & _). rewrite Ed in Hb.
    assert (Hlp : (length (ro_data o) <= payload_size l)%nat) by apply Ho.
    destruct b as [|[|b]]; [left; reflexivity| |].
    + right. left. split; [reflexivity|]. cbn [message nth_error] in Hb. apply Some_inj in Hb. apply (bit_bound x); [|exact Ht].
      change (2 ^ Z.of_nat 4) with 16. subst x. destruct l; cbn [payload_size] in Hlp; lia.
    + right. right. apply nth_error_Some_lt in Hb. rewrite message_length in Hb by exact Hlp. lia.
  - cbn [output_words] in Hl. destruct d; [destruct b; discriminate Hb|discriminate Hl].
Qed.

Lemma last_index (P : nat -> Prop) (dec : forall i, P i \/ ~ P i) n : (exists i, (i < n)%nat /\ P i) ->
  exists i, (i < n)%nat /\ P i /\ forall j, (i < j < n)%nat -> ~ P j.
Proof.
  induction n as [|n IH]; intros (i & Hi & H); [lia|]. destruct (dec n) as [D|D].
  - exists n. split; [lia|]. split; [exact D|]. intros j Hj. lia.
  - destruct IH as (k & Hk & Hp & Hn). { exists i. split; [|exact H]. destruct (Nat.eq_dec i n) as [->|N]; [contradiction|lia]. }
    exists k. split; [lia|]. split; [exact Hp|]. intros j Hj. destruct (Nat.eq_dec j n) as [->|N]; [exact D|]. apply Hn. lia.
Qed.

Lemma claims_dec o d b : claims o d b \/ ~ claims o d b.
Proof.
  unfold claims. destruct (mo_output o) as [off|]; [|right; intros (? & E & _); discriminate].
  set (n := (first_byte 2048 off + (if (off mod 16 =? 0)%Z then 2 * length d else 1))%nat).
  destruct (le_lt_dec (first_byte 2048 off) b) as [L|L]; [destruct (lt_dec b n) as [R|R]|].
  - left. exists off. split; [reflexivity|]. unfold n in R. lia.
  - right. intros (x & E & H). apply Some_inj in E. subst x. unfold n in R. lia.
  - right. intros (x & E & H). apply Some_inj in E. subst x. lia.
Qed.

Lemma C93_bits_all : forall prof c input output c' image b t, reachable prof c -> cycle prof c input output c' (Ok image) ->
  bit (nth b (bytes_of_words image) 0) t = true ->
  exists i m o off, module_at c i m o /\ mo_output o = Some off /\ (first_byte 0x0800 off <= b)%nat /\
    output_bits m (b - first_byte 0x0800 off) t.
Proof.
  intros prof c input output c' image b t Hr H Ht. pose proof (reachable_ok _ _ Hr) as Hok.
  assert (Huo : Forall is_u16 output) by apply H.
  destruct (ok_cycle _ _ _ _ _ _ Hok H) as (ins & outs & sent & _ & _ & E3 & E4 & _ & _ & _ & E7).
  pose proof (sent_wire _ _ _ _ _ _ _ _ Hok Huo E4 E7) as Hw.
  destruct (C40_all prof (infos c) sent image (infos_off c Hok) E3) as (_ & datas & Ld & C1 & C2 & _).
  assert (Hb : (b < 2 * length image)%nat).
  { destruct (Nat.lt_ge_cases b (2 * length image)) as [L|L]; [exact L|]. rewrite nth_overflow in Ht by (rewrite bytes_of_words_length; exact L).
    unfold bit in Ht. rewrite Z.bits_0 in Ht. discriminate. }
  destruct (last_index (fun i => exists m o d, nth_error (infos c) i = Some (m, o) /\ nth_error datas i = Some d /\ claims o d b)) with (n := length (infos c))
    as (i & Hi & (m & o & d & Hm & Hd & Hc) & Hlast).
  { intros i. destruct (nth_error (infos c) i) as [[m o]|] eqn:Ei; [|right; intros (m & o & d & E & _); discriminate].
    destruct (nth_error datas i) as [d|] eqn:Ed; [|right; intros (m' & o' & d & _ & E & _); discriminate].
    destruct (claims_dec o d b) as [D|D]; [left; exists m, o, d; auto|]. right. intros (m' & o' & d' & E & E' & X).
    apply Some_inj in E, E'. apply pair_inj in E. destruct E as [_ ->]. subst d'. contradiction. }
  { destruct (proj1 (C2 b) Hb) as (i & m & o & d & Hm & Hd & Hc). exists i. split; [exact (nth_error_Some_lt _ _ _ Hm)|]. exists m, o, d. auto. }
  destruct Hc as (off & Eo & Hrange). destruct (C1 i m o d off Hm Hd Eo) as ((vs & Hvs & He) & _ & _ & HB).
  specialize (HB (b - first_byte 2048 off)%nat). replace (first_byte 2048 off + (b - first_byte 2048 off))%nat with b in HB by lia.
  assert (Hat : module_at c i m o) by (apply infos_at; exact Hm).
  exists i, m, o, off. split; [exact Hat|]. split; [exact Eo|]. split; [lia|].
  assert (Hwv : Forall wire_value vs) by exact (proj1 (Forall_forall _ _) Hw _ (nth_error_In _ _ Hvs)).
  destruct (nth_error_lt_Some (bytes_of_words image) b) as (x & Ex); [rewrite bytes_of_words_length; exact Hb|].
  rewrite (nth_error_nth _ _ _ Ex) in Ht. rewrite HB in Ex.
  - exact (encoded_bits prof m vs d _ x t (ok_complete c i m o Hok Hm) Hwv He Ex Ht).
  - lia.
  - intros j m' o' d' Hj Hm' Hd' Hc'. apply (Hlast j); [|exists m', o', d'; auto]. split; [exact Hj|exact (nth_error_Some_lt _ _ _ Hm')].
Qed.

Lemma C93_padding_all : forall prof c input output c' image i l ioff ooff, reachable prof c ->
  cycle prof c input output c' (Ok image) -> serial_at c i l ioff ooff ->
  exists status data, out_part l ooff image = status :: Z.of_nat (length data) :: data ++ repeat 0 (payload_size l - length data) /\
    (length data <= payload_size l)%nat.
Proof.
  intros prof c input output c' image i l ioff ooff Hr H Hs.
  destruct (serial_cycle _ _ _ _ _ _ _ _ _ _ (reachable_ok _ _ Hr) H Hs) as (p & p' & rin & rout & rs & _ & _ & _ & _ & _ & _ & _ & Hg & He & _).
  exists (status_of rs), (ro_data rs). destruct Hg as (Hg & _).
  assert (Hl : (length (ro_data rs) <= payload_size l)%nat) by apply Hg.
  rewrite rs_out_encode in He; [apply Ok_inj in He; split; [symmetry; exact He|exact Hl]| |exact Hl].
  unfold encodable, counter in Hg. unfold good_counters. lia.
Qed.
