(** Proofs about idle cycles (C48). *)
From Coq Require Import ZArith List Bool Lia ZifyBool ZifyNat.
From Verif Require Import Base Facts F32 Types Lib Util Digital Analog Fcnt Com Fbc
  SpecCodec SpecSerial SpecCoupler SpecImage SpecAnalog SpecIdle ProofsAddr ProofsCodec ProofsFcnt ProofsSerialCodec
  ProofsModule ProofsImage ProofsLayout ProofsDigital ProofsSerial ProofsLoop ProofsCycle ProofsCoupler ProofsAnalog ProofsReadback ProofsWitness.
Import ListNotations.
Local Open Scope Z_scope.
Ltac Zify.zify_post_hook ::= Z.div_mod_to_equations.

(** ** Encoding again what was decoded *)

(** Equal but possibly for the last byte. *)
Definition near (d x : list Z) : Prop :=
  length x = length d /\
  forall k, (S k < 2 * length d)%nat -> nth_error (bytes_of_words x) k = nth_error (bytes_of_words d) k.

Lemma near_refl d : near d d.
Proof. split; auto. Qed.

Lemma bytes_even l : forall k, nth_error (bytes_of_words l) (2 * k) = option_map (fun w => w mod 256) (nth_error l k).
Proof.
  induction l as [|w l IH]; intros [|k]; try reflexivity.
  replace (2 * S k)%nat with (S (S (2 * k))) by lia. cbn [bytes_of_words flat_map app nth_error]. apply IH.
Qed.
Lemma bytes_odd l : forall k, nth_error (bytes_of_words l) (2 * k + 1) = option_map (fun w => w / 256) (nth_error l k).
Proof.
  induction l as [|w l IH]; intros [|k]; try reflexivity.
  replace (2 * S k + 1)%nat with (S (S (2 * k + 1))) by lia. cbn [bytes_of_words flat_map app nth_error]. apply IH.
Qed.

Lemma byte_index b : exists k, b = (2 * k)%nat \/ b = (2 * k + 1)%nat.
Proof. exists (b / 2)%nat. lia. Qed.

Lemma near_words d x : length x = length d ->
  (near d x <-> forall k w v, nth_error x k = Some w -> nth_error d k = Some v ->
     w mod 256 = v mod 256 /\ ((S k < length d)%nat -> w = v)).
Proof.
  intros Hl. split.
  - intros [_ H] k w v Hw Hv. pose proof (nth_error_Some_lt _ _ _ Hv) as Hk.
    assert (H0 : w mod 256 = v mod 256).
    { specialize (H (2 * k)%nat ltac:(lia)). rewrite !bytes_even, Hw, Hv in H. cbn [option_map] in H. congruence. }
    split; [exact H0|]. intros Hs. specialize (H (2 * k + 1)%nat ltac:(lia)). rewrite !bytes_odd, Hw, Hv in H.
    cbn [option_map] in H. apply Some_inj in H. lia.
  - intros H. split; [exact Hl|]. intros b Hb. destruct (byte_index b) as (k & [->| ->]).
    + rewrite !bytes_even. destruct (nth_error_lt_Some x k) as (w & Hw); [lia|].
      destruct (nth_error_lt_Some d k) as (v & Hv); [lia|]. destruct (H k w v Hw Hv) as (E & _).
      rewrite Hw, Hv. cbn [option_map]. congruence.
    + rewrite !bytes_odd. destruct (nth_error_lt_Some x k) as (w & Hw); [lia|].
      destruct (nth_error_lt_Some d k) as (v & Hv); [lia|]. destruct (H k w v Hw Hv) as (_ & E).
      rewrite Hw, Hv. rewrite E by lia. reflexivity.
Qed.

Lemma near_elim d x : near d x -> forall k w v, nth_error x k = Some w -> nth_error d k = Some v ->
  w mod 256 = v mod 256 /\ ((S k < length d)%nat -> w = v).
Proof. intros H. apply near_words; [apply H|exact H]. Qed.

(** [d'] keeps of [d] what [raw] keeps of it. *)
Definition first_low (l : list Z) : option Z := nth_error (bytes_of_words l) 0.
Definition keeps (d raw d' : list Z) : Prop :=
  (near d raw -> near d d') /\ (raw = d -> d' = d) /\ (first_low raw = first_low d -> first_low d' = first_low d).

Definition exact_module (m : module) : Prop :=
  forall k r f, analog_output m k = Some (r, f) -> f = S5 \/ r = UI_Disabled.

Lemma pow_cases n : (n <= 8)%nat -> exists q, 256 = q * 2 ^ Z.of_nat n /\ 0 < q.
Proof.
  intros H. exists (2 ^ Z.of_nat (8 - n)). split; [|apply Z.pow_pos_nonneg; lia].
  rewrite <- Z.pow_add_r by lia. replace (Z.of_nat (8 - n) + Z.of_nat n) with 8 by lia. reflexivity.
Qed.
Lemma mod_mod_pow w n : (n <= 8)%nat -> (w mod 256) mod 2 ^ Z.of_nat n = w mod 2 ^ Z.of_nat n.
Proof.
  intros H. destruct (pow_cases n H) as (q & Hq & Hp). symmetry. rewrite Hq. rewrite Z.mul_comm.
  rewrite Z.rem_mul_r by lia. rewrite Z.mul_comm, Z_mod_plus_full. symmetry. apply Z.mod_mod. lia.
Qed.

Lemma again_digital prof m n vs0 d raw ov d' : digital_outputs m = Some n -> ((n <= 8)%nat \/ n = 16%nat) ->
  Forall wire_value vs0 -> mod_process_output_values prof m vs0 = Ok d ->
  length raw = length d -> Forall is_u16 raw ->
  mod_process_output_data m raw = Ok ov -> mod_process_output_values prof m ov = Ok d' -> keeps d raw d'.
Proof.
  intros Hn Hle Hw He Hl Hu Hd He'.
  destruct (C14_all prof m n Hn) as (E1 & E2 & _ & E4).
  destruct (Nat.eq_dec (length vs0) n) as [El|El].
  2:{ rewrite E1 in He by (left; exact El). discriminate. }
  destruct (switches_dec vs0) as [Es|Es].
  2:{ rewrite E1 in He by (right; exact Es). discriminate. }
  destruct (E2 vs0 El Es) as (w & Hw0 & Hwu & _ & Hwh). rewrite Hw0 in He. apply Ok_inj in He. subst d.
  destruct (one_word raw Hl) as (r & ->). inversion Hu as [|? ? Hr _]; subst.
  rewrite (E4 r ov Hr Hd) in He'. apply Ok_inj in He'. subst d'.
  assert (Hwm : w mod 2 ^ Z.of_nat (length vs0) = w).
  { apply Z.mod_small. unfold is_u16 in Hwu. split; [lia|]. apply bits_bound; [lia|exact Hwh]. }
  assert (Key : r mod 256 = w mod 256 -> (r mod 2 ^ Z.of_nat (length vs0)) mod 256 = w mod 256).
  { intros E. destruct Hle as [Hle|Hle].
    - rewrite <- (mod_mod_pow r), E, mod_mod_pow, Hwm by exact Hle. reflexivity.
    - rewrite Hle. change (2 ^ Z.of_nat 16) with 65536. unfold is_u16 in Hr. rewrite (Z.mod_small r 65536) by lia. exact E. }
  unfold keeps, first_low. cbn [bytes_of_words flat_map app nth_error]. split; [|split].
  - intros H. pose proof (near_elim _ _ H) as H'. clear H. rename H' into H. apply near_words; [reflexivity|].
    intros [|k] x y Hx Hy; [|destruct k; discriminate]. cbn [nth_error] in Hx, Hy. apply Some_inj in Hx, Hy. subst x y.
    split; [|cbn [length]; lia]. apply Key. exact (proj1 (H 0%nat r w eq_refl eq_refl)).
  - intros E. injection E as ->. rewrite Hwm. reflexivity.
  - intros E. apply Some_inj in E. f_equal. apply Key. exact E.
Qed.

Lemma again_analog prof m vs0 d raw ov d' : all_analog_outputs m -> exact_module m ->
  Forall wire_value vs0 -> mod_process_output_values prof m vs0 = Ok d -> length d = 4%nat ->
  length raw = length d -> Forall is_u16 raw ->
  mod_process_output_data m raw = Ok ov -> mod_process_output_values prof m ov = Ok d' -> keeps d raw d'.
Proof.
  intros Ha Hx Hw He Hl4 Hl Hu Hd He'.
  assert (Hl' : length d' = 4%nat).
  { pose proof (output_data_wire _ _ _ Hu Hd) as Hov. destruct (encoded_words prof m ov d' Hov He') as (L & _).
    destruct (encoded_words prof m vs0 d Hw He) as (L0 & _). lia. }
  assert (Lv : length vs0 = 4%nat).
  { assert (X : analog_output m 0 <> None) by (apply Ha; lia).
    destruct m; try (exfalso; apply X; reflexivity); cbn [mod_process_output_values] in He;
      [unfold ao_process_output_values in He|unfold ao_diag_process_output_values in He];
      split_if He; split_if He; apply traverse_length in He; rewrite enumerate_length in He; lia. }
  assert (Hk : forall k w v, nth_error raw k = Some w -> nth_error d k = Some v ->
            exists u, nth_error d' k = Some u /\ (u = w \/ u = v)).
  { intros k w v Hrk Hdk. pose proof (nth_error_Some_lt _ _ _ Hdk) as Hlt.
    destruct (nth_error_lt_Some d' k) as (u & Hu'); [lia|]. exists u. split; [exact Hu'|].
    destruct (analog_output m k) as [[r f]|] eqn:Ea; [|exfalso; apply (Ha k); [lia|exact Ea]].
    assert (Hrw : rewrites m raw d') by (exists prof, ov; auto).
    destruct r eqn:Er.
    all: try (destruct (Hx k _ _ Ea) as [->|E]; [|discriminate]; left;
      destruct (C19_all m raw Ha ltac:(lia) Hu) as (_ & C); exact (C d' k _ w u Hrw Ea Hrk Hu')).
    right. pose proof (rewrite_channel m k _ f raw d' w u Ea Hrw Hrk Hu') as E. cbn [base_span] in E. subst u.
    destruct (nth_error_lt_Some vs0 k) as (v0 & Hv0); [lia|].
    assert (S : sends m k v0 v) by (exists prof, vs0, d; auto).
    pose proof (sent_analog _ _ _ _ _ _ Ea S) as X. clear - X. destruct v0; try discriminate; apply Ok_inj in X; subst v; reflexivity. }
  split; [|split].
  - intros H. pose proof (near_elim _ _ H) as H'. clear H. rename H' into H. apply near_words; [lia|].
    intros k w v Hwk Hvk. destruct (nth_error_lt_Some raw k) as (r & Hr).
    { pose proof (nth_error_Some_lt _ _ _ Hvk). lia. }
    destruct (Hk k r v Hr Hvk) as (u & Hu' & E). rewrite Hwk in Hu'. apply Some_inj in Hu'. subst u.
    specialize (H k r v Hr Hvk). destruct E as [->| ->]; [exact H|auto].
  - intros ->. apply nth_error_ext. intros k. destruct (nth_error d k) as [v|] eqn:E.
    + destruct (Hk k v v E E) as (u & -> & [->| ->]); reflexivity.
    + apply nth_error_None in E. apply nth_error_None. lia.
  - unfold first_low. change 0%nat with (2 * 0)%nat. rewrite !bytes_even.
    destruct (nth_error_lt_Some raw 0) as (w & Hw0); [lia|]. destruct (nth_error_lt_Some d 0) as (v & Hv0); [lia|].
    destruct (Hk 0%nat w v Hw0 Hv0) as (u & -> & E). rewrite Hw0, Hv0. cbn [option_map]. destruct E as [->| ->]; auto.
Qed.

(** *** Counters *)

Definition command_of (r : Z) : option command :=
  if test_bit_16 r 8 then Some Start else if test_bit_16 r 9 then Some Stop else None.

Lemma micros_from x : 0 <= x < 4294967296 ->
  micros_of (duration_from_nanos (x * 1000)) = x /\ valid_duration (duration_from_nanos (x * 1000)) /\ nanoseconds (duration_from_nanos (x * 1000)) = x * 1000.
Proof.
  intros H. unfold micros_of, duration_from_nanos, valid_duration, nanoseconds, is_u64. cbn [d_secs d_nanos]. lia.
Qed.

Lemma fcnt_again prof ch r0 r1 r2 r3 r4 r5 : length ch = 2%nat -> Forall is_u16 [r0; r1; r2; r3; r4; r5] ->
  exists ov, mod_process_output_data (MFCNT ch) [r0; r1; r2; r3; r4; r5] = Ok ov /\
    mod_process_output_values prof (MFCNT ch) ov =
    if (max_preset <? word32 r0 r1 * 1000) || (max_preset <? word32 r2 r3 * 1000) then Err ChannelValueError
    else Ok [r0; r1; r2; r3; control_of (command_of r4); control_of (command_of r5)].
Proof.
  intros Hc Hu. inversion Hu as [|? ? U0 Hu1]; subst. inversion Hu1 as [|? ? U1 Hu2]; subst.
  inversion Hu2 as [|? ? U2 Hu3]; subst. inversion Hu3 as [|? ? U3 _]; subst.
  assert (W1 : 0 <= word32 r0 r1 < 4294967296) by (unfold word32, is_u16 in *; lia).
  assert (W2 : 0 <= word32 r2 r3 < 4294967296) by (unfold word32, is_u16 in *; lia).
  destruct (micros_from _ W1) as (M1 & V1 & N1). destruct (micros_from _ W2) as (M2 & V2 & N2).
  exists [FcntOut (mk_fcnt_out (duration_from_nanos (word32 r0 r1 * 1000)) (command_of r4));
          FcntOut (mk_fcnt_out (duration_from_nanos (word32 r2 r3 * 1000)) (command_of r5))].
  split.
  - cbn [mod_process_output_data]. unfold fcnt_process_output_data.
    cbn [length Nat.eqb negb traverse seq Nat.mul Nat.add index nth_error bind].
    rewrite !u32_of_words_spec by assumption. reflexivity.
  - rewrite fcnt_values_cases by exact Hc. rewrite encode_two.
    + cbn [preset fo_duration]. rewrite N1, N2.
      destruct (_ || _); [reflexivity|]. unfold preset_words. cbn [fo_duration fo_command]. rewrite M1, M2.
      f_equal. unfold word32, is_u16 in *. repeat (f_equal; try lia).
    + intros o E. injection E as <-. exact V1.
    + intros o E. injection E as <-. exact V2.
Qed.

Lemma fcnt_encoded prof ch vs0 d : length ch = 2%nat -> Forall wire_value vs0 ->
  mod_process_output_values prof (MFCNT ch) vs0 = Ok d ->
  exists w0 w1 w2 w3 c1 c2, d = [w0; w1; w2; w3; control_of c1; control_of c2] /\
    word32 w0 w1 * 1000 <= max_preset /\ word32 w2 w3 * 1000 <= max_preset.
Proof.
  intros Hc Hw He. rewrite fcnt_values_cases in He by exact Hc.
  destruct vs0 as [|v1 [|v2 [|v3 vs0]]]; try discriminate.
  pose proof (wire_presets _ Hw) as Hp. inversion Hp as [|? ? P1 Hp']; subst. inversion Hp' as [|? ? P2 _]; subst.
  assert (O1 : value_ok v1) by (intros o ->; exact P1). assert (O2 : value_ok v2) by (intros o ->; exact P2).
  rewrite encode_two in He by assumption.
  destruct (preset v1) as [a|] eqn:E1; [|discriminate]. destruct (preset v2) as [b|] eqn:E2; [|discriminate].
  destruct (_ || _) eqn:E; [discriminate|]. apply Ok_inj in He. subst d.
  assert (Va : valid_duration (fo_duration a)).
  { destruct v1; try discriminate; cbn [preset] in E1; apply Some_inj in E1; subst a; [exact P1|].
    unfold valid_duration, is_u64. cbn [fo_duration d_secs d_nanos]. lia. }
  assert (Vb : valid_duration (fo_duration b)).
  { destruct v2; try discriminate; cbn [preset] in E2; apply Some_inj in E2; subst b; [exact P2|].
    unfold valid_duration, is_u64. cbn [fo_duration d_secs d_nanos]. lia. }
  apply orb_false_iff in E. destruct E as [Ea Eb].
  pose proof (micros_bound _ Va ltac:(lia)) as Ba. pose proof (micros_bound _ Vb ltac:(lia)) as Bb.
  unfold preset_words. exists (micros_of (fo_duration a) / 65536), (micros_of (fo_duration a) mod 65536),
    (micros_of (fo_duration b) / 65536), (micros_of (fo_duration b) mod 65536), (fo_command a), (fo_command b).
  split; [reflexivity|]. unfold word32, max_preset. lia.
Qed.

Lemma six {A} (l : list A) : length l = 6%nat -> exists a b c d e f, l = [a; b; c; d; e; f].
Proof. destruct l as [|a [|b [|c [|d [|e [|f [|g l]]]]]]]; try discriminate. intros _. do 6 eexists. reflexivity. Qed.

Lemma again_counter prof ch vs0 d raw ov d' : length ch = 2%nat ->
  Forall wire_value vs0 -> mod_process_output_values prof (MFCNT ch) vs0 = Ok d ->
  length raw = length d -> Forall is_u16 raw ->
  mod_process_output_data (MFCNT ch) raw = Ok ov -> mod_process_output_values prof (MFCNT ch) ov = Ok d' -> keeps d raw d'.
Proof.
  intros Hc Hw He Hl Hu Hd He'. destruct (fcnt_encoded _ _ _ _ Hc Hw He) as (w0 & w1 & w2 & w3 & c1 & c2 & -> & M1 & M2).
  destruct (six raw Hl) as (r0 & r1 & r2 & r3 & r4 & r5 & ->).
  destruct (fcnt_again prof ch r0 r1 r2 r3 r4 r5 Hc Hu) as (ov' & Hd' & Hx). rewrite Hd in Hd'. apply Ok_inj in Hd'. subst ov'.
  rewrite He' in Hx. destruct (_ || _); [discriminate|]. apply Ok_inj in Hx. subst d'.
  assert (Cc : forall c, control_of (command_of (control_of c)) = control_of c) by (intros [[|]|]; reflexivity).
  assert (C0 : forall c, control_of c mod 256 = 0) by (intros [[|]|]; reflexivity).
  split; [|split].
  - intros H. pose proof (near_elim _ _ H) as N. clear H. apply near_words; [reflexivity|].
    destruct (N 0%nat _ _ eq_refl eq_refl) as (_ & E0). destruct (N 1%nat _ _ eq_refl eq_refl) as (_ & E1).
    destruct (N 2%nat _ _ eq_refl eq_refl) as (_ & E2). destruct (N 3%nat _ _ eq_refl eq_refl) as (_ & E3).
    destruct (N 4%nat _ _ eq_refl eq_refl) as (_ & E4). cbn [length] in *.
    rewrite E0, E1, E2, E3, E4, Cc by lia.
    intros [|[|[|[|[|[|k]]]]]] x y Hx Hy; cbn [nth_error] in Hx, Hy; try (destruct k; discriminate);
      apply Some_inj in Hx, Hy; subst x y; auto. split; [|lia]. rewrite !C0. reflexivity.
  - intros E. injection E as -> -> -> -> -> ->. rewrite !Cc. reflexivity.
  - intros E. exact E.
Qed.

Lemma total_counter prof ch vs0 d raw : length ch = 2%nat ->
  Forall wire_value vs0 -> mod_process_output_values prof (MFCNT ch) vs0 = Ok d ->
  Forall is_u16 raw -> near d raw ->
  exists ov d', mod_process_output_data (MFCNT ch) raw = Ok ov /\ mod_process_output_values prof (MFCNT ch) ov = Ok d'.
Proof.
  intros Hc Hw He Hu H. destruct (fcnt_encoded _ _ _ _ Hc Hw He) as (w0 & w1 & w2 & w3 & c1 & c2 & -> & M1 & M2).
  destruct (six raw (proj1 H)) as (r0 & r1 & r2 & r3 & r4 & r5 & ->).
  destruct (fcnt_again prof ch r0 r1 r2 r3 r4 r5 Hc Hu) as (ov & Hd & Hx). pose proof (near_elim _ _ H) as N.
  destruct (N 0%nat _ _ eq_refl eq_refl) as (_ & E0). destruct (N 1%nat _ _ eq_refl eq_refl) as (_ & E1).
  destruct (N 2%nat _ _ eq_refl eq_refl) as (_ & E2). destruct (N 3%nat _ _ eq_refl eq_refl) as (_ & E3). cbn [length] in *.
  rewrite E0, E1, E2, E3 in Hx by lia. rewrite E0, E1, E2, E3 in Hd by lia. rewrite E0, E1, E2, E3 by lia.
  replace ((max_preset <? word32 w0 w1 * 1000) || (max_preset <? word32 w2 w3 * 1000)) with false in Hx by lia.
  eauto.
Qed.

(** *** Serial messages *)

Lemma com_encoded prof l ch vs0 d : Forall wire_value vs0 ->
  mod_process_output_values prof (MCOM l ch) vs0 = Ok d ->
  exists o, vs0 = [ComRsOut o] /\ good_out l o /\ bytes_of_words d = message o l /\ Forall is_u16 d.
Proof.
  intros Hv H. cbn [mod_process_output_values] in H. unfold com_process_output_values in H. split_if H.
  destruct vs0 as [|v [|v2 vs]]; try discriminate. cbn [index nth_error bind] in H.
  destruct v; try discriminate.
  destruct (Nat.ltb_spec (user_data_len l) (length (ro_data o))) as [Hl|Hl]; [discriminate|].
  apply bind_ok in H. destruct H as (msg & Hm & H). apply Ok_inj in H. subst d.
  inversion Hv as [|? ? Ho _]; subst. cbn [wire_value] in Ho. destruct Ho as ((Hc1 & Hc2) & Hb).
  assert (Hlp : (length (ro_data o) <= payload_size l)%nat) by exact Hl.
  assert (Hg : good_counters o).
  { unfold rs_out_to_bytes in Hm. split_if Hm. unfold good_counters, is_usize in *. lia. }
  rewrite rs_out_encode in Hm by assumption. apply Ok_inj in Hm. fold (message o l) in Hm. subst msg.
  destruct (u8_to_u16_bytes (message o l)) as (U1 & U2 & U3).
  { apply message_u8; assumption. }
  { rewrite message_length by exact Hlp. destruct l; [exists 4%nat|exists 8%nat]; reflexivity. }
  exists o. split; [reflexivity|]. split; [|auto]. split; [|exact Hb].
  unfold encodable, counter, good_counters in *. repeat match goal with |- _ /\ _ => split end; lia.
Qed.

(** What is decoded from a message. *)
Lemma com_decoded ch l raw ov : Forall is_u16 raw -> mod_process_output_data (MCOM l ch) raw = Ok ov ->
  exists r s, ov = [ComRsOut r] /\ announces (bytes_of_words raw) s (ro_data r) /\ out_message r s (ro_data r) /\ is_u8 s.
Proof.
  intros Hu H. cbn [mod_process_output_data] in H. unfold com_process_output_data in H.
  apply bind_ok in H. destruct H as (r & Hr & H). apply Ok_inj in H. subst ov. rewrite words_to_bytes_spec in Hr.
  pose proof (bytes_of_words_u8 raw Hu) as Hb.
  destruct (rs_out_decode _ Hb) as [(o & s & dd & E & Ha & Hm)|(_ & E)]; rewrite E in Hr; [|discriminate].
  apply Ok_inj in Hr. subst o. assert (Hd : ro_data r = dd) by apply Hm. subst dd. exists r, s. split; [reflexivity|].
  split; [exact Ha|]. split; [exact Hm|]. destruct Ha as (rest & Ha). rewrite Ha in Hb. inversion Hb; assumption.
Qed.

Lemma nth_error_repeat_zero n k : (k < n)%nat -> nth_error (repeat 0 n) k = Some 0.
Proof. revert k. induction n as [|n IH]; intros [|k] H; try lia; [reflexivity|]. cbn. apply IH. lia. Qed.

Lemma message_parts o l : (length (ro_data o) <= payload_size l)%nat ->
  nth_error (message o l) 0 = Some (status_of o) /\
  nth_error (message o l) 1 = Some (Z.of_nat (length (ro_data o))) /\
  forall k, (2 + length (ro_data o) <= k < message_size l)%nat -> nth_error (message o l) k = Some 0.
Proof.
  intros H. unfold message. split; [reflexivity|]. split; [reflexivity|]. intros [|[|k]] Hk; try lia.
  cbn [nth_error]. rewrite nth_error_app2 by lia. apply nth_error_repeat_zero.
  destruct l; cbn [message_size payload_size] in *; lia.
Qed.

Lemma com_words l d o : bytes_of_words d = message o l -> (length (ro_data o) <= payload_size l)%nat ->
  (2 * length d = message_size l)%nat.
Proof. intros H Hl. rewrite <- (message_length o l Hl), <- H. symmetry. apply bytes_of_words_length. Qed.

Lemma again_serial prof l ch vs0 d raw ov d' :
  Forall wire_value vs0 -> mod_process_output_values prof (MCOM l ch) vs0 = Ok d ->
  length raw = length d -> Forall is_u16 raw ->
  mod_process_output_data (MCOM l ch) raw = Ok ov -> mod_process_output_values prof (MCOM l ch) ov = Ok d' -> keeps d raw d'.
Proof.
  intros Hw He Hl Hu Hd He'. destruct (com_encoded _ _ _ _ _ Hw He) as (o & -> & [(_ & _ & Hp) _] & Hb & Hdu).
  pose proof (com_words _ _ _ Hb Hp) as Hlen.
  destruct (proj2 C28_all prof l ch raw ov ltac:(lia) Hu Hd) as (r & d1 & Eo & He1 & Hb1).
  rewrite He1 in He'. apply Ok_inj in He'. subst d1.
  destruct (com_decoded ch l raw ov Hu Hd) as (r' & s & Eo' & (rest & Ha) & _). rewrite Eo in Eo'. injection Eo' as <-.
  assert (Hlr : length (bytes_of_words raw) = message_size l) by (rewrite bytes_of_words_length; lia).
  assert (Hdr : (2 + length (ro_data r) <= message_size l)%nat).
  { rewrite <- Hlr, Ha. cbn [length]. rewrite app_length. lia. }
  assert (Hl' : length d' = length d).
  { assert (X : length (bytes_of_words d') = message_size l).
    { rewrite Hb1, app_length, firstn_length, repeat_length. lia. }
    rewrite bytes_of_words_length in X. lia. }
  assert (Hk1 : forall k, (k < 2 + length (ro_data r))%nat ->
            nth_error (bytes_of_words d') k = nth_error (bytes_of_words raw) k).
  { intros k Hk. rewrite Hb1, nth_error_app1 by (rewrite firstn_length; lia). apply nth_error_firstn_lt. exact Hk. }
  assert (Hk2 : forall k, (2 + length (ro_data r) <= k < message_size l)%nat -> nth_error (bytes_of_words d') k = Some 0).
  { intros k Hk. rewrite Hb1, nth_error_app2 by (rewrite firstn_length; lia). rewrite firstn_length, Hlr.
    apply nth_error_repeat_zero. lia. }
  destruct (message_parts o l Hp) as (P0 & P1 & P2). rewrite <- Hb in P0, P1, P2.
  assert (Near : forall n, (2 <= n <= message_size l)%nat ->
            (forall k, (k < n)%nat -> nth_error (bytes_of_words raw) k = nth_error (bytes_of_words d) k) ->
            forall k, (k < n)%nat -> nth_error (bytes_of_words d') k = nth_error (bytes_of_words d) k).
  { intros n Hn Hr k Hk.
    assert (En : length (ro_data r) = length (ro_data o)).
    { pose proof (Hr 1%nat ltac:(lia)) as E. rewrite P1, Ha in E. cbn [nth_error] in E. apply Some_inj in E. lia. }
    destruct (Nat.ltb_spec k (2 + length (ro_data r))) as [Hc|Hc].
    - rewrite Hk1 by exact Hc. apply Hr. exact Hk.
    - rewrite Hk2, P2 by lia. reflexivity. }
  split; [|split].
  - intros [_ H]. split; [exact Hl'|]. intros k Hk. apply (Near (2 * length d - 1)%nat); [destruct l; cbn [message_size] in *; lia| |lia].
    intros j Hj. apply H. lia.
  - intros E.
    destruct (encoded_words prof (MCOM l ch) ov d' (output_data_wire _ _ _ Hu Hd) He1) as (_ & Hdu').
    apply bytes_of_words_inj; [exact Hdu'|exact Hdu|]. apply nth_error_ext. intros k.
    destruct (Nat.ltb_spec k (message_size l)) as [Hk|Hk].
    + apply (Near (message_size l)); [destruct l; cbn [message_size]; lia| |exact Hk]. intros; rewrite E; reflexivity.
    + transitivity (@None Z); [|symmetry]; apply nth_error_None; rewrite bytes_of_words_length; lia.
  - unfold first_low. intros E. rewrite Hk1 by lia. exact E.
Qed.

Lemma total_serial prof l ch vs0 d raw :
  Forall wire_value vs0 -> mod_process_output_values prof (MCOM l ch) vs0 = Ok d ->
  Forall is_u16 raw -> near d raw ->
  exists ov d', mod_process_output_data (MCOM l ch) raw = Ok ov /\ mod_process_output_values prof (MCOM l ch) ov = Ok d'.
Proof.
  intros Hw He Hu [Hl H]. destruct (com_encoded _ _ _ _ _ Hw He) as (o & -> & [(_ & _ & Hp) _] & Hb & Hdu).
  pose proof (com_words _ _ _ Hb Hp) as Hlen. destruct (message_parts o l Hp) as (P0 & P1 & P2). rewrite <- Hb in P0, P1, P2.
  pose proof (bytes_of_words_u8 raw Hu) as Hb8.
  assert (Hs : (4 <= length d)%nat) by (destruct l; cbn [message_size] in *; lia).
  assert (Hn : nth_error (bytes_of_words raw) 1 = Some (Z.of_nat (length (ro_data o)))) by (rewrite H by lia; exact P1).
  assert (Hd : exists ov, mod_process_output_data (MCOM l ch) raw = Ok ov).
  { cbn [mod_process_output_data]. unfold com_process_output_data. rewrite words_to_bytes_spec.
    destruct (rs_out_decode _ Hb8) as [(r & s & dd & E & _)|(N & _)].
    - rewrite E. cbn [bind]. eauto.
    - exfalso. pose proof (bytes_of_words_length raw) as Lr. destruct (bytes_of_words raw) as [|s [|n t]]; [discriminate Hn|discriminate Hn|].
      cbn [nth_error] in Hn. apply Some_inj in Hn. subst n. cbn [length] in Lr.
      apply (N s (firstn (length (ro_data o)) t)). exists (skipn (length (ro_data o)) t).
      rewrite firstn_length, Nat.min_l, firstn_skipn; [reflexivity|].
      destruct l; cbn [message_size payload_size] in *; lia. }
  destruct Hd as (ov & Hd). destruct (proj2 C28_all prof l ch raw ov ltac:(lia) Hu Hd) as (r & d1 & -> & He1 & _). eauto.
Qed.

(** The acknowledged counter is in the first byte. *)
Lemma serial_ack prof l ch o d raw r : good_out l o ->
  mod_process_output_values prof (MCOM l ch) [ComRsOut o] = Ok d -> Forall is_u16 raw ->
  mod_process_output_data (MCOM l ch) raw = Ok [ComRsOut r] -> first_low raw = first_low d ->
  ro_rx_cnt_ack r = ro_rx_cnt_ack o.
Proof.
  intros Hg He Hu Hd E.
  assert (Hw : Forall wire_value [ComRsOut o]).
  { constructor; [|constructor]. cbn [wire_value]. destruct Hg as [(C1 & C2 & _) C3]. unfold in_counters, is_usize, counter in *. split; [lia|exact C3]. }
  destruct (com_encoded _ _ _ _ _ Hw He) as (o' & Eo & [(_ & _ & Hp) _] & Hb & Hdu). injection Eo as <-.
  destruct (message_parts o l Hp) as (P0 & _). destruct (com_decoded ch l raw _ Hu Hd) as (r' & s & Er & (rest & Ha) & Hm & _).
  injection Er as <-. unfold first_low in E. rewrite Ha, Hb, P0 in E. cbn [nth_error] in E. apply Some_inj in E. subst s.
  destruct Hm as (_ & _ & _ & _ & -> & _). apply status_of_bits.
  destruct Hg as [(C1 & C2 & _) _]. unfold good_counters, counter in *. lia.
Qed.

(** *** Any module *)

Lemma analog_all m : complete m -> output_words m = 4%nat -> is_serial m = false -> all_analog_outputs m.
Proof.
  intros Hc H4 Hs. destruct m as [v ch|v ch| |ch|ch|ch|u ch|f ch|v f ch|f ch|u ch|ch|l ch| ]; try discriminate;
    cbn [complete] in Hc; intros k; cbn [analog_output]; split.
  all: try (intros Hk; destruct (nth_error_lt_Some ch k) as (p & Hp); [lia|]; rewrite Hp; discriminate).
  all: intros Hn; destruct (nth_error ch k) as [p|] eqn:E; [|exfalso; apply Hn; reflexivity]; apply nth_error_Some_lt in E; lia.
Qed.

Lemma module_kinds m : complete m -> output_bytes m <> 0%nat ->
  (exists n, digital_outputs m = Some n /\ ((n <= 8)%nat \/ n = 16%nat) /\ output_words m = 1%nat /\ is_serial m = false) \/
  (all_analog_outputs m /\ output_words m = 4%nat /\ is_serial m = false) \/
  (exists ch, m = MFCNT ch /\ length ch = 2%nat) \/ (exists l ch, m = MCOM l ch).
Proof.
  intros Hc Hz. destruct m as [v ch|v ch| |ch|ch|ch|u ch|f ch|v f ch|f ch|u ch|ch|l ch| ];
    try (exfalso; apply Hz; reflexivity).
  - left. destruct v; eexists; (split; [reflexivity|]); (split; [lia|]); auto.
  - left. exists 16%nat. auto.
  - left. exists 4%nat. split; [reflexivity|]. split; [lia|]. auto.
  - right. left. split; [apply analog_all; auto|]. auto.
  - right. left. split; [apply analog_all; auto|]. auto.
  - right. right. left. eauto.
  - right. right. right. eauto.
Qed.

Lemma words_count m : output_bytes m <> 0%nat -> word_count (output_bytes m) = output_words m.
Proof.
  intros Hz. destruct m as [[]|[]| | | | | | |[]| | | |[]|]; try reflexivity; exfalso; apply Hz; reflexivity.
Qed.

Lemma again prof m vs0 d raw ov d' : complete m -> output_bytes m <> 0%nat -> exact_module m ->
  Forall wire_value vs0 -> mod_process_output_values prof m vs0 = Ok d ->
  length raw = length d -> Forall is_u16 raw ->
  mod_process_output_data m raw = Ok ov -> mod_process_output_values prof m ov = Ok d' -> keeps d raw d'.
Proof.
  intros Hc Hz Hx Hw He Hl Hu Hd He'. destruct (encoded_words _ _ _ _ Hw He) as (Ld & _).
  destruct (module_kinds m Hc Hz) as [(n & Hn & Hle & _)|[(Ha & H4 & _)|[(ch & -> & Hch)|(l & ch & ->)]]].
  - eapply again_digital; eassumption.
  - apply (again_analog prof m vs0 d raw ov d'); auto. lia.
  - eapply again_counter; eassumption.
  - eapply again_serial; eassumption.
Qed.

Lemma total prof m vs0 d raw : complete m -> output_bytes m <> 0%nat ->
  Forall wire_value vs0 -> mod_process_output_values prof m vs0 = Ok d ->
  length raw = length d -> Forall is_u16 raw -> (near d raw \/ (output_bytes m <= 2)%nat) ->
  exists ov d', mod_process_output_data m raw = Ok ov /\ mod_process_output_values prof m ov = Ok d'.
Proof.
  intros Hc Hz Hw He Hl Hu Hn. destruct (encoded_words _ _ _ _ Hw He) as (Ld & _).
  destruct (module_kinds m Hc Hz) as [(n & Hdig & Hle & H1 & _)|[(Ha & H4 & _)|[(ch & -> & Hch)|(l & ch & ->)]]].
  - destruct (one_word raw) as (w & ->); [lia|]. inversion Hu as [|? ? Hw16 _]; subst.
    destruct (do_decoder m n Hdig) as (_ & D). exists (map (fun i => Bit (bit w i)) (seq 0 n)), [w mod 2 ^ Z.of_nat n].
    split; [apply D|]. destruct (C14_all prof m n Hdig) as (_ & _ & _ & E4). apply E4; [exact Hw16|apply D].
  - destruct (rewrites_total m raw prof Ha) as (ov & d' & H & H' & _); [lia|]. eauto.
  - destruct Hn as [Hn|Hn]; [|cbn [output_bytes] in Hn; lia]. eapply total_counter; eassumption.
  - destruct Hn as [Hn|Hn]; [|destruct l; cbn [output_bytes message_size] in Hn; lia]. eapply total_serial; eassumption.
Qed.

(** ** Layouts *)

Lemma later_claims q mid image : lays q mid image -> forall b, claimed q b -> (2 * length mid <= b + 1)%nat.
Proof.
  induction 1 as [out|o d ps out image Eo _ IH|o d off ps out image Eo E El _ IH|o w d off ps out last image Eo E El _ IH];
    intros b (o' & d' & Hin & Hc).
  - destruct Hin.
  - destruct Hin as [Hi|Hi].
    + apply pair_inj in Hi. destruct Hi as [<- <-]. destruct Hc as (off & Hx & _). congruence.
    + apply IH. exists o', d'. auto.
  - destruct Hin as [Hi|Hi].
    + apply pair_inj in Hi. destruct Hi as [<- <-]. apply (claims_word o d off (length out)) in Hc; auto. lia.
    + assert (X : claimed ps b) by (exists o', d'; auto). apply IH in X. rewrite app_length in X. lia.
  - destruct Hin as [Hi|Hi].
    + apply pair_inj in Hi. destruct Hi as [<- <-]. apply (claims_byte o (w :: d) off (length out)) in Hc; auto.
      rewrite app_length. cbn [length]. lia.
    + assert (X : claimed ps b) by (exists o', d'; auto). apply IH in X. rewrite app_length in *. exact X.
Qed.

Lemma claims_dec o d b : claims o d b \/ ~ claims o d b.
Proof.
  unfold claims. destruct (mo_output o) as [off|].
  - set (n := (if off mod 16 =? 0 then (2 * length d)%nat else 1%nat)).
    destruct (Nat.ltb_spec b (first_byte 0x0800 off)) as [H|H].
    { right. intros (off' & E & H'). apply Some_inj in E. subst off'. lia. }
    destruct (Nat.ltb_spec b (first_byte 0x0800 off + n)) as [H'|H'].
    { left. exists off. split; [reflexivity|]. unfold n in *. lia. }
    right. intros (off' & E & H1). apply Some_inj in E. subst off'. unfold n in *. lia.
  - right. intros (off & E & _). discriminate.
Qed.

Lemma claimed_dec ps b : claimed ps b \/ ~ claimed ps b.
Proof.
  induction ps as [|(o & d) ps [IH|IH]].
  - right. intros (o & d & [] & _).
  - left. destruct IH as (o' & d' & Hi & Hc). exists o', d'. split; [right; exact Hi|exact Hc].
  - destruct (claims_dec o d b) as [H|H].
    + left. exists o, d. split; [left; reflexivity|exact H].
    + right. intros (o' & d' & [Hi|Hi] & Hc).
      * apply pair_inj in Hi. destruct Hi as [<- <-]. contradiction.
      * apply IH. exists o', d'. auto.
Qed.

Lemma last_claim ps b : claimed ps b -> exists pre o d post, ps = pre ++ (o, d) :: post /\ claims o d b /\ ~ claimed post b.
Proof.
  induction ps as [|(o & d) ps IH]; intros H.
  - destruct H as (o & d & [] & _).
  - destruct (claimed_dec ps b) as [Hc|Hc].
    + destruct (IH Hc) as (pre & o' & d' & post & -> & H1 & H2). exists ((o, d) :: pre), o', d', post. auto.
    + destruct H as (o' & d' & [Hi|Hi] & Hcl).
      * apply pair_inj in Hi. destruct Hi as [<- <-]. exists [], o, d, ps. auto.
      * exfalso. apply Hc. exists o', d'. auto.
Qed.

(** Layouts of data of the same sizes. *)
Definition alike (p q : module_offset * list Z) : Prop := fst q = fst p /\ length (snd q) = length (snd p).

Lemma alike_claimed ps qs b : Forall2 alike ps qs -> claimed qs b -> claimed ps b.
Proof.
  intros HF (o & d & Hin & (off & Eo & Hb)). apply In_nth_error in Hin. destruct Hin as (i & Hi).
  pose proof (Forall2_length _ _ _ HF) as Hl. destruct (nth_error_lt_Some ps i) as ((o' & d') & Hp).
  { rewrite Hl. eapply nth_error_Some_lt. exact Hi. }
  apply Forall2_nth_error in HF. destruct HF as (_ & HF). destruct (HF i _ _ Hp Hi) as [E1 E2]. cbn [fst snd] in *. subst o'.
  exists o, d'. split; [eapply nth_error_In; exact Hp|]. exists off. split; [exact Eo|]. rewrite <- E2. exact Hb.
Qed.

Lemma steps_alike prof l : forall ps qs out image out', lays ps out image -> Forall2 alike ps qs ->
  Forall2 (encodes prof) l qs -> Forall (fun x => off_ok (snd (fst x))) l -> length out' = length out ->
  exists image', steps prof l out' = Ok image' /\ lays qs out' image' /\ length image' = length image.
Proof.
  induction l as [|((m & o) & v) l IH]; intros ps qs out image out' HL HA HE Hoff Hlen.
  - inversion HE; subst. inversion HA; subst. inversion HL; subst. exists out'. split; [reflexivity|]. split; [constructor|exact Hlen].
  - inversion HE as [|? (qo & qd) ? qs' [E1 E2] HE']; subst. inversion HA as [|(po & pd) ? ps' ? [A1 A2] HA']; subst.
    inversion Hoff as [|? ? Ho Hoff']; subst. cbn [fst snd] in *. subst qo. subst po. cbn [steps].
    inversion HL as [|? ? ? ? ? Eo HL'|? ? off ? ? ? Eo E El HL'|? w d' off ? t last ? Eo E El HL']; subst.
    + unfold output_step. rewrite Eo. cbn [bind]. destruct (IH _ _ _ _ out' HL' HA' HE' Hoff' Hlen) as (im & H1 & H2 & H3).
      exists im. split; [exact H1|]. split; [apply L_none; assumption|exact H3].
    + rewrite Eo in E2. pose proof (output_step_cases prof m o v out' qd Ho (fun _ => E2)) as Hc.
      assert (Hs : output_step prof m o v out' = Ok (out' ++ qd)).
      { inversion Hc as [Hn X|off' Ho' E0 El' X|off' t last w r Ho' E8 Ht El' -> X|off' t last Ho' E8 Ht El' Hd X|off' Ho' N1 N2 X];
          rewrite Eo in *; try congruence; try (apply Some_inj in Ho'; subst off'); try lia; try reflexivity. }
      rewrite Hs. cbn [bind].
      destruct (IH _ _ _ _ (out' ++ qd) HL' HA' HE' Hoff') as (im & H1 & H2 & H3); [rewrite !app_length; lia|].
      exists im. split; [exact H1|]. split; [|exact H3]. eapply L_word; try eassumption. lia.
    + rewrite Eo in E2. destruct qd as [|w' qd]; [discriminate|].
      rewrite app_length in Hlen. cbn [length] in Hlen. destruct (split_last out' _ Hlen) as (t' & last' & -> & Ht').
      pose proof (output_step_cases prof m o v (t' ++ [last']) (w' :: qd) Ho (fun _ => E2)) as Hc.
      assert (Hs : output_step prof m o v (t' ++ [last']) = Ok (t' ++ [w' mod 256 * 256 + last' mod 256])).
      { inversion Hc as [Hn X|off' Ho' E0 El' X|off' t1 last1 w1 r Ho' E8 Ht El' Hd X|off' t1 last1 Ho' E8 Ht El' Hd X|off' Ho' N1 N2 X];
          rewrite Eo in *; try congruence; try (apply Some_inj in Ho'; subst off'); try lia.
        apply app_inj_tail in Ht. destruct Ht as [<- <-]. injection Hd as <- <-. reflexivity.
      }
      rewrite Hs. cbn [bind].
      destruct (IH _ _ _ _ (t' ++ [w' mod 256 * 256 + last' mod 256]) HL' HA' HE' Hoff') as (im & H1 & H2 & H3);
        [rewrite !app_length; cbn [length]; lia|].
      exists im. split; [exact H1|]. split; [|exact H3]. eapply L_byte; try eassumption. lia.
Qed.

(** Images of layouts whose visible bytes agree. *)
Lemma lays_equal ps qs image image' : lays ps [] image -> lays qs [] image' -> Forall2 alike ps qs ->
  length image' = length image -> Forall is_u16 image -> Forall is_u16 image' ->
  (forall i o d d' off, nth_error ps i = Some (o, d) -> nth_error qs i = Some (o, d') -> mo_output o = Some off ->
     forall k, (k < if (off mod 16 =? 0)%Z then 2 * length d else 1)%nat ->
       ~ claimed (skipn (S i) ps) (first_byte 0x0800 off + k) ->
       nth_error (bytes_of_words d') k = nth_error (bytes_of_words d) k) ->
  image' = image.
Proof.
  intros HP HQ HA Hl Hu Hu' H. apply bytes_of_words_inj; auto. apply nth_error_ext. intros b.
  destruct (Nat.ltb_spec b (2 * length image)) as [Hb|Hb].
  2:{ transitivity (@None Z); [|symmetry]; apply nth_error_None; rewrite bytes_of_words_length; lia. }
  destruct (lays_facts _ _ _ HP) as (_ & _ & F3 & _). destruct (last_claim ps b) as (pre & o & d & post & E & Hc & Hn).
  { apply F3. cbn [length]. lia. }
  assert (Hi : nth_error ps (length pre) = Some (o, d)) by (rewrite E, nth_error_app2, Nat.sub_diag by lia; reflexivity).
  assert (Hpost : skipn (S (length pre)) ps = post).
  { rewrite E. change ((o, d) :: post) with ([(o, d)] ++ post). rewrite app_assoc.
    replace (S (length pre)) with (length (pre ++ [(o, d)]) + 0)%nat by (rewrite app_length; cbn [length]; lia).
    rewrite skipn_app, skipn_all2 by lia. rewrite Nat.add_comm, Nat.add_sub. reflexivity. }
  pose proof (Forall2_length _ _ _ HA) as HAl.
  destruct (nth_error_lt_Some qs (length pre)) as ((o' & d') & Hq). { rewrite <- HAl. eapply nth_error_Some_lt. exact Hi. }
  pose proof HA as HA2. apply Forall2_nth_error in HA2. destruct HA2 as (_ & HA2). destruct (HA2 _ _ _ Hi Hq) as [E1 E2].
  cbn [fst snd] in E1, E2. subst o'.
  destruct (nth_error_split qs _ Hq) as (qpre & qpost & Eq & Lq).
  assert (HA3 : Forall2 alike post qpost).
  { rewrite E in HA. rewrite Eq in HA.
    assert (X : forall (a : list (module_offset * list Z)) b x y u v, Forall2 alike (a ++ x :: u) (b ++ y :: v) -> length b = length a -> Forall2 alike u v).
    { induction a as [|a0 a IHa]; intros [|b0 b'] x y u v HF Hlen; cbn [length] in Hlen; try discriminate; inversion HF; subst; auto.
      eapply IHa; [eassumption|lia]. }
    exact (X _ _ _ _ _ _ HA Lq). }
  destruct Hc as (off & Eo & Hcb). rewrite E in HP. rewrite Eq in HQ.
  destruct (lays_own _ _ _ _ _ _ _ HP Eo) as (_ & _ & OP). destruct (lays_own _ _ _ _ _ _ _ HQ Eo) as (_ & _ & OQ).
  replace b with (first_byte 0x0800 off + (b - first_byte 0x0800 off))%nat in * by lia.
  rewrite OP; [|lia|exact Hn]. rewrite OQ; [|rewrite E2; lia|].
  - apply (H (length pre) o d d' off Hi Hq Eo); [lia|]. rewrite Hpost. exact Hn.
  - intros X. apply Hn. exact (alike_claimed _ _ _ HA3 X).
Qed.

Lemma lays_u16 ps out image : lays ps out image -> Forall is_u16 out ->
  (forall o d, In (o, d) ps -> Forall is_u16 d) -> Forall is_u16 image.
Proof.
  induction 1 as [out|o d ps out image Eo _ IH|o d off ps out image Eo E El _ IH|o w d off ps out last image Eo E El _ IH];
    intros Hu Hd.
  - exact Hu.
  - apply IH; [exact Hu|]. intros; eapply Hd; right; eassumption.
  - apply IH; [|intros; eapply Hd; right; eassumption]. apply Forall_app. split; [exact Hu|]. eapply Hd. left. reflexivity.
  - apply IH; [|intros; eapply Hd; right; eassumption]. apply Forall_app in Hu. destruct Hu as [Hu _].
    apply Forall_app. split; [exact Hu|]. constructor; [|constructor]. unfold is_u16. lia.
Qed.

(** What a module reads from the image it was laid into. *)
Lemma reads_own prof pre o d post image off m raw : lays (pre ++ (o, d) :: post) [] image -> Forall is_u16 image ->
  mo_output o = Some off -> is_u16 off -> output_bytes m <> 0%nat -> length d = output_words m -> Forall is_u16 d ->
  prepare_raw_data_to_process prof off 0x0800 (output_bytes m) image = Ok raw ->
  length raw = length d /\ Forall is_u16 raw /\
  (off mod 16 = 0 -> near d raw /\ (~ claimed post (first_byte 0x0800 off + (2 * length d - 1)) -> raw = d)) /\
  (off mod 16 = 8 -> ~ claimed post (first_byte 0x0800 off) -> first_low raw = first_low d).
Proof.
  intros HL Hu Eo Ho Hz Hld Hdu Hp. destruct (lays_own _ _ _ _ _ _ _ HL Eo) as (Hlow & _ & Own).
  assert (Hb : 0 <= 2048 <= off / 16) by (unfold is_u16 in Ho; lia).
  destruct (prepare_own _ _ _ _ _ _ Ho Hb Hu Hp) as (Lr & Hru & _ & Hbytes). rewrite words_count in * by exact Hz.
  assert (Hd1 : (1 <= length d)%nat).
  { rewrite Hld, <- words_count by exact Hz. apply word_count_pos. }
  split; [lia|]. split; [exact Hru|]. split.
  - intros E0. destruct Hbytes as [[_ Hby]|[E8 _]]; [|lia]. rewrite <- Hld in Hby. rewrite E0 in Own. cbn [Z.eqb] in Own.
    assert (Hk : forall k, (k < 2 * length d)%nat -> ~ claimed post (first_byte 0x0800 off + k) ->
              nth_error (bytes_of_words raw) k = nth_error (bytes_of_words d) k).
    { intros k Hk Hn. rewrite <- Own by assumption. rewrite Hby. unfold image_bytes.
      rewrite nth_error_firstn_lt by exact Hk. apply nth_error_skipn. }
    assert (Hlater : forall k, (S k < 2 * length d)%nat -> ~ claimed post (first_byte 0x0800 off + k)).
    { intros k Hk' Hc. destruct (lays_app _ _ _ _ HL) as (mid & _ & HL').
      inversion HL' as [|? ? ? ? ? Ex HL2|? ? off1 ? ? ? Ex E El HL2|? w1 d1 off1 ? out' last ? Ex E El HL2]; subst;
        rewrite Eo in Ex; try discriminate; apply Some_inj in Ex; subst off1; [|lia].
      apply (later_claims _ _ _ HL2) in Hc. rewrite app_length in Hc. rewrite (first_word off (length mid)) in Hc by lia. lia. }
    split.
    + split; [lia|]. intros k Hk'. apply Hk; [lia|]. apply Hlater. exact Hk'.
    + intros Hn. apply bytes_of_words_inj; auto. apply nth_error_ext. intros k.
      destruct (Nat.ltb_spec (S k) (2 * length d)) as [H1|H1]; [apply Hk; [lia|]; apply Hlater; exact H1|].
      destruct (Nat.eq_dec k (2 * length d - 1)) as [->|H2]; [apply Hk; [lia|exact Hn]|].
      transitivity (@None Z); [|symmetry]; apply nth_error_None; rewrite bytes_of_words_length; lia.
  - intros E8 Hn. destruct Hbytes as [[E0 _]|[_ Hby]]; [lia|]. unfold first_low. rewrite E8 in Own. cbn [Z.eqb] in Own.
    specialize (Own 0%nat ltac:(lia)). rewrite Nat.add_0_r in Own. rewrite <- (Own Hn), Hby. unfold image_bytes.
    rewrite nth_error_app1.
    + rewrite nth_error_firstn_lt by lia. rewrite nth_error_skipn, Nat.add_0_r. reflexivity.
    + rewrite firstn_length, skipn_length.
      assert (nth_error (bytes_of_words image) (first_byte 2048 off) <> None).
      { rewrite (Own Hn). apply nth_error_Some. rewrite bytes_of_words_length. lia. }
      apply nth_error_Some in H. lia.
Qed.

(** ** One idle cycle *)

Lemma done_next prof p rin rout p' rs : p_init_state p = Done -> p_out_data p = [] ->
  processor_next prof p rin rout = Ok (p', rs) ->
  p_init_state p' = Done /\ p_out_data p' = [] /\ (ri_rx_cnt rin = ro_rx_cnt_ack rout -> rs = rout).
Proof.
  intros H1 H2 H. unfold processor_next in H. rewrite H1, H2 in H. cbn [bind] in H. apply Ok_inj, pair_inj in H.
  destruct H as [<- <-]. cbn [p_init_state p_out_data]. split; [reflexivity|]. split; [reflexivity|].
  intros ->. destruct rout. reflexivity.
Qed.

Lemma acked prof p rin rout p' rs : processor_next prof p rin rout = Ok (p', rs) -> ro_rx_cnt_ack rs = ri_rx_cnt rin.
Proof.
  unfold processor_next. destruct (p_init_state p).
  - intros H. apply Ok_inj, pair_inj in H. destruct H as [_ <-]. reflexivity.
  - intros H. apply Ok_inj, pair_inj in H. destruct H as [_ <-]. reflexivity.
  - intros H. apply bind_ok in H. destruct H as (((q & t) & dat) & _ & H). apply Ok_inj, pair_inj in H.
    destruct H as [_ <-]. reflexivity.
Qed.

Section OneCycle.
Variables (prof : profile) (c c' c'' : coupler) (input output input' image : list Z).
Variables (ins : list (list channel_value)) (sent ins' outs' sent' : list (list channel_value)).
Hypothesis Hok : coupler_ok c.
Hypothesis Hset : settled c'.
Hypothesis Himage : Forall is_u16 image.
Hypothesis Hquiet : forall i r r', cell ins i 0 = Some (ComRsIn r) -> cell ins' i 0 = Some (ComRsIn r') -> ri_rx_cnt r' = ri_rx_cnt r.
Variable i : nat.
Variables (m : module) (o : module_offset).
Hypothesis Hat : module_at c i m o.
Variables (iv ov iv' ov' : list channel_value).
Hypothesis Hiv : nth_error ins i = Some iv.
Hypothesis Hiv' : nth_error ins' i = Some iv'.
Hypothesis Hrow' : output_row prof (m, o) image = Ok ov'.
Hypothesis Hc : module_cycle prof c c' sent i m o iv ov.
Hypothesis Hc' : module_cycle prof c' c'' sent' i m o iv' ov'.
Variables (pre post : list (module_offset * list Z)) (d : list Z) (off : Z) (vs0 : list channel_value).
Hypothesis HL : lays (pre ++ (o, d) :: post) [] image.
Hypothesis Eo : mo_output o = Some off.
Hypothesis Hvs : nth_error sent i = Some vs0.
Hypothesis Hwire : Forall wire_value vs0.
Hypothesis He : mod_process_output_values prof m vs0 = Ok d.

Lemma one_nonzero : output_bytes m <> 0%nat.
Proof. eapply output_row_exists_nonzero; [exact Hrow'|exact Eo| |exact Himage]. destruct (ok_off c Hok i m o Hat) as [_ H]. exact (H off Eo). Qed.

Lemma one_row : exists raw vs', nth_error sent' i = Some vs' /\ length raw = length d /\ Forall is_u16 raw /\
  mod_process_output_data m raw = Ok ov' /\
  (off mod 16 = 0 -> near d raw /\ (~ claimed post (first_byte 0x0800 off + (2 * length d - 1)) -> raw = d)) /\
  (off mod 16 = 8 -> ~ claimed post (first_byte 0x0800 off) -> first_low raw = first_low d) /\
  (is_serial m = false \/ first_low raw = first_low d -> vs' = ov').
Proof.
  pose proof one_nonzero as Hz. pose proof Hrow' as Hr. unfold output_row in Hr. cbn [fst snd] in Hr. rewrite Eo in Hr.
  apply bind_ok in Hr. destruct Hr as (raw & Hp & Hr).
  destruct (encoded_words _ _ _ _ Hwire He) as (Ld & Hdu).
  assert (Ho : is_u16 off) by (destruct (ok_off c Hok i m o Hat) as [_ H]; exact (H off Eo)).
  destruct (reads_own _ _ _ _ _ _ _ _ _ HL Himage Eo Ho Hz Ld Hdu Hp) as (Lr & Hru & H0 & H8).
  destruct Hset as [Hreq Hser].
  destruct Hc' as [row S1 S2 S3 S4 S5 S6 S6' S7 S8|l ch rin rout p0 p' rs last Em Ei' Eov G1 G2 G3 N1 N2 S1 S2 S3 S4 S5 S6 S7
                     |l ch Em S1 S2 S3 S4 S5 S6 S7].
  - exists raw, row. do 6 (split; [assumption|]). intros _. apply nth_error_ext. intros j. rewrite S4, Hreq. reflexivity.
  - exists raw, [ComRsOut rs]. do 6 (split; [assumption|]). intros [Hs|Hfl]; [rewrite Em in Hs; discriminate|].
    rewrite Hreq in S2. cbn [fed] in S2. destruct (Hser i p0 S1) as [Q1 Q2].
    destruct (done_next _ _ _ _ _ _ Q1 Q2 S2) as (_ & _ & Q3). rewrite Eov. f_equal. f_equal. apply Q3.
    destruct Hc as [row T1 _ _ _ _ _ _ _ _|l2 ch2 rin1 rout1 p1 p1' rs1 last1 Em1 Ei1 Eov1 K1 K2 K3 _ _ T1 T2 T3 T4 _ _ _
                     |l2 ch2 Em1 T1 _ _ _ _ _ _].
    + rewrite Em in T1. discriminate.
    + rewrite (Hquiet i rin1 rin).
      2:{ unfold cell. rewrite Hiv, Ei1. reflexivity. }
      2:{ unfold cell. rewrite Hiv', Ei'. reflexivity. }
      rewrite <- (acked _ _ _ _ _ _ T2). rewrite Hvs in T4. apply Some_inj in T4. symmetry.
      rewrite Em in *. injection Em1 as <- <-. subst vs0. subst ov'.
      exact (serial_ack prof l ch rs1 d raw rout K3 He Hru Hr Hfl).
    + exfalso. destruct T1 as [[T1 _]|[T1 _]]; contradiction.
  - exists raw, ov'. do 6 (split; [assumption|]). auto.
Qed.

Lemma one_keeps vs' d' : exact_module m -> nth_error sent' i = Some vs' -> mod_process_output_values prof m vs' = Ok d' ->
  Forall wire_value vs' ->
  length d' = length d /\
  forall k, (k < if (off mod 16 =? 0)%Z then 2 * length d else 1)%nat ->
    ~ claimed post (first_byte 0x0800 off + k) -> nth_error (bytes_of_words d') k = nth_error (bytes_of_words d) k.
Proof.
  intros Hxm Hs' He' Hw'. pose proof one_nonzero as Hz.
  destruct one_row as (raw & vs1 & Hv1 & Lr & Hru & Hd & H0 & H8 & Hsame). rewrite Hs' in Hv1. apply Some_inj in Hv1. subst vs1.
  destruct (encoded_words _ _ _ _ Hwire He) as (Ld & Hdu). destruct (encoded_words _ _ _ _ Hw' He') as (Ld' & Hdu').
  split; [lia|].
  assert (Hcm : complete m) by (eapply complete_at; [exact Hok|apply Hat]).
  assert (Hd1 : (1 <= length d)%nat). { rewrite Ld, <- words_count by exact Hz. apply word_count_pos. }
  destruct (lays_own _ _ _ _ _ _ _ HL Eo) as (_ & [E0|[E8 _]] & _).
  - rewrite E0. cbn [Z.eqb]. intros k Hk Hn. destruct (H0 E0) as (Hnear & Hlast).
    assert (Hfl : first_low raw = first_low d) by (apply (proj2 Hnear); lia).
    rewrite (Hsame (or_intror Hfl)) in He'.
    destruct (again prof m vs0 d raw ov' d' Hcm Hz Hxm Hwire He Lr Hru Hd He') as (K1 & K2 & _).
    destruct (Nat.ltb_spec (S k) (2 * length d)) as [H1|H1]; [apply (proj2 (K1 Hnear)); exact H1|].
    rewrite K2; [reflexivity|]. apply Hlast. replace (2 * length d - 1)%nat with k by lia. exact Hn.
  - rewrite E8. cbn [Z.eqb]. intros k Hk Hn. replace k with 0%nat in * by lia. rewrite Nat.add_0_r in Hn.
    specialize (H8 E8 Hn). rewrite (Hsame (or_intror H8)) in He'.
    destruct (again prof m vs0 d raw ov' d' Hcm Hz Hxm Hwire He Lr Hru Hd He') as (_ & _ & K3). exact (K3 H8).
Qed.

Lemma one_encodes : byte_wide c -> exists vs' d', nth_error sent' i = Some vs' /\ mod_process_output_values prof m vs' = Ok d'.
Proof.
  intros Hbw. pose proof one_nonzero as Hz.
  destruct one_row as (raw & vs1 & Hv1 & Lr & Hru & Hd & H0 & H8 & Hsame).
  destruct (encoded_words _ _ _ _ Hwire He) as (Ld & Hdu).
  assert (Hcm : complete m) by (eapply complete_at; [exact Hok|apply Hat]).
  assert (Hd1 : (1 <= length d)%nat). { rewrite Ld, <- words_count by exact Hz. apply word_count_pos. }
  assert (Hn : near d raw \/ (output_bytes m <= 2)%nat).
  { destruct (lays_own _ _ _ _ _ _ _ HL Eo) as (_ & [E0|[E8 _]] & _); [left; apply (H0 E0)|right; exact (Hbw i m o off Hat Eo E8)]. }
  destruct (total prof m vs0 d raw Hcm Hz Hwire He Lr Hru Hn) as (ov1 & d' & Hd' & He'). rewrite Hd in Hd'. apply Ok_inj in Hd'. subst ov1.
  exists vs1, d'. split; [exact Hv1|]. rewrite Hsame; [exact He'|].
  destruct Hn as [Hn|Hn]; [right; apply (proj2 Hn); lia|left]. destruct m as [| | | | | | | | | | | |l ch|]; try reflexivity.
  destruct l; cbn [output_bytes message_size] in Hn; lia.
Qed.
End OneCycle.

Lemma split_at {A} (l : list A) i a : nth_error l i = Some a -> l = firstn i l ++ a :: skipn (S i) l.
Proof.
  revert i. induction l as [|x l IH]; intros [|i] H; try discriminate.
  - apply Some_inj in H. subst x. reflexivity.
  - cbn [firstn skipn app]. f_equal. apply IH. exact H.
Qed.

Lemma at_static prof c input output c' r i m o : cycle prof c input output c' r -> module_at c' i m o <-> module_at c i m o.
Proof. intros H. apply cycle_static in H. unfold module_at. destruct H as [-> ->]. reflexivity. Qed.

Lemma off_all c : coupler_ok c -> Forall (fun mo => off_ok (snd mo)) (infos c).
Proof.
  intros Hok. apply Forall_forall. intros (m & o) Hin. apply In_nth_error in Hin. destruct Hin as (i & Hi). apply infos_at in Hi.
  destruct (ok_off c Hok i m o Hi) as [_ H]. exact H.
Qed.

Lemma exact_static prof c input output c' r : cycle prof c input output c' r -> exact_outputs c -> exact_outputs c'.
Proof. intros H Hx. apply cycle_static in H. unfold exact_outputs. destruct H as [-> _]. exact Hx. Qed.

Lemma settled_kept prof c input output c' r : coupler_ok c -> cycle prof c input output c' r -> settled c -> settled c'.
Proof.
  intros Hok H [Hreq Hser].
  destruct (cycle_inv _ _ _ _ _ _ Hok H) as [(-> & _)|[(ins & _ & -> & _)|(ins & outs & sent & E1 & E2 & E3 & E4 & _ & _ & E5 & E6 & E7)]].
  - split; assumption.
  - split; assumption.
  - split.
    + intros (i & j). destruct (Nat.ltb_spec i (length (c_modules c))) as [Hi|Hi]; [|rewrite E5; [apply Hreq|exact Hi]].
      destruct (module_exists c i Hok Hi) as (m & o & Hat). destruct (E7 i m o Hat) as (iv & ov & _ & _ & _ & _ & Hc).
      destruct Hc as [row S1 S2 S3 S4 S5 S6 S6' S7 S8|l ch rin rout p0 p' rs last Em Ei' Eov G1 G2 G3 N1 N2 S1 S2 S3 S4 S5 S6 S7
                     |l ch Em S1 S2 S3 S4 S5 S6 S7]; [apply S5|apply S5|rewrite S5; apply Hreq].
    + intros i p Hp. destruct (Nat.ltb_spec i (length (c_modules c))) as [Hi|Hi]; [|rewrite E6 in Hp by exact Hi; exact (Hser i p Hp)].
      destruct (module_exists c i Hok Hi) as (m & o & Hat). destruct (E7 i m o Hat) as (iv & ov & _ & _ & _ & _ & Hc).
      destruct Hc as [row S1 S2 S3 S4 S5 S6 S6' S7 S8|l ch rin rout p0 p' rs last Em Ei' Eov G1 G2 G3 N1 N2 S1 S2 S3 S4 S5 S6 S7
                     |l ch Em S1 S2 S3 S4 S5 S6 S7].
      * rewrite S6 in Hp. discriminate.
      * rewrite S3 in Hp. apply Some_inj in Hp. subst p'. rewrite Hreq in S2. cbn [fed] in S2. destruct (Hser i p0 S1) as [Q1 Q2].
        destruct (done_next _ _ _ _ _ _ Q1 Q2 S2) as (R1 & R2 & _). auto.
      * rewrite S4 in Hp. exact (Hser i p Hp).
Qed.

Lemma idle_same prof c input output c' image input' c'' image' : coupler_ok c ->
  cycle prof c input output c' (Ok image) -> settled c' -> exact_outputs c -> nothing_received prof c' input input' ->
  cycle prof c' input' image c'' (Ok image') -> image' = image.
Proof.
  intros Hok H Hset Hx Hquiet H'. pose proof (cycle_ok _ _ _ _ _ _ Hok H) as Hok'.
  destruct (ok_cycle _ _ _ _ _ _ Hok H) as (ins & outs & sent & E1 & E2 & E3 & E4 & E4' & _ & _ & E7).
  destruct (ok_cycle _ _ _ _ _ _ Hok' H') as (ins' & outs' & sent' & F1 & F2 & F3 & F4 & F4' & _ & _ & F7).
  assert (Huo : Forall is_u16 output) by apply H. assert (Hui : Forall is_u16 image) by apply H'.
  pose proof (sent_wire _ _ _ _ _ _ _ _ Hok Huo E4 E7) as Hw. pose proof (sent_wire _ _ _ _ _ _ _ _ Hok' Hui F4 F7) as Hw'.
  destruct (process_lays _ _ _ _ (off_all c Hok) E3) as (_ & ps & Lps & HL & Hps).
  destruct (process_lays _ _ _ _ (off_all c' Hok') F3) as (_ & qs & Lqs & HQ & Hqs).
  rewrite (infos_static _ _ _ _ _ _ H) in *.
  assert (HQx : forall i r r', cell ins i 0 = Some (ComRsIn r) -> cell ins' i 0 = Some (ComRsIn r') -> ri_rx_cnt r' = ri_rx_cnt r).
  { intros i r r' C1 C2. unfold nothing_received in Hquiet. rewrite (infos_static _ _ _ _ _ _ H) in Hquiet. exact (Hquiet ins ins' i r r' E1 F1 C1 C2). }
  assert (Key : forall i o d d' off, nth_error ps i = Some (o, d) -> nth_error qs i = Some (o, d') -> mo_output o = Some off ->
     length d' = length d /\ forall k, (k < if (off mod 16 =? 0)%Z then 2 * length d else 1)%nat ->
       ~ claimed (skipn (S i) ps) (first_byte 0x0800 off + k) ->
       nth_error (bytes_of_words d') k = nth_error (bytes_of_words d) k).
  { intros i o d d' off Hp Hq Eo. destruct (nth_error_lt_Some (infos c) i) as ((m & o1) & Hm).
    { rewrite <- Lps. eapply nth_error_Some_lt. exact Hp. }
    destruct (Hps i m o1 Hm) as (d1 & Hp1 & _ & Henc). rewrite Hp in Hp1. apply Some_inj, pair_inj in Hp1. destruct Hp1 as [<- <-].
    destruct (Hqs i m o Hm) as (d1 & Hq1 & _ & Henc'). rewrite Hq in Hq1. apply Some_inj, pair_inj in Hq1. destruct Hq1 as [_ <-].
    destruct Henc as (vs & Hvs & Hev); [congruence|]. destruct Henc' as (vs' & Hvs' & Hev'); [congruence|].
    apply infos_at in Hm. destruct (E7 i m o Hm) as (iv & ov & Hiv & Hov & _ & _ & Hc).
    destruct (F7 i m o) as (iv' & ov' & Hiv' & Hov' & _ & Hro' & Hc'). { apply (at_static _ _ _ _ _ _ i m o H). exact Hm. }
    rewrite (split_at ps i _ Hp) in HL.
    exact (one_keeps prof c c' c'' image ins sent ins' sent' Hok Hset Hui HQx i m o Hm iv ov iv' ov' Hiv Hiv' Hro' Hc Hc'
             (firstn i ps) (skipn (S i) ps) d off vs HL Eo Hvs (proj1 (Forall_forall _ _) Hw _ (nth_error_In _ _ Hvs)) Hev
             vs' d' (fun k r f => Hx i m k r f (proj1 Hm)) Hvs' Hev' (proj1 (Forall_forall _ _) Hw' _ (nth_error_In _ _ Hvs'))). }
  assert (HA : Forall2 alike ps qs).
  { apply Forall2_nth_error. split; [lia|]. intros i (o & d) (o' & d') Hp Hq.
    destruct (nth_error_lt_Some (infos c) i) as ((m & o1) & Hm). { rewrite <- Lps. eapply nth_error_Some_lt. exact Hp. }
    destruct (Hps i m o1 Hm) as (d1 & Hp1 & Hn & _). rewrite Hp in Hp1. apply Some_inj, pair_inj in Hp1. destruct Hp1 as [<- <-].
    destruct (Hqs i m o Hm) as (d1 & Hq1 & Hn' & _). rewrite Hq in Hq1. apply Some_inj, pair_inj in Hq1. destruct Hq1 as [-> <-].
    split; [reflexivity|]. cbn [snd]. destruct (mo_output o) as [off|] eqn:Eo; [|rewrite Hn, Hn' by reflexivity; reflexivity].
    apply (Key i o d d' off Hp Hq Eo). }
  assert (Hoff : Forall (fun x => off_ok (snd (fst x))) (combine (infos c) sent')).
  { apply Forall_forall. intros (mo & v) Hin. apply in_combine_l in Hin. exact (proj1 (Forall_forall _ _) (off_all c Hok) mo Hin). }
  assert (HE : Forall2 (encodes prof) (combine (infos c) sent') qs).
  { apply Forall2_nth_error. split.
    - rewrite combine_length, Lqs, infos_length by exact Hok. rewrite F4. destruct (cycle_static _ _ _ _ _ _ H) as [-> _]. lia.
    - intros i ((m & o) & v) (o' & d') Hl Hq. rewrite nth_error_combine in Hl.
      destruct (nth_error (infos c) i) as [(m1 & o1)|] eqn:Hm; [|discriminate].
      destruct (nth_error sent' i) as [v1|] eqn:Hv; [|discriminate]. apply Some_inj, pair_inj in Hl. destruct Hl as [Hl <-].
      apply pair_inj in Hl. destruct Hl as [-> ->]. destruct (Hqs i m o Hm) as (d1 & Hq1 & Hn & Hs).
      rewrite Hq in Hq1. apply Some_inj, pair_inj in Hq1. destruct Hq1 as [-> <-]. split; [reflexivity|]. cbn [fst snd].
      destruct (mo_output o) as [off|] eqn:Eo; [|apply Hn; reflexivity]. destruct Hs as (vs & Hvs & Hs); [congruence|].
      rewrite Hvs in Hv. apply Some_inj in Hv. subst v1. exact Hs. }
  destruct (steps_alike prof _ ps qs [] image [] HL HA HE Hoff eq_refl) as (im & Hst & _ & Hlen).
  rewrite process_output_values_steps in F3.
  2:{ rewrite infos_length by exact Hok. rewrite F4. destruct (cycle_static _ _ _ _ _ _ H) as [-> _]. reflexivity. }
  rewrite Hst in F3. apply Ok_inj in F3. subst im.
  apply (lays_equal ps qs image image' HL HQ HA Hlen Hui).
  - apply (lays_u16 qs [] image' HQ (Forall_nil _)). intros o d Hin. apply In_nth_error in Hin. destruct Hin as (i & Hq).
    destruct (nth_error_lt_Some (infos c) i) as ((m & o1) & Hm). { rewrite <- Lqs. eapply nth_error_Some_lt. exact Hq. }
    destruct (Hqs i m o1 Hm) as (d1 & Hq1 & Hn & Hs). rewrite Hq in Hq1. apply Some_inj, pair_inj in Hq1. destruct Hq1 as [<- <-].
    destruct (mo_output o) as [off|] eqn:Eo; [|rewrite Hn by reflexivity; constructor]. destruct Hs as (vs & Hvs & Hs); [congruence|].
    apply (encoded_words prof m vs d); [|exact Hs]. exact (proj1 (Forall_forall _ _) Hw' _ (nth_error_In _ _ Hvs)).
  - intros i o d d' off Hp Hq Eo. apply (Key i o d d' off Hp Hq Eo).
Qed.

Lemma prepare_there prof pre o d post image off m : lays (pre ++ (o, d) :: post) [] image -> Forall is_u16 image ->
  mo_output o = Some off -> is_u16 off -> output_bytes m <> 0%nat -> length d = output_words m ->
  (off mod 16 = 8 -> (output_bytes m <= 2)%nat) ->
  exists raw, prepare_raw_data_to_process prof off 0x0800 (output_bytes m) image = Ok raw.
Proof.
  intros HL Hu Eo Ho Hz Hld H8. destruct (lays_app _ _ _ _ HL) as (mid & _ & HL'). pose proof (words_count m Hz) as Hw.
  pose proof (word_count_pos (output_bytes m)) as Hpos.
  assert (exists ln, off / 16 = 0x0800 + Z.of_nat ln /\ (off mod 16 = 0 \/ off mod 16 = 8) /\ (ln + word_count (output_bytes m) <= length image)%nat)
    as (ln & El & Em & Hle).
  { inversion HL' as [|? ? ? ? ? Ex HL2|? ? off1 ? ? ? Ex E El HL2|? w1 d1 off1 ? out' last ? Ex E El HL2]; subst;
      rewrite Eo in Ex; try discriminate; apply Some_inj in Ex; subst off1; destruct (lays_facts _ _ _ HL2) as (F1 & _);
      rewrite app_length in F1.
    - exists (length mid). split; [lia|]. split; [left; exact E|]. lia.
    - exists (length out'). split; [lia|]. split; [right; exact E|]. specialize (H8 E). cbn [length] in F1.
      assert (word_count (output_bytes m) = 1%nat); [|lia]. unfold word_count.
      destruct (output_bytes m) as [|[|[|n]]]; try reflexivity; lia. }
  rewrite prepare_eq by (try exact Ho; lia). cbv zeta.
  replace (Nat.ltb (length image) (Z.to_nat (off / 16 - 2048) + word_count (output_bytes m))) with false by lia.
  destruct Em as [E|E]; rewrite E; cbn [Z.eqb]; [eauto|].
  destruct (shift_spec (firstn (word_count (output_bytes m)) (skipn (Z.to_nat (off / 16 - 2048)) image))) as (raw & Hr & _);
    [apply Forall_firstn_skipn; exact Hu| |].
  { intros Hn. apply (f_equal (@length Z)) in Hn. rewrite firstn_length, skipn_length in Hn. cbn [length] in Hn. lia. }
  exists raw. exact Hr.
Qed.

Lemma idle_total prof c input output c' image input' ins' c'' r : coupler_ok c ->
  cycle prof c input output c' (Ok image) -> settled c' -> byte_wide c -> nothing_received prof c' input input' ->
  process_input_data prof (infos c') input' = Ok ins' ->
  cycle prof c' input' image c'' r -> exists image', r = Ok image'.
Proof.
  intros Hok H Hset Hbw Hquiet Hin H'. pose proof (cycle_ok _ _ _ _ _ _ Hok H) as Hok'.
  destruct (ok_cycle _ _ _ _ _ _ Hok H) as (ins & outs & sent & E1 & E2 & E3 & E4 & E4' & _ & _ & E7).
  assert (Huo : Forall is_u16 output) by apply H. assert (Hui : Forall is_u16 image) by apply H'.
  pose proof (sent_wire _ _ _ _ _ _ _ _ Hok Huo E4 E7) as Hw.
  destruct (process_lays _ _ _ _ (off_all c Hok) E3) as (_ & ps & Lps & HL & Hps).
  assert (Hdec : exists outs', process_output_data prof (infos c') image = Ok outs').
  { rewrite (infos_static _ _ _ _ _ _ H), process_output_rows. apply traverse_total. intros (m & o) Hi.
    unfold output_row. cbn [fst snd]. destruct (mo_output o) as [off|] eqn:Eo; [|eauto].
    apply In_nth_error in Hi. destruct Hi as (i & Hi). destruct (Hps i m o Hi) as (d & Hp & _ & Henc).
    destruct Henc as (vs & Hvs & Hev); [congruence|]. pose proof Hi as Hm. apply infos_at in Hm.
    destruct (E7 i m o Hm) as (iv & ov & _ & _ & _ & Hro & _).
    assert (Ho : is_u16 off) by (exact (infos_off c Hok i m o off Hi Eo)).
    assert (Hz : output_bytes m <> 0%nat) by (exact (output_row_exists_nonzero prof m o output ov off Hro Eo Ho Huo)).
    assert (Hwv : Forall wire_value vs) by (exact (proj1 (Forall_forall _ _) Hw _ (nth_error_In _ _ Hvs))).
    destruct (encoded_words _ _ _ _ Hwv Hev) as (Ld & Hdu). rewrite (split_at ps i _ Hp) in HL.
    destruct (prepare_there prof _ _ _ _ _ off m HL Hui Eo Ho Hz Ld (Hbw i m o off Hm Eo)) as (raw & Hraw). rewrite Hraw. cbn [bind].
    destruct (reads_own _ _ _ _ _ _ _ _ _ HL Hui Eo Ho Hz Ld Hdu Hraw) as (Lr & Hru & H0 & _).
    destruct (total prof m vs d raw) as (ov' & d' & Hd & _); auto.
    - eapply ok_complete; [exact Hok|exact Hi].
    - destruct (lays_own _ _ _ _ _ _ _ HL Eo) as (_ & [E0|[E8 _]] & _); [left; apply (H0 E0)|right; exact (Hbw i m o off Hm Eo E8)].
    - exists ov'. exact Hd. }
  destruct Hdec as (outs' & Hout).
  destruct (cycle_inv _ _ _ _ _ _ Hok' H') as [(_ & Hn & _)|[(_ & _ & _ & Hn & _)|(ins1 & outs1 & sent' & F1 & F2 & F3 & F4 & _ & _ & _ & _ & F7)]].
  { exfalso. exact (Hn ins' Hin). }
  { exfalso. exact (Hn outs' Hout). }
  rewrite Hin in F1. apply Ok_inj in F1. subst ins1. rewrite Hout in F2. apply Ok_inj in F2. subst outs1.
  pose proof (sent_wire _ _ _ _ _ _ _ _ Hok' Hui F4 F7) as Hw'.
  rewrite (infos_static _ _ _ _ _ _ H) in *.
  assert (HQx : forall i r r', cell ins i 0 = Some (ComRsIn r) -> cell ins' i 0 = Some (ComRsIn r') -> ri_rx_cnt r' = ri_rx_cnt r).
  { intros i r0 r' C1 C2. unfold nothing_received in Hquiet. rewrite (infos_static _ _ _ _ _ _ H) in Hquiet. exact (Hquiet ins ins' i r0 r' E1 Hin C1 C2). }
  destruct (cycle_static _ _ _ _ _ _ H) as [Hmods _].
  assert (Hlen : length sent' = length (infos c)) by (rewrite infos_length by exact Hok; rewrite F4, Hmods; reflexivity).
  assert (Key : forall i, (i < length (infos c))%nat -> exists q, nth_error (combine (infos c) sent') i <> None /\
            forall x p, nth_error (combine (infos c) sent') i = Some x -> nth_error ps i = Some p -> encodes prof x q /\ alike p q).
  { intros i Hlt. destruct (nth_error_lt_Some (infos c) i Hlt) as ((m & o) & Hm).
    destruct (nth_error_lt_Some sent' i) as (v & Hv); [lia|].
    rewrite nth_error_combine, Hm, Hv. destruct (Hps i m o Hm) as (d & Hp & Hn & Henc). rewrite Hp.
    destruct (mo_output o) as [off|] eqn:Eo.
    - destruct Henc as (vs & Hvs & Hev); [congruence|]. apply infos_at in Hm. destruct (E7 i m o Hm) as (iv & ov & Hiv & _ & _ & _ & Hc).
      destruct (F7 i m o) as (iv' & ov' & Hiv' & _ & _ & Hro' & Hc'). { apply (at_static _ _ _ _ _ _ i m o H). exact Hm. }
      rewrite (split_at ps i _ Hp) in HL. assert (Hwv : Forall wire_value vs) by (exact (proj1 (Forall_forall _ _) Hw _ (nth_error_In _ _ Hvs))).
      destruct (one_encodes prof c c' c'' image ins sent ins' sent' Hok Hset Hui HQx i m o Hm iv ov iv' ov' Hiv Hiv' Hro' Hc Hc'
             (firstn i ps) (skipn (S i) ps) d off vs HL Eo Hvs Hwv Hev Hbw) as (vs' & d' & Hs' & He'). rewrite Hv in Hs'. apply Some_inj in Hs'. subst v.
      exists (o, d'). split; [congruence|]. intros x p Hx Hpp. apply Some_inj in Hx, Hpp. subst x p.
      assert (Hwv' : Forall wire_value vs') by (exact (proj1 (Forall_forall _ _) Hw' _ (nth_error_In _ _ Hv))).
      destruct (encoded_words _ _ _ _ Hwv Hev) as (Ld & _). destruct (encoded_words _ _ _ _ Hwv' He') as (Ld' & _).
      split; [split; [reflexivity|]; cbn [fst snd]; rewrite Eo; exact He'|]. split; [reflexivity|]. cbn [snd]. lia.
    - exists (o, []). split; [congruence|]. intros x p Hx Hpp. apply Some_inj in Hx, Hpp. subst x p.
      split; [split; [reflexivity|]; cbn [fst snd]; rewrite Eo; reflexivity|]. split; [reflexivity|]. cbn [snd]. rewrite Hn by reflexivity. reflexivity. }
  assert (Hqs : exists qs, Forall2 (encodes prof) (combine (infos c) sent') qs /\ Forall2 alike ps qs).
  { assert (Hl1 : length (combine (infos c) sent') = length ps) by (rewrite combine_length; lia). rewrite <- Lps in Key.
    clear - Hl1 Key. revert ps Hl1 Key. induction (combine (infos c) sent') as [|x l IH]; intros [|p ps] Hl1 Key; try discriminate.
    - exists []. split; constructor.
    - destruct (IH ps) as (qs & Q1 & Q2). { cbn [length] in Hl1. lia. } { intros i Hi. apply (Key (S i)). cbn [length]. lia. }
      destruct (Key 0%nat) as (q & _ & Hq). { cbn [length]. lia. } destruct (Hq x p eq_refl eq_refl) as [Q3 Q4].
      exists (q :: qs). split; constructor; assumption. }
  destruct Hqs as (qs & HE & HA).
  assert (Hoff : Forall (fun x => off_ok (snd (fst x))) (combine (infos c) sent')).
  { apply Forall_forall. intros (mo & v) Hi. apply in_combine_l in Hi. exact (proj1 (Forall_forall _ _) (off_all c Hok) mo Hi). }
  destruct (steps_alike prof _ ps qs [] image [] HL HA HE Hoff eq_refl) as (im & Hst & _ & _).
  exists im. rewrite F3, process_output_values_steps by exact Hlen. exact Hst.
Qed.

(** ** C48 *)

Lemma C48_all : forall prof c input output c' image c'' images, reachable prof c -> exact_outputs c ->
  cycle prof c input output c' (Ok image) -> settled c' -> idles prof c' input image c'' images ->
  Forall (fun i => i = image) images /\ settled c''.
Proof.
  intros prof c input output c' image c'' images Hr Hx H Hset HI. apply reachable_ok in Hr.
  revert c output Hr Hx H Hset. induction HI as [c1 input image|c1 input image input1 c2 image1 c3 images Hq H1 HI IH];
    intros c output Hok Hx H Hset; [split; [constructor|exact Hset]|].
  pose proof (idle_same _ _ _ _ _ _ _ _ _ Hok H Hset Hx Hq H1) as ->.
  destruct (IH c1 image (cycle_ok _ _ _ _ _ _ Hok H) (exact_static _ _ _ _ _ _ H Hx) H1
              (settled_kept _ _ _ _ _ _ (cycle_ok _ _ _ _ _ _ Hok H) H1 Hset)) as [I1 I2].
  split; [constructor; auto|exact I2].
Qed.

Lemma C48_total : forall prof c input output c' image input' ins' c'' r, reachable prof c ->
  cycle prof c input output c' (Ok image) -> settled c' -> byte_wide c -> nothing_received prof c' input input' ->
  process_input_data prof (infos c') input' = Ok ins' ->
  cycle prof c' input' image c'' r -> exists image', r = Ok image'.
Proof. intros * Hr. apply reachable_ok in Hr. apply idle_total. exact Hr. Qed.

Definition cfg48 : config := mk_config [UR20_4AO_UI_16] [0x8000; 0xFFFF] [concat (repeat [1; 0; 0] 4)].
Definition drift0 : coupler := after no_coupler (coupler_new cfg48).
Definition drift_cycle (c : coupler) (w : Z) : coupler * outcome (list Z) := next Debug as_is as_is c [] [w; 0; 0; 0].
Definition drift1 : coupler := fst (drift_cycle drift0 1387).
Definition drift2 : coupler := fst (drift_cycle drift1 1386).

Lemma settled_run c : c_write c = [] -> c_processors c = [] -> settled c.
Proof. intros H1 H2. unfold settled, requested, serial. rewrite H1, H2. split; [reflexivity|]. intros i p H. discriminate. Qed.

Lemma C48_drift : exists prof c input output c' image c'' image', reachable prof c /\ byte_wide c /\
  cycle prof c input output c' (Ok image) /\ settled c' /\ idles prof c' input image c'' [image'] /\ image' <> image.
Proof.
  exists Debug, drift0, [], [1387; 0; 0; 0], drift1, [1386; 0; 0; 0], drift2, [1385; 0; 0; 0].
  split; [apply (start_reachable _ cfg48); vm_compute; reflexivity|].
  split. { intros [|i] m o off [Hm Ho] Eo E; [|destruct i; discriminate]. vm_compute in Ho. apply Some_inj in Ho. subst o.
           cbn in Eo. apply Some_inj in Eo. subst off. discriminate. }
  split; [apply step_cycle; vm_compute; reflexivity|].
  split; [apply settled_run; vm_compute; reflexivity|].
  split; [|discriminate].
  apply (Idles_S Debug drift1 [] [1386; 0; 0; 0] [] drift2 [1385; 0; 0; 0] drift2 []).
  - intros rows rows' i r r' H H' C1 C2. rewrite H in H'. apply Ok_inj in H'. subst rows'. rewrite C1 in C2. injection C2 as <-. reflexivity.
  - apply step_cycle; vm_compute; reflexivity.
  - constructor.
Qed.
