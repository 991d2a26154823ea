(** Proofs of C59: when a cycle succeeds. *)
From Coq Require Import ZArith List Bool Lia ZifyBool ZifyNat Permutation.
From Verif Require Import Base Facts F32 Types Lib Util Digital Analog Fcnt Com Fbc SpecCodec SpecSerial SpecCoupler SpecImage
  SpecAnalog SpecOutcome ProofsCodec ProofsFcnt ProofsSerialCodec ProofsModule ProofsImage ProofsLayout ProofsLoop ProofsCycle
  ProofsCoupler ProofsAnalog ProofsIdle.
Import ListNotations.
Local Open Scope Z_scope.
Ltac Zify.zify_post_hook ::= Z.div_mod_to_equations.

(** ** Reading *)

Lemma registers_count n : word_count n = registers n.
Proof. unfold word_count, registers. destruct (Nat.eqb_spec (n / 2) 0) as [->|H]; [reflexivity|]. lia. Qed.

Definition there (base : Z) (image : list Z) (off : Z) (n : nat) : Prop :=
  (off mod 16 = 0 \/ off mod 16 = 8) /\ off / 16 - base + Z.of_nat (registers n) <= Z.of_nat (length image).

Lemma prepare_iff prof off base n data : is_u16 off -> Forall is_u16 data -> 0 <= base <= off / 16 ->
  (exists raw, prepare_raw_data_to_process prof off base n data = Ok raw) <-> there base data off n.
Proof.
  intros Ho Hd Hb. rewrite prepare_eq by assumption. cbv zeta. rewrite registers_count. unfold there. unfold is_u16 in Ho.
  pose proof (word_count_pos n) as Hp. rewrite registers_count in Hp.
  destruct (Nat.ltb_spec (length data) (Z.to_nat (off / 16 - base) + registers n)) as [Hl|Hl].
  { split; [intros (raw & H); discriminate|intros [_ H]; exfalso; lia]. }
  destruct (Z.eqb_spec (off mod 16) 0) as [E|E].
  { split; [intros _; split; [left; exact E|lia]|eauto]. }
  destruct (Z.eqb_spec (off mod 16) 8) as [E8|E8].
  - split; [intros _; split; [right; exact E8|lia]|]. intros _.
    destruct (shift_spec (firstn (registers n) (skipn (Z.to_nat (off / 16 - base)) data))) as (raw & Hr & _); [| |eauto].
    + apply Forall_firstn_skipn. exact Hd.
    + intros Hn. apply (f_equal (@length Z)) in Hn. rewrite firstn_length, skipn_length in Hn. cbn [length] in Hn. lia.
  - split; [intros (raw & H); discriminate|]. intros [[H|H] _]; lia.
Qed.

(** Bytes of the words given to a module. *)
Lemma prepared_byte prof off base n data raw k : is_u16 off -> 0 <= base <= off / 16 -> Forall is_u16 data ->
  prepare_raw_data_to_process prof off base n data = Ok raw -> (k + 1 < 2 * registers n)%nat ->
  nth k (bytes_of_words raw) 0 = data_byte base data off k.
Proof.
  intros Ho Hb Hd H Hk. destruct (prepare_own _ _ _ _ _ _ Ho Hb Hd H) as (_ & _ & _ & Hc). rewrite registers_count in Hc.
  unfold data_byte. assert (X : forall j, (k < j)%nat -> nth k (image_bytes data (first_byte base off) j) 0 = nth (first_byte base off + k) (bytes_of_words data) 0).
  { intros j Hj. unfold image_bytes.
    destruct (nth_error (bytes_of_words data) (first_byte base off + k)) as [x|] eqn:E.
    - rewrite (nth_error_nth _ _ 0 E). apply nth_error_nth. rewrite nth_firstn by exact Hj. rewrite nth_skipn. exact E.
    - apply nth_error_None in E. rewrite (nth_overflow (bytes_of_words data)) by exact E. apply nth_overflow.
      rewrite firstn_length, skipn_length. lia. }
  destruct Hc as [[_ Hc]|[_ Hc]]; rewrite Hc; [apply X; lia|].
  destruct (Nat.ltb_spec k (length (image_bytes data (first_byte base off) (2 * registers n - 1)))) as [Hl|Hl].
  - rewrite app_nth1 by exact Hl. apply X. lia.
  - exfalso. apply (f_equal (@length Z)) in Hc. rewrite bytes_of_words_length, app_length in Hc. cbn [length] in Hc.
    destruct (prepare_own _ _ _ _ _ _ Ho Hb Hd H) as (Hlr & _). rewrite registers_count in Hlr. lia.
Qed.

Lemma message_words l : length (bytes_of_words (repeat 0 (registers (message_size l)))) = message_size l.
Proof. destruct l; reflexivity. Qed.

Lemma fits_announced l raw : length raw = registers (message_size l) -> Forall is_u16 raw ->
  nth 1 (bytes_of_words raw) 0 <= Z.of_nat (payload_size l) <-> exists s d, announces (bytes_of_words raw) s d.
Proof.
  intros Hl Hu. pose proof (bytes_of_words_u8 raw Hu) as H8. assert (Hb : length (bytes_of_words raw) = message_size l).
  { rewrite bytes_of_words_length, Hl. destruct l; reflexivity. }
  assert (Hm : message_size l = (payload_size l + 2)%nat) by (destruct l; reflexivity).
  assert (H1 : 0 <= nth 1 (bytes_of_words raw) 0).
  { destruct (nth_in_or_default 1 (bytes_of_words raw) 0) as [Hi|Hi]; [|rewrite Hi; lia].
    rewrite Forall_forall in H8. specialize (H8 _ Hi). unfold is_u8 in H8. lia. }
  destruct (announces_cases _ H8) as [(s & d & Ha & _ & _ & _ & _ & _ & Hx)|(Ha & Hx)].
  - split; [eauto|]. intros _. lia.
  - split; [intros H; exfalso; lia|]. intros (s & d & H). exfalso. exact (Ha s d H).
Qed.

(** Modules decode their words. *)
Lemma decode_in_iff m raw : complete m -> length raw = registers (input_bytes m) -> Forall is_u16 raw ->
  (exists vs, mod_process_input_data m raw = Ok vs) <->
  input_bytes m <> 0%nat /\ forall l ch, m = MCOM l ch -> nth 1 (bytes_of_words raw) 0 <= Z.of_nat (payload_size l).
Proof.
  intros Hc Hl Hu. destruct (Nat.eq_dec (input_bytes m) 0) as [Hz|Hz].
  { split; [|intros [H _]; contradiction]. intros (vs & H). exfalso. apply no_input_rejects in H; [|exact Hz]. subst raw.
    pose proof (word_count_pos (input_bytes m)) as Hp. rewrite registers_count in Hp. cbn [length] in Hl. lia. }
  destruct (is_serial m) eqn:Hs.
  - destruct m as [| | | | | | | | | | | |l ch| ]; try discriminate. cbn [input_bytes] in Hl.
    pose proof (fits_announced l raw Hl Hu) as HF. cbn [mod_process_input_data]. unfold com_process_input_data.
    rewrite words_to_bytes_spec. pose proof (bytes_of_words_u8 raw Hu) as H8. split.
    + intros (vs & H). split; [exact Hz|]. intros l' ch' E. injection E as <- <-. apply HF.
      destruct (rs_in_decode _ H8) as [(i & s & d & _ & Ha & _)|(_ & E)]; [eauto|rewrite E in H; discriminate].
    + intros [_ H]. specialize (H l ch eq_refl). apply HF in H. destruct H as (s & d & Ha).
      destruct (rs_in_decode _ H8) as [(i & s' & d' & E & _)|(Hn & _)]; [rewrite E; cbn [bind]; eauto|exfalso; exact (Hn s d Ha)].
  - split; [intros _; split; [exact Hz|]; intros l ch ->; discriminate|]. intros _.
    assert (HT : forall A B (f : A -> outcome B) l, (forall a, In a l -> exists b, f a = Ok b) -> exists r, traverse f l = Ok r) by (intros; apply traverse_total; assumption).
    destruct m as [v ch|v ch| |ch|ch|ch|u ch|f ch|v f ch|f ch|u ch|ch|l ch| ]; cbn [input_bytes] in Hl, Hz; try congruence;
      change (registers 1) with 1%nat in Hl; change (registers 8) with 4%nat in Hl; change (registers 16) with 8%nat in Hl;
      change (registers 20) with 10%nat in Hl; change (registers 4) with 2%nat in Hl;
      cbn [complete] in Hc; cbn [mod_process_input_data].
    + destruct (one_word raw Hl) as (w & ->). destruct v.
      * destruct (di_decoder (MDI V_4DI_P ch) 4 eq_refl) as [_ D]. eexists. exact (D w).
      * destruct (di_decoder (MDI V_8DI_P_2W ch) 8 eq_refl) as [_ D]. eexists. exact (D w).
    + unfold rtd_process_input_data. rewrite Hl, Hc. cbn [Nat.eqb negb]. apply HT. intros i Hi. apply in_seq in Hi.
      destruct (nth_error_lt_Some raw i) as (x & Hx); [lia|]. destruct (nth_error_lt_Some ch i) as (y & Hy); [lia|].
      unfold index. rewrite Hx, Hy. cbn [bind]. eauto.
    + unfold ai_ui_diag_process_input_data. rewrite Hl, Hc. cbn [Nat.eqb negb]. apply HT. intros i Hi. apply in_seq in Hi.
      destruct (nth_error_lt_Some raw i) as (x & Hx); [lia|]. destruct (nth_error_lt_Some ch i) as (y & Hy); [lia|].
      unfold index. rewrite Hx, Hy. cbn [bind]. eauto.
    + unfold ai_ui_process_input_data. rewrite Hl, Hc. destruct v; cbn [ai_type channel_count Nat.eqb negb]; apply HT; intros i Hi; apply in_seq in Hi;
      (destruct (nth_error_lt_Some raw i) as (x & Hx); [lia|]); (destruct (nth_error_lt_Some ch i) as (y & Hy); [lia|]);
      unfold index; rewrite Hx, Hy; cbn [bind]; eauto.
    + unfold ai_i_process_input_data. rewrite Hl, Hc. cbn [Nat.eqb negb]. apply HT. intros i Hi. apply in_seq in Hi.
      destruct (nth_error_lt_Some raw i) as (x & Hx); [lia|]. destruct (nth_error_lt_Some ch i) as (y & Hy); [lia|].
      unfold index. rewrite Hx, Hy. cbn [bind]. eauto.
    + unfold tc_process_input_data. rewrite Hl. cbn [Nat.eqb negb]. eauto.
    + unfold fcnt_process_input_data. rewrite Hl, Hc. cbn [Nat.eqb negb]. apply HT. intros i Hi. apply in_seq in Hi.
      unfold index.
      destruct (nth_error_lt_Some raw (i * 4)) as (x0 & ->); [lia|]. destruct (nth_error_lt_Some raw (i * 4 + 1)) as (x1 & ->); [lia|].
      destruct (nth_error_lt_Some raw (i * 4 + 2)) as (x2 & ->); [lia|]. destruct (nth_error_lt_Some raw (i * 4 + 3)) as (x3 & ->); [lia|].
      destruct (nth_error_lt_Some raw (8 + i)) as (x4 & ->); [lia|]. cbn [bind]. eauto.
    + discriminate.
    + destruct raw as [|x [|y [|z raw]]]; try discriminate. unfold sil_process_input_data. cbn [length Nat.eqb negb index nth_error bind]. eauto.
Qed.

(** What a module shows of its output words can be sent again, but for counters with a preset out of range. *)
Lemma decode_out_iff m raw : complete m -> length raw = registers (output_bytes m) -> Forall is_u16 raw ->
  (exists vs, mod_process_output_data m raw = Ok vs) <->
  output_bytes m <> 0%nat /\ forall l ch, m = MCOM l ch -> nth 1 (bytes_of_words raw) 0 <= Z.of_nat (payload_size l).
Proof.
  intros Hc Hl Hu. destruct (Nat.eq_dec (output_bytes m) 0) as [Hz|Hz].
  { split; [|intros [H _]; contradiction]. intros (vs & H). exfalso. apply no_output_rejects in H; [|exact Hz]. subst raw.
    pose proof (word_count_pos (output_bytes m)) as Hp. rewrite registers_count in Hp. cbn [length] in Hl. lia. }
  destruct (is_serial m) eqn:Hs.
  - destruct m as [| | | | | | | | | | | |l ch| ]; try discriminate. cbn [output_bytes] in Hl.
    pose proof (fits_announced l raw Hl Hu) as HF. cbn [mod_process_output_data]. unfold com_process_output_data.
    rewrite words_to_bytes_spec. pose proof (bytes_of_words_u8 raw Hu) as H8. split.
    + intros (vs & H). split; [exact Hz|]. intros l' ch' E. injection E as <- <-. apply HF.
      destruct (rs_out_decode _ H8) as [(i & s & d & _ & Ha & _)|(_ & E)]; [eauto|rewrite E in H; discriminate].
    + intros [_ H]. specialize (H l ch eq_refl). apply HF in H. destruct H as (s & d & Ha).
      destruct (rs_out_decode _ H8) as [(i & s' & d' & E & _)|(Hn & _)]; [rewrite E; cbn [bind]; eauto|exfalso; exact (Hn s d Ha)].
  - split; [intros _; split; [exact Hz|]; intros l ch ->; discriminate|]. intros _.
    pose proof (words_count m Hz) as Hw. rewrite registers_count in Hw. rewrite Hw in Hl. clear Hw.
    destruct m as [v ch|v ch| |ch|ch|ch|u ch|f ch|v f ch|f ch|u ch|ch|l ch| ]; cbn [output_bytes output_words] in *; try congruence;
      cbn [complete] in Hc.
    + destruct (one_word raw Hl) as (w & ->). destruct v.
      * destruct (do_decoder (MDO V_4DO_P ch) 4 eq_refl) as [_ D]. eexists. exact (D w).
      * destruct (do_decoder (MDO V_4DO_P_2A ch) 4 eq_refl) as [_ D]. eexists. exact (D w).
      * destruct (do_decoder (MDO V_8DO_P ch) 8 eq_refl) as [_ D]. eexists. exact (D w).
    + destruct (one_word raw Hl) as (w & ->). destruct (do_decoder M16DO 16 eq_refl) as [_ D]. eexists. exact (D w).
    + destruct (one_word raw Hl) as (w & ->). destruct (do_decoder (M4RO ch) 4 eq_refl) as [_ D]. eexists. exact (D w).
    + cbn [mod_process_output_data]. unfold ao_process_output_data. rewrite Hl. cbn [Nat.eqb negb]. apply traverse_total.
      intros (i & x) Hi. apply in_enumerate in Hi. destruct (nth_error_lt_Some ch i) as (p & Hp); [lia|]. unfold index. rewrite Hp. cbn [bind]. eauto.
    + cbn [mod_process_output_data]. unfold ao_diag_process_output_data. rewrite Hl. cbn [Nat.eqb negb]. apply traverse_total.
      intros (i & x) Hi. apply in_enumerate in Hi. destruct (nth_error_lt_Some ch i) as (p & Hp); [lia|]. unfold index. rewrite Hp. cbn [bind]. eauto.
    + destruct (six raw Hl) as (r0 & r1 & r2 & r3 & r4 & r5 & ->).
      destruct (fcnt_again Debug ch r0 r1 r2 r3 r4 r5 Hc Hu) as (ov & Hd & _). eauto.
    + discriminate.
Qed.

Lemma analog_shown x : (exists y, analog_value x = Decimal32 y) \/ analog_value x = Disabled.
Proof. destruct x; [left; eexists; reflexivity|right; reflexivity]. Qed.

Lemma shown_accepted m raw ov j v : complete m -> length raw = registers (output_bytes m) -> Forall is_u16 raw ->
  is_serial m = false -> output_bytes m <> 0%nat -> mod_process_output_data m raw = Ok ov -> nth_error ov j = Some v ->
  can_output m v <-> forall ch, m = MFCNT ch ->
    word32 (nth (4 * j) (bytes_of_words raw) 0 + 256 * nth (4 * j + 1) (bytes_of_words raw) 0)
           (nth (4 * j + 2) (bytes_of_words raw) 0 + 256 * nth (4 * j + 3) (bytes_of_words raw) 0) <= 8388607.
Proof.
  intros Hc Hl Hu Hs Hz Hd Hv. pose proof (words_count m Hz) as Hw. rewrite registers_count in Hw. rewrite Hw in Hl. clear Hw.
  assert (Hdig : forall n, digital_outputs m = Some n -> output_words m = 1%nat -> exists b, switches v = Some b).
  { intros n Hn H1. rewrite H1 in Hl. destruct (one_word raw Hl) as (w & ->). destruct (do_decoder m n Hn) as [_ D].
    rewrite D in Hd. apply Ok_inj in Hd. subst ov. apply nth_error_In, in_map_iff in Hv. destruct Hv as (i & <- & _).
    eexists. reflexivity. }
  destruct m as [v0 ch|v0 ch| |ch|ch|ch|u ch|f ch|v0 f ch|f ch|u ch|ch|l ch| ]; cbn [output_bytes output_words is_serial] in *; try congruence;
    cbn [complete] in Hc; cbn [can_output].
  - split; [intros _ ch' E; discriminate|]. intros _. destruct v0; eapply Hdig; reflexivity.
  - split; [intros _ ch' E; discriminate|]. intros _. eapply Hdig; reflexivity.
  - split; [intros _ ch' E; discriminate|]. intros _. eapply Hdig; reflexivity.
  - split; [intros _ ch' E; discriminate|]. intros _. cbn [mod_process_output_data] in Hd. unfold ao_process_output_data in Hd.
    destruct (negb _); [discriminate|]. destruct (traverse_row _ _ _ _ _ Hd Hv) as ((i & x) & _ & Hx). apply bind_ok in Hx.
    destruct Hx as (p & _ & Hx). apply Ok_inj in Hx. subst v. destruct (analog_shown (u16_to_analog_ui_value x (ao_range p) (ao_format p))); auto.
  - split; [intros _ ch' E; discriminate|]. intros _. cbn [mod_process_output_data] in Hd. unfold ao_diag_process_output_data in Hd.
    destruct (negb _); [discriminate|]. destruct (traverse_row _ _ _ _ _ Hd Hv) as ((i & x) & _ & Hx). apply bind_ok in Hx.
    destruct Hx as (p & _ & Hx). apply Ok_inj in Hx. subst v. destruct (analog_shown (u16_to_analog_ui_value x (aod_range p) (aod_format p))); auto.
  - destruct (six raw Hl) as (r0 & r1 & r2 & r3 & r4 & r5 & ->).
    inversion Hu as [|? ? U0 Hu1]; subst. inversion Hu1 as [|? ? U1 Hu2]; subst. inversion Hu2 as [|? ? U2 Hu3]; subst.
    inversion Hu3 as [|? ? U3 _]; subst.
    cbn [mod_process_output_data] in Hd. unfold fcnt_process_output_data in Hd.
    cbn [length Nat.eqb negb traverse seq Nat.mul Nat.add index nth_error bind] in Hd.
    rewrite !u32_of_words_spec in Hd by assumption. apply Ok_inj in Hd. subst ov.
    assert (G : forall a b w0 w1 w2 w3 cmd, is_u16 a -> is_u16 b -> w0 = a mod 256 -> w1 = a / 256 -> w2 = b mod 256 -> w3 = b / 256 ->
        (exists f, preset (FcntOut (mk_fcnt_out (duration_from_nanos (word32 a b * 1000)) cmd)) = Some f /\ nanoseconds (fo_duration f) <= max_preset) <->
        (forall ch0 : list input_filter, MFCNT ch = MFCNT ch0 -> word32 (w0 + 256 * w1) (w2 + 256 * w3) <= 8388607)).
    { intros a b w0 w1 w2 w3 cmd Ha Hb -> -> -> ->. assert (W : 0 <= word32 a b < 4294967296) by (unfold word32, is_u16 in *; lia).
      destruct (micros_from _ W) as (_ & _ & N). replace (a mod 256 + 256 * (a / 256)) with a by (unfold is_u16 in *; lia).
      replace (b mod 256 + 256 * (b / 256)) with b by (unfold is_u16 in *; lia). cbn [preset]. unfold max_preset. split.
      - intros (g & E & Hg) ch0 _. apply Some_inj in E. subst g. cbn [fo_duration] in Hg. rewrite N in Hg. lia.
      - intros H. specialize (H ch eq_refl). eexists. split; [reflexivity|]. cbn [fo_duration]. rewrite N. lia. }
    cbn [bytes_of_words flat_map app].
    destruct j as [|[|j]]; cbn [nth_error] in Hv; [| |destruct j; discriminate]; apply Some_inj in Hv; subst v;
      cbn [Nat.mul Nat.add nth]; apply G; auto.
Qed.

(** ** Sending *)

Lemma accepts_encode prof m vs : Forall wire_value vs -> output_bytes m <> 0%nat -> is_serial m = false -> complete m ->
  length vs = channels m -> Forall (can_output m) vs -> exists d, mod_process_output_values prof m vs = Ok d.
Proof.
  intros Hw Hz Hs Hc Hl Ha.
  assert (Hdig : forall n, digital_outputs m = Some n -> channels m = n -> (forall v, can_output m v -> exists b, switches v = Some b) ->
            exists d, mod_process_output_values prof m vs = Ok d).
  { intros n Hn Hch Hsw. destruct (C14_all prof m n Hn) as (_ & H2 & _). destruct (H2 vs) as (w & Hx & _); [lia| |eauto].
    eapply Forall_impl; [|exact Ha]. intros v Hv. destruct (Hsw v Hv) as (b & ->). discriminate. }
  destruct m as [v0 ch|v0 ch| |ch|ch|ch|u ch|f ch|v0 f ch|f ch|u ch|ch|l ch| ]; cbn [output_bytes is_serial] in Hz, Hs;
    try congruence; cbn [complete] in Hc.
  - destruct v0; eapply Hdig; try reflexivity; auto.
  - eapply Hdig; try reflexivity; auto.
  - eapply Hdig; try reflexivity; auto.
  - cbn [mod_process_output_values]. unfold ao_process_output_values. unfold channels in Hl. cbn [mod_type channel_count] in Hl.
    rewrite Hl, Hc. cbn [Nat.eqb negb]. apply traverse_total. intros (i & v) Hi. apply in_enumerate in Hi. destruct Hi as [Hb Hi].
    destruct (nth_error_lt_Some ch i) as (p & Hp); [lia|]. unfold index. rewrite Hp. cbn [bind].
    rewrite Forall_forall in Ha. destruct (Ha v Hi) as [->|(x & ->)]; cbn [value_to_u16]; eauto.
  - cbn [mod_process_output_values]. unfold ao_diag_process_output_values. unfold channels in Hl. cbn [mod_type channel_count] in Hl.
    rewrite Hl, Hc. cbn [Nat.eqb negb]. apply traverse_total. intros (i & v) Hi. apply in_enumerate in Hi. destruct Hi as [Hb Hi].
    destruct (nth_error_lt_Some ch i) as (p & Hp); [lia|]. unfold index. rewrite Hp. cbn [bind].
    rewrite Forall_forall in Ha. destruct (Ha v Hi) as [->|(x & ->)]; cbn [value_to_u16]; eauto.
  - destruct (C23_all prof ch vs Hc (wire_presets _ Hw)) as (H1 & _). unfold channels in Hl. cbn [mod_type channel_count] in Hl.
    destruct vs as [|v1 [|v2 [|v3 vs]]]; try discriminate. inversion Ha as [|? ? (a & Ea & La) Ha']; subst.
    inversion Ha' as [|? ? (b & Eb & Lb) _]; subst. destruct (H1 v1 v2 a b eq_refl Ea Eb La Lb) as (d & Hd & _). eauto.
Qed.

Lemma good_encodes prof l ch o : good_out l o -> exists d, mod_process_output_values prof (MCOM l ch) [ComRsOut o] = Ok d.
Proof.
  intros [(H1 & H2 & H3) _]. cbn [mod_process_output_values]. unfold com_process_output_values. cbn [length Nat.eqb negb index nth_error bind].
  replace (Nat.ltb (user_data_len l) (length (ro_data o))) with false by (destruct l; cbn [user_data_len payload_size] in *; lia).
  rewrite rs_out_encode; [cbn [bind]; eauto| |exact H3]. unfold good_counters, counter in *. lia.
Qed.

(** What is sent for a module can be encoded. *)
Lemma sent_iff prof c c' input output sent i m o iv ov off : coupler_ok c -> Forall is_u16 output ->
  module_at c i m o -> mo_output o = Some off -> 0x8000 <= off ->
  input_row prof (m, o) input = Ok iv -> output_row prof (m, o) output = Ok ov -> module_cycle prof c c' sent i m o iv ov ->
  exists row, nth_error sent i = Some row /\ length row = channels m /\
    ((exists d, mod_process_output_values prof m row = Ok d) <->
     (is_serial m = false -> forall k v, requested c (mk_address i k) = Some v -> can_output m v) /\
     (forall ch, m = MFCNT ch -> forall k, (k < 2)%nat -> requested c (mk_address i k) = None -> preset_micros output off k <= 8388607)).
Proof.
  intros Hok Hu Hat Eo Hbase Hri Hro Hc. pose proof (out_row_length _ _ _ _ Hro) as Hlen. cbn [fst] in Hlen.
  destruct (ok_off c Hok i m o Hat) as [_ O1]. cbn [snd] in O1. pose proof (O1 off Eo) as Ho.
  pose proof (output_row_exists_nonzero _ _ _ _ _ _ Hro Eo Ho Hu) as Hz.
  pose proof (out_row_wire _ (m, o) _ _ Hu O1 Hro) as Hw.
  assert (Hcm : complete m) by (destruct Hat as [Hm _]; eapply complete_at; eassumption).
  destruct Hc as [row S1 S2 S3 S4 S5 S6 S6' S7 S8|l ch rin rout p0 p' rs last -> -> -> G1 G2 G3 _ _ S1 S2 S3 S4 S5 S6 S7
                     |l ch -> S1 S2 S3 S4 S5 S6 S7].
  - exists row. split; [exact S2|]. split; [lia|].
    assert (Hwr : Forall wire_value row).
    { apply Forall_forall. intros v Hv. apply In_nth_error in Hv. destruct Hv as (j & Hj). rewrite S4 in Hj.
      destruct (requested c (mk_address i j)) as [w|] eqn:E.
      - apply Some_inj in Hj. subst w. apply rust_wire. apply (ok_req c Hok _ _ E).
      - rewrite Forall_forall in Hw. apply Hw. eapply nth_error_In. exact Hj. }
    assert (HE : (exists d, mod_process_output_values prof m row = Ok d) <-> Forall (can_output m) row).
    { split.
      - intros (d & Hd). apply Forall_forall. intros v Hv. eapply encode_accepts; eassumption.
      - intros H. apply accepts_encode; auto. lia. }
    rewrite HE. unfold output_row in Hro. cbn [fst snd] in Hro. rewrite Eo in Hro. apply bind_ok in Hro. destruct Hro as (raw & Hp & Hd).
    assert (Hb : 0 <= 2048 <= off / 16) by (unfold is_u16 in Ho; lia).
    destruct (prepare_own _ _ _ _ _ _ Ho Hb Hu Hp) as (Lr & Ur & _). rewrite registers_count in Lr.
    assert (HB : forall ch, m = MFCNT ch -> forall k, (k < 2)%nat ->
       word32 (nth (4 * k) (bytes_of_words raw) 0 + 256 * nth (4 * k + 1) (bytes_of_words raw) 0)
           (nth (4 * k + 2) (bytes_of_words raw) 0 + 256 * nth (4 * k + 3) (bytes_of_words raw) 0) = preset_micros output off k).
    { intros ch -> k Hk. unfold preset_micros. change (registers (output_bytes (MFCNT ch))) with 6%nat in Lr.
      rewrite !(prepared_byte _ _ _ _ _ _ _ Ho Hb Hu Hp) by (change (registers (output_bytes (MFCNT ch))) with 6%nat; lia).
      rewrite Nat.add_0_r. reflexivity. }
    split.
    + intros HF. rewrite Forall_forall in HF. split.
      * intros _ k v Hv. apply HF. apply (nth_error_In _ k). rewrite S4, Hv. reflexivity.
      * intros ch Hch k Hk Hn. rewrite <- (HB ch Hch k Hk).
        destruct (nth_error_lt_Some ov k) as (v & Hv). { rewrite Hlen, Hch. exact Hk. }
        apply (proj1 (shown_accepted m raw ov k v Hcm Lr Ur S1 Hz Hd Hv)) with (ch := ch); [|exact Hch].
        apply HF. apply (nth_error_In _ k). rewrite S4, Hn. exact Hv.
    + intros [R1 R2]. apply Forall_forall. intros v Hv. apply In_nth_error in Hv. destruct Hv as (k & Hk). rewrite S4 in Hk.
      destruct (requested c (mk_address i k)) as [w|] eqn:E.
      * apply Some_inj in Hk. subst w. eapply R1; [exact S1|exact E].
      * apply (shown_accepted m raw ov k v Hcm Lr Ur S1 Hz Hd Hk). intros ch Hch.
        assert (Hk2 : (k < 2)%nat). { apply nth_error_Some_lt in Hk. rewrite Hlen, Hch in Hk. exact Hk. }
        rewrite (HB ch Hch k Hk2). exact (R2 ch Hch k Hk2 E).
  - exists [ComRsOut rs]. split; [exact S4|]. split; [reflexivity|]. split; [|intros _; apply good_encodes; exact G3].
    intros _. split; [discriminate|]. intros ch' E. discriminate.
  - exists ov. split; [exact S2|]. split; [exact Hlen|]. split.
    + intros _. split; [discriminate|]. intros ch' E. discriminate.
    + intros _. destruct (com_out_row _ _ _ _ _ _ Hu O1 Hro) as [[Hn _]|(_ & rout & -> & Hg)]; [congruence|]. apply good_encodes. exact Hg.
Qed.

(** ** Layout *)

Lemma packed_tiled prof : forall l ps, Forall2 (encodes prof) l ps ->
  Forall (fun x => Forall wire_value (snd x) /\ (mo_output (snd (fst x)) <> None -> output_bytes (fst (fst x)) <> 0%nat)) l ->
  forall n, packed n (map fst l) <-> tiled n ps.
Proof.
  induction 1 as [|((m & o) & vs) (o' & d) l ps [E1 E2] _ IH]; intros HF n; cbn [map packed tiled]; [reflexivity|].
  inversion HF as [|? ? [Hw Hz] HF']; subst. cbn [fst snd] in *. subst o'. destruct (mo_output o) as [off|] eqn:Eo; [|apply IH; exact HF'].
  destruct (encoded_words _ _ _ _ Hw E2) as [Ld _]. pose proof (words_count m (Hz ltac:(discriminate))) as Hc. rewrite registers_count in Hc.
  rewrite Ld, <- Hc. rewrite <- !IH by exact HF'. split.
  - intros [H|(H1 & H2 & H3)]; [left; exact H|right]. split; [exact H1|]. split; [exact H2|]. split; [|exact H3].
    intros ->. cbn [length] in Ld. unfold registers in Hc. lia.
  - intros [H|(H1 & H2 & _ & H3)]; [left; exact H|right; auto].
Qed.

Lemma packed_high l : forall n i m o off, packed n l -> nth_error l i = Some (m, o) -> mo_output o = Some off -> 0x8000 <= off.
Proof.
  induction l as [|(m & o) l IH]; intros n [|i] m' o' off H Hi Eo; try discriminate; cbn [packed nth_error] in *.
  - apply Some_inj, pair_inj in Hi. destruct Hi as [-> ->]. rewrite Eo in H. destruct H as [[H _]|[H [Hn _]]]; lia.
  - destruct (mo_output o) as [off1|]; [destruct H as [[_ H]|(_ & _ & H)]|]; eapply IH; eassumption.
Qed.

Lemma choose {A B} (R : A -> B -> Prop) l : (forall a, In a l -> exists b, R a b) -> exists r, Forall2 R l r.
Proof.
  induction l as [|a l IH]; intros H; [exists []; constructor|].
  destruct (H a (or_introl eq_refl)) as (b & Hb). destruct IH as (r & Hr); [intros x Hx; apply H; right; exact Hx|].
  exists (b :: r). constructor; assumption.
Qed.

(** ** Cycles *)

Lemma serial_byte prof off base data raw l : is_u16 off -> 0 <= base <= off / 16 -> Forall is_u16 data ->
  prepare_raw_data_to_process prof off base (message_size l) data = Ok raw ->
  nth 1 (bytes_of_words raw) 0 = data_byte base data off 1.
Proof. intros Ho Hb Hd H. apply (prepared_byte _ _ _ _ _ _ _ Ho Hb Hd H). destruct l; cbn; lia. Qed.

Lemma in_row_iff prof m o data : complete m -> offsets_u16 (m, o) -> Forall is_u16 data ->
  (exists iv, input_row prof (m, o) data = Ok iv) <->
  forall off, mo_input o = Some off -> readable 0 data off (input_bytes m) /\ announces_fitting 0 data off m.
Proof.
  intros Hc [HO _] Hd. cbn [snd] in HO. unfold input_row. cbn [fst snd]. destruct (mo_input o) as [off|] eqn:Eo.
  2:{ split; [discriminate|]. intros _. eauto. }
  specialize (HO off eq_refl). assert (Hb : 0 <= 0 <= off / 16) by (unfold is_u16 in HO; lia).
  pose proof (prepare_iff prof off 0 (input_bytes m) data HO Hd Hb) as HP. split.
  - intros (iv & H) off' E. apply Some_inj in E. subst off'. apply bind_ok in H. destruct H as (raw & Hp & H).
    destruct (prepare_own _ _ _ _ _ _ HO Hb Hd Hp) as (Lr & Ur & _). rewrite registers_count in Lr.
    destruct (proj1 HP (ex_intro _ _ Hp)) as [T1 T2]. destruct (proj1 (decode_in_iff m raw Hc Lr Ur) (ex_intro _ _ H)) as [D1 D2].
    split; [split; [exact D1|]; split; [exact T1|]; split; [lia|exact T2]|].
    intros l ch ->. rewrite <- (serial_byte _ _ _ _ _ l HO Hb Hd Hp). exact (D2 l ch eq_refl).
  - intros H. destruct (H off eq_refl) as [(D1 & T1 & _ & T2) D2]. destruct (proj2 HP (conj T1 T2)) as (raw & Hp). rewrite Hp. cbn [bind].
    destruct (prepare_own _ _ _ _ _ _ HO Hb Hd Hp) as (Lr & Ur & _). rewrite registers_count in Lr.
    apply decode_in_iff; auto. split; [exact D1|]. intros l ch ->. rewrite (serial_byte _ _ _ _ _ l HO Hb Hd Hp). exact (D2 l ch eq_refl).
Qed.

Lemma out_row_iff prof m o data : complete m -> offsets_u16 (m, o) -> Forall is_u16 data ->
  (forall off, mo_output o = Some off -> 0x8000 <= off) ->
  (exists iv, output_row prof (m, o) data = Ok iv) <->
  forall off, mo_output o = Some off -> readable 0x0800 data off (output_bytes m) /\ announces_fitting 0x0800 data off m.
Proof.
  intros Hc [_ HO] Hd Hh. cbn [snd] in HO. unfold output_row. cbn [fst snd]. destruct (mo_output o) as [off|] eqn:Eo.
  2:{ split; [discriminate|]. intros _. eauto. }
  specialize (HO off eq_refl). specialize (Hh off eq_refl). assert (Hb : 0 <= 2048 <= off / 16) by (unfold is_u16 in HO; lia).
  pose proof (prepare_iff prof off 2048 (output_bytes m) data HO Hd Hb) as HP. split.
  - intros (iv & H) off' E. apply Some_inj in E. subst off'. apply bind_ok in H. destruct H as (raw & Hp & H).
    destruct (prepare_own _ _ _ _ _ _ HO Hb Hd Hp) as (Lr & Ur & _). rewrite registers_count in Lr.
    destruct (proj1 HP (ex_intro _ _ Hp)) as [T1 T2]. destruct (proj1 (decode_out_iff m raw Hc Lr Ur) (ex_intro _ _ H)) as [D1 D2].
    split; [split; [exact D1|]; split; [exact T1|]; split; [lia|exact T2]|].
    intros l ch ->. rewrite <- (serial_byte _ _ _ _ _ l HO Hb Hd Hp). exact (D2 l ch eq_refl).
  - intros H. destruct (H off eq_refl) as [(D1 & T1 & _ & T2) D2]. destruct (proj2 HP (conj T1 T2)) as (raw & Hp). rewrite Hp. cbn [bind].
    destruct (prepare_own _ _ _ _ _ _ HO Hb Hd Hp) as (Lr & Ur & _). rewrite registers_count in Lr.
    apply decode_out_iff; auto. split; [exact D1|]. intros l ch ->. rewrite (serial_byte _ _ _ _ _ l HO Hb Hd Hp). exact (D2 l ch eq_refl).
Qed.

(** The last part of a cycle: everything has been decoded. *)
Lemma encode_iff prof c c' input output ins outs sent : coupler_ok c -> Forall is_u16 output ->
  process_input_data prof (infos c) input = Ok ins -> process_output_data prof (infos c) output = Ok outs ->
  length sent = length (c_modules c) ->
  (forall i m o, module_at c i m o -> exists iv ov,
      nth_error ins i = Some iv /\ nth_error outs i = Some ov /\
      input_row prof (m, o) input = Ok iv /\ output_row prof (m, o) output = Ok ov /\
      module_cycle prof c c' sent i m o iv ov) ->
  (exists image, process_output_values prof (infos c) sent = Ok image) <->
  requests_accepted c /\ presets_accepted c output /\ outputs_packed c.
Proof.
  intros Hok Hu E1 E2 Ls Hmod.
  pose proof (sent_wire _ _ _ _ _ _ _ _ Hok Hu Ls Hmod) as Hw.
  assert (Hls : length sent = length (infos c)) by (rewrite infos_length by exact Hok; exact Ls).
  assert (Hside : Forall (fun x => Forall wire_value (snd x) /\ (mo_output (snd (fst x)) <> None -> output_bytes (fst (fst x)) <> 0%nat)) (combine (infos c) sent)).
  { apply Forall_forall. intros ((m & o) & vs) Hi. cbn [fst snd]. split.
    - apply in_combine_r in Hi. exact (proj1 (Forall_forall _ _) Hw _ Hi).
    - apply in_combine_l, In_nth_error in Hi. destruct Hi as (i & Hi). intros Hn. destruct (mo_output o) as [off|] eqn:Eo; [|congruence].
      pose proof Hi as Hat. apply infos_at in Hat. destruct (Hmod i m o Hat) as (iv & ov & _ & _ & _ & Hro & _).
      exact (output_row_exists_nonzero _ _ _ _ _ _ Hro Eo (infos_off c Hok i m o off Hi Eo) Hu). }
  assert (Hoff : Forall (fun x : (module * module_offset) * list channel_value => off_ok (snd (fst x))) (combine (infos c) sent)).
  { apply Forall_forall. intros (mo & v) Hi. apply in_combine_l in Hi. exact (proj1 (Forall_forall _ _) (off_all c Hok) mo Hi). }
  assert (Hfst : map fst (combine (infos c) sent) = infos c).
  { clear - Hls. revert Hls. generalize (infos c). induction sent as [|v s IH]; intros [|x l] H; try discriminate; [reflexivity|].
    cbn [combine map fst]. f_equal. apply IH. cbn [length] in H. lia. }
  rewrite process_output_values_steps by exact Hls. unfold outputs_packed. fold (infos c). split.
  - intros (image & Himg). destruct (steps_lays prof _ _ _ Hoff Himg) as (ps & HF & HL). apply lays_tiled in HL. cbn [length] in HL.
    pose proof (proj2 (packed_tiled prof _ _ HF Hside 0%nat) HL) as HP. rewrite Hfst in HP.
    assert (Henc : forall i m o off, module_at c i m o -> mo_output o = Some off ->
       0x8000 <= off /\ exists row d, nth_error sent i = Some row /\ mod_process_output_values prof m row = Ok d).
    { intros i m o off Hat Eo. pose proof Hat as Hi. apply infos_at in Hi. split; [exact (packed_high _ _ _ _ _ _ HP Hi Eo)|].
      destruct (nth_error_lt_Some sent i) as (row & Hr). { rewrite Hls. exact (nth_error_Some_lt _ _ _ Hi). }
      assert (Hx : nth_error (combine (infos c) sent) i = Some ((m, o), row)) by (rewrite nth_error_combine, Hi, Hr; reflexivity).
      apply Forall2_nth_error in HF. destruct HF as (Lf & HF). destruct (nth_error_lt_Some ps i) as ((o' & d) & Hp). { rewrite <- Lf. exact (nth_error_Some_lt _ _ _ Hx). }
      destruct (HF i _ _ Hx Hp) as [F1 F2]. cbn [fst snd] in F1, F2. subst o'. rewrite Eo in F2. eauto. }
    assert (HK : forall i m o off, module_at c i m o -> mo_output o = Some off ->
       (is_serial m = false -> forall k v, requested c (mk_address i k) = Some v -> can_output m v) /\
       (forall ch, m = MFCNT ch -> forall k, (k < 2)%nat -> requested c (mk_address i k) = None -> preset_micros output off k <= 8388607)).
    { intros i m o off Hat Eo. destruct (Henc i m o off Hat Eo) as (Hhi & row & d & Hr & Hd).
      destruct (Hmod i m o Hat) as (iv & ov & _ & _ & Hri & Hro & Hc).
      destruct (sent_iff _ _ _ _ _ _ _ _ _ _ _ _ Hok Hu Hat Eo Hhi Hri Hro Hc) as (row' & Hr' & _ & HI).
      rewrite Hr in Hr'. apply Some_inj in Hr'. subst row'. apply HI. eauto. }
    split; [|split; [|exact HP]].
    + intros i m o k v Hat Ho Hs Hr. destruct (mo_output o) as [off|] eqn:Eo; [|congruence]. exact (proj1 (HK i m o off Hat Eo) Hs k v Hr).
    + intros i ch o off k Hat Eo Hk Hr. exact (proj2 (HK i _ o off Hat Eo) ch eq_refl k Hk Hr).
  - intros (R1 & R2 & HP).
    assert (HD : exists ps, Forall2 (encodes prof) (combine (infos c) sent) ps).
    { apply choose. intros ((m & o) & row) Hin. apply In_nth_error in Hin. destruct Hin as (i & Hi). rewrite nth_error_combine in Hi.
      destruct (nth_error (infos c) i) as [(m' & o')|] eqn:Em; [|discriminate]. destruct (nth_error sent i) as [row'|] eqn:Er; [|discriminate].
      apply Some_inj, pair_inj in Hi. destruct Hi as [Hi ->]. apply pair_inj in Hi. destruct Hi as [-> ->].
      pose proof Em as Hat. apply infos_at in Hat. destruct (mo_output o) as [off|] eqn:Eo.
      - destruct (Hmod i m o Hat) as (iv & ov & _ & _ & Hri & Hro & Hc).
        destruct (sent_iff _ _ _ _ _ _ _ _ _ _ _ _ Hok Hu Hat Eo (packed_high _ _ _ _ _ _ HP Em Eo) Hri Hro Hc) as (row' & Hr' & _ & HI).
        rewrite Er in Hr'. apply Some_inj in Hr'. subst row'. destruct (proj2 HI) as (d & Hd).
        + split; [intros Hs k v Hv; apply (R1 i m o k v Hat); congruence|]. intros ch -> k Hk Hv. exact (R2 i ch o off k Hat Eo Hk Hv).
        + exists (o, d). split; [reflexivity|]. cbn [fst snd]. rewrite Eo. exact Hd.
      - exists (o, []). split; [reflexivity|]. cbn [fst snd]. rewrite Eo. reflexivity. }
    destruct HD as (ps & HF). apply (tiled_steps prof _ [] ps Hoff HF). cbn [length]. apply (packed_tiled prof _ _ HF Hside). rewrite Hfst. exact HP.
Qed.

Lemma rows_ok {A B} (f : A -> outcome B) l : (exists r, traverse f l = Ok r) <-> forall i a, nth_error l i = Some a -> exists b, f a = Ok b.
Proof.
  split.
  - intros (r & H) i a Hi. destruct (traverse_row_at _ _ _ _ _ H Hi) as (b & _ & Hb). eauto.
  - intros H. apply traverse_total. intros a Ha. apply In_nth_error in Ha. destruct Ha as (i & Hi). exact (H i a Hi).
Qed.

Lemma inputs_iff prof c input : coupler_ok c -> Forall is_u16 input ->
  (exists ins, process_input_data prof (infos c) input = Ok ins) <-> inputs_readable c input.
Proof.
  intros Hok Hu. rewrite process_input_rows, rows_ok. split.
  - intros H i m o off Hat Eo. pose proof Hat as Hi. apply infos_at in Hi.
    exact (proj1 (in_row_iff prof m o input (ok_complete c i m o Hok Hi) (ok_off c Hok i m o Hat) Hu) (H i _ Hi) off Eo).
  - intros H i (m & o) Hi. pose proof Hi as Hat. apply infos_at in Hat.
    apply (in_row_iff prof m o input (ok_complete c i m o Hok Hi) (ok_off c Hok i m o Hat) Hu).
    intros off Eo. exact (H i m o off Hat Eo).
Qed.

Lemma outputs_iff prof c output : coupler_ok c -> Forall is_u16 output ->
  (forall i m o off, module_at c i m o -> mo_output o = Some off -> 0x8000 <= off) ->
  (exists outs, process_output_data prof (infos c) output = Ok outs) <-> outputs_readable c output.
Proof.
  intros Hok Hu Hh. rewrite process_output_rows, rows_ok. split.
  - intros H i m o off Hat Eo. pose proof Hat as Hi. apply infos_at in Hi.
    exact (proj1 (out_row_iff prof m o output (ok_complete c i m o Hok Hi) (ok_off c Hok i m o Hat) Hu (fun off => Hh i m o off Hat)) (H i _ Hi) off Eo).
  - intros H i (m & o) Hi. pose proof Hi as Hat. apply infos_at in Hat.
    apply (out_row_iff prof m o output (ok_complete c i m o Hok Hi) (ok_off c Hok i m o Hat) Hu (fun off => Hh i m o off Hat)).
    intros off Eo. exact (H i m o off Hat Eo).
Qed.

Lemma packed_all c : outputs_packed c -> forall i m o off, module_at c i m o -> mo_output o = Some off -> 0x8000 <= off.
Proof. intros H i m o off Hat Eo. apply infos_at in Hat. exact (packed_high _ _ _ _ _ _ H Hat Eo). Qed.

Lemma C59_all : forall prof c input output c' r, reachable prof c -> cycle prof c input output c' r ->
  (exists image, r = Ok image) <-> cycle_possible c input output.
Proof.
  intros prof c input output c' r Hr H. apply reachable_ok in Hr. assert (Hui : Forall is_u16 input) by apply H.
  assert (Huo : Forall is_u16 output) by apply H. unfold cycle_possible. split.
  - intros (image & ->). destruct (ok_cycle _ _ _ _ _ _ Hr H) as (ins & outs & sent & E1 & E2 & E3 & E4 & _ & _ & _ & E7).
    destruct (proj1 (encode_iff prof c c' input output ins outs sent Hr Huo E1 E2 E4 E7) (ex_intro _ _ E3)) as (R1 & R2 & R3).
    split; [apply (inputs_iff prof); eauto|]. split; [|auto]. apply (outputs_iff prof); [exact Hr|exact Huo|exact (packed_all c R3)|eauto].
  - intros (I1 & I2 & I3). destruct (proj2 (inputs_iff prof c input Hr Hui) I1) as (ins & E1).
    destruct (proj2 (outputs_iff prof c output Hr Huo (packed_all c (proj2 (proj2 I3)))) I2) as (outs & E2).
    destruct (cycle_inv _ _ _ _ _ _ Hr H) as [(_ & Hn & _)|[(_ & _ & _ & Hn & _)|(ins1 & outs1 & sent & F1 & F2 & -> & F4 & _ & _ & _ & _ & F7)]].
    + exfalso. exact (Hn ins E1).
    + exfalso. exact (Hn outs E2).
    + apply (encode_iff prof c c' input output ins1 outs1 sent Hr Huo F1 F2 F4 F7). exact I3.
Qed.

(** ** Errors *)

Lemma encode_error prof m vs e : Forall wire_value vs -> output_bytes m <> 0%nat -> is_serial m = false -> complete m ->
  mod_process_output_values prof m vs = Err e -> e = ChannelValueError.
Proof.
  intros Hw Hz Hs Hc H.
  assert (Hdig : forall n, digital_outputs m = Some n -> e = ChannelValueError).
  { intros n Hn. destruct (C14_all prof m n Hn) as (H1 & H2 & _).
    destruct (Nat.eq_dec (length vs) n) as [El|El]; [|rewrite H1 in H by (left; exact El); congruence].
    destruct (switches_dec vs) as [Es|Es]; [|rewrite H1 in H by (right; exact Es); congruence].
    destruct (H2 vs El Es) as (w & Hx & _). congruence. }
  destruct m as [v0 ch|v0 ch| |ch|ch|ch|u ch|f ch|v0 f ch|f ch|u ch|ch|l ch| ]; cbn [output_bytes is_serial] in Hz, Hs;
    try congruence; cbn [complete] in Hc.
  - destruct v0; eapply Hdig; reflexivity.
  - eapply Hdig; reflexivity.
  - eapply Hdig; reflexivity.
  - cbn [mod_process_output_values] in H. unfold ao_process_output_values in H. rewrite Hc in H.
    destruct (Nat.eqb_spec (length vs) 4) as [El|El]; cbn [negb Nat.eqb] in H; [|congruence].
    apply traverse_err in H. destruct H as (l1 & (i & v) & l2 & r & _ & _ & H). destruct (index ch i) eqn:Ei; cbn [bind] in H; try discriminate.
    + destruct v; cbn [value_to_u16] in H; congruence.
    + unfold index in Ei. destruct (nth_error ch i); discriminate.
  - cbn [mod_process_output_values] in H. unfold ao_diag_process_output_values in H. rewrite Hc in H.
    destruct (Nat.eqb_spec (length vs) 4) as [El|El]; cbn [negb Nat.eqb] in H; [|congruence].
    apply traverse_err in H. destruct H as (l1 & (i & v) & l2 & r & _ & _ & H). destruct (index ch i) eqn:Ei; cbn [bind] in H; try discriminate.
    + destruct v; cbn [value_to_u16] in H; congruence.
    + unfold index in Ei. destruct (nth_error ch i); discriminate.
  - rewrite fcnt_values_cases in H by exact Hc. destruct vs as [|v1 [|v2 [|v3 vs]]]; try congruence.
    pose proof (wire_presets _ Hw) as Hp. inversion Hp as [|? ? P1 Hp']; subst. inversion Hp' as [|? ? P2 _]; subst.
    assert (O1 : value_ok v1) by (intros o ->; exact P1). assert (O2 : value_ok v2) by (intros o ->; exact P2).
    rewrite encode_two in H by assumption. destruct (preset v1); [|congruence]. destruct (preset v2); [|congruence].
    destruct (_ || _); congruence.
Qed.

Lemma steps_offset prof l : forall out e, Forall (fun x => off_ok (snd (fst x))) l ->
  Forall (fun x => Forall wire_value (snd x) /\ (mo_output (snd (fst x)) <> None -> output_bytes (fst (fst x)) <> 0%nat)) l ->
  steps prof l out = Err e ->
  (e = ModuleOffsetError /\ ~ packed (length out) (map fst l)) \/
  exists x, In x l /\ mo_output (snd (fst x)) <> None /\ mod_process_output_values prof (fst (fst x)) (snd x) = Err e.
Proof.
  induction l as [|((m & o) & v) l IH]; intros out e Hoff HF H; cbn [steps] in H; [discriminate|].
  inversion Hoff as [|? ? Ho Hoff']; subst. inversion HF as [|? ? [Hw Hz] HF']; subst. cbn [fst snd] in *.
  destruct (mo_output o) as [off|] eqn:Eo.
  2:{ unfold output_step in H. rewrite Eo in H. cbn [bind] in H. destruct (IH out e Hoff' HF' H) as [[He Hn]|(x & Hin & Hx)].
      - left. split; [exact He|]. cbn [map fst packed]. rewrite Eo. exact Hn.
      - right. exists x. split; [right; exact Hin|exact Hx]. }
  destruct (mod_process_output_values prof m v) as [d|e'|p] eqn:Ed.
  2:{ right. exists ((m, o), v). split; [left; reflexivity|]. cbn [fst snd]. split; [congruence|].
      unfold output_step in H. rewrite Eo, Ed in H. cbn [bind] in H. congruence. }
  2:{ unfold output_step in H. rewrite Eo, Ed in H. discriminate. }
  destruct (encoded_words _ _ _ _ Hw Ed) as [Ld _]. pose proof (words_count m (Hz ltac:(discriminate))) as Hc. rewrite registers_count in Hc.
  pose proof (output_step_cases prof m o v out d Ho (fun _ => Ed)) as Hst.
  assert (Hr : (0 < registers (output_bytes m))%nat) by (unfold registers; lia).
  inversion Hst as [Ex Es|off1 Ex E0 El Es|off1 t last w r Ex E8 -> El -> Es|off1 t last Ex E8 -> El -> Es|off1 Ex N1 N2 Es];
    rewrite <- Es in H; cbn [bind] in H; rewrite Eo in Ex; try discriminate; apply Some_inj in Ex; subst off1.
  - destruct (IH _ e Hoff' HF' H) as [[He Hn]|(x & Hin & Hx)]; [|right; exists x; split; [right; exact Hin|exact Hx]].
    left. split; [exact He|]. cbn [map fst packed]. rewrite Eo. rewrite app_length, Ld, <- Hc in Hn. intros [[_ HP]|[HP _]]; [exact (Hn HP)|lia].
  - destruct (IH _ e Hoff' HF' H) as [[He Hn]|(x & Hin & Hx)]; [|right; exists x; split; [right; exact Hin|exact Hx]].
    left. split; [exact He|]. cbn [map fst packed]. rewrite Eo. rewrite app_length in *. cbn [length] in *.
    intros [[HP _]|(_ & _ & HP)]; [lia|exact (Hn HP)].
  - left. split; [congruence|]. cbn [map fst packed]. rewrite Eo. intros [[HP _]|(HP & Hp & _)].
    + apply N1. lia.
    + apply N2. lia.
Qed.

Lemma prepare_error prof off base n data e : is_u16 off -> Forall is_u16 data -> 0 <= base <= off / 16 ->
  prepare_raw_data_to_process prof off base n data = Err e ->
  e = BufferLength \/ (e = ModuleOffsetError /\ off mod 16 <> 0 /\ off mod 16 <> 8).
Proof.
  intros Ho Hd Hb H. rewrite prepare_eq in H by assumption. cbv zeta in H.
  destruct (Nat.ltb_spec (length data) (Z.to_nat (off / 16 - base) + word_count n)) as [Hl|Hl]; [left; congruence|].
  destruct (Z.eqb_spec (off mod 16) 0) as [E|E]; [discriminate|].
  destruct (Z.eqb_spec (off mod 16) 8) as [E8|E8]; [|right; split; [congruence|auto]].
  destruct (shift_spec (firstn (word_count n) (skipn (Z.to_nat (off / 16 - base)) data))) as (raw & Hr & _); [| |congruence].
  - apply Forall_firstn_skipn. exact Hd.
  - intros Hn. apply (f_equal (@length Z)) in Hn. rewrite firstn_length, skipn_length in Hn. cbn [length] in Hn.
    pose proof (word_count_pos n). lia.
Qed.

Lemma decode_in_error m raw e : complete m -> length raw = registers (input_bytes m) -> Forall is_u16 raw ->
  mod_process_input_data m raw = Err e -> e = BufferLength.
Proof.
  intros Hc Hl Hu H. destruct (is_serial m) eqn:Hs.
  - destruct m as [| | | | | | | | | | | |l ch| ]; try discriminate. cbn [mod_process_input_data] in H. unfold com_process_input_data in H.
    rewrite words_to_bytes_spec in H. destruct (rs_in_decode _ (bytes_of_words_u8 raw Hu)) as [(i & s & d & E & _)|(_ & E)]; rewrite E in H; cbn [bind] in H; congruence.
  - destruct (Nat.eq_dec (input_bytes m) 0) as [Hz|Hz].
    + destruct m as [v0 ch|v0 ch| |ch|ch|ch|u ch|f ch|v0 f ch|f ch|u ch|ch|l ch| ]; try discriminate;
        cbn [mod_process_input_data] in H; unfold default_process_data in H; destruct raw; congruence.
    + destruct (proj2 (decode_in_iff m raw Hc Hl Hu)) as (vs & Hv); [|congruence]. split; [exact Hz|]. intros l ch ->. discriminate.
Qed.

Lemma decode_out_error m raw e : complete m -> length raw = registers (output_bytes m) -> Forall is_u16 raw ->
  mod_process_output_data m raw = Err e -> e = BufferLength.
Proof.
  intros Hc Hl Hu H. destruct (is_serial m) eqn:Hs.
  - destruct m as [| | | | | | | | | | | |l ch| ]; try discriminate. cbn [mod_process_output_data] in H. unfold com_process_output_data in H.
    rewrite words_to_bytes_spec in H. destruct (rs_out_decode _ (bytes_of_words_u8 raw Hu)) as [(i & s & d & E & _)|(_ & E)]; rewrite E in H; cbn [bind] in H; congruence.
  - destruct (Nat.eq_dec (output_bytes m) 0) as [Hz|Hz].
    + destruct m as [v0 ch|v0 ch| |ch|ch|ch|u ch|f ch|v0 f ch|f ch|u ch|ch|l ch| ]; try discriminate;
        cbn [mod_process_output_data] in H; unfold default_process_data, ai_ui_diag_process_output_data in H; destruct raw; congruence.
    + destruct (proj2 (decode_out_iff m raw Hc Hl Hu)) as (vs & Hv); [|congruence]. split; [exact Hz|]. intros l ch ->. discriminate.
Qed.

Lemma C59_errors_all : forall prof c input output c' e, reachable prof c ->
  (forall i m o off, module_at c i m o -> mo_output o = Some off -> 0x8000 <= off) ->
  cycle prof c input output c' (Err e) ->
  (e = BufferLength /\ ~ (inputs_readable c input /\ outputs_readable c output)) \/
  (e = ModuleOffsetError /\
    ((exists i m o off, module_at c i m o /\ (mo_input o = Some off \/ mo_output o = Some off) /\ off mod 16 <> 0 /\ off mod 16 <> 8) \/
     ~ outputs_packed c)) \/
  (e = ChannelValueError /\ inputs_readable c input /\ outputs_readable c output /\
    ~ (requests_accepted c /\ presets_accepted c output)).
Proof.
  intros prof c input output c' e Hr Hh H. apply reachable_ok in Hr. assert (Hui : Forall is_u16 input) by apply H.
  assert (Huo : Forall is_u16 output) by apply H.
  destruct (cycle_inv _ _ _ _ _ _ Hr H) as [(_ & Hn & He & _)|[(ins & E1 & _ & Hn & He & _)|(ins & outs & sent & F1 & F2 & F3 & F4 & _ & _ & _ & _ & F7)]].
  - pose proof (proj2 (He e) eq_refl) as Hx. rewrite process_input_rows in Hx. apply traverse_err in Hx.
    destruct Hx as (l1 & (m & o) & l2 & r & Hl & _ & Hx). assert (Hi : nth_error (infos c) (length l1) = Some (m, o)).
    { rewrite Hl, nth_error_app2, Nat.sub_diag by lia. reflexivity. }
    pose proof Hi as Hat. apply infos_at in Hat. destruct (ok_off c Hr _ _ _ Hat) as [HO _]. cbn [snd] in HO.
    unfold input_row in Hx. cbn [fst snd] in Hx. destruct (mo_input o) as [off|] eqn:Eo; [|discriminate]. specialize (HO off eq_refl).
    assert (Hb : 0 <= 0 <= off / 16) by (unfold is_u16 in HO; lia).
    assert (HN : ~ (inputs_readable c input /\ outputs_readable c output)).
    { intros [HI _]. apply (inputs_iff prof c input Hr Hui) in HI. destruct HI as (ins & HI). exact (Hn ins HI). }
    destruct (prepare_raw_data_to_process prof off 0 (input_bytes m) input) as [raw|e'|p] eqn:Hp; cbn [bind] in Hx; [| |discriminate].
    + destruct (prepare_own _ _ _ _ _ _ HO Hb Hui Hp) as (Lr & Ur & _). rewrite registers_count in Lr.
      left. split; [exact (decode_in_error m raw e (ok_complete c _ m o Hr Hi) Lr Ur Hx)|exact HN].
    + assert (e' = e) as -> by congruence. destruct (prepare_error _ _ _ _ _ _ HO Hui Hb Hp) as [->|(-> & N0 & N8)]; [left; auto|].
      right. left. split; [reflexivity|]. left. exists (length l1), m, o, off. auto.
  - pose proof (proj2 (He e) eq_refl) as Hx. rewrite process_output_rows in Hx. apply traverse_err in Hx.
    destruct Hx as (l1 & (m & o) & l2 & r & Hl & _ & Hx). assert (Hi : nth_error (infos c) (length l1) = Some (m, o)).
    { rewrite Hl, nth_error_app2, Nat.sub_diag by lia. reflexivity. }
    pose proof Hi as Hat. apply infos_at in Hat. destruct (ok_off c Hr _ _ _ Hat) as [_ HO]. cbn [snd] in HO.
    unfold output_row in Hx. cbn [fst snd] in Hx. destruct (mo_output o) as [off|] eqn:Eo; [|discriminate]. specialize (HO off eq_refl).
    assert (Hb : 0 <= 2048 <= off / 16). { pose proof (Hh _ m o off Hat Eo). unfold is_u16 in HO. lia. }
    assert (HN : ~ (inputs_readable c input /\ outputs_readable c output)).
    { intros [_ HI]. apply (outputs_iff prof c output Hr Huo Hh) in HI. destruct HI as (outs & HI). exact (Hn outs HI). }
    destruct (prepare_raw_data_to_process prof off 0x0800 (output_bytes m) output) as [raw|e'|p] eqn:Hp; cbn [bind] in Hx; [| |discriminate].
    + destruct (prepare_own _ _ _ _ _ _ HO Hb Huo Hp) as (Lr & Ur & _). rewrite registers_count in Lr.
      left. split; [exact (decode_out_error m raw e (ok_complete c _ m o Hr Hi) Lr Ur Hx)|exact HN].
    + assert (e' = e) as -> by congruence. destruct (prepare_error _ _ _ _ _ _ HO Huo Hb Hp) as [->|(-> & N0 & N8)]; [left; auto|].
      right. left. split; [reflexivity|]. left. exists (length l1), m, o, off. auto.
  - right. pose proof (sent_wire _ _ _ _ _ _ _ _ Hr Huo F4 F7) as Hw.
    assert (Hls : length sent = length (infos c)) by (rewrite infos_length by exact Hr; exact F4).
    assert (Hside : Forall (fun x => Forall wire_value (snd x) /\ (mo_output (snd (fst x)) <> None -> output_bytes (fst (fst x)) <> 0%nat)) (combine (infos c) sent)).
    { apply Forall_forall. intros ((m & o) & vs) Hi. cbn [fst snd]. split.
      - apply in_combine_r in Hi. exact (proj1 (Forall_forall _ _) Hw _ Hi).
      - apply in_combine_l, In_nth_error in Hi. destruct Hi as (i & Hi). intros Hx. destruct (mo_output o) as [off|] eqn:Eo; [|congruence].
        pose proof Hi as Hat. apply infos_at in Hat. destruct (F7 i m o Hat) as (iv & ov & _ & _ & _ & Hro & _).
        exact (output_row_exists_nonzero _ _ _ _ _ _ Hro Eo (infos_off c Hr i m o off Hi Eo) Huo). }
    assert (Hoff : Forall (fun x : (module * module_offset) * list channel_value => off_ok (snd (fst x))) (combine (infos c) sent)).
    { apply Forall_forall. intros (mo & v) Hi. apply in_combine_l in Hi. exact (proj1 (Forall_forall _ _) (off_all c Hr) mo Hi). }
    assert (Hfst : map fst (combine (infos c) sent) = infos c).
    { clear - Hls. revert Hls. generalize (infos c). induction sent as [|v s IH]; intros [|x l] H; try discriminate; [reflexivity|].
      cbn [combine map fst]. f_equal. apply IH. cbn [length] in H. lia. }
    symmetry in F3. rewrite process_output_values_steps in F3 by exact Hls.
    destruct (steps_offset prof _ _ _ Hoff Hside F3) as [[-> Hn]|(((m & o) & row) & Hin & Ho & He)].
    + left. split; [reflexivity|]. right. rewrite Hfst in Hn. exact Hn.
    + right. cbn [fst snd] in Ho, He. apply In_nth_error in Hin. destruct Hin as (i & Hi).
      pose proof (proj1 (Forall_forall _ _) Hside _ (nth_error_In _ _ Hi)) as [Hwr Hz]. cbn [fst snd] in Hwr, Hz. specialize (Hz Ho).
      rewrite nth_error_combine in Hi.
      destruct (nth_error (infos c) i) as [(m' & o')|] eqn:Em; [|discriminate]. destruct (nth_error sent i) as [row'|] eqn:Er; [|discriminate].
      apply Some_inj, pair_inj in Hi. destruct Hi as [Hi ->]. apply pair_inj in Hi. destruct Hi as [-> ->].
      pose proof Em as Hat. apply infos_at in Hat. destruct (mo_output o) as [off|] eqn:Eo; [|congruence].
      destruct (F7 i m o Hat) as (iv & ov & _ & _ & Hri & Hro & Hc).
      destruct (sent_iff _ _ _ _ _ _ _ _ _ _ _ _ Hr Huo Hat Eo (Hh i m o off Hat Eo) Hri Hro Hc) as (row' & Hr' & _ & HI).
      rewrite Er in Hr'. apply Some_inj in Hr'. subst row'.
      assert (HN : ~ (requests_accepted c /\ presets_accepted c output)).
      { intros [R1 R2]. destruct (proj2 HI) as (d & Hd); [|congruence]. split; [intros Hs k v Hv; apply (R1 i m o k v Hat); congruence|].
        intros ch -> k Hk Hv. exact (R2 i ch o off k Hat Eo Hk Hv). }
      split; [|split; [apply (inputs_iff prof); eauto|split; [apply (outputs_iff prof); eauto|exact HN]]].
      destruct (is_serial m) eqn:Hs; [|exact (encode_error prof m row e Hwr Hz Hs (ok_complete c i m o Hr Em) He)].
      exfalso. destruct (proj2 HI) as (d & Hd); [|congruence]. split; [congruence|]. intros ch ->. discriminate.
Qed.
