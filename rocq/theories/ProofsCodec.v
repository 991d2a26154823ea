(** Proofs about the digital, counter and serial process data. *)
From Coq Require Import ZArith List Bool Lia ZifyBool ZifyNat.
From Verif Require Import Base Facts F32 Types Lib Util Digital Fcnt Com Fbc SpecCodec.
Import ListNotations.
Local Open Scope Z_scope.
Ltac Zify.zify_post_hook ::= Z.div_mod_to_equations.

(** *** Bits *)

Lemma bit_mask_pow i : bit_mask i = 2 ^ Z.of_nat i.
Proof. unfold bit_mask. rewrite Z.shiftl_mul_pow2 by lia. lia. Qed.

Lemma pow2_lt i n : (i < n)%nat -> 0 < 2 ^ Z.of_nat i < 2 ^ Z.of_nat n.
Proof. intros H. split; [lia|]. apply Z.pow_lt_mono_r; lia. Qed.

Lemma pow2_small_16 i : (i < 16)%nat -> as_u16 (2 ^ Z.of_nat i) = 2 ^ Z.of_nat i.
Proof.
  intros H. unfold as_u16. apply Z.mod_small. pose proof (pow2_lt i 16 H) as Hp.
  change (2 ^ Z.of_nat 16) with 65536 in Hp. lia.
Qed.

Lemma land_pow2_eqb w i : 0 <= i -> negb (Z.land w (2 ^ i) =? 0) = Z.testbit w i.
Proof.
  intros Hi. destruct (Z.testbit w i) eqn:E.
  - apply negb_true_iff, Z.eqb_neq. intros H0.
    assert (H : Z.testbit (Z.land w (2 ^ i)) i = true).
    { rewrite Z.land_spec, E, Z.pow2_bits_true by exact Hi. reflexivity. }
    rewrite H0, Z.bits_0 in H. discriminate.
  - apply negb_false_iff, Z.eqb_eq. apply Z.bits_inj'. intros n Hn.
    rewrite Z.land_spec, Z.bits_0, Z.pow2_bits_eqb by exact Hi.
    destruct (Z.eqb_spec i n) as [->|_]; [rewrite E; reflexivity|apply andb_false_r].
Qed.

Lemma test_bit_16_spec w i : (i < 16)%nat -> test_bit_16 w i = bit w i.
Proof.
  intros H. unfold test_bit_16. rewrite bit_mask_pow, pow2_small_16 by exact H.
  apply land_pow2_eqb. lia.
Qed.

Lemma set_bit_16_spec w i j : (i < 16)%nat ->
  bit (set_bit_16 w i) j = bit w j || Nat.eqb j i.
Proof.
  intros H. unfold set_bit_16, bit. rewrite bit_mask_pow, pow2_small_16 by exact H.
  rewrite Z.lor_spec, Z.pow2_bits_eqb by lia. f_equal.
  destruct (Z.eqb_spec (Z.of_nat i) (Z.of_nat j)), (Nat.eqb_spec j i); try reflexivity; lia.
Qed.

Lemma set_bit_16_nonneg w i : 0 <= w -> 0 <= set_bit_16 w i.
Proof.
  intros H. unfold set_bit_16. apply Z.lor_nonneg. split; [exact H|].
  unfold as_u16. apply Z.mod_pos_bound. lia.
Qed.

(** Equality of non-negative numbers from their bits. *)
Lemma bits_eq a b : 0 <= a -> 0 <= b -> (forall i, bit a i = bit b i) -> a = b.
Proof.
  intros Ha Hb H. apply Z.bits_inj'. intros n Hn. specialize (H (Z.to_nat n)). unfold bit in H.
  rewrite Z2Nat.id in H by exact Hn. exact H.
Qed.

Lemma bits_bound a n : 0 <= a -> (forall i, (n <= i)%nat -> bit a i = false) -> a < 2 ^ Z.of_nat n.
Proof.
  intros Ha H. destruct (Z.ltb_spec a (2 ^ Z.of_nat n)) as [Hl|Hl]; [exact Hl|exfalso].
  assert (Hpos : 0 < a) by lia.
  pose proof (Z.bit_log2 a Hpos) as Hb.
  assert (Hlog : Z.of_nat n <= Z.log2 a) by (apply Z.log2_le_pow2; lia).
  specialize (H (Z.to_nat (Z.log2 a))). unfold bit in H. rewrite Z2Nat.id in H by lia.
  rewrite H in Hb by lia. discriminate.
Qed.

Lemma bit_mod w n i : 0 <= w -> bit (w mod 2 ^ Z.of_nat n) i = Nat.ltb i n && bit w i.
Proof.
  intros Hw. unfold bit. destruct (Nat.ltb_spec i n) as [H|H]; cbn [andb].
  - apply Z.mod_pow2_bits_low. lia.
  - apply Z.mod_pow2_bits_high. lia.
Qed.

(** *** C13 *)

Lemma decode_bits w n : (n <= 16)%nat ->
  map (fun i => Bit (test_bit_16 w i)) (seq 0 n) = map (fun i => Bit (bit w i)) (seq 0 n).
Proof.
  intros H. apply map_ext_in. intros i Hi. apply in_seq in Hi.
  rewrite test_bit_16_spec by lia. reflexivity.
Qed.

Lemma one_word {A} (l : list A) : length l = 1%nat -> exists a, l = [a].
Proof. destruct l as [|a [|b l]]; try discriminate. eauto. Qed.

Definition digital_decoder (n : nat) (f : list Z -> outcome (list channel_value)) : Prop :=
  (forall data, length data <> 1%nat -> f data = Err BufferLength) /\
  (forall w, f [w] = Ok (map (fun i => Bit (bit w i)) (seq 0 n))).

Lemma di_decoder m n : digital_inputs m = Some n -> digital_decoder n (mod_process_input_data m).
Proof.
  intros H. destruct m as [v ch| | | | | | | | | | | | |]; try discriminate.
  assert (Hn : channel_count (di_type v) = n /\ (n <= 16)%nat).
  { destruct v; apply Some_inj in H; subst n; split; try reflexivity; lia. }
  destruct Hn as [Hn Hle]. split.
  - intros data Hl. cbn [mod_process_input_data]. unfold di_process_input_data.
    destruct (Nat.eqb_spec (length data) 1); [contradiction|reflexivity].
  - intros w. cbn [mod_process_input_data]. unfold di_process_input_data.
    cbn [length Nat.eqb negb index nth_error bind]. rewrite Hn, decode_bits by exact Hle. reflexivity.
Qed.

Lemma do_process_output_data_decoder n : (n <= 16)%nat ->
  digital_decoder n (do_process_output_data n).
Proof.
  intros Hle. split.
  - intros data Hl. unfold do_process_output_data.
    destruct (Nat.eqb_spec (length data) 1); [contradiction|reflexivity].
  - intros w. unfold do_process_output_data.
    cbn [length Nat.eqb negb index nth_error bind]. rewrite decode_bits by exact Hle. reflexivity.
Qed.

Lemma do_decoder m n : digital_outputs m = Some n -> digital_decoder n (mod_process_output_data m).
Proof.
  intros H. destruct m as [|v ch| |ch| | | | | | | | | |]; try discriminate;
    try destruct v; apply Some_inj in H; subst n; apply do_process_output_data_decoder; lia.
Qed.

Lemma decoder_channels n f : digital_decoder n f ->
  (forall data, length data <> 1%nat -> f data = Err BufferLength) /\
  (forall w, exists vs, f [w] = Ok vs /\ length vs = n /\
     forall i, (i < n)%nat -> nth_error vs i = Some (Bit (bit w i))) /\
  (forall w w', (forall i, (i < n)%nat -> bit w i = bit w' i) -> f [w] = f [w']).
Proof.
  intros [H1 H2]. split; [exact H1|]. split.
  - intros w. eexists. split; [apply H2|]. rewrite map_length, seq_length. split; [reflexivity|].
    intros i Hi. rewrite nth_error_map, nth_error_seq.
    destruct (Nat.ltb_spec i n); [reflexivity|lia].
  - intros w w' Hw. rewrite !H2. f_equal. apply map_ext_in. intros i Hi. apply in_seq in Hi.
    rewrite Hw by lia. reflexivity.
Qed.

Lemma C13_all : forall m n,
  (digital_inputs m = Some n ->
     (forall data, length data <> 1%nat -> mod_process_input_data m data = Err BufferLength) /\
     (forall w, exists vs, mod_process_input_data m [w] = Ok vs /\ length vs = n /\
        forall i, (i < n)%nat -> nth_error vs i = Some (Bit (bit w i))) /\
     (forall w w', (forall i, (i < n)%nat -> bit w i = bit w' i) ->
        mod_process_input_data m [w] = mod_process_input_data m [w'])) /\
  (digital_outputs m = Some n ->
     (forall data, length data <> 1%nat -> mod_process_output_data m data = Err BufferLength) /\
     (forall w, exists vs, mod_process_output_data m [w] = Ok vs /\ length vs = n /\
        forall i, (i < n)%nat -> nth_error vs i = Some (Bit (bit w i))) /\
     (forall w w', (forall i, (i < n)%nat -> bit w i = bit w' i) ->
        mod_process_output_data m [w] = mod_process_output_data m [w'])).
Proof.
  intros m n. split; intros H; apply decoder_channels; [apply di_decoder|apply do_decoder]; exact H.
Qed.

(** *** C14 *)

Lemma do_encode_bits values : forall k res, 0 <= res -> (k + length values <= 16)%nat ->
  Forall (fun v => switches v <> None) values ->
  exists w, do_encode res (enumerate_from k values) = Ok w /\ 0 <= w /\
    forall j, bit w j = bit res j ||
      match nth_error values (j - k) with
      | Some v => Nat.leb k j && match switches v with Some b => b | None => false end
      | None => false
      end.
Proof.
  induction values as [|v values IH]; intros k res Hres Hlen Hall; cbn [enumerate_from do_encode].
  - exists res. split; [reflexivity|]. split; [exact Hres|]. intros j.
    destruct (j - k)%nat; cbn [nth_error]; rewrite orb_false_r; reflexivity.
  - inversion Hall as [|? ? Hv Hall']; subst. cbn [length] in Hlen.
    assert (Hstep : exists res', do_encode res ((k, v) :: enumerate_from (S k) values)
                    = do_encode res' (enumerate_from (S k) values) /\ 0 <= res' /\
                    forall j, bit res' j = bit res j || (Nat.eqb j k && match switches v with Some b => b | None => false end)).
    { destruct v as [b|d|r|r|r|r|r|r| |]; cbn [switches] in Hv; try contradiction.
      - exists (if b then set_bit_16 res k else res). split; [reflexivity|]. split.
        + destruct b; [apply set_bit_16_nonneg|]; exact Hres.
        + intros j. cbn [switches]. destruct b.
          * rewrite set_bit_16_spec by lia. rewrite andb_true_r. reflexivity.
          * rewrite andb_false_r, orb_false_r. reflexivity.
      - exists res. split; [reflexivity|]. split; [exact Hres|]. intros j. cbn [switches].
        rewrite andb_false_r, orb_false_r. reflexivity. }
    destruct Hstep as (res' & He & Hpos & Hbits).
    cbn [do_encode] in He. rewrite He.
    destruct (IH (S k) res' Hpos) as (w & Hw & Hwpos & Hwb); [lia|exact Hall'|].
    exists w. split; [exact Hw|]. split; [exact Hwpos|]. intros j. rewrite Hwb, Hbits.
    rewrite <- orb_assoc. f_equal.
    destruct (Nat.leb_spec k j) as [Hk|Hk].
    + destruct (Nat.eqb_spec j k) as [->|Hne].
      * rewrite Nat.sub_diag. cbn [nth_error andb].
        replace (k - S k)%nat with O by lia.
        destruct (nth_error values 0); rewrite ?orb_false_r; [|reflexivity].
        destruct (Nat.leb_spec (S k) k); [lia|]. cbn [andb]. apply orb_false_r.
      * replace (j - k)%nat with (S (j - S k)) by lia. cbn [nth_error andb orb].
        destruct (nth_error values (j - S k)); [|reflexivity].
        destruct (Nat.leb_spec (S k) j); [reflexivity|lia].
    + destruct (Nat.eqb_spec j k) as [->|Hne]; [lia|]. cbn [andb orb].
      replace (j - k)%nat with O by lia. replace (j - S k)%nat with O by lia.
      destruct (nth_error values 0), (nth_error (v :: values) 0); try reflexivity;
        destruct (Nat.leb_spec (S k) j); try lia; reflexivity.
Qed.

Lemma do_encode_err values : forall k res,
  ~ Forall (fun v => switches v <> None) values ->
  do_encode res (enumerate_from k values) = Err ChannelValueError.
Proof.
  induction values as [|v values IH]; intros k res H; [exfalso; apply H; constructor|].
  cbn [enumerate_from do_encode].
  destruct v as [b|d|r|r|r|r|r|r| |]; try reflexivity.
  - apply IH. intros Hall. apply H. constructor; [discriminate|exact Hall].
  - apply IH. intros Hall. apply H. constructor; [discriminate|exact Hall].
Qed.

Definition digital_encoder (n : nat) (f : list channel_value -> outcome (list Z)) : Prop :=
  (forall vs, length vs <> n \/ ~ Forall (fun v => switches v <> None) vs ->
     f vs = Err ChannelValueError) /\
  (forall vs, length vs = n -> Forall (fun v => switches v <> None) vs ->
     exists w, f vs = Ok [w] /\ is_u16 w /\
       (forall i v b, nth_error vs i = Some v -> switches v = Some b -> bit w i = b) /\
       (forall i, (n <= i)%nat -> bit w i = false)).

Lemma switches_dec vs : Forall (fun v => switches v <> None) vs \/ ~ Forall (fun v => switches v <> None) vs.
Proof.
  induction vs as [|v vs [IH|IH]].
  - left. constructor.
  - destruct (switches v) eqn:E.
    + left. constructor; [congruence|exact IH].
    + right. intros H. inversion H; subst. congruence.
  - right. intros H. inversion H; subst. contradiction.
Qed.

Lemma do_encoder_all n : (n <= 16)%nat -> digital_encoder n (do_process_output_values n).
Proof.
  intros Hn. unfold do_process_output_values. split.
  - intros vs [Hl|Hv].
    + destruct (Nat.eqb_spec (length vs) n); [contradiction|reflexivity].
    + destruct (Nat.eqb_spec (length vs) n); [|reflexivity]. cbn [negb].
      unfold enumerate. rewrite do_encode_err by exact Hv. reflexivity.
  - intros vs Hl Hv. rewrite Hl, Nat.eqb_refl. cbn [negb].
    destruct (do_encode_bits vs 0 0) as (w & Hw & Hpos & Hbits); [lia|lia|exact Hv|].
    unfold enumerate. rewrite Hw. cbn [bind]. exists w. split; [reflexivity|].
    assert (Hhigh : forall i, (n <= i)%nat -> bit w i = false).
    { intros i Hi. rewrite Hbits, Nat.sub_0_r.
      replace (nth_error vs i) with (@None channel_value).
      - unfold bit. rewrite Z.bits_0. reflexivity.
      - symmetry. apply nth_error_None. lia. }
    split.
    { split; [exact Hpos|]. change 65536 with (2 ^ Z.of_nat 16). apply bits_bound; [exact Hpos|].
      intros i Hi. apply Hhigh. lia. }
    split; [|exact Hhigh].
    intros i v b Hi Hb. rewrite Hbits, Nat.sub_0_r, Hi, Hb. unfold bit. rewrite Z.bits_0. reflexivity.
Qed.

Lemma do_encoder prof m n : digital_outputs m = Some n ->
  digital_encoder n (mod_process_output_values prof m).
Proof.
  intros H. destruct m as [|v ch| |ch| | | | | | | | | |]; try discriminate;
    try destruct v; apply Some_inj in H; subst n; apply do_encoder_all; lia.
Qed.

Lemma C14_all : forall prof m n, digital_outputs m = Some n ->
  (forall vs, length vs <> n \/ ~ Forall (fun v => switches v <> None) vs ->
     mod_process_output_values prof m vs = Err ChannelValueError) /\
  (forall vs, length vs = n -> Forall (fun v => switches v <> None) vs ->
     exists w, mod_process_output_values prof m vs = Ok [w] /\ is_u16 w /\
       (forall i v b, nth_error vs i = Some v -> switches v = Some b -> bit w i = b) /\
       (forall i, (n <= i)%nat -> bit w i = false)) /\
  (forall bs, length bs = n -> exists w, mod_process_output_values prof m (map Bit bs) = Ok [w] /\
     mod_process_output_data m [w] = Ok (map Bit bs)) /\
  (forall w vs, is_u16 w -> mod_process_output_data m [w] = Ok vs ->
     mod_process_output_values prof m vs = Ok [w mod 2 ^ Z.of_nat n]).
Proof.
  intros prof m n H. pose proof (do_encoder prof m n H) as [E1 E2]. pose proof (do_decoder m n H) as [D1 D2].
  split; [exact E1|]. split; [exact E2|]. split.
  - intros bs Hl. destruct (E2 (map Bit bs)) as (w & Hw & _ & Hb & _).
    + rewrite map_length. exact Hl.
    + apply Forall_forall. intros v Hv. apply in_map_iff in Hv. destruct Hv as (b & <- & _). discriminate.
    + exists w. split; [exact Hw|]. rewrite D2. f_equal. apply nth_error_ext. intros i.
      rewrite !nth_error_map, nth_error_seq. destruct (Nat.ltb_spec i n) as [Hi|Hi].
      * destruct (nth_error_lt_Some bs i) as (b & Eb); [lia|]. rewrite Eb. cbn [option_map].
        rewrite (Hb i (Bit b) b); [reflexivity| |reflexivity]. rewrite nth_error_map, Eb. reflexivity.
      * replace (nth_error bs i) with (@None bool); [reflexivity|]. symmetry. apply nth_error_None. lia.
  - intros w vs Hw Hd. rewrite D2 in Hd. apply Ok_inj in Hd. subst vs.
    destruct (E2 (map (fun i => Bit (bit w i)) (seq 0 n))) as (w' & Hw' & Hu & Hb & Hh).
    + rewrite map_length, seq_length. reflexivity.
    + apply Forall_forall. intros v Hv. apply in_map_iff in Hv. destruct Hv as (b & <- & _). discriminate.
    + rewrite Hw'. f_equal. f_equal. unfold is_u16 in *. apply bits_eq; [lia| |].
      { apply Z.mod_pos_bound. apply Z.pow_pos_nonneg; lia. }
      intros i. rewrite bit_mod by lia. destruct (Nat.ltb_spec i n) as [Hi|Hi]; cbn [andb].
      * apply (Hb i (Bit (bit w i))); [|reflexivity]. rewrite nth_error_map, nth_error_seq.
        destruct (Nat.ltb_spec i n); [reflexivity|lia].
      * apply Hh. exact Hi.
Qed.

(** *** C15 *)

Lemma bit_low w i : 0 <= w -> (i < 8)%nat -> bit (as_u8 w) i = bit w i.
Proof.
  intros Hw Hi. unfold as_u8. change 256 with (2 ^ Z.of_nat 8). rewrite bit_mod by exact Hw.
  destruct (Nat.ltb_spec i 8); [reflexivity|lia].
Qed.
Lemma bit_shiftr w k i : bit (Z.shiftr w (Z.of_nat k)) i = bit w (i + k).
Proof. unfold bit. rewrite Z.shiftr_spec by lia. f_equal. lia. Qed.

Lemma C15_all :
  (forall data, length data <> 2%nat -> mod_process_input_data MSIL data = Err BufferLength) /\
  (forall w0 w1, is_u16 w0 ->
     mod_process_input_data MSIL [w0; w1] =
     Ok [SilPFIn (mk_sil_in (bit w0 0) (bit w0 2) (bit w0 3) (bit w0 4) (bit w0 5)
                            (bit w0 8) (bit w0 10))]).
Proof.
  split.
  - intros data Hl. cbn [mod_process_input_data]. unfold sil_process_input_data.
    destruct (Nat.eqb_spec (length data) 2); [contradiction|reflexivity].
  - intros w0 w1 Hw. cbn [mod_process_input_data]. unfold sil_process_input_data, is_u16 in *.
    cbn [length Nat.eqb negb index nth_error bind]. unfold test_bit.
    rewrite !test_bit_16_spec by lia. rewrite !bit_low by lia.
    change (Z.shiftr w0 8) with (Z.shiftr w0 (Z.of_nat 8)). rewrite !bit_shiftr. reflexivity.
Qed.
