(** Proofs about copying a measured input to an output (C87). *)
From Coq Require Import ZArith Reals Lra List Bool Lia SpecFloat ZifyBool ZifyNat.
From Flocq Require Import Core.
From Verif Require Import Base F32 Types Lib Util Digital Analog Fcnt Com Fbc Facts SpecCodec SpecSerial SpecCoupler SpecAnalog SpecResolution SpecImage SpecKeep SpecLossless SpecTerminal SpecWire SpecMirror
  ProofsCodec ProofsFcnt ProofsSerialCodec ProofsAnalog ProofsReadback ProofsModule ProofsImage ProofsLayout ProofsDigital ProofsCycle ProofsCoupler ProofsResolution ProofsSteady ProofsLossless ProofsTerminal ProofsWire.
Import ListNotations.
Local Open Scope Z_scope.

(** The input registers of an analog channel and the value shown for it. *)
Lemma input_shows prof c input output c' image i m o off k v r f : reachable prof c -> cycle prof c input output c' (Ok image) ->
  module_at c i m o -> mo_input o = Some off -> placed off (input_bytes m) -> cell (inputs c') i k = Some v ->
  analog_input m k = Some (r, f) ->
  is_u16 (reg (registers_at 0 input off) k) /\ shows m k (reg (registers_at 0 input off) k) v.
Proof.
  intros Hr H Hat Eo P Hc Ha.
  assert (Hs : is_serial m = false) by (destruct m; try discriminate Ha; reflexivity).
  assert (Hm : complete m) by (apply (ok_complete c i m o (reachable_ok _ _ Hr)); apply infos_at; exact Hat).
  destruct (shown_rows _ _ _ _ _ _ _ _ _ Hr H Hat Hs) as (_ & (O1 & _) & Hu & _ & iv & ov & N1 & _ & R1 & _).
  cbn [snd] in O1. specialize (O1 off Eo).
  unfold input_row in R1. cbn [fst snd] in R1. rewrite Eo in R1. apply bind_ok in R1. destruct R1 as (raw & Q1 & R1).
  destruct (prepared _ _ _ _ _ _ O1 (low_base _ O1) Hu P Q1) as (U1 & L1 & K1).
  assert (L : length iv = shown_inputs m) by exact (input_length _ _ _ Hm R1).
  unfold cell in Hc. rewrite N1 in Hc. pose proof (nth_error_Some_lt _ _ _ Hc) as Hk. rewrite L in Hk.
  assert (Hk' : (k < word_count (input_bytes m))%nat).
  { destruct m as [w ch|w ch| |ch|ch|ch|t ch|f0 ch|w f0 ch|f0 ch|t ch|ch|l ch| ]; try discriminate Ha; try destruct w; exact Hk. }
  change (registers_at 0 input off) with (registers_at ADDR_PACKED_PROCESS_INPUT_DATA input off). rewrite <- (prefix_reg _ _ _ k K1 Hk'). split; [exact (reg_u16 raw k U1)|].
  destruct (nth_error_lt_Some raw k) as (d & Ed); [rewrite L1; exact Hk'|]. rewrite (reg_nth _ _ _ Ed). exists raw, iv. auto.
Qed.

(** The output register of an analog channel and the value requested for it. *)
Lemma output_sends prof c input output c' image i m o off k v r f : reachable prof c -> cycle prof c input output c' (Ok image) ->
  alone c i m o off -> (k < channels m)%nat -> requested c (mk_address i k) = Some v -> analog_output m k = Some (r, f) ->
  sends m k v (reg (registers_at 0x0800 image off) k).
Proof.
  intros Hr H Hal Hk Hq Ha.
  pose proof (image_u16 _ _ _ _ _ _ (reachable_ok _ _ Hr) H) as Hui.
  destruct (sent_module _ _ _ _ _ _ _ _ _ _ Hr H Hal) as (Hm & Hh & Hpl & row & d & Lr & Hw & Hrow & Hreq & He & Hdu & Hl & Himg).
  assert (E : output_bytes m = 8%nat /\ output_words m = 4%nat /\ channels m = 4%nat) by (destruct m; try discriminate Ha; auto).
  destruct E as (E1 & E2 & E3).
  destruct (nth_error_lt_Some d k) as (w & Ew); [lia|].
  rewrite (sent_registers image off m d) by (try assumption; lia). rewrite (reg_nth _ _ _ Ew).
  exists prof, row, d. split; [exact He|]. split; [|exact Ew]. rewrite Hrow, Hq. reflexivity.
Qed.

Lemma clamp_close t e w : (Rabs (t - e) <= 6 / 100)%R -> -32768 <= w <= 32767 ->
  ((32768 <= e)%R -> w = 32767) -> ((e <= -32769)%R -> w = -32768) ->
  ((-32769 < e < 32768)%R -> (Rabs (IZR w - e) < 101 / 100)%R) ->
  (Rabs (IZR w - Rmax (-32768) (Rmin 32767 t)) < 107 / 100)%R.
Proof.
  intros He Hw H1 H2 H3. apply Rabs_le_inv in He.
  assert (W1 : (-32768 <= IZR w)%R) by (apply IZR_le; lia). assert (W2 : (IZR w <= 32767)%R) by (apply IZR_le; lia).
  unfold Rmax, Rmin. destruct (Rle_or_lt 32768 e) as [L|L].
  - rewrite (H1 L). destruct (Rle_dec 32767 t); destruct (Rle_dec _ _); apply Rabs_def1; lra.
  - destruct (Rle_or_lt e (-32769)) as [U|U].
    + rewrite (H2 U). destruct (Rle_dec 32767 t); destruct (Rle_dec _ _); apply Rabs_def1; lra.
    + assert (X : (-32769 < e < 32768)%R) by lra. specialize (H3 X). apply Rabs_def2 in H3.
      destruct (Rle_dec 32767 t); destruct (Rle_dec _ _); apply Rabs_def1; lra.
Qed.

Lemma code_distance b n f f' c x : 4 <= n <= 20 -> decoded b n (full_code f) c x ->
  (Rabs (IZR c * IZR (full_code f') / IZR (full_code f) - exact_code b n (full_code f') (real x)) <= 6 / 100)%R.
Proof.
  intros Hn (_ & _ & _ & D). unfold exact_value in D. unfold exact_code.
  assert (N : (4 <= IZR n)%R) by (apply IZR_le; lia).
  assert (E : (IZR c * IZR (full_code f') / IZR (full_code f) - IZR (full_code f') * (real x - IZR b) / IZR n =
    - (IZR (full_code f') / IZR n) * (real x - (IZR b + IZR n * IZR c / IZR (full_code f))))%R).
  { destruct f; cbn [full_code]; field; lra. }
  rewrite E, Rabs_mult, Rabs_Ropp.
  assert (G : (Rabs (IZR (full_code f') / IZR n) <= 6912)%R).
  { assert (F : (0 < IZR (full_code f') <= 27648)%R) by (destruct f'; cbn [full_code]; lra).
    assert (I : (0 < / IZR n <= / 4)%R) by (split; [apply Rinv_0_lt_compat; lra|apply Rinv_le_contravar; lra]).
    unfold Rdiv. rewrite Rabs_pos_eq by (apply Rmult_le_pos; lra).
    apply Rle_trans with (27648 * / 4)%R; [apply Rmult_le_compat; lra|lra]. }
  apply Rle_trans with (6912 * / 131072)%R; [|lra].
  apply Rmult_le_compat; [apply Rabs_pos|apply Rabs_pos|exact G|exact D].
Qed.

Lemma same_analog m k r f m' k' f' w w' v : analog_input m k = Some (r, f) -> analog_output m' k' = Some (r, f') ->
  is_u16 w -> shows m k w v -> sends m' k' v w' -> same_signal r f f' w w'.
Proof.
  intros Hi Ho Hu S T. pose proof (shown_analog _ _ _ _ _ _ Hi S) as E. pose proof (decode_all w r f Hu) as D.
  destruct (base_span r) as [[b n]|] eqn:Er.
  - destruct D as (x & Dx & D). rewrite Dx in E. cbn [analog_value] in E. subst v.
    destruct (base_span_range _ _ _ Er) as [Hb Hn].
    pose proof (sent_code _ _ _ _ _ _ Ho T) as X. rewrite Er in X. destruct X as [U' X].
    destruct (codes_sent _ _ _ _ _ _ Ho T) as (_ & _ & C). destruct (C b n x Er eq_refl) as (_ & _ & C').
    destruct (decoded_finite _ _ _ _ _ D) as [V F]. specialize (C' V F). cbv zeta in C'. destruct C' as (C1 & C2 & C3).
    pose proof (signed_range w' U') as Hw'. change (u16_as_i16 w') with (signed w') in Hw'.
    pose proof (signed_range w Hu) as Hw.
    assert (G : (Rabs (IZR (signed w') - rescaled f f' w) < 107 / 100)%R)
      by exact (clamp_close _ _ _ (code_distance b n f f' _ _ Hn D) Hw' C1 C2 C3).
    assert (Y : f = f' -> signed w' = trip b n f (signed w)).
    { intros <-. rewrite X. rewrite decode_is, Er in Dx. apply Some_inj in Dx. subst x. reflexivity. }
    assert (Z5 : f = S5 -> f' = S5 -> w' = w).
    { intros -> ->. apply signed_inj; [assumption..|]. rewrite (Y eq_refl). apply trip_S5; assumption. }
    assert (Z7 : f = S7 -> f' = S7 -> towards_zero (signed w) (signed w') /\ Z.abs (signed w' - signed w) <= 1 /\
       forall j, signed w = 27 * j -> w' = w).
    { intros -> ->. specialize (Y eq_refl). destruct (trip_step r b n S7 (signed w) Er Hw) as [P N]. rewrite <- Y in P, N.
      split; [unfold towards_zero; destruct (Z.le_ge_cases 0 (signed w)) as [S0|S0]; lia|].
      split; [destruct (Z.le_ge_cases 0 (signed w)) as [S0|S0]; lia|].
      intros j Hj. apply signed_inj; [assumption..|]. rewrite Y, Hj. apply trip_27; [assumption..|].
      change (u16_as_i16 w) with (signed w) in Hw. lia. }
    destruct r; try discriminate Er; exact (conj U' (conj G (conj Z5 Z7))).
  - rewrite D in E. cbn [analog_value] in E. subst v. pose proof (sent_analog _ _ _ _ _ _ Ho T) as X. cbn [value_to_u16] in X.
    apply Ok_inj in X. destruct r; try discriminate Er. cbn [same_signal]. congruence.
Qed.

Lemma C87_all : forall prof c input output d image i m o off k v prof' c' input' output' d' image' i' m' o' off' k',
  reachable prof c -> cycle prof c input output d (Ok image) ->
  module_at c i m o -> mo_input o = Some off -> placed off (input_bytes m) -> cell (inputs d) i k = Some v ->
  reachable prof' c' -> cycle prof' c' input' output' d' (Ok image') ->
  alone c' i' m' o' off' -> (k' < channels m')%nat -> requested c' (mk_address i' k') = Some v ->
  mirrors m k (registers_at 0 input off) m' k' (registers_at 0x0800 image' off').
Proof.
  intros prof c input output d image i m o off k v prof' c' input' output' d' image' i' m' o' off' k'
    Hr H Hat Eo P Hv Hr' H' Hal Hk' Hq.
  assert (A : forall r f f', analog_input m k = Some (r, f) -> analog_output m' k' = Some (r, f') ->
    same_signal r f f' (reg (registers_at 0 input off) k) (reg (registers_at 0x0800 image' off') k')).
  { intros r f f' Hi Ho. destruct (input_shows _ _ _ _ _ _ _ _ _ _ _ _ _ _ Hr H Hat Eo P Hv Hi) as [U S].
    exact (same_analog _ _ _ _ _ _ _ _ _ _ Hi Ho U S (output_sends _ _ _ _ _ _ _ _ _ _ _ _ _ _ Hr' H' Hal Hk' Hq Ho)). }
  destruct m as [w ch|w ch| |ch|ch|ch|t ch|f ch|w f ch|f ch|t ch|ch|l ch| ]; try exact A.
  assert (S : switches v = Some (bit (reg (registers_at 0 input off) 0) k)).
  { destruct (C83_inputs_all _ _ _ _ _ _ _ _ _ _ Hr H Hat eq_refl Eo P) as (row & N & _ & HP).
    unfold cell in Hv. rewrite N in Hv. specialize (HP k v Hv). cbn [physical_input] in HP. subst v. reflexivity. }
  destruct (C85_all _ _ _ _ _ _ _ _ _ _ Hr' H' Hal k' Hk') as (_ & v' & Ev & HC). rewrite Hq in Ev. subst v'.
  destruct m' as [w' ch'|w' ch'| |ch'|ch'|ch'|t' ch'|f' ch'|w' f' ch'|f' ch'|t' ch'|ch'|l' ch'| ]; cbn [mirrors];
    try (intros r g g' X; discriminate X); cbn [carries] in HC; congruence.
Qed.
