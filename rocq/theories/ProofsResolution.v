(** Lemmas for C77. *)
From Coq Require Import ZArith Reals Lra List Bool Lia ZifyBool ZifyNat SpecFloat.
From Flocq Require Import Core BinarySingleNaN.
From Verif Require Import Base Facts F32 Types Lib Util Analog Fbc SpecCodec SpecCoupler SpecImage SpecAnalog SpecOutcome SpecResolution
  ProofsDigital ProofsModule ProofsImage ProofsCycle ProofsCoupler ProofsOutcome ProofsFloat ProofsAnalog.
Import ListNotations.
Local Open Scope Z_scope.

(** ** Comparing *)

Lemma compare_real x y : f32_valid x = true -> finite x -> f32_valid y = true -> finite y ->
  SFcompare x y = Some (Rcompare (real x) (real y)).
Proof.
  intros Vx Fx Vy Fy. destruct (finite_valid_b x Vx Fx) as (bx & Ex & Bx). destruct (finite_valid_b y Vy Fy) as (by_ & Ey & By).
  rewrite <- Ex, <- Ey, !real_B2R. exact (Bcompare_correct _ _ bx by_ Bx By).
Qed.

Lemma less_real x y : f32_valid x = true -> finite x -> f32_valid y = true -> finite y -> less x y <-> (real x < real y)%R.
Proof.
  intros Vx Fx Vy Fy. unfold less, SFltb. rewrite compare_real by assumption.
  destruct (Rcompare_spec (real x) (real y)); split; intros H0; try discriminate; try reflexivity; try assumption; lra.
Qed.

Lemma equal_real x y : f32_valid x = true -> finite x -> f32_valid y = true -> finite y -> equal x y <-> real x = real y.
Proof.
  intros Vx Fx Vy Fy. unfold equal, SFeqb. rewrite compare_real by assumption.
  destruct (Rcompare_spec (real x) (real y)); split; intros H0; try discriminate; try reflexivity; try assumption; lra.
Qed.

(** ** Nearness *)

(** [x] is at most a quarter of a step away from step [c] of a scale. *)
Definition close (b s : R) (c : Z) (x : f32) : Prop :=
  f32_valid x = true /\ finite x /\ (Rabs (real x - (b + s * IZR c)) <= s / 4)%R.

Lemma close_less b s c1 c2 x1 x2 : (0 < s)%R -> close b s c1 x1 -> close b s c2 x2 -> c1 < c2 -> (real x1 < real x2)%R.
Proof.
  intros Hs (_ & _ & H1) (_ & _ & H2) H. apply Rabs_le_inv in H1, H2.
  assert (IZR c1 + 1 <= IZR c2)%R by (rewrite <- plus_IZR; apply IZR_le; lia). nra.
Qed.

(** ** Each channel has a scale *)

Lemma decoded_close b n f d x : In (b, n) [(0, 20); (4, 16); (0, 10); (0, 5); (1, 4); (2, 8)] ->
  f32_valid x = true -> finite x -> decoded b n (full_code f) (signed d) x -> close (IZR b) (IZR n / IZR (full_code f)) (signed d) x.
Proof.
  intros Hi V F (_ & _ & _ & H). split; [exact V|]. split; [exact F|]. unfold exact_value in H.
  replace (IZR n / IZR (full_code f) * IZR (signed d))%R with (IZR n * IZR (signed d) / IZR (full_code f))%R
    by (field; pose proof (full_pos f); lra).
  apply Rle_trans with (1 := H). destruct f; cbn [full_code];
    repeat (destruct Hi as [Hi|Hi]; [apply pair_inj in Hi; destruct Hi as [<- <-]; lra|]); destruct Hi.
Qed.

Lemma decoded_finite b n f c x : decoded b n f c x -> f32_valid x = true /\ finite x.
Proof. intros (_ & _ & (q & _ & (V & F & _)) & _). split; assumption. Qed.

Lemma nearest_close x y r e : nearest x r -> exactly y (rnd r) -> (Rabs r * / 16777216 + bpow radix2 (-150) <= e)%R ->
  f32_valid x = true /\ finite x /\ (Rabs (real x - r) <= e)%R.
Proof.
  intros (V & F & N) (Vy & Fy & Ey) He. split; [exact V|]. split; [exact F|].
  destruct (N y Vy Fy) as [N1 _]. rewrite Ey in N1. apply Rle_trans with (1 := N1). apply Rle_trans with (2 := He). apply rnd_abs.
Qed.

Lemma tenth_close d x : is_u16 d -> nearest x (IZR (signed d) / 10) -> close 0 (/ 10) (signed d) x.
Proof.
  intros Hd H. pose proof (signed_range d Hd) as Hc. change (u16_as_i16 d) with (signed d) in Hc.
  unfold close. replace (0 + / 10 * IZR (signed d))%R with (IZR (signed d) / 10)%R by field.
  apply (nearest_close x _ _ _ H (tenth_exact _ Hc)).
  assert (B : (Rabs (IZR (signed d)) <= 32768)%R) by (apply abs_Z_le; lia).
  unfold Rdiv. rewrite Rabs_mult, (Rabs_pos_eq (/ 10)) by lra. pose proof bpow_m150. lra.
Qed.

Lemma within_close eps s c x r : within eps x r -> (r = s * IZR c)%R -> (0 < s)%R -> (0 < eps <= / 4194304)%R -> Z.abs c <= 65536 ->
  close 0 s c x.
Proof.
  intros (V & F & H) -> Hs He Hc. split; [exact V|]. split; [exact F|]. rewrite Rplus_0_l. apply Rle_trans with (1 := H).
  rewrite Rabs_mult, (Rabs_pos_eq s) by lra. assert (B : (Rabs (IZR c) <= 65536)%R) by (apply abs_Z_le; lia).
  pose proof (Rabs_pos (IZR c)). assert (eps * Rabs (IZR c) <= / 4)%R by nra. nra.
Qed.

Lemma quotient_exists a b : Z.abs a <= 2 ^ 24 -> 0 < b <= 2 ^ 24 -> exists y, exactly y (rnd (IZR a / IZR b)).
Proof.
  intros Ha Hb. exists (f32_div (f32_of_Z a) (f32_of_Z b)). assert (B1 : (1 <= IZR b)%R) by (apply IZR_le; lia). apply no_overflow.
  - apply rounds_div; [apply of_Z_exact; lia|apply of_Z_exact; lia|lra].
  - assert (B : (Rabs (IZR a) <= IZR (2 ^ 24))%R) by (apply abs_Z_le; lia).
    apply Rle_trans with (IZR (2 ^ 24)); [|apply (pow_le_127 _ 24); lia]. unfold Rdiv. rewrite Rabs_mult, (Rabs_pos_eq (/ IZR b)).
    + pose proof (Rabs_pos (IZR a)). assert (/ IZR b <= 1)%R by (rewrite <- Rinv_1; apply Rinv_le_contravar; lra).
      assert (0 < / IZR b)%R by (apply Rinv_0_lt_compat; lra). nra.
    + left. apply Rinv_0_lt_compat. lra.
Qed.

Lemma voltage_close full d x : In full [15625; 31250; 62500; 125000; 250000; 500000; 1000000; 2000000] -> is_u16 d ->
  nearest x (IZR full / 1000000 * IZR (signed d) / 32767) -> close 0 (IZR full / 1000000 / 32767) (signed d) x.
Proof.
  intros Hf Hd H. pose proof (signed_range d Hd) as Hc. change (u16_as_i16 d) with (signed d) in Hc.
  assert (P : (/ 64 <= IZR full / 1000000 <= 2)%R).
  { repeat (destruct Hf as [Hf|Hf]; [subst full; lra|]); destruct Hf. }
  assert (B : (Rabs (IZR (signed d)) <= 32768)%R) by (apply abs_Z_le; lia). pose proof (Rabs_pos (IZR (signed d))).
  assert (Y : exists y, exactly y (rnd (IZR full / 1000000 * IZR (signed d) / 32767))).
  { assert (Q : forall a b, Z.abs a <= 2 ^ 24 -> 0 < b <= 2 ^ 24 ->
      (IZR full / 1000000 * IZR (signed d) / 32767 = IZR a / IZR b)%R -> exists y, exactly y (rnd (IZR full / 1000000 * IZR (signed d) / 32767))).
    { intros a b Ha Hb ->. apply quotient_exists; assumption. }
    destruct Hf as [<-|[<-|[<-|[<-|[<-|[<-|[<-|[<-|[]]]]]]]]].
    - apply (Q (signed d) 2097088); [lia|lia|]. lra.
    - apply (Q (signed d) 1048544); [lia|lia|]. lra.
    - apply (Q (signed d) 524272); [lia|lia|]. lra.
    - apply (Q (signed d) 262136); [lia|lia|]. lra.
    - apply (Q (signed d) 131068); [lia|lia|]. lra.
    - apply (Q (signed d) 65534); [lia|lia|]. lra.
    - apply (Q (signed d) 32767); [lia|lia|]. lra.
    - apply (Q (2 * signed d) 32767); [lia|lia|]. rewrite mult_IZR. lra. }
  destruct Y as (y & Y). unfold close.
  replace (0 + IZR full / 1000000 / 32767 * IZR (signed d))%R with (IZR full / 1000000 * IZR (signed d) / 32767)%R by field.
  apply (nearest_close x y _ _ H Y). set (u := (IZR full / 1000000)%R) in *. unfold Rdiv.
  rewrite !Rabs_mult, (Rabs_pos_eq u), (Rabs_pos_eq (/ 32767)) by lra. pose proof bpow_m150.
  assert (u * Rabs (IZR (signed d)) <= u * 32768)%R by nra. lra.
Qed.

(** What a measuring channel shows: a number near its step, or nothing for a thermocouple whose line is broken. *)
Definition scale (m : module) (k : nat) (code : Z -> Z) (b s : R) : Prop :=
  (0 < s)%R /\ forall d v, is_u16 d -> shows m k d v ->
    (exists x, v = Decimal32 x /\ close b s (code d) x) \/ (v = VNone /\ d = 0x7FFF /\ exists u ch, m = MTC u ch).

Lemma scale_analog m k r f b n : analog_input m k = Some (r, f) -> base_span r = Some (b, n) ->
  scale m k signed (IZR b) (IZR n / IZR (full_code f)).
Proof.
  intros Ha Hr. pose proof (base_span_range _ _ _ Hr) as [_ Hn]. split.
  - apply Rdiv_lt_0_compat; [apply IZR_lt; lia|apply full_pos].
  - intros d v Hd Hs. left. pose proof (C16_all m k d v r f (or_introl (conj Ha Hs)) Hd) as H. rewrite Hr in H.
    destruct H as (x & -> & H). exists x. split; [reflexivity|]. destruct (decoded_finite _ _ _ _ _ H) as [V F].
    apply decoded_close; [exact (base_span_in _ _ _ Hr)|exact V|exact F|exact H].
Qed.

Lemma signed_abs d : is_u16 d -> Z.abs (signed d) <= 65536.
Proof. intros H. pose proof (signed_range d H) as S. change (u16_as_i16 d) with (signed d) in S. lia. Qed.

Lemma measures_scale m k code : measures m k = Some code -> exists b s, scale m k code b s.
Proof.
  intros H.
  assert (HA : forall r f, analog_input m k = Some (r, f) ->
    match analog_input m k with None | Some (UI_Disabled, _) => None | Some _ => Some signed end = Some code -> exists b s, scale m k code b s).
  { intros r f Ha E. rewrite Ha in E. destruct (base_span r) as [(b & n)|] eqn:Hr; [|destruct r; discriminate].
    assert (code = signed) as -> by (destruct r; try discriminate; apply Some_inj in E; congruence).
    exists (IZR b), (IZR n / IZR (full_code f))%R. apply (scale_analog m k r f b n Ha Hr). }
  destruct m as [v0 ch|v0 ch| |ch|ch|ch|u ch|f ch|v0 f ch|f ch|u ch|ch|l ch| ]; try discriminate.
  - cbn [measures] in H. destruct (nth_error ch k) as [p|] eqn:Hp; [|discriminate].
    destruct (full_resistance (rtd_measurement_range p)) as [full|] eqn:Hf.
    + exists 0%R, (IZR full / 27648)%R. assert (code = fun d => d) as ->.
      { destruct (rtd_measurement_range p); try discriminate; cbn [full_resistance] in H; congruence. }
      assert (Pf : (40 <= IZR full)%R) by (destruct (rtd_measurement_range p); try discriminate; apply Some_inj in Hf; subst full; lra).
      split; [lra|]. intros d v Hd Hs. left. pose proof (C21_all u ch k p d v Hp Hs Hd) as C.
      assert (C' : exists x, v = Decimal32 x /\ within (/ 8388608) x (IZR full * IZR d / 27648)).
      { destruct (rtd_measurement_range p); try discriminate; rewrite Hf in C; exact C. }
      destruct C' as (x & -> & C'). exists x. split; [reflexivity|].
      apply (within_close _ _ _ _ _ C'); [field|lra|lra|unfold is_u16 in Hd; lia].
    + assert (HC : code = signed /\ rtd_measurement_range p <> RTD_Disabled).
      { destruct (rtd_measurement_range p); try discriminate; cbn [full_resistance] in H; split; try discriminate; congruence. }
      destruct HC as [-> HN]. exists 0%R, (/ 10)%R. split; [lra|]. intros d v Hd Hs. left. pose proof (C21_all u ch k p d v Hp Hs Hd) as C.
      assert (C' : exists x, v = Decimal32 x /\ nearest x (IZR (signed d) / 10)).
      { destruct (rtd_measurement_range p); try congruence; try discriminate; rewrite Hf in C; exact C. }
      destruct C' as (x & -> & C'). exists x. split; [reflexivity|]. apply tenth_close; assumption.
  - cbn [measures analog_input] in *. destruct (nth_error ch k) as [p|] eqn:Hp; cbn [option_map] in *; [|discriminate].
    apply (HA _ _ eq_refl H).
  - cbn [measures analog_input] in *. destruct (nth_error ch k) as [p|] eqn:Hp; cbn [option_map] in *; [|discriminate].
    apply (HA _ _ eq_refl H).
  - cbn [measures analog_input] in *. destruct (nth_error ch k) as [p|] eqn:Hp; cbn [option_map] in *; [|discriminate].
    apply (HA _ _ eq_refl H).
  - cbn [measures] in H. destruct (nth_error ch k) as [p|] eqn:Hp; [|discriminate].
    assert (HC : code = signed /\ tc_measurement_range p <> TC_Disabled).
    { destruct (tc_measurement_range p); try discriminate; split; try discriminate; congruence. }
    destruct HC as [-> HN]. clear H. destruct (full_microvolts (tc_measurement_range p)) as [full|] eqn:Hf.
    + assert (HI : In full [15625; 31250; 62500; 125000; 250000; 500000; 1000000; 2000000]).
      { destruct (tc_measurement_range p); try discriminate; apply Some_inj in Hf; subst full; cbn [In]; tauto. }
      exists 0%R, (IZR full / 1000000 / 32767)%R. split.
      { assert (0 < IZR full)%R; [|lra]. apply IZR_lt. repeat (destruct HI as [HI|HI]; [subst full; lia|]); destruct HI. }
      intros d v Hd Hs. left. pose proof (C22_all u ch k p d v Hp Hs Hd) as C.
      assert (C' : exists x, v = Decimal32 x /\ nearest x (IZR full / 1000000 * IZR (signed d) / 32767)).
      { destruct (tc_measurement_range p); try discriminate; rewrite Hf in C; exact C. }
      destruct C' as (x & -> & C'). exists x. split; [reflexivity|]. apply voltage_close; assumption.
    + exists 0%R, (/ 10)%R. split; [lra|]. intros d v Hd Hs. pose proof (C22_all u ch k p d v Hp Hs Hd) as C.
      assert (C' : d = 0x7FFF /\ v = VNone \/ d <> 0x7FFF /\ exists x, v = Decimal32 x /\ within (/ 4194304) x (IZR (signed d) / 10)).
      { destruct (tc_measurement_range p); try congruence; try discriminate; rewrite Hf in C; exact C. }
      destruct C' as [[-> ->]|(_ & x & -> & C')]; [right; eauto|left]. exists x. split; [reflexivity|].
      apply (within_close _ _ _ _ _ C'); [field|lra|lra|apply signed_abs; exact Hd].
Qed.

(** The same register is always shown as the same value. *)
Lemma shown_same m k d v w code : measures m k = Some code -> shows m k d v -> shows m k d w -> v = w.
Proof.
  intros H Hv Hw.
  assert (HA : forall r f, analog_input m k = Some (r, f) -> v = w).
  { intros r f Ha. rewrite (shown_analog _ _ _ _ _ _ Ha Hv), (shown_analog _ _ _ _ _ _ Ha Hw). reflexivity. }
  destruct m as [v0 ch|v0 ch| |ch|ch|ch|u ch|f ch|v0 f ch|f ch|u ch|ch|l ch| ]; try discriminate.
  - cbn [measures] in H. destruct (nth_error ch k) as [p|] eqn:Hp; [|discriminate].
    rewrite (shown_rtd _ _ _ _ _ _ Hp Hv), (shown_rtd _ _ _ _ _ _ Hp Hw). reflexivity.
  - cbn [measures analog_input] in *. destruct (nth_error ch k) as [p|]; cbn [option_map] in *; [exact (HA _ _ eq_refl)|discriminate].
  - cbn [measures analog_input] in *. destruct (nth_error ch k) as [p|]; cbn [option_map] in *; [exact (HA _ _ eq_refl)|discriminate].
  - cbn [measures analog_input] in *. destruct (nth_error ch k) as [p|]; cbn [option_map] in *; [exact (HA _ _ eq_refl)|discriminate].
  - cbn [measures] in H. destruct (nth_error ch k) as [p|] eqn:Hp; [|discriminate].
    rewrite (shown_tc _ _ _ _ _ _ Hp Hv), (shown_tc _ _ _ _ _ _ Hp Hw). reflexivity.
Qed.

Lemma code_inj m k code d1 d2 : measures m k = Some code -> is_u16 d1 -> is_u16 d2 -> code d1 = code d2 -> d1 = d2.
Proof.
  intros H H1 H2 E. assert (HC : code = signed \/ code = fun d => d).
  { destruct m; try discriminate; cbn [measures analog_input] in H; destruct (nth_error ch k) as [p|]; cbn [option_map] in H; try discriminate;
      match type of H with (match ?r with _ => _ end = _) => destruct r; cbn [full_resistance] in H end;
      try discriminate; apply Some_inj in H; (left; congruence) || (right; congruence). }
  unfold is_u16 in *. destruct HC as [-> | ->]; [|exact E]. unfold signed in E.
  destruct (Z.ltb_spec d1 32768), (Z.ltb_spec d2 32768); lia.
Qed.

(** ** Order and changes *)

Lemma order_all : forall m k code d1 d2 x1 x2, measures m k = Some code -> is_u16 d1 -> is_u16 d2 ->
  shows m k d1 (Decimal32 x1) -> shows m k d2 (Decimal32 x2) ->
  finite x1 /\ finite x2 /\ (less x1 x2 <-> code d1 < code d2) /\ (equal x1 x2 <-> d1 = d2).
Proof.
  intros m k code d1 d2 x1 x2 Hm H1 H2 S1 S2. destruct (measures_scale m k code Hm) as (b & s & Hs & HS).
  destruct (HS d1 _ H1 S1) as [(y1 & E1 & C1)|(E1 & _)]; [|discriminate]. assert (y1 = x1) as -> by congruence.
  destruct (HS d2 _ H2 S2) as [(y2 & E2 & C2)|(E2 & _)]; [|discriminate]. assert (y2 = x2) as -> by congruence.
  pose proof (close_less _ _ _ _ _ _ Hs C1 C2) as L. pose proof (close_less _ _ _ _ _ _ Hs C2 C1) as G.
  destruct C1 as (V1 & F1 & _), C2 as (V2 & F2 & _). split; [exact F1|]. split; [exact F2|].
  rewrite less_real, equal_real by assumption. destruct (Z.lt_trichotomy (code d1) (code d2)) as [C|[C|C]].
  - specialize (L C). split; [tauto|]. split; [intros E; lra|]. intros ->. lia.
  - pose proof (code_inj m k code d1 d2 Hm H1 H2 C) as ->. assert (x1 = x2) as ->.
    { pose proof (shown_same _ _ _ _ _ _ Hm S1 S2). congruence. }
    split; [split; [intros; lra|lia]|tauto].
  - specialize (G C). split; [split; [intros; lra|lia]|]. split; [intros E; lra|]. intros ->. lia.
Qed.

Lemma shown_all : forall m k code d v, measures m k = Some code -> is_u16 d -> shows m k d v ->
  (exists x, v = Decimal32 x /\ finite x) \/ (v = VNone /\ d = 0x7FFF /\ exists u ch, m = MTC u ch).
Proof.
  intros m k code d v Hm Hd S. destruct (measures_scale m k code Hm) as (b & s & _ & HS).
  destruct (HS d v Hd S) as [(x & -> & (_ & F & _))|H]; [left; eauto|right; exact H].
Qed.

Lemma change_all : forall m k code d1 d2 v1 v2, measures m k = Some code -> is_u16 d1 -> is_u16 d2 ->
  shows m k d1 v1 -> shows m k d2 v2 -> same_value v1 v2 <-> d1 = d2.
Proof.
  intros m k code d1 d2 v1 v2 Hm H1 H2 S1 S2.
  destruct (shown_all _ _ _ _ _ Hm H1 S1) as [(x1 & -> & _)|(-> & E1 & _)], (shown_all _ _ _ _ _ Hm H2 S2) as [(x2 & -> & _)|(-> & E2 & _)].
  - cbn [same_value]. apply (order_all m k code d1 d2 x1 x2); assumption.
  - cbn [same_value]. split; [discriminate|]. intros ->. pose proof (shown_same _ _ _ _ _ _ Hm S1 S2). discriminate.
  - cbn [same_value]. split; [discriminate|]. intros ->. pose proof (shown_same _ _ _ _ _ _ Hm S1 S2). discriminate.
  - cbn [same_value]. split; congruence.
Qed.

Lemma traverse_seq_length {B} n (f : nat -> outcome B) r : traverse f (seq 0 n) = Ok r -> length r = n.
Proof. intros H. apply traverse_ok, Forall2_length in H. rewrite seq_length in H. congruence. Qed.

Lemma row_length m data vs : measuring_module m -> fully_configured m -> mod_process_input_data m data = Ok vs ->
  length data = channels m /\ length vs = channels m.
Proof.
  intros Hm Hf H. destruct m as [v0 ch|v0 ch| |ch|ch|ch|u ch|f ch|v0 f ch|f ch|u ch|ch|l ch| ]; try destruct Hm;
    cbn [mod_process_input_data fully_configured] in *.
  - unfold rtd_process_input_data in H. split_if H. split_if H. apply traverse_seq_length in H. change (channels _) with 4%nat. lia.
  - unfold ai_ui_diag_process_input_data in H. split_if H. split_if H. apply traverse_seq_length in H. change (channels _) with 4%nat. lia.
  - unfold ai_ui_process_input_data in H. split_if H. split_if H. apply traverse_seq_length in H.
    assert (E : channels (MAIUI v0 f ch) = 4%nat) by (destruct v0; reflexivity). rewrite E.
    assert (E' : channel_count (ai_type v0) = 4%nat) by (destruct v0; reflexivity). rewrite E' in *. lia.
  - unfold ai_i_process_input_data in H. split_if H. split_if H. apply traverse_seq_length in H. change (channels _) with 8%nat. lia.
  - unfold tc_process_input_data in H. split_if H. apply Ok_inj in H. subst vs. rewrite map_length, combine_length. change (channels _) with 4%nat. lia.
Qed.

Lemma disabled_channel m k d v : measuring_module m -> fully_configured m -> (k < channels m)%nat -> measures m k = None ->
  is_u16 d -> shows m k d v -> v = Disabled.
Proof.
  intros Hm Hf Hk HN Hd S.
  assert (HA : forall r f, analog_input m k = Some (r, f) -> r = UI_Disabled -> v = Disabled).
  { intros r f Ha ->. pose proof (C16_all m k d v _ f (or_introl (conj Ha S)) Hd) as H. exact H. }
  destruct m as [v0 ch|v0 ch| |ch|ch|ch|u ch|f ch|v0 f ch|f ch|u ch|ch|l ch| ]; try destruct Hm; cbn [fully_configured] in Hf;
    (assert (HL : exists p, nth_error ch k = Some p)
       by (apply nth_error_lt_Some; rewrite Hf; first [exact Hk|destruct v0; exact Hk]); destruct HL as (p & Hp));
    cbn [measures analog_input] in HN, HA; rewrite Hp in *; cbn [option_map] in *.
  - pose proof (C21_all u ch k p d v Hp S Hd) as C. destruct (rtd_measurement_range p); try discriminate. exact C.
  - apply (HA _ _ eq_refl). destruct (aid_range p); try discriminate; reflexivity.
  - apply (HA _ _ eq_refl). destruct (aiu_range p); try discriminate; reflexivity.
  - apply (HA _ _ eq_refl). destruct (current_range (aii_range p)); try discriminate; reflexivity.
  - pose proof (C22_all u ch k p d v Hp S Hd) as C. destruct (tc_measurement_range p); try discriminate. exact C.
Qed.

Lemma measures_channel m k code : measuring_module m -> fully_configured m -> measures m k = Some code -> (k < channels m)%nat.
Proof.
  intros Hm Hf H. destruct m as [v0 ch|v0 ch| |ch|ch|ch|u ch|f ch|v0 f ch|f ch|u ch|ch|l ch| ]; try destruct Hm; cbn [fully_configured] in Hf;
    cbn [measures analog_input] in H; (destruct (nth_error ch k) as [p|] eqn:Hp; [|discriminate]); apply nth_error_Some_lt in Hp;
    rewrite Hf in Hp; first [exact Hp|destruct v0; exact Hp].
Qed.

Lemma row_all : forall m data1 data2 vs1 vs2, measuring_module m -> fully_configured m -> Forall is_u16 data1 -> Forall is_u16 data2 ->
  mod_process_input_data m data1 = Ok vs1 -> mod_process_input_data m data2 = Ok vs2 ->
  Forall2 same_value vs1 vs2 <-> forall k, measures m k <> None -> nth_error data1 k = nth_error data2 k.
Proof.
  intros m data1 data2 vs1 vs2 Hm Hf U1 U2 D1 D2.
  destruct (row_length m data1 vs1 Hm Hf D1) as [L1 L1']. destruct (row_length m data2 vs2 Hm Hf D2) as [L2 L2'].
  assert (HG : forall k, (k < channels m)%nat -> exists d1 d2 v1 v2, nth_error data1 k = Some d1 /\ nth_error data2 k = Some d2 /\
     nth_error vs1 k = Some v1 /\ nth_error vs2 k = Some v2 /\ is_u16 d1 /\ is_u16 d2 /\ shows m k d1 v1 /\ shows m k d2 v2).
  { intros k Hk. destruct (nth_error_lt_Some data1 k) as (d1 & E1); [lia|]. destruct (nth_error_lt_Some data2 k) as (d2 & E2); [lia|].
    destruct (nth_error_lt_Some vs1 k) as (v1 & E3); [lia|]. destruct (nth_error_lt_Some vs2 k) as (v2 & E4); [lia|].
    exists d1, d2, v1, v2. do 4 (split; [assumption|]).
    split; [exact (proj1 (Forall_forall _ _) U1 _ (nth_error_In _ _ E1))|]. split; [exact (proj1 (Forall_forall _ _) U2 _ (nth_error_In _ _ E2))|].
    split; [exists data1, vs1; auto|exists data2, vs2; auto]. }
  rewrite Forall2_nth_error. split.
  - intros [_ H] k Hc. destruct (measures m k) as [code|] eqn:Hme; [|congruence].
    destruct (HG k (measures_channel m k code Hm Hf Hme)) as (d1 & d2 & v1 & v2 & E1 & E2 & E3 & E4 & Hd1 & Hd2 & S1 & S2).
    rewrite E1, E2. f_equal. apply (change_all m k code d1 d2 v1 v2); try assumption. exact (H k v1 v2 E3 E4).
  - intros H. split; [lia|]. intros k v1 v2 E3 E4. assert (Hk : (k < channels m)%nat) by (apply nth_error_Some_lt in E3; lia).
    destruct (HG k Hk) as (d1 & d2 & w1 & w2 & E1 & E2 & F3 & F4 & Hd1 & Hd2 & S1 & S2).
    assert (w1 = v1) as -> by congruence. assert (w2 = v2) as -> by congruence.
    destruct (measures m k) as [code|] eqn:Hme.
    + apply (change_all m k code d1 d2 v1 v2); try assumption. assert (HN : Some code <> None) by discriminate. rewrite <- Hme in HN. specialize (H k HN). congruence.
    + rewrite (disabled_channel m k d1 v1 Hm Hf Hk Hme Hd1 S1), (disabled_channel m k d2 v2 Hm Hf Hk Hme Hd2 S2). reflexivity.
Qed.

(** ** In a coupler *)

Lemma aligned_row prof m o off input iv : Forall is_u16 input -> measuring_module m -> complete m -> mo_input o = Some off -> is_u16 off -> off mod 16 = 0 ->
  input_row prof (m, o) input = Ok iv ->
  exists raw, mod_process_input_data m raw = Ok iv /\ Forall is_u16 raw /\
    forall k, (k < channels m)%nat -> nth_error raw k = nth_error input (Z.to_nat (off / 16) + k).
Proof.
  intros Hu Hm Hc Eo Ho H16 H. unfold input_row in H. cbn [fst snd] in H. rewrite Eo in H. apply bind_ok in H. destruct H as (raw & Hp & H).
  exists raw. split; [exact H|]. unfold is_u16 in Ho. destruct (prepare_any _ _ _ _ _ _ Ho Hu Hp) as [_ Hr]. split; [exact Hr|].
  rewrite prepare_eq in Hp by (unfold is_u16; lia || (split; [lia|apply Z.div_pos; lia])). cbv zeta in Hp.
  destruct (Nat.ltb_spec (length input) (Z.to_nat (off / 16 - 0) + word_count (input_bytes m))) as [Hl|Hl]; [discriminate|].
  rewrite H16, Z.eqb_refl in Hp. apply Ok_inj in Hp. subst raw. rewrite Z.sub_0_r in *. intros k Hk.
  assert (Hw : (channels m <= word_count (input_bytes m))%nat).
  { destruct m as [v0 ch|v0 ch| |ch|ch|ch|u ch|f ch|v0 f ch|f ch|u ch|ch|l ch| ]; try destruct Hm; try destruct v0; vm_compute; lia. }
  rewrite nth_error_firstn_lt by lia. apply nth_error_skipn.
Qed.

Lemma cycle_row prof c input output c' image i m o off : reachable prof c -> cycle prof c input output c' (Ok image) ->
  module_at c i m o -> measuring_module m -> mo_input o = Some off -> off mod 16 = 0 ->
  exists row raw, nth_error (inputs c') i = Some row /\ mod_process_input_data m raw = Ok row /\ Forall is_u16 raw /\ fully_configured m /\
    forall k, (k < channels m)%nat -> nth_error raw k = nth_error input (Z.to_nat (off / 16) + k).
Proof.
  intros Hr H Hat Hm Eo H16. pose proof (reachable_ok _ _ Hr) as Hok. assert (Hui : Forall is_u16 input) by apply H.
  destruct (ok_cycle _ _ _ _ _ _ Hok H) as (ins & outs & sent & E1 & E2 & E3 & E4 & E5 & E6 & E6' & E7).
  assert (Hi : nth_error (infos c) i = Some (m, o)) by (apply infos_at; exact Hat).
  destruct (E7 i m o Hat) as (iv & ov & Hiv & Hov & Hri & Hro & Hc).
  assert (Hcm : complete m) by exact (ok_complete c i m o Hok Hi).
  destruct (ok_off c Hok i m o Hat) as [O1 _]. cbn [snd] in O1.
  destruct (aligned_row prof m o off input iv Hui Hm Hcm Eo (O1 off Eo) H16 Hri) as (raw & D & U & K).
  exists iv, raw. split; [|split; [exact D|split; [exact U|split; [|exact K]]]].
  - destruct (C54_all prof c input output c' (Ok image) Hr H ins outs E1 E2) as (_ & _ & HC). destruct (HC i m o Hat) as (iv' & ov' & F1 & _ & F2 & _).
    assert (iv' = iv) as -> by congruence. apply F2. destruct m; try destruct Hm; reflexivity.
  - destruct m; try destruct Hm; exact Hcm.
Qed.

Lemma cached_all : forall prof c input output c' image d input2 output2 d' image2 i m o off row row2,
  reachable prof c -> cycle prof c input output c' (Ok image) -> reachable prof d -> cycle prof d input2 output2 d' (Ok image2) ->
  module_at c i m o -> module_at d i m o -> measuring_module m -> mo_input o = Some off -> off mod 16 = 0 ->
  nth_error (inputs c') i = Some row -> nth_error (inputs d') i = Some row2 ->
  Forall2 same_value row row2 <->
  forall k, measures m k <> None -> nth_error input (Z.to_nat (off / 16) + k) = nth_error input2 (Z.to_nat (off / 16) + k).
Proof.
  intros prof c input output c' image d input2 output2 d' image2 i m o off row row2 Hr H Hr2 H2 Hat Hat2 Hm Eo H16 R1 R2.
  destruct (cycle_row _ _ _ _ _ _ _ _ _ _ Hr H Hat Hm Eo H16) as (row' & raw & E & D & U & F & K).
  destruct (cycle_row _ _ _ _ _ _ _ _ _ _ Hr2 H2 Hat2 Hm Eo H16) as (row2' & raw2 & E2 & D2 & U2 & _ & K2).
  assert (row' = row) as -> by congruence. assert (row2' = row2) as -> by congruence.
  rewrite (row_all m raw raw2 row row2 Hm F U U2 D D2).
  assert (HK : forall k, measures m k <> None -> (k < channels m)%nat).
  { intros k Hk. destruct (measures m k) as [code|] eqn:Hc; [|congruence]. exact (measures_channel m k code Hm F Hc). }
  split; intros HH k Hk; specialize (HH k Hk); specialize (HK k Hk); rewrite ?K, ?K2 in * by exact HK; exact HH.
Qed.

Lemma readback_all : forall m k r f d1 d2 x1 x2, analog_output m k = Some (r, f) -> is_u16 d1 -> is_u16 d2 ->
  reads_back m k d1 (Decimal32 x1) -> reads_back m k d2 (Decimal32 x2) ->
  finite x1 /\ finite x2 /\ (less x1 x2 <-> signed d1 < signed d2) /\ (equal x1 x2 <-> d1 = d2).
Proof.
  intros m k r f d1 d2 x1 x2 Ha H1 H2 S1 S2.
  pose proof (C16_all m k d1 _ r f (or_intror (conj Ha S1)) H1) as C1. pose proof (C16_all m k d2 _ r f (or_intror (conj Ha S2)) H2) as C2.
  destruct (base_span r) as [(b & n)|] eqn:Hr; [|discriminate]. pose proof (base_span_in _ _ _ Hr) as Hi. pose proof (base_span_range _ _ _ Hr) as [_ Hn].
  destruct C1 as (y1 & E1 & C1). assert (y1 = x1) as -> by congruence. destruct C2 as (y2 & E2 & C2). assert (y2 = x2) as -> by congruence.
  destruct (decoded_finite _ _ _ _ _ C1) as [V1 F1]. destruct (decoded_finite _ _ _ _ _ C2) as [V2 F2].
  apply (decoded_close _ _ _ _ _ Hi V1 F1) in C1. apply (decoded_close _ _ _ _ _ Hi V2 F2) in C2.
  assert (Hs : (0 < IZR n / IZR (full_code f))%R) by (apply Rdiv_lt_0_compat; [apply IZR_lt; lia|apply full_pos]).
  pose proof (close_less _ _ _ _ _ _ Hs C1 C2) as L. pose proof (close_less _ _ _ _ _ _ Hs C2 C1) as G.
  split; [exact F1|]. split; [exact F2|]. rewrite less_real, equal_real by assumption.
  destruct (Z.lt_trichotomy (signed d1) (signed d2)) as [C|[C|C]].
  - specialize (L C). split; [tauto|]. split; [intros E; lra|]. intros ->. lia.
  - assert (d1 = d2) as -> by (unfold is_u16 in *; unfold signed in C; destruct (Z.ltb_spec d1 32768), (Z.ltb_spec d2 32768); lia).
    assert (x1 = x2) as ->.
    { pose proof (read_back_analog _ _ _ _ _ _ Ha S1) as X1. pose proof (read_back_analog _ _ _ _ _ _ Ha S2) as X2. congruence. }
    split; [split; [intros; lra|lia]|tauto].
  - specialize (G C). split; [split; [intros; lra|lia]|]. split; [intros E; lra|]. intros ->. lia.
Qed.
