(** Proofs about writing back analog readback values (C19, C20). *)
From Coq Require Import ZArith Reals List Bool Lia Lra Psatz SpecFloat.
From Flocq Require Import Core BinarySingleNaN.
From Verif Require Import Base Facts F32 Types Lib Util Digital Analog Fcnt Fbc SpecCodec SpecCoupler SpecAnalog ProofsModule ProofsFloat ProofsAnalog.
Import ListNotations.
Local Open Scope Z_scope.

Definition decode (b n : Z) (f : data_format) (c : Z) : f32 :=
  let q := f32_div (f32_mul (f32_of_Z c) (f32_of_Z n)) (factor f) in if b =? 0 then q else f32_add q (f32_of_Z b).

Lemma decode_is d r f : u16_to_analog_ui_value d r f =
  match base_span r with Some (b, n) => Some (decode b n f (u16_as_i16 d)) | None => None end.
Proof. destruct r; reflexivity. Qed.

Definition trip (b n : Z) (f : data_format) (c : Z) : Z := encoded b n f (decode b n f c).

(** a code whose value is exactly representable is kept *)
Lemma trip_exact b n f c z k : 0 <= b <= 4 -> 4 <= n <= 20 -> -32768 <= c <= 32767 -> 0 <= k <= 14 -> Z.abs z <= 2 ^ 20 ->
  z * full_code f = n * c * 2 ^ k -> trip b n f c = c.
Proof.
  intros Hb Hn Hc Hk Hz E.
  assert (P : 1 <= 2 ^ k <= 2 ^ 14) by (split; [change 1 with (2 ^ 0)|]; apply Z.pow_le_mono_r; lia).
  assert (PF := full_pos f). assert (Fx := factor_exact f).
  assert (Bk : bpow radix2 (- k) = (/ IZR (2 ^ k))%R).
  { rewrite bpow_opp, <- IZR_Zpower by lia. reflexivity. }
  assert (P' : (1 <= IZR (2 ^ k))%R) by (apply IZR_le; lia).
  assert (Q : (IZR n * IZR c / IZR (full_code f) = IZR z * bpow radix2 (- k))%R).
  { rewrite Bk. apply (f_equal IZR) in E. rewrite !mult_IZR in E.
    apply Rmult_eq_reg_r with (IZR (full_code f) * IZR (2 ^ k))%R; [|apply Rmult_integral_contrapositive_currified; lra].
    transitivity (IZR n * IZR c * IZR (2 ^ k))%R; [field; lra|]. rewrite <- E. field. lra. }
  assert (Eb : exactly (f32_of_Z b) (IZR b)) by (apply of_Z_exact; lia).
  assert (En : exactly (f32_of_Z n) (IZR n)) by (apply of_Z_exact; lia).
  assert (Hn20 : 0 <= n <= 20) by lia.
  assert (D : exactly (f32_div (f32_mul (f32_of_Z c) (f32_of_Z n)) (factor f)) (IZR z * bpow radix2 (- k))).
  { rewrite <- (rnd_scaled z (- k)) by lia. rewrite <- Q. apply decode_zero; assumption. }
  assert (M : forall q, exactly q (IZR z * bpow radix2 (- k)) ->
              f32_as_i16 (f32_div (f32_mul (factor f) q) (f32_of_Z n)) = c).
  { intros q Hq. assert (Pn : (0 < IZR n)%R) by (apply IZR_lt; lia).
    assert (V1 : (IZR (full_code f) * (IZR z * bpow radix2 (- k)) = IZR (n * c))%R).
    { rewrite <- Q, mult_IZR. field. lra. }
    assert (M1 : exactly (f32_mul (factor f) q) (IZR (n * c))).
    { rewrite <- (rnd_Z (n * c)) by nia. rewrite <- V1. apply no_overflow; [apply rounds_mul; assumption|]. rewrite V1.
      apply Rle_trans with (IZR (2 ^ 24)); [apply abs_Z_le; nia|apply (pow_le_127 _ 24); lia]. }
    assert (M2 : exactly (f32_div (f32_mul (factor f) q) (f32_of_Z n)) (IZR c)).
    { rewrite <- (rnd_Z c) by lia. assert (V2 : (IZR c = IZR (n * c) / IZR n)%R) by (rewrite mult_IZR; field; lra).
      rewrite V2. apply no_overflow; [apply rounds_div; assumption|]. rewrite <- V2.
      apply Rle_trans with (IZR (2 ^ 24)); [apply abs_Z_le; lia|apply (pow_le_127 _ 24); lia]. }
    rewrite (as_i16_exact _ _ M2), Ztrunc_IZR. unfold clamp_i16. lia. }
  unfold trip, encoded, decode. destruct (Z.eqb_spec b 0) as [->|Nb]; [apply M; exact D|]. apply M.
  assert (Vb : (IZR z * bpow radix2 (- k) + IZR b = IZR (z + b * 2 ^ k) * bpow radix2 (- k))%R).
  { rewrite plus_IZR, mult_IZR, Bk. field. lra. }
  assert (Sm : Z.abs (z + b * 2 ^ k) <= 2 ^ 24) by nia.
  assert (Bp : (0 < bpow radix2 (- k) <= 1)%R) by (split; [apply bpow_gt_0|change 1%R with (bpow radix2 0); apply bpow_le; lia]).
  assert (L : forall y, Z.abs y <= 2 ^ 24 -> (Rabs (IZR y * bpow radix2 (- k)) <= bpow radix2 127)%R).
  { intros y Hy. apply Rle_trans with (IZR (2 ^ 24)); [|apply (pow_le_127 _ 24); lia].
    apply abs_Z_le in Hy. rewrite Rabs_mult, (Rabs_pos_eq (bpow _ _)) by lra. pose proof (Rabs_pos (IZR y)). nra. }
  assert (A : exactly (f32_add (f32_div (f32_mul (f32_of_Z c) (f32_of_Z n)) (factor f)) (f32_of_Z b))
                (IZR (z + b * 2 ^ k) * bpow radix2 (- k))).
  { rewrite <- (rnd_scaled (z + b * 2 ^ k) (- k)) by lia. rewrite <- Vb. apply no_overflow; [apply rounds_add; assumption|].
    rewrite Vb. apply L. exact Sm. }
  assert (Vs : (IZR (z + b * 2 ^ k) * bpow radix2 (- k) - IZR b = IZR z * bpow radix2 (- k))%R) by (rewrite <- Vb; ring).
  rewrite <- (rnd_scaled z (- k)) by lia. rewrite <- Vs. apply no_overflow; [apply rounds_sub; assumption|].
  rewrite Vs. apply L. lia.
Qed.

Lemma trip_S5 b n c : 0 <= b <= 4 -> 4 <= n <= 20 -> -32768 <= c <= 32767 -> trip b n S5 c = c.
Proof. intros Hb Hn Hc. apply (trip_exact b n S5 c (n * c) 14); [assumption..|lia|nia|reflexivity]. Qed.

Lemma trip_27 b n j : 0 <= b <= 4 -> 4 <= n <= 20 -> -32768 <= 27 * j <= 32767 -> trip b n S7 (27 * j) = 27 * j.
Proof. intros Hb Hn Hc. assert (-1214 <= j <= 1214) by lia.
  apply (trip_exact b n S7 (27 * j) (n * j) 10); [assumption..|lia|nia|]. cbn [full_code]. change (2 ^ 10) with 1024. ring. Qed.

(** any other code moves by at most one, towards zero *)
Lemma trip_step r b n f c : base_span r = Some (b, n) -> -32768 <= c <= 32767 ->
  (0 <= c -> c - 1 <= trip b n f c <= c /\ 0 <= trip b n f c) /\ (c <= 0 -> c <= trip b n f c <= c + 1 /\ trip b n f c <= 0).
Proof.
  intros Hr Hc. destruct (base_span_range _ _ _ Hr) as [Hb Hn].
  assert (Z0 : trip b n f 0 = 0).
  { apply (trip_exact b n f 0 0 0); try lia. }
  pose proof (decode_all (i16_as_u16 c) r f (proj1 (signed_i16 c Hc))) as D. rewrite Hr, decode_is, Hr in D.
  destruct D as (x & Ex & Dx). rewrite (proj2 (signed_i16 c Hc)) in Dx.
  assert (Ec : u16_as_i16 (i16_as_u16 c) = c) by exact (proj2 (signed_i16 c Hc)). rewrite Ec in Ex. apply Some_inj in Ex.
  destruct Dx as (_ & _ & (q & _ & (V & F & _)) & Er). unfold exact_value in Er.
  assert (Hx : exactly x (real x)) by (split; [exact V|]; split; [exact F|reflexivity]).
  assert (PF := full_pos f). assert (LF : (IZR (full_code f) <= 27648)%R) by (destruct f; cbn [full_code]; lra).
  assert (Pn : (4 <= IZR n)%R) by (apply IZR_le; lia).
  assert (T : (Rabs (exact_code b n (full_code f) (real x) - IZR c) <= 6 / 100)%R).
  { unfold exact_code.
    replace (IZR (full_code f) * (real x - IZR b) / IZR n - IZR c)%R
      with (IZR (full_code f) / IZR n * (real x - (IZR b + IZR n * IZR c / IZR (full_code f))))%R by (field; lra).
    rewrite Rabs_mult. assert (G : (0 <= IZR (full_code f) / IZR n <= 6912)%R).
    { split; [apply Rmult_le_pos; [lra|left; apply Rinv_0_lt_compat; lra]|].
      apply Rmult_le_reg_r with (IZR n); [lra|]. unfold Rdiv. rewrite Rmult_assoc, Rinv_l by lra. lra. }
    rewrite (Rabs_pos_eq (IZR (full_code f) / IZR n)) by lra. pose proof (Rabs_pos (real x - (IZR b + IZR n * IZR c / IZR (full_code f)))).
    nra. }
  assert (Bc : (-32768 <= IZR c <= 32767)%R) by (split; apply IZR_le; lia).
  apply Rabs_le_inv in T.
  destruct (encoded_value b n f x (real x) Hb Hn Hx) as (w & Hw & Ew); [apply Rabs_le; lra|].
  apply Rabs_def2 in Hw. assert (W : (IZR c - 1/10 < w < IZR c + 1/10)%R) by lra.
  unfold trip. rewrite Ex, Ew. unfold trip in Z0.
  destruct (Z.lt_trichotomy c 0) as [L|[->|L]]; [|rewrite Ex, Ew in Z0; lia|].
  - assert (Lw : (w <= 0)%R) by (assert (IZR c <= -1)%R by (apply IZR_le; lia); lra).
    rewrite Ztrunc_ceil by exact Lw. pose proof (Zceil_ub w) as U.
    assert (c <= Zceil w) by (apply Z.lt_pred_le, lt_IZR; rewrite <- Z.sub_1_r, minus_IZR; lra).
    assert (Zceil w <= c + 1) by (apply Zceil_glb; rewrite plus_IZR; lra).
    unfold clamp_i16. split; [lia|]. intros _. lia.
  - assert (Lw : (0 <= w)%R) by (assert (1 <= IZR c)%R by (apply IZR_le; lia); lra).
    rewrite Ztrunc_floor by exact Lw. pose proof (Zfloor_lb w) as U.
    assert (Zfloor w <= c) by (apply Z.lt_succ_r, lt_IZR; rewrite <- Z.add_1_r, plus_IZR; lra).
    assert (c - 1 <= Zfloor w) by (apply Zfloor_lub; rewrite minus_IZR; lra).
    unfold clamp_i16. split; [|lia]. intros _. lia.
Qed.

(** ** Any number of repetitions of such a step *)

Fixpoint repeated (n : nat) (g : Z -> Z) (c : Z) : Z := match n with O => c | S n => g (repeated n g c) end.

Section Steps.
Variable g : Z -> Z.
Hypothesis g_step : forall c, -32768 <= c <= 32767 ->
  (0 <= c -> c - 1 <= g c <= c /\ 0 <= g c) /\ (c <= 0 -> c <= g c <= c + 1 /\ g c <= 0).
Hypothesis g_27 : forall j, -32768 <= 27 * j <= 32767 -> g (27 * j) = 27 * j.

Lemma iter_between n c : -32768 <= c <= 32767 -> towards_zero c (repeated n g c).
Proof.
  intros H. unfold towards_zero. induction n as [|n IH]; cbn [repeated]; [lia|].
  set (x := repeated n g c) in *. destruct (g_step x) as [P N]; [lia|]. lia.
Qed.

Lemma iter_27 n c j : -32768 <= c <= 32767 ->
  (0 <= 27 * j <= c -> 27 * j <= repeated n g c) /\ (c <= 27 * j <= 0 -> repeated n g c <= 27 * j).
Proof.
  intros H. pose proof (iter_between n c H) as B. unfold towards_zero in B.
  split; intros Hj; induction n as [|n IH]; cbn [repeated] in *; try lia.
  - pose proof (iter_between n c H) as B'. unfold towards_zero in B'. specialize (IH B'). set (x := repeated n g c) in *.
    destruct (g_step x) as [P N]; [lia|]. destruct (Z.eq_dec x (27 * j)) as [E|E]; [|lia].
    rewrite E, g_27 by lia. lia.
  - pose proof (iter_between n c H) as B'. unfold towards_zero in B'. specialize (IH B'). set (x := repeated n g c) in *.
    destruct (g_step x) as [P N]; [lia|]. destruct (Z.eq_dec x (27 * j)) as [E|E]; [|lia].
    rewrite E, g_27 by lia. lia.
Qed.

End Steps.

(** ** Modules *)

Lemma rewrite_channel m k r f data data' d d' : analog_output m k = Some (r, f) -> rewrites m data data' ->
  nth_error data k = Some d -> nth_error data' k = Some d' ->
  match base_span r with Some (b, n) => is_u16 d' /\ signed d' = trip b n f (u16_as_i16 d) | None => d' = 0 end.
Proof.
  intros Ha (prof & vs & H1 & H2) Hd Hd'.
  assert (exists v, nth_error vs k = Some v) as (v & Hv).
  { assert (L : length data' = length vs).
    { destruct m; try discriminate; cbn [mod_process_output_values] in H2.
      - unfold ao_process_output_values in H2. split_if H2. split_if H2. apply traverse_length in H2. rewrite enumerate_length in H2. exact H2.
      - unfold ao_diag_process_output_values in H2. split_if H2. split_if H2. apply traverse_length in H2. rewrite enumerate_length in H2. exact H2. }
    apply nth_error_lt_Some. rewrite <- L. exact (nth_error_Some_lt _ _ _ Hd'). }
  assert (R : reads_back m k d v) by (exists data, vs; auto).
  assert (S : sends m k v d') by (exists prof, vs, data'; auto).
  pose proof (read_back_analog _ _ _ _ _ _ Ha R) as E. rewrite decode_is in E.
  destruct (base_span r) as [[b n]|] eqn:Er.
  - cbn [analog_value] in E. subst v. pose proof (sent_code _ _ _ _ _ _ Ha S) as X. rewrite Er in X. exact X.
  - cbn [analog_value] in E. subst v. pose proof (sent_analog _ _ _ _ _ _ Ha S) as X. cbn [value_to_u16] in X.
    apply Ok_inj in X. congruence.
Qed.

Lemma outputs_4 m : all_analog_outputs m -> channels m = 4%nat.
Proof.
  intros H. assert (X : analog_output m 0 <> None) by (apply H; lia). destruct m; try (exfalso; apply X; reflexivity); reflexivity.
Qed.

Lemma rewrites_total m data prof : all_analog_outputs m -> length data = 4%nat ->
  exists vs data', mod_process_output_data m data = Ok vs /\ mod_process_output_values prof m vs = Ok data' /\ length data' = 4%nat.
Proof.
  intros H Hl. pose proof (outputs_4 m H) as C. unfold all_analog_outputs in H. rewrite <- C in H.
  destruct (C16_total m data) as [_ T]; [lia|lia|]. destruct (T H) as (vs & Hvs & Lv).
  destruct C17_all as (U & _). destruct (U prof m vs ltac:(lia) H Lv) as (data' & Hd & Ld).
  - apply Forall_forall. intros v Hv. apply In_nth_error in Hv. destruct Hv as (k & Hv).
    assert (Lk : (k < channels m)%nat) by (rewrite <- Lv; exact (nth_error_Some_lt _ _ _ Hv)).
    destruct (analog_output m k) as [[r f]|] eqn:Ea; [|exfalso; apply (H k) in Lk; congruence].
    destruct (nth_error_lt_Some data k) as (d & Hd); [lia|].
    assert (R : reads_back m k d v) by (exists data, vs; auto).
    rewrite (read_back_analog _ _ _ _ _ _ Ea R). destruct (u16_to_analog_ui_value d r f); exact I.
  - exists vs, data'. rewrite Ld, C. auto.
Qed.

Lemma signed_inj d d' : is_u16 d -> is_u16 d' -> signed d = signed d' -> d = d'.
Proof. unfold is_u16, signed. intros H H' E. destruct (Z.ltb_spec d 32768), (Z.ltb_spec d' 32768); lia. Qed.

Lemma C19_all : forall m data, all_analog_outputs m -> length data = 4%nat -> Forall is_u16 data ->
  (forall prof, exists values data', mod_process_output_data m data = Ok values /\
      mod_process_output_values prof m values = Ok data' /\ length data' = 4%nat) /\
  (forall data' k r d d', rewrites m data data' -> analog_output m k = Some (r, S5) ->
      nth_error data k = Some d -> nth_error data' k = Some d' ->
      d' = match r with UI_Disabled => 0 | _ => d end).
Proof.
  intros m data Hm Hl Hu. split; [intros prof; apply rewrites_total; assumption|].
  intros data' k r d d' Hw Ha Hd Hd'. pose proof (rewrite_channel _ _ _ _ _ _ _ _ Ha Hw Hd Hd') as X.
  assert (Ud : is_u16 d) by (rewrite Forall_forall in Hu; apply Hu; exact (nth_error_In _ _ Hd)).
  assert (Y : match base_span r with Some _ => d' = d | None => d' = 0 end).
  { destruct (base_span r) as [[b n]|] eqn:Er; [|exact X]. destruct X as [U' X]. destruct (base_span_range _ _ _ Er) as [Hb Hn].
    rewrite trip_S5 in X by (try assumption; apply signed_range; exact Ud). apply signed_inj; assumption. }
  destruct r; exact Y.
Qed.

Lemma rewrites_n_channel m k r b n : analog_output m k = Some (r, S7) -> base_span r = Some (b, n) ->
  forall i data data', rewrites_n m i data data' -> forall d d', is_u16 d ->
  nth_error data k = Some d -> nth_error data' k = Some d' ->
  is_u16 d' /\ signed d' = repeated i (trip b n S7) (signed d).
Proof.
  intros Ha Hr i data data' H. induction H as [data|i data data1 data2 H1 H2 IH]; intros d d' Hu Hd Hd'.
  - assert (d' = d) by congruence. subst d'. split; [exact Hu|reflexivity].
  - assert (exists d1, nth_error data1 k = Some d1) as (d1 & Hd1).
    { apply nth_error_lt_Some. assert (Ln : (k < 4)%nat).
      { destruct H1 as (prof & vs & P1 & P2). destruct m; try discriminate; cbn [mod_process_output_data] in P1;
          [unfold ao_process_output_data in P1|unfold ao_diag_process_output_data in P1];
          destruct (Nat.eqb_spec (length data) 4) as [L|L]; try discriminate;
          apply nth_error_Some_lt in Hd; lia. }
      destruct H1 as (prof & vs & P1 & P2). destruct m; try discriminate; cbn [mod_process_output_values] in P2.
      - unfold ao_process_output_values in P2. destruct (Nat.eqb_spec (length vs) 4) as [L|L]; [|discriminate]. cbn [negb] in P2.
        split_if P2. apply traverse_length in P2. rewrite enumerate_length in P2. lia.
      - unfold ao_diag_process_output_values in P2. destruct (Nat.eqb_spec (length vs) 4) as [L|L]; [|discriminate]. cbn [negb] in P2.
        split_if P2. apply traverse_length in P2. rewrite enumerate_length in P2. lia. }
    pose proof (rewrite_channel _ _ _ _ _ _ _ _ Ha H1 Hd Hd1) as X. rewrite Hr in X. destruct X as [U1 X].
    destruct (IH d1 d' U1 Hd1 Hd') as [U' E]. split; [exact U'|]. rewrite E, X.
    change (repeated (S i) (trip b n S7) (signed d)) with (trip b n S7 (repeated i (trip b n S7) (signed d))).
    change (u16_as_i16 d) with (signed d). clear. induction i as [|i IH]; [reflexivity|]. cbn [repeated]. rewrite IH. reflexivity.
Qed.

Lemma rewrites_run prof m data data' :
  match mod_process_output_data m data with Ok vs => mod_process_output_values prof m vs | _ => Err BufferLength end = Ok data' ->
  rewrites m data data'.
Proof. intros H. destruct (mod_process_output_data m data) as [vs|e|p] eqn:E; try discriminate. exists prof, vs. auto. Qed.

(** the code 45 on a 0 - 20 mA channel *)
Definition drifting : module := M4AO (repeat (mk_ao S7 UI_mA0To20 (f32_of_Z 0)) 4).
Lemma C20_drift : exists m data data' k, all_analog_outputs m /\
  (forall i, (i < 4)%nat -> analog_output m i = Some (UI_mA0To20, S7)) /\ Forall is_u16 data /\
  rewrites m data data' /\ nth_error data k = Some 45 /\ nth_error data' k = Some 44.
Proof.
  exists drifting, [45; 0; 0; 0], [44; 0; 0; 0], 0%nat. split; [|split; [|split; [|split; [|split]]]].
  - intros k. split; [|intros H; cbn [analog_output drifting] in H].
    + intros H. destruct k as [|[|[|[|k]]]]; try discriminate. lia.
    + destruct k as [|[|[|[|k]]]]; try lia. exfalso. apply H. destruct k; reflexivity.
  - intros i H. destruct i as [|[|[|[|k]]]]; try reflexivity. lia.
  - repeat constructor; unfold is_u16; lia.
  - apply (rewrites_run Debug). vm_compute. reflexivity.
  - reflexivity.
  - reflexivity.
Qed.

(** ** Concrete cases *)

Lemma shows_run m data k d v :
  match mod_process_input_data m data with Ok vs => nth_error vs k | _ => None end = Some v ->
  nth_error data k = Some d -> shows m k d v.
Proof. intros H Hd. destruct (mod_process_input_data m data) as [vs|e|p] eqn:E; try discriminate. exists data, vs. auto. Qed.

Lemma reads_back_run m data k d v :
  match mod_process_output_data m data with Ok vs => nth_error vs k | _ => None end = Some v ->
  nth_error data k = Some d -> reads_back m k d v.
Proof. intros H Hd. destruct (mod_process_output_data m data) as [vs|e|p] eqn:E; try discriminate. exists data, vs. auto. Qed.

Lemma sends_run prof m values k d v :
  match mod_process_output_values prof m values with Ok data => nth_error data k | _ => None end = Some d ->
  nth_error values k = Some v -> sends m k v d.
Proof. intros H Hv. destruct (mod_process_output_values prof m values) as [data|e|p] eqn:E; try discriminate. exists prof, values, data. auto. Qed.
