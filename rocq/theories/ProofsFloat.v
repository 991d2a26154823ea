(** Floating point arithmetic of the model in real numbers, through Flocq. *)
From Coq Require Import ZArith Reals Lia Lra SpecFloat Psatz.
From Flocq Require Import Core Relative BinarySingleNaN.
From Verif Require Import F32 Facts SpecAnalog.
Local Open Scope Z_scope.

(** ** The standard library's operations are Flocq's *)

#[global] Instance Hprec : Prec_gt_0 24 := eq_refl _.
#[global] Instance Hmax : Prec_lt_emax 24 128 := eq_refl _.
Notation b32 := (binary_float 24 128).

Lemma round_ne s m l : round_nearest_even m l = choice_mode mode_NE s m l.
Proof.
  destruct l as [|c]; [reflexivity|]. destruct c; try reflexivity.
  cbn. unfold Round.cond_incr. destruct (Z.even m); reflexivity.
Qed.

Lemma round_aux_eq sx mx ex lx :
  SpecFloat.binary_round_aux 24 128 sx mx ex lx = BinarySingleNaN.binary_round_aux 24 128 mode_NE sx mx ex lx.
Proof.
  unfold SpecFloat.binary_round_aux, BinarySingleNaN.binary_round_aux.
  set (mrse := shr_fexp _ _ _). destruct mrse as [mrs e]. cbn [fst snd]. rewrite (round_ne sx). reflexivity.
Qed.

Lemma mul_eq (x y : b32) : f32_mul (B2SF x) (B2SF y) = B2SF (Bmult mode_NE x y).
Proof.
  destruct x as [sx|sx| |sx mx ex Bx], y as [sy|sy| |sy my ey By]; try reflexivity.
  cbn. rewrite B2SF_SF2B. apply round_aux_eq.
Qed.

Lemma div_eq (x y : b32) : f32_div (B2SF x) (B2SF y) = B2SF (Bdiv mode_NE x y).
Proof.
  destruct x as [sx|sx| |sx mx ex Bx], y as [sy|sy| |sy my ey By]; try reflexivity.
  unfold f32_div, f32_prec, f32_emax. cbn [SFdiv B2SF Bdiv]. rewrite B2SF_SF2B.
  set (z := SFdiv_core_binary _ _ _ _ _ _). destruct z as [[mz ez] lz]. apply round_aux_eq.
Qed.

Lemma round_eq s m e :
  SpecFloat.binary_round 24 128 s m e = BinarySingleNaN.binary_round 24 128 mode_NE s m e.
Proof.
  unfold SpecFloat.binary_round, BinarySingleNaN.binary_round, shl_align_fexp.
  set (z := shl_align _ _ _). destruct z as [mz ez]. apply round_aux_eq.
Qed.

Lemma normalize_eq m e s :
  SpecFloat.binary_normalize 24 128 m e s = B2SF (BinarySingleNaN.binary_normalize 24 128 Hprec Hmax mode_NE m e s).
Proof.
  destruct m as [|p|p]; [reflexivity| |]; cbn; rewrite B2SF_SF2B; apply round_eq.
Qed.

Lemma add_eq (x y : b32) : f32_add (B2SF x) (B2SF y) = B2SF (Bplus mode_NE x y).
Proof.
  destruct x as [sx|sx| |sx mx ex Bx], y as [sy|sy| |sy my ey By];
    try reflexivity; try (cbn; destruct (Bool.eqb sx sy); reflexivity).
  unfold f32_add, f32_prec, f32_emax. cbn [SFadd B2SF Bplus]. apply normalize_eq.
Qed.

Lemma sub_eq (x y : b32) : f32_sub (B2SF x) (B2SF y) = B2SF (Bminus mode_NE x y).
Proof.
  destruct x as [sx|sx| |sx mx ex Bx], y as [sy|sy| |sy my ey By];
    try reflexivity; try (cbn; destruct (Bool.eqb sx (negb sy)); reflexivity).
  unfold f32_sub, f32_prec, f32_emax. cbn [SFsub B2SF Bminus]. unfold Zminus. rewrite <- cond_Zopp_negb. apply normalize_eq.
Qed.

(** ** Values *)

Notation fexp32 := (SpecFloat.fexp 24 128).
Notation rnd := (Generic_fmt.round radix2 fexp32 ZnearestE).

Lemma real_B2R (x : b32) : real (B2SF x) = B2R x.
Proof.
  destruct x as [sx|sx| |sx mx ex Bx]; try reflexivity. cbn [real B2SF B2R].
  unfold F2R. cbn [Fnum Fexp]. rewrite bpow_powerRZ. cbn [radix_val radix2]. destruct sx; reflexivity.
Qed.

Lemma valid_b (x : f32) : f32_valid x = true -> exists b : b32, B2SF b = x.
Proof. intros H. exists (SF2B x H). apply B2SF_SF2B. Qed.

Lemma valid_B2SF (b : b32) : f32_valid (B2SF b) = true.
Proof. apply valid_binary_B2SF. Qed.

Lemma finite_B2SF (b : b32) : finite (B2SF b) <-> is_finite b = true.
Proof. destruct b; cbn; split; try discriminate; try tauto. Qed.

Lemma finite_valid_b x : f32_valid x = true -> finite x -> exists b : b32, B2SF b = x /\ is_finite b = true.
Proof. intros H F. destruct (valid_b x H) as (b & <-). exists b. split; [reflexivity|]. apply finite_B2SF. exact F. Qed.

Lemma exactly_b x r : exactly x r <-> exists b : b32, B2SF b = x /\ is_finite b = true /\ B2R b = r.
Proof.
  split.
  - intros (V & F & E). destruct (finite_valid_b x V F) as (b & <- & Fb). exists b. rewrite <- real_B2R. auto.
  - intros (b & <- & F & E). split; [apply valid_B2SF|]. split; [apply finite_B2SF; exact F|]. rewrite real_B2R. exact E.
Qed.

(** What an operation with exact result [r] gives. *)
Definition rounds (x : f32) (r : R) : Prop :=
  (Rabs (rnd r) < bpow radix2 128)%R /\ exactly x (rnd r) \/
  (bpow radix2 128 <= Rabs (rnd r))%R /\ x = S754_infinity (Rlt_bool r 0).

#[global] Instance Hexp : Valid_exp fexp32 := fexp_correct 24 128 Hprec.
#[global] Instance Hrnd : Valid_rnd ZnearestE := valid_rnd_N _.

#[global] Instance Hne : Exists_NE radix2 fexp32 := exists_NE_FLT radix2 (-149) 24 (or_intror eq_refl).

Lemma bpow128 : (0 < bpow radix2 128)%R.
Proof. apply bpow_gt_0. Qed.

Lemma format_bpow e : -149 <= e -> generic_format radix2 fexp32 (bpow radix2 e).
Proof. intros H. apply generic_format_bpow. unfold SpecFloat.fexp, SpecFloat.emin. lia. Qed.

Lemma rnd_bound r e : -149 <= e -> (Rabs r <= bpow radix2 e)%R -> (Rabs (rnd r) <= bpow radix2 e)%R.
Proof. intros He Hr. apply abs_round_le_generic; [typeclasses eauto..| |exact Hr]. apply format_bpow. exact He. Qed.

Lemma no_overflow x r : rounds x r -> (Rabs r <= bpow radix2 127)%R -> exactly x (rnd r).
Proof.
  intros [[_ H]|[H _]] Hr; [exact H|]. exfalso.
  apply rnd_bound in Hr; [|lia].
  assert (bpow radix2 127 < bpow radix2 128)%R by (apply bpow_lt; lia). lra.
Qed.

Lemma rnd_0 : rnd 0 = 0%R.
Proof. apply round_0. typeclasses eauto. Qed.

(** The sign of a finite number. *)
Lemma sign_pos (b : b32) : is_finite b = true -> Bsign b = false -> (0 <= B2R b)%R.
Proof.
  destruct b as [s|s| |s m e B]; try discriminate; intros _ H; cbn [B2R Bsign] in *; [lra|]. subst s.
  apply F2R_ge_0. cbn. lia.
Qed.
Lemma sign_neg (b : b32) : is_finite b = true -> Bsign b = true -> (B2R b <= 0)%R.
Proof.
  destruct b as [s|s| |s m e B]; try discriminate; intros _ H; cbn [B2R Bsign] in *; [lra|]. subst s.
  apply F2R_le_0. cbn. lia.
Qed.

Lemma overflow_not_0 r : (bpow radix2 128 <= Rabs (rnd r))%R -> r <> 0%R.
Proof. intros H ->. rewrite rnd_0, Rabs_R0 in H. pose proof bpow128. lra. Qed.

Lemma sign_by r s : (bpow radix2 128 <= Rabs (rnd r))%R -> (s = false -> 0 <= r)%R -> (s = true -> r <= 0)%R ->
  s = Rlt_bool r 0.
Proof.
  intros L H1 H2. apply overflow_not_0 in L. destruct s.
  - rewrite Rlt_bool_true; [reflexivity|]. specialize (H2 eq_refl). lra.
  - rewrite Rlt_bool_false; [reflexivity|]. auto.
Qed.

Lemma rounds_mul x y a b : exactly x a -> exactly y b -> rounds (f32_mul x y) (a * b).
Proof.
  rewrite !exactly_b. intros (bx & <- & Fx & <-) (bw & <- & Fy & <-). rewrite mul_eq.
  pose proof (Bmult_correct 24 128 _ _ mode_NE bx bw) as H. unfold rounds. cbn [round_mode] in H.
  destruct (Rlt_bool_spec (Rabs (rnd (B2R bx * B2R bw))) (bpow radix2 128)) as [L|L].
  - left. split; [exact L|]. apply exactly_b. exists (Bmult mode_NE bx bw). split; [reflexivity|].
    destruct H as (H1 & H2 & _). rewrite H2, Fx, Fy. auto.
  - right. split; [exact L|]. rewrite H. cbn. f_equal. apply sign_by; [exact L| |]; intros E.
    + destruct (Bsign bx) eqn:E1, (Bsign bw) eqn:E2; try discriminate.
      * apply sign_neg in E1, E2; try assumption. nra.
      * apply sign_pos in E1, E2; try assumption. nra.
    + destruct (Bsign bx) eqn:E1, (Bsign bw) eqn:E2; try discriminate.
      * apply sign_neg in E1; apply sign_pos in E2; try assumption. nra.
      * apply sign_pos in E1; apply sign_neg in E2; try assumption. nra.
Qed.

Lemma rounds_div x y a b : exactly x a -> exactly y b -> (0 < b)%R -> rounds (f32_div x y) (a / b).
Proof.
  rewrite !exactly_b. intros (bx & <- & Fx & <-) (bw & <- & Fy & <-) P. rewrite div_eq.
  assert (Z : B2R bw <> 0%R) by lra.
  pose proof (Bdiv_correct 24 128 _ _ mode_NE bx bw Z) as H. unfold rounds. cbn [round_mode] in H.
  destruct (Rlt_bool_spec (Rabs (rnd (B2R bx / B2R bw))) (bpow radix2 128)) as [L|L].
  - left. split; [exact L|]. apply exactly_b. exists (Bdiv mode_NE bx bw). split; [reflexivity|].
    destruct H as (H1 & H2 & _). rewrite H2, Fx. auto.
  - right. split; [exact L|]. rewrite H. cbn. f_equal.
    assert (Sy : Bsign bw = false).
    { destruct (Bsign bw) eqn:E; [|reflexivity]. apply sign_neg in E; [lra|exact Fy]. }
    rewrite Sy, Bool.xorb_false_r. assert (0 < / B2R bw)%R by (apply Rinv_0_lt_compat; exact P).
    apply sign_by; [exact L| |]; intros E.
    + apply sign_pos in E; [|exact Fx]. unfold Rdiv. nra.
    + apply sign_neg in E; [|exact Fx]. unfold Rdiv. nra.
Qed.

Lemma rounds_add x y a b : exactly x a -> exactly y b -> rounds (f32_add x y) (a + b).
Proof.
  rewrite !exactly_b. intros (bx & <- & Fx & <-) (bw & <- & Fy & <-). rewrite add_eq.
  pose proof (Bplus_correct 24 128 _ _ mode_NE bx bw Fx Fy) as H. unfold rounds. cbn [round_mode] in H.
  destruct (Rlt_bool_spec (Rabs (rnd (B2R bx + B2R bw))) (bpow radix2 128)) as [L|L].
  - left. split; [exact L|]. apply exactly_b. exists (Bplus mode_NE bx bw). split; [reflexivity|].
    destruct H as (H1 & H2 & _). auto.
  - right. split; [exact L|]. destruct H as (-> & S). cbn. f_equal. apply sign_by; [exact L| |]; intros E; rewrite E in S; symmetry in S.
    + apply sign_pos in E, S; try assumption. lra.
    + apply sign_neg in E, S; try assumption. lra.
Qed.

Lemma rounds_sub x y a b : exactly x a -> exactly y b -> rounds (f32_sub x y) (a - b).
Proof.
  rewrite !exactly_b. intros (bx & <- & Fx & <-) (bw & <- & Fy & <-). rewrite sub_eq.
  pose proof (Bminus_correct 24 128 _ _ mode_NE bx bw Fx Fy) as H. unfold rounds. cbn [round_mode] in H.
  destruct (Rlt_bool_spec (Rabs (rnd (B2R bx - B2R bw))) (bpow radix2 128)) as [L|L].
  - left. split; [exact L|]. apply exactly_b. exists (Bminus mode_NE bx bw). split; [reflexivity|].
    destruct H as (H1 & H2 & _). auto.
  - right. split; [exact L|]. destruct H as (-> & S). cbn. f_equal.
    apply sign_by; [exact L| |]; intros E; rewrite E in S; destruct (Bsign bw) eqn:E2; try discriminate.
    + apply sign_pos in E; apply sign_neg in E2; try assumption. lra.
    + apply sign_neg in E; apply sign_pos in E2; try assumption. lra.
Qed.

Lemma rounds_of_Z z : rounds (f32_of_Z z) (IZR z).
Proof.
  unfold f32_of_Z, f32_prec, f32_emax. rewrite normalize_eq.
  pose proof (binary_normalize_correct 24 128 _ _ mode_NE z 0 false) as H. cbn [round_mode] in H.
  assert (E : F2R (Float radix2 z 0) = IZR z) by (unfold F2R; cbn; lra). rewrite E in H. unfold rounds.
  destruct (Rlt_bool_spec (Rabs (rnd (IZR z))) (bpow radix2 128)) as [L|L].
  - left. split; [exact L|]. apply exactly_b. eexists. split; [reflexivity|]. destruct H as (H1 & H2 & _). auto.
  - right. split; [exact L|]. rewrite H. reflexivity.
Qed.

(** ** Exact results *)

Lemma format_scaled z e : Z.abs z <= 2 ^ 24 -> -149 <= e -> generic_format radix2 fexp32 (IZR z * bpow radix2 e).
Proof.
  intros Hz He.
  destruct (Z.eq_dec (Z.abs z) (2 ^ 24)) as [E|E].
  - assert (Hb : generic_format radix2 fexp32 (bpow radix2 (24 + e))) by (apply format_bpow; lia).
    rewrite bpow_plus in Hb. replace (bpow radix2 24) with (IZR (2 ^ 24)) in Hb by (rewrite <- IZR_Zpower by lia; reflexivity).
    destruct (Z.abs_spec z) as [[_ A]|[_ A]]; rewrite A in E.
    + rewrite E. exact Hb.
    + replace z with (- 2 ^ 24) by lia. rewrite opp_IZR, Ropp_mult_distr_l_reverse. apply generic_format_opp. exact Hb.
  - replace (SpecFloat.fexp 24 128) with (FLT_exp (-149) 24) by reflexivity.
    apply generic_format_FLT. exists (Float radix2 z e); [reflexivity| |exact He].
    cbn [Fnum]. change (radix2 ^ 24) with (2 ^ 24). lia.
Qed.

Lemma rnd_scaled z e : Z.abs z <= 2 ^ 24 -> -149 <= e -> rnd (IZR z * bpow radix2 e) = (IZR z * bpow radix2 e)%R.
Proof. intros Hz He. apply round_generic; [typeclasses eauto|]. apply format_scaled; assumption. Qed.

Lemma rnd_Z z : Z.abs z <= 2 ^ 24 -> rnd (IZR z) = IZR z.
Proof. intros H. pose proof (rnd_scaled z 0 H) as E. cbn [bpow] in E. rewrite Rmult_1_r in E. apply E. lia. Qed.

Lemma abs_Z_le z n : Z.abs z <= n -> (Rabs (IZR z) <= IZR n)%R.
Proof. intros H. rewrite <- abs_IZR. apply IZR_le. exact H. Qed.

Lemma pow_le_127 n e : 0 <= e <= 127 -> n <= 2 ^ e -> (IZR n <= bpow radix2 127)%R.
Proof.
  intros He Hn. apply Rle_trans with (bpow radix2 e); [|apply bpow_le; lia].
  rewrite <- IZR_Zpower by lia. apply IZR_le. exact Hn.
Qed.

Lemma of_Z_exact z : Z.abs z <= 2 ^ 24 -> exactly (f32_of_Z z) (IZR z).
Proof.
  intros H. pose proof (rounds_of_Z z) as R. rewrite <- (rnd_Z z H). apply no_overflow; [exact R|].
  apply Rle_trans with (IZR (2 ^ 24)); [apply abs_Z_le; exact H|]. apply (pow_le_127 _ 24); lia.
Qed.

Lemma mul_exact x y a b : exactly x (IZR a) -> exactly y (IZR b) -> Z.abs (a * b) <= 2 ^ 24 ->
  exactly (f32_mul x y) (IZR (a * b)).
Proof.
  intros Hx Hy H. pose proof (rounds_mul x y _ _ Hx Hy) as R. rewrite <- mult_IZR in R.
  rewrite <- (rnd_Z _ H). apply no_overflow; [exact R|].
  apply Rle_trans with (IZR (2 ^ 24)); [apply abs_Z_le; exact H|]. apply (pow_le_127 _ 24); lia.
Qed.

(** ** Nearest values *)

Lemma exactly_nearest x r : exactly x (rnd r) -> nearest x r.
Proof.
  intros (V & F & E). split; [exact V|]. split; [exact F|]. intros y Vy Fy.
  destruct (finite_valid_b y Vy Fy) as (b & <- & Fb). destruct (finite_valid_b x V F) as (a & <- & Fa).
  rewrite !real_B2R in *.
  pose proof (round_NE_pt radix2 fexp32 r) as P. rewrite <- E in P. destruct P as [[_ N] T].
  assert (Gb : generic_format radix2 fexp32 (B2R b)) by apply generic_format_B2R.
  split; [apply N; exact Gb|]. intros Eq Ne.
  destruct T as [T|T].
  - destruct T as (g & Eg & Cg & Ev). destruct a as [s|s| |s m e B]; try discriminate; [exact I|].
    cbn [even_mantissa B2SF].
    assert (C' : canonical radix2 fexp32 (Float radix2 (cond_Zopp s (Zpos m)) e)).
    { apply canonical_bounded. exact B. }
    assert (Eqg : Float radix2 (cond_Zopp s (Zpos m)) e = g).
    { apply (canonical_unique radix2 fexp32); [exact C'|exact Cg|]. rewrite <- Eg. reflexivity. }
    rewrite <- Eqg in Ev. cbn [Fnum] in Ev. destruct s; exact Ev.
  - exfalso. apply Ne. apply T. split; [exact Gb|]. intros g Gg. rewrite <- Eq. apply N. exact Gg.
Qed.

(** ** Errors *)

Lemma bpow_m24 : (bpow radix2 (-23) = / 8388608)%R.
Proof. cbn. reflexivity. Qed.

Lemma rnd_rel r : (r = 0 \/ bpow radix2 (-126) <= Rabs r)%R ->
  exists eps, (Rabs eps <= / 16777217)%R /\ rnd r = (r * (1 + eps))%R.
Proof.
  intros [->|H].
  - exists 0%R. rewrite Rabs_R0, rnd_0. split; [lra|ring].
  - destruct (relative_error_N_FLX'_ex radix2 24 eq_refl (fun t => negb (Z.even t)) r) as (eps & B & E).
    exists eps. split.
    + apply Rle_trans with (1 := B). unfold u_ro. change (Z.opp 24 + 1) with (-23). rewrite bpow_m24. apply Req_le. field.
    + rewrite <- E. change fexp32 with (FLT_exp (-149) 24). apply (round_FLT_FLX radix2 (-149) 24). exact H.
Qed.

Lemma rnd_abs r : (Rabs (rnd r - r) <= Rabs r * / 16777216 + bpow radix2 (-150))%R.
Proof.
  destruct (error_N_FLT radix2 (-149) 24 eq_refl (fun t => negb (Z.even t)) r) as (eps & eta & B1 & B2 & _ & E).
  change (Rabs (rnd r - r) <= Rabs r * / 16777216 + bpow radix2 (-150))%R with
    (Rabs (Generic_fmt.round radix2 (FLT_exp (-149) 24) ZnearestE r - r) <= Rabs r * / 16777216 + bpow radix2 (-150))%R.
  rewrite E. change (Z.opp 24 + 1) with (-23) in B1. rewrite bpow_m24 in B1.
  replace (r * (1 + eps) + eta - r)%R with (r * eps + eta)%R by ring.
  apply Rle_trans with (1 := Rabs_triang _ _). apply Rplus_le_compat.
  - rewrite Rabs_mult. apply Rmult_le_compat_l; [apply Rabs_pos|lra].
  - apply Rle_trans with (1 := B2). apply Req_le.
    replace (bpow radix2 (-149)) with (2 * bpow radix2 (-150))%R; [field|].
    change (-149) with (1 + -150)%Z. rewrite bpow_plus. reflexivity.
Qed.

Lemma bpow_m150 : (0 < bpow radix2 (-150) < / 1000000000000)%R.
Proof.
  split; [apply bpow_gt_0|]. apply Rlt_trans with (bpow radix2 (-40)); [apply bpow_lt; lia|].
  replace (bpow radix2 (-40)) with (/ 1099511627776)%R by reflexivity. apply Rinv_lt_contravar; lra.
Qed.
