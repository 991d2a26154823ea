(** Proofs about the codes of format S7 that move (C20). *)
From Coq Require Import ZArith Reals List Bool Lia Lra Psatz SpecFloat.
From Flocq Require Import Core BinarySingleNaN.
From Verif Require Import Base Facts F32 Types Lib Util Digital Analog Fcnt Fbc SpecCodec SpecCoupler SpecAnalog SpecCreep ProofsModule ProofsFloat ProofsAnalog
  ProofsReadback.
Import ListNotations.
Local Open Scope Z_scope.

(** The exact result of rounding a number whose binary order is known. *)
Lemma rnd_grid x e : -100 <= e -> (bpow radix2 (e - 1) <= x < bpow radix2 e)%R ->
  rnd x = (IZR (ZnearestE (x * bpow radix2 (24 - e))) * bpow radix2 (e - 24))%R.
Proof.
  intros He Hx. assert (M : mag radix2 x = e :> Z).
  { apply mag_unique. rewrite Rabs_pos_eq; [exact Hx|]. pose proof (bpow_gt_0 radix2 (e - 1)). lra. }
  assert (C : cexp radix2 fexp32 x = e - 24).
  { unfold cexp. rewrite M. unfold SpecFloat.fexp, SpecFloat.emin. lia. }
  unfold Generic_fmt.round, scaled_mantissa, F2R. rewrite C. cbn [Fnum Fexp]. replace (- (e - 24)) with (24 - e) by lia. reflexivity.
Qed.

Lemma bpow_Z e : 0 <= e -> bpow radix2 e = IZR (2 ^ e).
Proof. intros H. rewrite <- IZR_Zpower by lia. reflexivity. Qed.
Lemma bpow_scale j : 0 <= j -> (bpow radix2 j * bpow radix2 (- j) = 1)%R.
Proof. intros H. rewrite <- bpow_plus. replace (j + - j) with 0 by lia. reflexivity. Qed.

(** The three roundings. *)
Definition creep (n c : Z) : R := rnd (rnd (27648 * rnd (IZR n * IZR c / 27648)) / IZR n).

Lemma creep_opp n c : creep n (- c) = (- creep n c)%R.
Proof.
  unfold creep. rewrite opp_IZR.
  replace (IZR n * - IZR c / 27648)%R with (- (IZR n * IZR c / 27648))%R by field. rewrite round_NE_opp.
  replace (27648 * - rnd (IZR n * IZR c / 27648))%R with (- (27648 * rnd (IZR n * IZR c / 27648)))%R by ring. rewrite round_NE_opp.
  set (y := rnd (27648 * _)). replace (- y / IZR n)%R with (- (y / IZR n))%R by (unfold Rdiv; ring). apply round_NE_opp.
Qed.

Lemma trip_creep n c : 4 <= n <= 20 -> -32768 <= c <= 32767 -> trip 0 n S7 c = clamp_i16 (Ztrunc (creep n c)).
Proof.
  intros Hn Hc. unfold trip, encoded, decode. cbn [Z.eqb].
  assert (En : exactly (f32_of_Z n) (IZR n)) by (apply of_Z_exact; lia). assert (Pn : (4 <= IZR n <= 20)%R) by (split; apply IZR_le; lia).
  assert (Bc : (-32768 <= IZR c <= 32767)%R) by (split; apply IZR_le; lia).
  assert (D : exactly (f32_div (f32_mul (f32_of_Z c) (f32_of_Z n)) (factor S7)) (rnd (IZR n * IZR c / 27648)))
    by (apply (decode_zero _ _ S7); lia).
  assert (B1 : (Rabs (IZR n * IZR c / 27648) <= bpow radix2 5)%R).
  { change (bpow radix2 5) with 32%R. apply Rabs_le. split; nra. }
  apply (rnd_bound _ 5 ltac:(lia)) in B1.
  assert (B2 : (Rabs (27648 * rnd (IZR n * IZR c / 27648)) <= bpow radix2 20)%R).
  { rewrite Rabs_mult, (Rabs_pos_eq 27648) by lra. change (bpow radix2 5) with 32%R in B1. change (bpow radix2 20) with 1048576%R. lra. }
  assert (M : exactly (f32_mul (factor S7) (f32_div (f32_mul (f32_of_Z c) (f32_of_Z n)) (factor S7)))
                (rnd (27648 * rnd (IZR n * IZR c / 27648)))).
  { apply no_overflow; [apply rounds_mul; [exact (factor_exact S7)|exact D]|].
    eapply Rle_trans; [exact B2|]. apply bpow_le. lia. }
  apply (rnd_bound _ 20 ltac:(lia)) in B2.
  assert (B3 : (Rabs (rnd (27648 * rnd (IZR n * IZR c / 27648)) / IZR n) <= bpow radix2 20)%R).
  { unfold Rdiv. rewrite Rabs_mult, (Rabs_pos_eq (/ IZR n)) by (left; apply Rinv_0_lt_compat; lra).
    assert (/ IZR n <= 1)%R by (rewrite <- Rinv_1; apply Rinv_le; lra).
    assert (0 < / IZR n)%R by (apply Rinv_0_lt_compat; lra).
    pose proof (Rabs_pos (rnd (27648 * rnd (IZR n * IZR c * / 27648)))). unfold Rdiv in B2. nra. }
  rewrite (as_i16_exact _ (creep n c)); [reflexivity|].
  apply no_overflow; [apply rounds_div; [exact M|exact En|lra]|]. eapply Rle_trans; [exact B3|]. apply bpow_le. lia.
Qed.

Lemma window_exists B P k : 0 < B -> P < 2 * B -> B <= P * 2 ^ Z.of_nat k ->
  exists j, 0 <= j <= Z.of_nat k /\ B <= P * 2 ^ j < 2 * B.
Proof.
  intros HB HP. induction k as [|k IH]; intros H.
  - exists 0. cbn [Z.of_nat] in *. rewrite Z.pow_0_r in *. lia.
  - destruct (Z.le_gt_cases B (P * 2 ^ Z.of_nat k)) as [L|L].
    + destruct (IH L) as (j & Hj & E). exists j. lia.
    + exists (Z.of_nat (S k)). split; [lia|]. split; [exact H|]. rewrite Nat2Z.inj_succ, Z.pow_succ_r in * by lia. lia.
Qed.

Lemma near_below K : Z.even K = true -> ZnearestE (IZR K - / 2) = K.
Proof.
  intros HK. unfold Znearest. assert (F : Zfloor (IZR K - / 2) = K - 1).
  { apply Zfloor_imp. rewrite plus_IZR, minus_IZR. lra. }
  rewrite F, minus_IZR. replace (IZR K - / 2 - (IZR K - 1))%R with (/ 2)%R by lra. rewrite Rcompare_Eq by reflexivity.
  replace (Z.even (K - 1)) with false by (rewrite Z.even_sub, HK; reflexivity). cbn [negb].
  apply Zceil_imp. rewrite minus_IZR. lra.
Qed.
Lemma near_above K : Z.even K = true -> ZnearestE (IZR K + / 2) = K.
Proof.
  intros HK. unfold Znearest. assert (F : Zfloor (IZR K + / 2) = K).
  { apply Zfloor_imp. rewrite plus_IZR. lra. }
  rewrite F. replace (IZR K + / 2 - IZR K)%R with (/ 2)%R by lra. rewrite Rcompare_Eq by reflexivity.
  rewrite HK. reflexivity.
Qed.

(** A number divided by 27 and rounded to an integer. *)
Lemma near_27 N : let m := ZnearestE (IZR N / 27) in -13 <= N - 27 * m <= 13.
Proof.
  intros m. pose proof (Znearest_half (fun x => negb (Z.even x)) (IZR N / 27)) as H. fold m in H. apply Rabs_le_inv in H.
  assert (A : (IZR (N - 27 * m) < 14)%R) by (rewrite minus_IZR, mult_IZR; lra).
  assert (B : (-14 < IZR (N - 27 * m))%R) by (rewrite minus_IZR, mult_IZR; lra).
  apply lt_IZR in A. apply lt_IZR in B. lia.
Qed.

Section Code.
Variables n c : Z.
Hypothesis Hn : n = 5 \/ n = 10 \/ n = 20.
Hypothesis Hc : 1 <= c <= 32768.

(** The product after the second rounding. *)
Lemma second_rounding : exists j, 9 <= j <= 26 /\ 27 * 2 ^ 23 <= c * n * 2 ^ j < 27 * 2 ^ 24 /\
  exists s, rnd (27648 * rnd (IZR n * IZR c / 27648)) = (IZR (c * n) + IZR s * bpow radix2 (4 - j))%R /\
    ((c * n * 2 ^ j < 2 ^ 28 /\ 9 <= (c * n * 2 ^ j) mod 27 <= 13 /\ s = -1) \/
     (~ (c * n * 2 ^ j < 2 ^ 28 /\ 9 <= (c * n * 2 ^ j) mod 27 <= 13) /\ 0 <= s)).
Proof.
  set (P := c * n). assert (HP : 5 <= P <= 655360) by (subst P; destruct Hn as [E|[E|E]]; rewrite E; lia).
  assert (P5 : exists p, P = 5 * p).
  { subst P. destruct Hn as [E|[E|E]]; rewrite E; [exists c|exists (c * 2)|exists (c * 4)]; ring. }
  destruct (window_exists (27 * 2 ^ 23) P 26) as (j & Hj & W); [lia|lia|change (2 ^ Z.of_nat 26) with 67108864; lia|].
  change (2 * (27 * 2 ^ 23)) with (27 * 2 ^ 24) in W.
  assert (J9 : 9 <= j).
  { destruct (Z.le_gt_cases 9 j) as [L|L]; [exact L|]. exfalso.
    assert (2 ^ j <= 2 ^ 8) by (apply Z.pow_le_mono_r; lia). change (2 ^ 8) with 256 in *. nia. }
  change (Z.of_nat 26) with 26 in Hj. exists j. split; [lia|]. split; [exact W|].
  assert (Pj : 2 ^ j = 512 * 2 ^ (j - 9)) by (replace j with (9 + (j - 9)) at 1 by lia; rewrite Z.pow_add_r by lia; reflexivity).
  assert (Pp : 0 < 2 ^ (j - 9)) by (apply Z.pow_pos_nonneg; lia).
  set (N := P * 2 ^ j) in *. assert (N512 : exists h, N = 512 * h) by (exists (P * 2 ^ (j - 9)); subst N; rewrite Pj; ring).
  assert (N28 : N <> 2 ^ 28).
  { destruct P5 as (p & E). intros X. subst N. rewrite E in X.
    assert (D : (2 ^ 28) mod 5 = 0) by (rewrite <- X; rewrite <- Z.mul_assoc, Z.mul_comm; apply Z.mod_mul; lia). discriminate D. }
  assert (NR : (IZR N = IZR P * bpow radix2 j)%R) by (subst N; rewrite mult_IZR, bpow_Z by lia; reflexivity).
  pose proof (bpow_gt_0 radix2 j) as Bj. pose proof (bpow_gt_0 radix2 (- j)) as Bmj. pose proof (bpow_scale j ltac:(lia)) as Bs.
  assert (W' : (27 * bpow radix2 23 <= IZR N < 27 * bpow radix2 24)%R).
  { rewrite !bpow_Z by lia. rewrite <- !mult_IZR. split; [apply IZR_le|apply IZR_lt]; lia. }
  set (m := ZnearestE (IZR N / 27)).
  assert (D := near_27 N). cbn zeta in D. fold m in D.
  assert (Q : rnd (IZR n * IZR c / 27648) = (IZR m * bpow radix2 (-10 - j))%R).
  { assert (E : (IZR n * IZR c / 27648 = IZR N / 27 * bpow radix2 (-10 - j))%R).
    { rewrite NR. subst P. rewrite mult_IZR. unfold Z.sub. rewrite bpow_plus. change (bpow radix2 (-10)) with (/ 1024)%R.
      transitivity (IZR c * IZR n / 27648 * (bpow radix2 j * bpow radix2 (- j)))%R; [rewrite Bs; field|field]. }
    rewrite E, (rnd_grid _ (14 - j)); [| lia |].
    - rewrite Rmult_assoc, <- bpow_plus. replace (-10 - j + (24 - (14 - j))) with 0 by lia. cbn [bpow]. rewrite Rmult_1_r. fold m.
      f_equal. f_equal. lia.
    - replace (14 - j - 1) with (23 + (-10 - j)) by lia. replace (14 - j) with (24 + (-10 - j)) by lia. rewrite !bpow_plus.
      pose proof (bpow_gt_0 radix2 (-10 - j)) as B. split; [apply Rmult_le_compat_r; lra|apply Rmult_lt_compat_r; lra]. }
  assert (Y : (27648 * rnd (IZR n * IZR c / 27648) = IZR (27 * m) * bpow radix2 (- j))%R).
  { rewrite Q, mult_IZR. unfold Z.sub. rewrite bpow_plus. change (bpow radix2 (-10)) with (/ 1024)%R. field. }
  rewrite Y. clear Q Y.
  assert (PN : (IZR P = IZR N * bpow radix2 (- j))%R) by (rewrite NR, Rmult_assoc, Bs; ring).
  assert (Dm : N mod 27 = if 0 <=? N - 27 * m then N - 27 * m else N - 27 * m + 27).
  { destruct (Z.leb_spec 0 (N - 27 * m)) as [L|L]; symmetry.
    - apply (Z.mod_unique N 27 m); lia.
    - apply (Z.mod_unique N 27 (m - 1)); lia. }
  destruct N512 as (h & Eh).
  destruct (Z.le_gt_cases (2 ^ 28) N) as [G|G].
  - (* above 2^28: a distance of at most 13 is less than half of 32 *)
    assert (M28 : 2 ^ 28 <= 27 * m < 2 ^ 29).
    { clearbody N m. change (2 ^ 28) with (512 * 2 ^ 19) in *. change (2 ^ 29) with (512 * 2 ^ 20). change (27 * 2 ^ 24) with (512 * 884736) in W.
      assert (2 ^ 19 < h < 884736) by lia. change (2 ^ 19) with 524288 in *. change (2 ^ 20) with 1048576. lia. }
    exists 0. split.
    + rewrite (rnd_grid _ (29 - j)); [| lia |].
      * rewrite Rmult_assoc, <- bpow_plus. replace (- j + (24 - (29 - j))) with (-5) by lia. change (bpow radix2 (-5)) with (/ 32)%R.
        rewrite (Znearest_imp _ _ (16 * h)).
        -- rewrite PN, Eh. replace (29 - j - 24) with (5 + - j) by lia. rewrite bpow_plus. change (bpow radix2 5) with 32%R.
           rewrite !mult_IZR. ring.
        -- assert (A : (-13 <= IZR N - IZR (27 * m) <= 13)%R) by (rewrite <- minus_IZR; split; apply IZR_le; lia).
           rewrite Eh in A. rewrite (mult_IZR 512 h) in A. rewrite (mult_IZR 16 h). apply Rabs_lt. split; lra.
      * replace (29 - j - 1) with (28 + - j) by lia. replace (29 - j) with (29 + - j) by lia. rewrite !bpow_plus, !bpow_Z by lia.
        split; [apply Rmult_le_compat_r; [lra|apply IZR_le; lia]|apply Rmult_lt_compat_r; [lra|apply IZR_lt; change (27 * m < 2 ^ 29); lia]].
    + right. lia.
  - assert (L28 : 27 * 2 ^ 23 <= 27 * m < 2 ^ 28).
    { clearbody N m. change (2 ^ 28) with (512 * 2 ^ 19) in *. assert (h < 2 ^ 19) by lia. lia. }
    rewrite (rnd_grid _ (28 - j)); [| lia |].
    2:{ replace (28 - j - 1) with (27 + - j) by lia. replace (28 - j) with (28 + - j) by lia. rewrite !bpow_plus, !bpow_Z by lia.
        split; [apply Rmult_le_compat_r; [lra|apply IZR_le; lia]|apply Rmult_lt_compat_r; [lra|apply IZR_lt; change (27 * m < 2 ^ 28); lia]]. }
    rewrite Rmult_assoc, <- bpow_plus. replace (- j + (24 - (28 - j))) with (-4) by lia. change (bpow radix2 (-4)) with (/ 16)%R.
    replace (28 - j - 24) with (4 - j) by lia.
    assert (PK : (IZR P = IZR (32 * h) * bpow radix2 (4 - j))%R).
    { rewrite PN, Eh. unfold Z.sub. rewrite bpow_plus. change (bpow radix2 4) with 16%R. rewrite !mult_IZR. ring. }
    assert (MK : (IZR (27 * m) * / 16 = IZR (32 * h) - IZR (N - 27 * m) / 16)%R).
    { rewrite Eh, minus_IZR, !mult_IZR. field. }
    rewrite MK, PK.
    assert (X : forall s, ZnearestE (IZR (32 * h) - IZR (N - 27 * m) / 16) = 32 * h + s ->
      (IZR (ZnearestE (IZR (32 * h) - IZR (N - 27 * m) / 16)) * bpow radix2 (4 - j) =
       IZR (32 * h) * bpow radix2 (4 - j) + IZR s * bpow radix2 (4 - j))%R).
    { intros s Es. rewrite Es, plus_IZR. ring. }
    assert (Ev : Z.even (32 * h) = true) by (rewrite Z.even_mul; reflexivity).
    assert (Near : forall a b s, N - 27 * m = b -> a = IZR b -> (-8 < a + 16 * IZR s < 8)%R ->
      ZnearestE (IZR (32 * h) - IZR (N - 27 * m) / 16) = 32 * h + s).
    { intros a b s Eb -> Ha. rewrite Eb. apply Znearest_imp. rewrite plus_IZR. apply Rabs_lt. split; lra. }
    destruct (Z.le_gt_cases 9 (N - 27 * m)) as [A|A].
    + exists (-1). split; [apply X|left; destruct (Z.leb_spec 0 (N - 27 * m)); lia].
      apply (Near _ (N - 27 * m) _ eq_refl eq_refl).
      assert (9 <= IZR (N - 27 * m) <= 13)%R by (split; apply IZR_le; lia). lra.
    + assert (NL : ~ (N < 2 ^ 28 /\ 9 <= N mod 27 <= 13)) by (destruct (Z.leb_spec 0 (N - 27 * m)); lia).
      destruct (Z.le_gt_cases (N - 27 * m) (-9)) as [B|B].
      * exists 1. split; [apply X|right; split; [exact NL|lia]]. apply (Near _ (N - 27 * m) _ eq_refl eq_refl).
        assert (-13 <= IZR (N - 27 * m) <= -9)%R by (split; apply IZR_le; lia). lra.
      * exists 0. split; [apply X|right; split; [exact NL|lia]]. rewrite Z.add_0_r.
        destruct (Z.eq_dec (N - 27 * m) 8) as [E8|E8]; [|destruct (Z.eq_dec (N - 27 * m) (-8)) as [E9|E9]].
        -- rewrite E8. replace (8 / 16)%R with (/ 2)%R by lra. apply near_below. exact Ev.
        -- rewrite E9. replace (IZR (32 * h) - -8 / 16)%R with (IZR (32 * h) + / 2)%R by lra. apply near_above. exact Ev.
        -- rewrite <- (Z.add_0_r (32 * h)) at 2. apply (Near _ (N - 27 * m) _ eq_refl eq_refl).
           assert (-7 <= IZR (N - 27 * m) <= 7)%R by (split; apply IZR_le; lia). lra.
Qed.

Lemma same_window j j' : 0 <= j -> 0 <= j' -> 27 * 2 ^ 23 <= c * n * 2 ^ j < 27 * 2 ^ 24 ->
  27 * 2 ^ 23 <= c * n * 2 ^ j' < 27 * 2 ^ 24 -> j = j'.
Proof.
  intros Hj Hj' W W'. destruct (Z.lt_trichotomy j j') as [L|[E|L]]; [|exact E|]; exfalso.
  - assert (2 * 2 ^ j <= 2 ^ j') by (rewrite <- Z.pow_succ_r by lia; apply Z.pow_le_mono_r; lia). nia.
  - assert (2 * 2 ^ j' <= 2 ^ j) by (rewrite <- Z.pow_succ_r by lia; apply Z.pow_le_mono_r; lia). nia.
Qed.

Lemma creep_cases : (loses n c /\ (creep n c < IZR c)%R) \/ (~ loses n c /\ (IZR c <= creep n c)%R).
Proof.
  destruct second_rounding as (j & Hj & W & s & Y & H). unfold creep. rewrite Y.
  assert (Pn : (5 <= IZR n <= 20)%R) by (destruct Hn as [E|[E|E]]; rewrite E; lra).
  assert (Pc : (1 <= IZR c)%R) by (apply IZR_le; lia). pose proof (bpow_gt_0 radix2 (4 - j)) as B.
  destruct H as [(L & M & ->)|(NL & Hs)].
  - left. split; [exists j; lia|].
    set (x := ((IZR (c * n) + -1 * bpow radix2 (4 - j)) / IZR n)%R).
    assert (Ex : (x = IZR c - bpow radix2 (4 - j) / IZR n)%R) by (subst x; rewrite mult_IZR; field; lra).
    assert (B1 : (bpow radix2 (4 - j) <= / 32)%R) by (change (/ 32)%R with (bpow radix2 (-5)); apply bpow_le; lia).
    assert (In : (0 < / IZR n <= 1)%R).
    { split; [apply Rinv_0_lt_compat; lra|]. rewrite <- Rinv_1. apply Rinv_le; lra. }
    assert (X0 : (/ 2 <= x < IZR c)%R) by (rewrite Ex; unfold Rdiv; split; nra).
    destruct (rnd_rel x) as (eps & He & E).
    { right. rewrite Rabs_pos_eq by lra. apply Rle_trans with (bpow radix2 (-1)); [apply bpow_le; lia|]. change (bpow radix2 (-1)) with (/ 2)%R. lra. }
    apply Rabs_le_inv in He.
    assert (Key : (IZR c * / 16777216 < bpow radix2 (4 - j) / IZR n)%R).
    { apply Rmult_lt_reg_r with (IZR n); [lra|]. replace (bpow radix2 (4 - j) / IZR n * IZR n)%R with (bpow radix2 (4 - j)) by (field; lra).
      assert (L' : (IZR (c * n) * bpow radix2 j < bpow radix2 28)%R).
      { rewrite (bpow_Z j), (bpow_Z 28), <- mult_IZR by lia. apply IZR_lt. exact L. }
      pose proof (bpow_gt_0 radix2 j) as Bj.
      apply Rmult_lt_reg_r with (bpow radix2 j); [exact Bj|]. rewrite <- bpow_plus. replace (4 - j + j) with 4 by lia.
      change (bpow radix2 28) with 268435456%R in L'. change (bpow radix2 4) with 16%R. rewrite mult_IZR in L'. lra. }
    change (IZR (-1)) with (-1)%R. fold x. rewrite E. nra.
  - right. split.
    + intros (j' & Hj' & W' & M). assert (j' = j) by (apply same_window; lia). subst j'. lia.
    + rewrite <- (rnd_Z c) at 1 by lia. apply round_le; [typeclasses eauto..|]. rewrite mult_IZR.
      replace ((IZR c * IZR n + IZR s * bpow radix2 (4 - j)) / IZR n)%R with (IZR c + IZR s * bpow radix2 (4 - j) * / IZR n)%R by (field; lra).
      assert (0 <= IZR s)%R by (apply IZR_le; exact Hs). assert (0 < / IZR n)%R by (apply Rinv_0_lt_compat; lra).
      assert (0 <= IZR s * bpow radix2 (4 - j))%R by nra. nra.
Qed.
End Code.

Lemma Ztrunc_lt x c : 1 <= c -> (x < IZR c)%R -> Ztrunc x <= c - 1.
Proof.
  intros Hc Hx. destruct (Rle_lt_dec 0 x) as [L|L].
  - rewrite Ztrunc_floor by exact L. pose proof (Zfloor_lb x) as F. apply Z.lt_le_pred. apply lt_IZR. lra.
  - rewrite Ztrunc_ceil by lra. apply Z.le_trans with 0; [|lia]. apply Zceil_glb. lra.
Qed.
Lemma Ztrunc_ge x c : (IZR c <= x)%R -> c <= Ztrunc x.
Proof. intros Hx. rewrite <- (Ztrunc_IZR c). apply Ztrunc_le. exact Hx. Qed.

Lemma from_zero_span r n : from_zero r = Some n -> base_span r = Some (0, n) /\ (n = 5 \/ n = 10 \/ n = 20).
Proof. destruct r; intros H; try discriminate H; apply Some_inj in H; subst n; (split; [reflexivity|lia]). Qed.

Lemma trip_exactly r n c : from_zero r = Some n -> -32768 <= c <= 32767 ->
  (loses n (Z.abs c) /\ trip 0 n S7 c = one_less c) \/ (~ loses n (Z.abs c) /\ trip 0 n S7 c = c).
Proof.
  intros Hr Hc. destruct (from_zero_span _ _ Hr) as [Hs Hn]. destruct (trip_step r 0 n S7 c Hs Hc) as [Sp Sn].
  destruct (Z.lt_trichotomy c 0) as [L|[->|L]].
  - rewrite Z.abs_neq by lia.
    assert (T : trip 0 n S7 c = clamp_i16 (- Ztrunc (creep n (- c)))).
    { rewrite trip_creep by lia. rewrite <- Ztrunc_opp, <- creep_opp, Z.opp_involutive. reflexivity. }
    unfold one_less. rewrite Z.sgn_neg by lia. specialize (Sn ltac:(lia)).
    destruct (creep_cases n (- c) Hn ltac:(lia)) as [[A B]|[A B]]; [left|right]; (split; [exact A|]).
    + apply Ztrunc_lt in B; [|lia]. rewrite T in *. unfold clamp_i16 in *. lia.
    + apply Ztrunc_ge in B. rewrite T in *. unfold clamp_i16 in *. lia.
  - right. split; [|lia]. intros (j & _ & W & _). cbn [Z.abs] in W. lia.
  - rewrite Z.abs_eq by lia. assert (T : trip 0 n S7 c = clamp_i16 (Ztrunc (creep n c))) by (apply trip_creep; lia).
    unfold one_less. rewrite Z.sgn_pos by lia. specialize (Sp ltac:(lia)).
    destruct (creep_cases n c Hn ltac:(lia)) as [[A B]|[A B]]; [left|right]; (split; [exact A|]).
    + apply Ztrunc_lt in B; [|lia]. rewrite T in *. unfold clamp_i16 in *. lia.
    + apply Ztrunc_ge in B. rewrite T in *. unfold clamp_i16 in *. lia.
Qed.

(** ** At most five in a row *)

Lemma one_keeps n : n = 5 \/ n = 10 \/ n = 20 -> ~ loses n 1.
Proof.
  intros Hn (j & Hj & W & _).
  assert (X : exists k, 0 <= k /\ 27 * 2 ^ 23 <= 5 * 2 ^ k < 2 ^ 28).
  { destruct Hn as [->|[->| ->]]; [exists j|exists (j + 1)|exists (j + 2)]; rewrite ?Z.pow_add_r by lia; lia. }
  destruct X as (k & Hk & X). destruct (Z.le_gt_cases k 25) as [L|L].
  - assert (2 ^ k <= 2 ^ 25) by (apply Z.pow_le_mono_r; lia). lia.
  - assert (2 ^ 26 <= 2 ^ k) by (apply Z.pow_le_mono_r; lia). lia.
Qed.

Lemma not_27 n j : n = 5 \/ n = 10 \/ n = 20 -> 0 <= j -> (n * 2 ^ j) mod 27 <> 0.
Proof.
  intros Hn Hj E. apply Z.mod_divide in E; [|lia].
  assert (R : Znumtheory.rel_prime 27 (2 ^ j)).
  { apply Zpow_facts.rel_prime_Zpower_r; [exact Hj|]. apply Znumtheory.Zgcd_1_rel_prime. reflexivity. }
  rewrite Z.mul_comm in E. apply Znumtheory.Gauss in E; [|exact R]. destruct E as (q & E). lia.
Qed.

(** Two neighbouring codes that lose are scaled by the same power of two. *)
Lemma neighbours n x j : n = 5 \/ n = 10 \/ n = 20 -> 3 <= x -> 0 <= j ->
  27 * 2 ^ 23 <= x * n * 2 ^ j < 2 ^ 28 -> loses n (x - 1) ->
  27 * 2 ^ 23 <= (x - 1) * n * 2 ^ j < 2 ^ 28 /\ 9 <= ((x - 1) * n * 2 ^ j) mod 27 <= 13.
Proof.
  intros Hn Hx Hj W (j' & Hj' & W' & M). assert (Pn : 0 < n) by lia.
  assert (E : j' = j); [|subst j'; split; assumption].
  destruct (Z.lt_trichotomy j j') as [L|[E|L]]; [|symmetry; exact E|]; exfalso.
  - assert (A : 2 * 2 ^ j <= 2 ^ j') by (rewrite <- Z.pow_succ_r by lia; apply Z.pow_le_mono_r; lia).
    assert (B : (x - 1) * n * (2 * 2 ^ j) <= (x - 1) * n * 2 ^ j') by (apply Z.mul_le_mono_nonneg_l; nia).
    assert (C : 4 * (x * n * 2 ^ j) <= 3 * ((x - 1) * n * (2 * 2 ^ j))).
    { assert (D : 0 < n * 2 ^ j) by (apply Z.mul_pos_pos; [lia|apply Z.pow_pos_nonneg; lia]).
      replace (x * n * 2 ^ j) with (x * (n * 2 ^ j)) by ring.
      replace ((x - 1) * n * (2 * 2 ^ j)) with (2 * (x - 1) * (n * 2 ^ j)) by ring. nia. }
    lia.
  - assert (A : 2 * 2 ^ j' <= 2 ^ j) by (rewrite <- Z.pow_succ_r by lia; apply Z.pow_le_mono_r; lia).
    assert (B : x * n * (2 * 2 ^ j') <= x * n * 2 ^ j) by (apply Z.mul_le_mono_nonneg_l; nia).
    assert (0 < 2 ^ j') by (apply Z.pow_pos_nonneg; lia). nia.
Qed.

Lemma six_in_a_row n c : n = 5 \/ n = 10 \/ n = 20 -> 6 <= c -> loses n c -> loses n (c - 1) -> loses n (c - 2) -> loses n (c - 3) ->
  loses n (c - 4) -> loses n (c - 5) -> False.
Proof.
  intros Hn Hc (j & Hj & W0 & M0) L1 L2 L3 L4 L5.
  assert (C7 : 7 <= c).
  { destruct (Z.eq_dec c 6) as [->|N]; [|lia]. exfalso. apply (one_keeps n Hn). exact L5. }
  replace (c - 2) with (c - 1 - 1) in L2 by lia. replace (c - 3) with (c - 1 - 1 - 1) in L3 by lia.
  replace (c - 4) with (c - 1 - 1 - 1 - 1) in L4 by lia. replace (c - 5) with (c - 1 - 1 - 1 - 1 - 1) in L5 by lia.
  destruct (neighbours n c j Hn ltac:(lia) Hj W0 L1) as [W1 M1]. destruct (neighbours n (c - 1) j Hn ltac:(lia) Hj W1 L2) as [W2 M2].
  destruct (neighbours n (c - 1 - 1) j Hn ltac:(lia) Hj W2 L3) as [W3 M3]. destruct (neighbours n (c - 1 - 1 - 1) j Hn ltac:(lia) Hj W3 L4) as [W4 M4].
  destruct (neighbours n (c - 1 - 1 - 1 - 1) j Hn ltac:(lia) Hj W4 L5) as [W5 M5]. pose proof (not_27 n j Hn Hj) as A.
  clear W0 W1 W2 W3 W4 W5 L1 L2 L3 L4 L5.
  set (a := n * 2 ^ j) in *. assert (E : forall x, x * n * 2 ^ j = x * a) by (intros x; subst a; ring). rewrite !E in *. clearbody a.
  pose proof (Z.div_mod a 27 ltac:(lia)) as Da. pose proof (Z.mod_pos_bound a 27 ltac:(lia)) as Ba.
  assert (S : forall x, 9 <= (x * a) mod 27 <= 13 -> 9 <= ((x - 1) * a) mod 27 <= 13 ->
    (1 <= a mod 27 <= 4 /\ ((x - 1) * a) mod 27 = (x * a) mod 27 - a mod 27) \/
    (23 <= a mod 27 /\ ((x - 1) * a) mod 27 = (x * a) mod 27 - a mod 27 + 27)).
  { intros x. replace ((x - 1) * a) with (x * a - a) by ring. rewrite Zminus_mod. intros X Y.
    pose proof (Z.div_mod ((x * a) mod 27 - a mod 27) 27 ltac:(lia)) as D1.
    clear - X Y D1 A Ba. set (u := (x * a) mod 27) in *. set (v := a mod 27) in *. set (q := (u - v) / 27) in *. set (w := (u - v) mod 27) in *.
    clearbody u v q w. assert (q = 0 \/ q = -1) as [->| ->] by lia; lia. }
  pose proof (S _ M0 M1) as S1. pose proof (S _ M1 M2) as S2. pose proof (S _ M2 M3) as S3. pose proof (S _ M3 M4) as S4.
  pose proof (S _ M4 M5) as S5. lia.
Qed.

Lemma trip_five r n c : from_zero r = Some n -> -32768 <= c <= 32767 ->
  trip 0 n S7 (repeated 5 (trip 0 n S7) c) = repeated 5 (trip 0 n S7) c.
Proof.
  intros Hr Hc. destruct (from_zero_span _ _ Hr) as [Hs Hn]. cbn [repeated]. set (g := trip 0 n S7).
  assert (G : forall x, -32768 <= x <= 32767 -> (loses n (Z.abs x) /\ g x = one_less x) \/ g x = x).
  { intros x Hx. destruct (trip_exactly r n x Hr Hx) as [[A B]|[A B]]; auto. }
  assert (P : forall x, loses n (Z.abs x) -> x <> 0) by (intros x (j & _ & W & _) ->; cbn [Z.abs] in W; lia).
  unfold one_less in G.
  destruct (G c Hc) as [[L0 E0]|E0]; [|rewrite !E0; reflexivity]. rewrite E0. pose proof (P _ L0) as P0.
  destruct (G (c - Z.sgn c)) as [[L1 E1]|E1]; [lia| |rewrite !E1; reflexivity]. rewrite E1. pose proof (P _ L1) as P1.
  replace (Z.sgn (c - Z.sgn c)) with (Z.sgn c) in * by lia.
  destruct (G (c - Z.sgn c - Z.sgn c)) as [[L2 E2]|E2]; [lia| |rewrite !E2; reflexivity]. rewrite E2. pose proof (P _ L2) as P2.
  replace (Z.sgn (c - Z.sgn c - Z.sgn c)) with (Z.sgn c) in * by lia.
  destruct (G (c - Z.sgn c - Z.sgn c - Z.sgn c)) as [[L3 E3]|E3]; [lia| |rewrite !E3; reflexivity]. rewrite E3. pose proof (P _ L3) as P3.
  replace (Z.sgn (c - Z.sgn c - Z.sgn c - Z.sgn c)) with (Z.sgn c) in * by lia.
  destruct (G (c - Z.sgn c - Z.sgn c - Z.sgn c - Z.sgn c)) as [[L4 E4]|E4]; [lia| |rewrite !E4; reflexivity]. rewrite E4. pose proof (P _ L4) as P4.
  replace (Z.sgn (c - Z.sgn c - Z.sgn c - Z.sgn c - Z.sgn c)) with (Z.sgn c) in * by lia.
  destruct (G (c - Z.sgn c - Z.sgn c - Z.sgn c - Z.sgn c - Z.sgn c)) as [[L5 E5]|E5]; [lia| |exact E5]. pose proof (P _ L5) as P5.
  exfalso. apply (six_in_a_row n (Z.abs c) Hn ltac:(lia) L0).
  - replace (Z.abs c - 1) with (Z.abs (c - Z.sgn c)) by lia. exact L1.
  - replace (Z.abs c - 2) with (Z.abs (c - Z.sgn c - Z.sgn c)) by lia. exact L2.
  - replace (Z.abs c - 3) with (Z.abs (c - Z.sgn c - Z.sgn c - Z.sgn c)) by lia. exact L3.
  - replace (Z.abs c - 4) with (Z.abs (c - Z.sgn c - Z.sgn c - Z.sgn c - Z.sgn c)) by lia. exact L4.
  - replace (Z.abs c - 5) with (Z.abs (c - Z.sgn c - Z.sgn c - Z.sgn c - Z.sgn c - Z.sgn c)) by lia. exact L5.
Qed.

(** ** Modules *)

Lemma C20_exactly_all : forall m k r span data data' d d', analog_output m k = Some (r, S7) -> from_zero r = Some span ->
  rewrites m data data' -> nth_error data k = Some d -> nth_error data' k = Some d' -> is_u16 d ->
  is_u16 d' /\
  (loses span (Z.abs (signed d)) -> signed d' = one_less (signed d)) /\
  (~ loses span (Z.abs (signed d)) -> d' = d).
Proof.
  intros m k r n data data' d d' Ha Hr Hw Hd Hd' Hu. destruct (from_zero_span _ _ Hr) as [Hs Hn].
  pose proof (rewrite_channel _ _ _ _ _ _ _ _ Ha Hw Hd Hd') as X. rewrite Hs in X. destruct X as [U' X].
  change (u16_as_i16 d) with (signed d) in X. pose proof (signed_range d Hu) as Hc. change (u16_as_i16 d) with (signed d) in Hc.
  split; [exact U'|]. destruct (trip_exactly r n (signed d) Hr Hc) as [[A B]|[A B]]; split; intros H; try contradiction.
  - congruence.
  - apply signed_inj; [assumption..|congruence].
Qed.
