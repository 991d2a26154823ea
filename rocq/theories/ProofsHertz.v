(** Proofs about the reported frequency (C25). *)
From Coq Require Import ZArith Reals List Bool Lia Lra Psatz SpecFloat.
From Flocq Require Import Core BinarySingleNaN.
From Verif Require Import Base F32 Types Fcnt SpecCodec SpecAnalog ProofsFloat.
Local Open Scope Z_scope.

Definition u : R := (/ 16777217)%R.

(** a rounding of a number that is 0 or not too small *)
Lemma rnd_between v : (0 <= v)%R -> (v = 0 \/ bpow radix2 (-126) <= v)%R -> (v * (1 - u) <= rnd v <= v * (1 + u))%R.
Proof.
  intros P H. destruct (rnd_rel v) as (e & B & ->).
  - destruct H as [H|H]; [auto|right]. rewrite Rabs_pos_eq by lra. exact H.
  - apply Rabs_le_inv in B. fold u in B. nra.
Qed.

Lemma nano_min : (bpow radix2 (-126) <= / 2000000000)%R.
Proof.
  apply Rle_trans with (bpow radix2 (-31)); [apply bpow_le; lia|]. change (bpow radix2 (-31)) with (/ 2147483648)%R. lra.
Qed.

Lemma of_Z_big z : 0 <= z < 2 ^ 64 -> exactly (f32_of_Z z) (rnd (IZR z)).
Proof.
  intros H. apply no_overflow; [apply rounds_of_Z|]. apply Rle_trans with (IZR (2 ^ 64)); [apply abs_Z_le; lia|].
  apply (pow_le_127 _ 64); lia.
Qed.

Lemma Z_min z : 0 <= z -> (IZR z = 0 \/ bpow radix2 (-126) <= IZR z)%R.
Proof.
  intros H. destruct (Z.eq_dec z 0) as [->|N]; [left; reflexivity|right]. assert (1 <= IZR z)%R by (apply IZR_le; lia).
  pose proof nano_min. lra.
Qed.

Lemma u_pos : (0 < u < / 16000000)%R.
Proof. unfold u. lra. Qed.

Lemma u_cubes : (9 / 10 <= (1 - u) * (1 - u) * (1 - u) /\ (1 + u) * (1 + u) * (1 + u) <= 2)%R.
Proof. unfold u. lra. Qed.

(** the two outer inequalities *)
Lemma quotient_bounds c p c' d' q : (0 <= c)%R -> (0 < p)%R ->
  (c * (1 - u) <= c' <= c * (1 + u))%R -> (p * ((1 - u) * (1 - u) * (1 - u)) <= d' <= p * ((1 + u) * (1 + u) * (1 + u)))%R ->
  (c' / d' * (1 - u) <= q <= c' / d' * (1 + u))%R ->
  (Rabs (q - c / p) <= / 2097152 * (c / p))%R.
Proof.
  intros Hc Hp Hc' Hd' Hq. pose proof u_pos as U.
  assert (L3 : (1 - 4 * u <= (1 - u) * (1 - u) * (1 - u))%R) by nra.
  assert (U3 : ((1 + u) * (1 + u) * (1 + u) <= 1 + 4 * u)%R) by nra.
  assert (D : (p * (1 - 4 * u) <= d' <= p * (1 + 4 * u))%R) by nra.
  assert (Dp : (0 < d')%R) by nra.
  set (t := (c / p)%R). assert (Tp : (0 <= t)%R) by (apply Rmult_le_pos; [exact Hc|left; apply Rinv_0_lt_compat; exact Hp]).
  assert (Ec : (c = t * p)%R) by (subst t; field; lra).
  assert (A : (c' / d' <= t * (1 + 6 * u))%R).
  { apply Rmult_le_reg_r with d'; [exact Dp|]. replace (c' / d' * d')%R with c' by (field; lra).
    apply Rle_trans with (t * p * (1 + u))%R; [rewrite <- Ec; lra|].
    apply Rle_trans with (t * (1 + 6 * u) * (p * (1 - 4 * u)))%R; [|apply Rmult_le_compat_l; [nra|lra]].
    replace (t * (1 + 6 * u) * (p * (1 - 4 * u)))%R with (t * p * ((1 + 6 * u) * (1 - 4 * u)))%R by ring.
    apply Rmult_le_compat_l; [nra|nra]. }
  assert (B : (t * (1 - 6 * u) <= c' / d')%R).
  { apply Rmult_le_reg_r with d'; [exact Dp|]. replace (c' / d' * d')%R with c' by (field; lra).
    apply Rle_trans with (t * p * (1 - u))%R; [|rewrite <- Ec; lra].
    apply Rle_trans with (t * (1 - 6 * u) * (p * (1 + 4 * u)))%R; [apply Rmult_le_compat_l; [nra|lra]|].
    replace (t * (1 - 6 * u) * (p * (1 + 4 * u)))%R with (t * p * ((1 - 6 * u) * (1 + 4 * u)))%R by ring.
    apply Rmult_le_compat_l; [nra|nra]. }
  set (s := (c' / d')%R) in *.
  assert (E : (8 * u <= / 2097152)%R) by (unfold u; lra).
  apply Rabs_le. split.
  - apply Rle_trans with (- (8 * u) * t)%R; [nra|]. assert (t * (1 - 6 * u) * (1 - u) <= s * (1 - u))%R by (apply Rmult_le_compat_r; lra). nra.
  - apply Rle_trans with (8 * u * t)%R; [|nra]. assert (s * (1 + u) <= t * (1 + 6 * u) * (1 + u))%R by (apply Rmult_le_compat_r; lra). nra.
Qed.

Lemma C25_accurate i d : fi_duration i = Some d -> is_u32 (fi_count i) -> 0 <= d_secs d < 2 ^ 64 ->
  0 <= d_nanos d < 1000000000 -> 0 < d_secs d + d_nanos d ->
  exists x, hertz i = Some x /\
    within (/ 2097152) x (IZR (fi_count i) / (IZR (d_secs d) + IZR (d_nanos d) / 1000000000)).
Proof.
  intros Hd Hc Hs Hn Hp. unfold hertz. rewrite Hd. eexists. split; [reflexivity|].
  set (c := fi_count i) in *. set (s := d_secs d) in *. set (n := d_nanos d) in *. unfold is_u32 in Hc.
  pose proof u_pos as U. pose proof nano_min as NM.
  assert (Ec := of_Z_big c ltac:(lia)). assert (Es := of_Z_big s Hs). assert (En := of_Z_big n ltac:(lia)).
  assert (E9 : exactly (f32_of_Z NANOS_PER_SEC) 1000000000).
  { pose proof (of_Z_big 1000000000 ltac:(lia)) as E. assert (R : rnd 1000000000 = 1000000000%R); [|rewrite R in E; exact E].
    replace 1000000000%R with (IZR 1953125 * bpow radix2 9)%R by (cbn; lra). apply rnd_scaled; lia. }
  assert (Ic : (0 <= IZR c < 4294967296)%R) by (split; [apply IZR_le|apply IZR_lt]; lia).
  assert (Is : (0 <= IZR s <= IZR (2 ^ 64))%R) by (split; apply IZR_le; lia).
  assert (In : (0 <= IZR n < 1000000000)%R) by (split; [apply IZR_le|apply IZR_lt]; lia).
  pose proof (rnd_between (IZR c) ltac:(lra) (Z_min c ltac:(lia))) as Bc.
  pose proof (rnd_between (IZR s) ltac:(lra) (Z_min s ltac:(lia))) as Bs.
  pose proof (rnd_between (IZR n) ltac:(lra) (Z_min n ltac:(lia))) as Bn.
  set (c' := rnd (IZR c)) in *. set (s' := rnd (IZR s)) in *. set (n' := rnd (IZR n)) in *.
  assert (N1 : (n' = 0 \/ 1 / 2 <= n')%R).
  { destruct (Z.eq_dec n 0) as [E|E]; [left; subst n'; rewrite E; apply rnd_0|right].
    assert (1 <= IZR n)%R by (apply IZR_le; lia). nra. }
  assert (S1 : (s' = 0 \/ 1 / 2 <= s')%R).
  { destruct (Z.eq_dec s 0) as [E|E]; [left; subst s'; rewrite E; apply rnd_0|right].
    assert (1 <= IZR s)%R by (apply IZR_le; lia). nra. }
  assert (Q : (n' / 1000000000 * (1 - u) <= rnd (n' / 1000000000) <= n' / 1000000000 * (1 + u))%R).
  { apply rnd_between; [nra|]. destruct N1 as [->|N1]; [left; lra|right]. lra. }
  assert (Eq : exactly (f32_div (f32_of_Z n) (f32_of_Z NANOS_PER_SEC)) (rnd (n' / 1000000000))).
  { apply no_overflow; [apply rounds_div; [exact En|exact E9|lra]|].
    rewrite Rabs_pos_eq by nra. apply Rle_trans with (bpow radix2 30); [change (bpow radix2 30) with 1073741824%R; nra|apply bpow_le; lia]. }
  set (q := rnd (n' / 1000000000)) in *.
  set (p := (IZR s + IZR n / 1000000000)%R).
  assert (Pp : (0 < p)%R).
  { subst p. destruct (Z.eq_dec s 0) as [E|E]; [assert (1 <= IZR n)%R by (apply IZR_le; lia); lra|].
    assert (1 <= IZR s)%R by (apply IZR_le; lia). lra. }
  assert (Pm : (/ 1000000000 <= p)%R).
  { subst p. destruct (Z.eq_dec s 0) as [E|E]; [assert (1 <= IZR n)%R by (apply IZR_le; lia); lra|].
    assert (1 <= IZR s)%R by (apply IZR_le; lia). lra. }
  assert (S2 : (p * ((1 - u) * (1 - u)) <= s' + q <= p * ((1 + u) * (1 + u)))%R).
  { subst p. assert (n' / 1000000000 * (1 - u) >= IZR n / 1000000000 * (1 - u) * (1 - u))%R by nra.
    assert (n' / 1000000000 * (1 + u) <= IZR n / 1000000000 * (1 + u) * (1 + u))%R by nra.
    assert (IZR s * ((1 - u) * (1 - u)) <= IZR s * (1 - u))%R by nra.
    assert (IZR s * (1 + u) <= IZR s * ((1 + u) * (1 + u)))%R by nra. lra. }
  assert (S3 : (0 < s' + q)%R) by (assert (0 < (1 - u) * (1 - u))%R by nra; nra).
  assert (S4 : (bpow radix2 (-126) <= s' + q)%R).
  { apply Rle_trans with (/ 2000000000)%R; [exact NM|]. assert (9 / 10 <= (1 - u) * (1 - u))%R by nra. nra. }
  pose proof (rnd_between (s' + q) ltac:(lra) (or_intror S4)) as Bd.
  assert (P64 : (IZR (2 ^ 64) = 18446744073709551616)%R) by reflexivity.
  assert (Ed : exactly (f32_add (f32_of_Z s) (f32_div (f32_of_Z n) (f32_of_Z NANOS_PER_SEC))) (rnd (s' + q))).
  { apply no_overflow; [apply rounds_add; assumption|]. rewrite Rabs_pos_eq by lra.
    apply Rle_trans with (bpow radix2 66); [|apply bpow_le; lia]. rewrite <- IZR_Zpower by lia. change (IZR (radix2 ^ 66)) with 73786976294838206464%R.
    assert (p <= 18446744073709551617)%R by (subst p; lra). assert ((1 + u) * (1 + u) <= 2)%R by nra. nra. }
  set (d' := rnd (s' + q)) in *.
  assert (D3 : (p * ((1 - u) * (1 - u) * (1 - u)) <= d' <= p * ((1 + u) * (1 + u) * (1 + u)))%R).
  { split.
    - apply Rle_trans with ((s' + q) * (1 - u))%R; [|lra]. rewrite <- Rmult_assoc. apply Rmult_le_compat_r; lra.
    - apply Rle_trans with ((s' + q) * (1 + u))%R; [lra|]. rewrite <- Rmult_assoc. apply Rmult_le_compat_r; lra. }
  assert (Dp : (/ 2000000000 <= d' <= 73786976294838206464)%R).
  { destruct u_cubes as [K1 K2]. assert (Pu : (p <= 18446744073709551617)%R) by (subst p; lra).
    split; [apply Rle_trans with (1 := Rle_trans (/ 2000000000) (p * (9 / 10)) _ ltac:(clear -Pm; lra) (Rmult_le_compat_l p _ _ (Rlt_le _ _ Pp) K1)); apply D3|].
    apply Rle_trans with (1 := proj2 D3). apply Rle_trans with (p * 2)%R; [apply Rmult_le_compat_l; [lra|exact K2]|lra]. }
  assert (C1 : c = 0 \/ (1 / 2 <= c')%R).
  { destruct (Z.eq_dec c 0) as [E|E]; [auto|right]. assert (C0 : (1 <= IZR c)%R) by (apply IZR_le; lia). clear -C0 Bc U. nra. }
  assert (C2 : (0 <= c' <= 8589934592)%R) by (clear -Bc Ic U; nra).
  assert (I1 : (0 < / d' <= 2000000000)%R).
  { split; [apply Rinv_0_lt_compat; lra|]. rewrite <- (Rinv_inv 2000000000). apply Rinv_le_contravar; lra. }
  assert (I2 : (/ 73786976294838206464 <= / d')%R) by (apply Rinv_le_contravar; lra).
  assert (Bq : (c' / d' * (1 - u) <= rnd (c' / d') <= c' / d' * (1 + u))%R).
  { apply rnd_between; [unfold Rdiv; clear -C2 I1; nra|]. destruct C1 as [E|C1].
    - left. subst c'. rewrite E, rnd_0. unfold Rdiv. ring.
    - right. apply Rle_trans with (bpow radix2 (-67)); [apply bpow_le; lia|].
      replace (bpow radix2 (-67)) with (/ 2 * / 73786976294838206464)%R by (rewrite <- Rinv_mult; cbn; f_equal; lra).
      unfold Rdiv. clear -C1 I2. nra. }
  assert (Ex : exactly (f32_div (f32_of_Z c) (f32_add (f32_of_Z s) (f32_div (f32_of_Z n) (f32_of_Z NANOS_PER_SEC)))) (rnd (c' / d'))).
  { apply no_overflow; [apply rounds_div; [exact Ec|exact Ed|lra]|].
    assert (0 <= c' / d' <= 8589934592 * 2000000000)%R by (unfold Rdiv; clear -C2 I1; split; nra). rewrite Rabs_pos_eq by lra.
    apply Rle_trans with (bpow radix2 66); [|apply bpow_le; lia]. rewrite <- IZR_Zpower by lia. change (IZR (radix2 ^ 66)) with 73786976294838206464%R. lra. }
  destruct Ex as (V & F & E). split; [exact V|]. split; [exact F|]. rewrite E.
  assert (T : (0 <= IZR c / p)%R) by (apply Rmult_le_pos; [lra|left; apply Rinv_0_lt_compat; lra]).
  rewrite (Rabs_pos_eq (IZR c / p)) by exact T.
  apply (quotient_bounds (IZR c) p c' d'); [lra|exact Pp|exact Bc|exact D3|exact Bq].
Qed.

Lemma of_Z_pos z : 0 < z < 2 ^ 64 -> exists m e, f32_of_Z z = S754_finite false m e.
Proof.
  intros H. assert (E := of_Z_big z ltac:(lia)). destruct E as (_ & F & E).
  assert (P : (1 <= IZR z)%R) by (apply IZR_le; lia).
  pose proof (rnd_between (IZR z) ltac:(lra) (Z_min z ltac:(lia))) as B. pose proof u_pos as U.
  assert (R : (0 < real (f32_of_Z z))%R) by (rewrite E; clear -P B U; nra).
  destruct (f32_of_Z z) as [s|s| |s m e]; try contradiction; cbn [real] in R; [lra|]. destruct s; [|eauto]. exfalso.
  assert (0 < powerRZ 2 e)%R by (apply powerRZ_lt; lra). assert (IZR (Z.neg m) < 0)%R by (apply IZR_lt; lia). nra.
Qed.

Lemma C25_all : forall i, is_u32 (fi_count i) ->
  match fi_duration i with
  | None => hertz i = None
  | Some d => 0 <= d_secs d < 2 ^ 64 -> 0 <= d_nanos d < 1000000000 ->
      exists x, hertz i = Some x /\
        (0 < d_secs d + d_nanos d ->
           within (/ 2097152) x (IZR (fi_count i) / (IZR (d_secs d) + IZR (d_nanos d) / 1000000000))) /\
        (d_secs d + d_nanos d = 0 -> x = if fi_count i =? 0 then S754_nan else S754_infinity false)
  end.
Proof.
  intros i Hc. destruct (fi_duration i) as [d|] eqn:Hd; [|unfold hertz; rewrite Hd; reflexivity].
  intros Hs Hn. destruct (Z.eq_dec (d_secs d + d_nanos d) 0) as [Z0|N0].
  - unfold hertz. rewrite Hd. eexists. split; [reflexivity|]. split; [lia|]. intros _.
    assert (d_secs d = 0) as -> by lia. assert (d_nanos d = 0) as -> by lia.
    replace (f32_add (f32_of_Z 0) (f32_div (f32_of_Z 0) (f32_of_Z NANOS_PER_SEC))) with (S754_zero false) by (vm_compute; reflexivity).
    destruct (Z.eqb_spec (fi_count i) 0) as [E|E]; [rewrite E; vm_compute; reflexivity|].
    unfold is_u32 in Hc. destruct (of_Z_pos (fi_count i)) as (m & e & ->); [lia|]. reflexivity.
  - destruct (C25_accurate i d Hd Hc Hs Hn) as (x & Hx & W); [lia|]. exists x. split; [exact Hx|]. split; [auto|]. intros; contradiction.
Qed.
