(** Proofs about the codes of format S7 on the ranges with an offset (C20). *)
From Coq Require Import ZArith Reals List Bool Lia Lra Psatz SpecFloat.
From Flocq Require Import Core BinarySingleNaN.
From Verif Require Import Base Facts F32 Types Lib Util Digital Analog Fcnt Fbc SpecCodec SpecCoupler SpecAnalog SpecCreep ProofsModule ProofsFloat ProofsAnalog
  ProofsReadback ProofsCreep.
Import ListNotations.
Local Open Scope Z_scope.

(** The error of rounding a number below a power of two. *)
Lemma rnd_half x e : -100 <= e -> (Rabs x <= bpow radix2 e)%R -> (Rabs (rnd x - x) <= bpow radix2 (e - 25))%R.
Proof.
  intros He Hx. destruct (Req_dec x 0) as [->|Nx].
  { rewrite rnd_0, Rminus_0_r, Rabs_R0. apply bpow_ge_0. }
  destruct (Req_dec (Rabs x) (bpow radix2 e)) as [E|E].
  { assert (rnd x = x) as ->; [|rewrite Rminus_eq_0, Rabs_R0; apply bpow_ge_0].
    apply round_generic; [typeclasses eauto|]. apply generic_format_abs_inv. rewrite E. apply format_bpow. lia. }
  pose proof (error_le_half_ulp radix2 fexp32 (fun t => negb (Z.even t)) x) as H.
  eapply Rle_trans; [exact H|]. rewrite ulp_neq_0 by exact Nx. unfold cexp.
  assert (M : mag radix2 x <= e) by (apply mag_le_bpow; [exact Nx|lra]).
  replace (bpow radix2 (e - 25)) with (/ 2 * bpow radix2 (e - 24))%R.
  - apply Rmult_le_compat_l; [lra|]. apply bpow_le. unfold SpecFloat.fexp, SpecFloat.emin. lia.
  - replace (e - 24) with (1 + (e - 25)) by lia. rewrite bpow_plus. change (bpow radix2 1) with 2%R. field.
Qed.

(** A rounded number is an integral multiple of the unit of its binary order. *)
Lemma rnd_multiple x e : -100 <= e -> (bpow radix2 (e - 1) <= x <= bpow radix2 e)%R -> exists M, rnd x = (IZR M * bpow radix2 (e - 24))%R.
Proof.
  intros He Hx. destruct (Req_dec x (bpow radix2 e)) as [->|N].
  - exists (2 ^ 24). rewrite <- bpow_Z, <- bpow_plus by lia. replace (24 + (e - 24)) with e by lia.
    apply round_generic; [typeclasses eauto|]. apply format_bpow. lia.
  - exists (ZnearestE (x * bpow radix2 (24 - e))). apply rnd_grid; lra || lia.
Qed.

(** [q] plus or minus a power of two is exact if both are multiples of the same unit and the result is small. *)
Lemma exact_sum M e : -100 <= e -> (Rabs (IZR M * bpow radix2 (e - 24)) <= bpow radix2 e)%R ->
  rnd (IZR M * bpow radix2 (e - 24)) = (IZR M * bpow radix2 (e - 24))%R.
Proof.
  intros He H. apply rnd_scaled; [|lia]. apply le_IZR. rewrite abs_IZR. rewrite <- bpow_Z by lia.
  rewrite Rabs_mult, (Rabs_pos_eq (bpow radix2 (e - 24))) in H by apply bpow_ge_0.
  apply Rmult_le_reg_r with (bpow radix2 (e - 24)); [apply bpow_gt_0|]. rewrite <- bpow_plus. replace (24 + (e - 24)) with e by lia. exact H.
Qed.

Section Offset.
(** The base [2^k] of the range, the sign of the code and its magnitude. *)
Variables (k : Z) (neg : bool) (c : Z).
Hypothesis Hk : 0 <= k <= 2.
Hypothesis Hc : 1 <= c <= 32768.
Notation beta := (bpow radix2 k).
Notation sg := (if neg then (-1)%R else 1%R).
Notation Q := (beta * IZR c / 6912)%R.
Notation q := (rnd Q).

(** The value after both roundings is a multiple [M] of the unit [2^(e - 24)] times the base, with an error of at most 20/27. *)
Definition settles (e : Z) : Prop := exists M,
  (rnd (beta + sg * q) - beta = sg * (IZR M * bpow radix2 (k + e - 24)))%R /\
  rnd (rnd (beta + sg * q) - beta) = (sg * (IZR M * bpow radix2 (k + e - 24)))%R /\ -20 <= c * 2 ^ (16 - e) - 27 * M <= 20.

Lemma error_units e M : 0 <= e <= 3 -> (Rabs (IZR M * bpow radix2 (k + e - 24) - Q) <= 3 / 4 * bpow radix2 (k + e - 24))%R ->
  -20 <= c * 2 ^ (16 - e) - 27 * M <= 20.
Proof.
  intros He H. apply Rabs_le_inv in H. set (u := bpow radix2 (k + e - 24)) in *.
  assert (E : (Q = IZR (c * 2 ^ (16 - e)) / 27 * u)%R).
  { rewrite mult_IZR, <- bpow_Z by lia. subst u. replace (k + e - 24) with (k + - (16 - e) + -8) by lia.
    rewrite !bpow_plus. change (bpow radix2 (-8)) with (/ 256)%R. rewrite (bpow_opp _ (16 - e)). field.
    apply Rgt_not_eq, bpow_gt_0. }
  rewrite E in H. assert (U : (0 < u)%R) by (subst u; apply bpow_gt_0). set (N := c * 2 ^ (16 - e)) in *.
  assert (A : (-(3/4) <= IZR M - IZR N / 27 <= 3/4)%R).
  { split; apply Rmult_le_reg_r with u; lra. }
  assert (L : (IZR (N - 27 * M) < 21)%R) by (rewrite minus_IZR, mult_IZR; lra).
  assert (G : (-21 < IZR (N - 27 * M))%R) by (rewrite minus_IZR, mult_IZR; lra).
  apply lt_IZR in L. apply lt_IZR in G. lia.
Qed.

Lemma settles_exact e : 0 <= e <= 3 -> (bpow radix2 (k + e - 1) <= Q <= bpow radix2 (k + e))%R ->
  (Rabs (beta + sg * q) <= bpow radix2 (k + e))%R -> settles e.
Proof.
  intros He HQ Hs. destruct (rnd_multiple Q (k + e)) as (M & EM); [lia|exact HQ|].
  pose proof (rnd_half Q (k + e)) as Er. rewrite Rabs_pos_eq in Er by (pose proof (bpow_ge_0 radix2 (k + e - 1)); lra).
  specialize (Er ltac:(lia) (proj2 HQ)).
  assert (EB : beta = (IZR (2 ^ (24 - e)) * bpow radix2 (k + e - 24))%R).
  { rewrite <- bpow_Z, <- bpow_plus by lia. f_equal. lia. }
  set (s := if neg then -1 else 1). assert (Es : sg = IZR s) by (subst s; destruct neg; reflexivity).
  assert (ES : (beta + sg * q = IZR (2 ^ (24 - e) + s * M) * bpow radix2 (k + e - 24))%R).
  { rewrite EM, Es, plus_IZR, mult_IZR. rewrite EB at 1. ring. }
  assert (X1 : rnd (beta + sg * q) = (beta + sg * q)%R).
  { rewrite ES. apply exact_sum; [lia|]. rewrite <- ES. exact Hs. }
  exists M. split; [|split].
  - rewrite X1, EM. ring.
  - rewrite X1. replace (beta + sg * q - beta)%R with (sg * q)%R by ring.
    destruct neg; [replace (-1 * q)%R with (- q)%R by ring; rewrite round_NE_opp|rewrite Rmult_1_l];
      (rewrite round_generic; [rewrite EM; ring|typeclasses eauto|apply generic_format_round; typeclasses eauto]).
  - apply error_units; [exact He|]. rewrite <- EM. eapply Rle_trans; [exact Er|].
    replace (k + e - 24) with (1 + (k + e - 25)) by lia. rewrite bpow_plus. change (bpow radix2 1) with 2%R.
    pose proof (bpow_gt_0 radix2 (k + e - 25)). lra.
Qed.

Lemma settles_twice e : 0 <= e <= 3 -> (Q <= bpow radix2 (k + e - 1))%R ->
  (bpow radix2 (k + e - 1) <= beta + sg * q <= bpow radix2 (k + e))%R -> settles e.
Proof.
  intros He HQ Hs. destruct (rnd_multiple _ (k + e) ltac:(lia) Hs) as (M & EM).
  assert (Pc : (1 <= IZR c)%R) by (apply IZR_le; lia). pose proof (bpow_gt_0 radix2 k) as Bk.
  assert (Q0 : (0 <= Q)%R) by (apply Rmult_le_pos; [nra|lra]).
  pose proof (rnd_half Q (k + e - 1)) as E1. rewrite Rabs_pos_eq in E1 by exact Q0. specialize (E1 ltac:(lia) HQ).
  pose proof (rnd_half (beta + sg * q) (k + e)) as E2. pose proof (bpow_gt_0 radix2 (k + e - 1)) as Be.
  rewrite Rabs_pos_eq in E2 by lra. specialize (E2 ltac:(lia) (proj2 Hs)).
  assert (EB : beta = (IZR (2 ^ (24 - e)) * bpow radix2 (k + e - 24))%R).
  { rewrite <- bpow_Z, <- bpow_plus by lia. f_equal. lia. }
  assert (X0 : (0 <= rnd (beta + sg * q) <= bpow radix2 (k + e))%R).
  { split; [apply round_ge_generic; [typeclasses eauto..|apply generic_format_0|lra]|].
    apply round_le_generic; [typeclasses eauto..|apply format_bpow; lia|lra]. }
  assert (ES : (rnd (beta + sg * q) - beta = IZR (M - 2 ^ (24 - e)) * bpow radix2 (k + e - 24))%R).
  { rewrite EM, minus_IZR. rewrite EB at 1. ring. }
  assert (Bb : (beta <= bpow radix2 (k + e))%R) by (apply bpow_le; lia).
  assert (X1 : rnd (rnd (beta + sg * q) - beta) = (rnd (beta + sg * q) - beta)%R).
  { rewrite ES. apply exact_sum; [lia|]. rewrite <- ES. apply Rabs_le. split; lra. }
  exists (if neg then 2 ^ (24 - e) - M else M - 2 ^ (24 - e)).
  assert (EY : (rnd (beta + sg * q) - beta = sg * (IZR (if neg then 2 ^ (24 - e) - M else M - 2 ^ (24 - e)) * bpow radix2 (k + e - 24)))%R).
  { rewrite ES. destruct neg; rewrite !minus_IZR; ring. }
  split; [exact EY|]. split; [rewrite X1; exact EY|]. apply error_units; [exact He|].
  replace (k + e - 1 - 25) with (-2 + (k + e - 24)) in E1 by lia. replace (k + e - 25) with (-1 + (k + e - 24)) in E2 by lia.
  rewrite bpow_plus in E1, E2. change (bpow radix2 (-2)) with (/ 4)%R in E1. change (bpow radix2 (-1)) with (/ 2)%R in E2.
  set (u := bpow radix2 (k + e - 24)) in *. apply Rabs_le_inv in E1. apply Rabs_le_inv in E2.
  set (V := (IZR (if neg then 2 ^ (24 - e) - M else M - 2 ^ (24 - e)) * u)%R) in *. clearbody V.
  apply Rabs_le. destruct neg; split; lra.
Qed.

(** The binary order of the unit, by the magnitude of the code. *)
Definition order : Z :=
  if neg then (if c <? 6912 then 0 else if c <? 13824 then 1 else if c <? 27648 then 2 else 3)
  else (if c <? 6912 then 1 else if c <? 20736 then 2 else 3).

Lemma q_between a b : -100 <= a -> -100 <= b -> (bpow radix2 a <= Q)%R -> (Q <= bpow radix2 b)%R -> (bpow radix2 a <= q <= bpow radix2 b)%R.
Proof.
  intros Ha Hb H1 H2. split; [apply round_ge_generic|apply round_le_generic]; try typeclasses eauto; try (apply format_bpow; lia); assumption.
Qed.
Lemma bpow_1024 a : -10 <= a -> bpow radix2 a = (IZR (2 ^ (a + 10)) * / 1024)%R.
Proof.
  intros Ha. rewrite <- (bpow_Z (a + 10)) by lia. change (/ 1024)%R with (bpow radix2 (-10)). rewrite <- bpow_plus. f_equal. lia.
Qed.
Lemma Q_ge a : -10 <= a -> 6912 * 2 ^ (a + 10) <= c * 1024 -> (bpow radix2 (k + a) <= Q)%R.
Proof.
  intros Ha H. rewrite bpow_plus, (bpow_1024 a Ha). apply IZR_le in H. rewrite !mult_IZR in H. pose proof (bpow_gt_0 radix2 k). 
  assert (X : (IZR (2 ^ (a + 10)) * / 1024 <= IZR c / 6912)%R) by lra. unfold Rdiv in *. rewrite Rmult_assoc. apply Rmult_le_compat_l; lra.
Qed.
Lemma Q_le a : -10 <= a -> c * 1024 <= 6912 * 2 ^ (a + 10) -> (Q <= bpow radix2 (k + a))%R.
Proof.
  intros Ha H. rewrite bpow_plus, (bpow_1024 a Ha). apply IZR_le in H. rewrite !mult_IZR in H. pose proof (bpow_gt_0 radix2 k). 
  assert (X : (IZR c / 6912 <= IZR (2 ^ (a + 10)) * / 1024)%R) by lra. unfold Rdiv in *. rewrite Rmult_assoc. apply Rmult_le_compat_l; lra.
Qed.
Lemma beta_scale a : bpow radix2 (k + a) = (beta * bpow radix2 a)%R.
Proof. apply bpow_plus. Qed.

(** three times the base is a number of the format too *)
Lemma q_three : (c <= 20736 -> (q <= 3 * beta)%R) /\ (20736 <= c -> (3 * beta <= q)%R).
Proof.
  assert (F : generic_format radix2 fexp32 (3 * beta)) by (apply (format_scaled 3 k); lia).
  pose proof (bpow_gt_0 radix2 k) as B. split; intros H; [apply round_le_generic|apply round_ge_generic]; try typeclasses eauto; try exact F.
  - apply IZR_le in H. assert (X : (IZR c / 6912 <= 3)%R) by lra. unfold Rdiv in *. rewrite Rmult_assoc. rewrite (Rmult_comm 3).
    apply Rmult_le_compat_l; lra.
  - apply IZR_le in H. assert (X : (3 <= IZR c / 6912)%R) by lra. unfold Rdiv in *. rewrite Rmult_assoc. rewrite (Rmult_comm 3).
    apply Rmult_le_compat_l; lra.
Qed.

Lemma settles_order : settles order.
Proof.
  pose proof (bpow_gt_0 radix2 k) as B. destruct q_three as [T1 T2].
  assert (Q0 : (0 <= q)%R).
  { apply round_ge_generic; [typeclasses eauto..|apply generic_format_0|]. assert (1 <= IZR c)%R by (apply IZR_le; lia). apply Rmult_le_pos; [nra|lra]. }
  assert (B0 : bpow radix2 (k + 0) = beta) by (f_equal; lia).
  assert (B1 : bpow radix2 (k + 1) = (2 * beta)%R) by (rewrite beta_scale; change (bpow radix2 1) with 2%R; ring).
  assert (B2 : bpow radix2 (k + 2) = (4 * beta)%R) by (rewrite beta_scale; change (bpow radix2 2) with 4%R; ring).
  assert (B3 : bpow radix2 (k + 3) = (8 * beta)%R) by (rewrite beta_scale; change (bpow radix2 3) with 8%R; ring).
  assert (Bm : bpow radix2 (k + -1) = (/ 2 * beta)%R) by (rewrite beta_scale; change (bpow radix2 (-1)) with (/ 2)%R; ring).
  assert (GE : forall a, -10 <= a <= 3 -> 6912 * 2 ^ (a + 10) <= c * 1024 -> (bpow radix2 (k + a) <= q)%R).
  { intros a Ha H. apply round_ge_generic; [typeclasses eauto..|apply format_bpow; lia|apply Q_ge; lia]. }
  assert (LE : forall a, -10 <= a <= 3 -> c * 1024 <= 6912 * 2 ^ (a + 10) -> (q <= bpow radix2 (k + a))%R).
  { intros a Ha H. apply round_le_generic; [typeclasses eauto..|apply format_bpow; lia|apply Q_le; lia]. }
  pose proof (LE 3 ltac:(lia) ltac:(change (2 ^ (3 + 10)) with 8192; lia)) as L3.
  unfold order. destruct neg eqn:En.
  - destruct (Z.ltb_spec c 6912) as [C1|C1]; [destruct (Z.lt_ge_cases c 3456) as [C0|C0]|
      destruct (Z.ltb_spec c 13824) as [C2|C2]; [|destruct (Z.ltb_spec c 27648) as [C3|C3]]].
    + pose proof (LE (-1) ltac:(lia) ltac:(change (2 ^ (-1 + 10)) with 512; lia)) as L.
      apply settles_twice; [lia| |rewrite En].
      * replace (k + 0 - 1) with (k + -1) by lia. apply Q_le; [lia|]. change (2 ^ (-1 + 10)) with 512. lia.
      * replace (k + 0 - 1) with (k + -1) by lia. lra.
    + pose proof (LE 0 ltac:(lia) ltac:(change (2 ^ (0 + 10)) with 1024; lia)) as L.
      apply settles_exact; [lia| |rewrite En].
      * replace (k + 0 - 1) with (k + -1) by lia. split; [apply Q_ge|apply Q_le]; lia.
      * apply Rabs_le. lra.
    + pose proof (LE 1 ltac:(lia) ltac:(change (2 ^ (1 + 10)) with 2048; lia)) as L.
      apply settles_exact; [lia| |rewrite En].
      * replace (k + 1 - 1) with (k + 0) by lia. split; [apply Q_ge|apply Q_le]; lia.
      * apply Rabs_le. lra.
    + pose proof (LE 2 ltac:(lia) ltac:(change (2 ^ (2 + 10)) with 4096; lia)) as L.
      apply settles_exact; [lia| |rewrite En].
      * replace (k + 2 - 1) with (k + 1) by lia. split; [apply Q_ge|apply Q_le]; lia.
      * apply Rabs_le. lra.
    + apply settles_exact; [lia| |rewrite En].
      * replace (k + 3 - 1) with (k + 2) by lia. split; [apply Q_ge|apply Q_le]; lia.
      * apply Rabs_le. lra.
  - destruct (Z.ltb_spec c 6912) as [C1|C1]; [|destruct (Z.ltb_spec c 20736) as [C2|C2];
      [destruct (Z.lt_ge_cases c 13824) as [C3|C3]|destruct (Z.lt_ge_cases c 27648) as [C3|C3]]].
    + pose proof (LE 0 ltac:(lia) ltac:(change (2 ^ (0 + 10)) with 1024; lia)) as L.
      apply settles_twice; [lia| |rewrite En].
      * replace (k + 1 - 1) with (k + 0) by lia. apply Q_le; [lia|]. change (2 ^ (0 + 10)) with 1024. lia.
      * replace (k + 1 - 1) with (k + 0) by lia. lra.
    + pose proof (LE 1 ltac:(lia) ltac:(change (2 ^ (1 + 10)) with 2048; lia)) as L.
      pose proof (GE 0 ltac:(lia) ltac:(change (2 ^ (0 + 10)) with 1024; lia)) as G.
      apply settles_twice; [lia| |rewrite En].
      * replace (k + 2 - 1) with (k + 1) by lia. apply Q_le; [lia|]. change (2 ^ (1 + 10)) with 2048. lia.
      * replace (k + 2 - 1) with (k + 1) by lia. lra.
    + specialize (T1 ltac:(lia)). apply settles_exact; [lia| |rewrite En].
      * replace (k + 2 - 1) with (k + 1) by lia. split; [apply Q_ge|apply Q_le]; lia.
      * apply Rabs_le. lra.
    + pose proof (LE 2 ltac:(lia) ltac:(change (2 ^ (2 + 10)) with 4096; lia)) as L. specialize (T2 ltac:(lia)).
      apply settles_twice; [lia| |rewrite En].
      * replace (k + 3 - 1) with (k + 2) by lia. apply Q_le; [lia|]. change (2 ^ (2 + 10)) with 4096. lia.
      * replace (k + 3 - 1) with (k + 2) by lia. lra.
    + assert (X : (q <= 5 * beta)%R).
      { apply round_le_generic; [typeclasses eauto..|apply (format_scaled 5 k); lia|]. assert (IZR c <= 32768)%R by (apply IZR_le; lia).
        assert (Y : (IZR c / 6912 <= 5)%R) by lra. unfold Rdiv in *. rewrite Rmult_assoc, (Rmult_comm 5). apply Rmult_le_compat_l; lra. }
      apply settles_exact; [lia| |rewrite En].
      * replace (k + 3 - 1) with (k + 2) by lia. split; [apply Q_ge|apply Q_le]; lia.
      * apply Rabs_le. lra.
Qed.
End Offset.

(** The ranges with an offset: the span is four times the base, a power of two. *)
Lemma offset_span r : r <> UI_Disabled -> (exists n, from_zero r = Some n) \/ exists k, 0 <= k <= 2 /\ base_span r = Some (2 ^ k, 4 * 2 ^ k).
Proof.
  destruct r; intros H; try (left; eexists; reflexivity); try congruence; right;
    [exists 2|exists 0|exists 1]; (split; [lia|reflexivity]).
Qed.

Lemma trip_offset k c : 0 <= k <= 2 -> -32768 <= c <= 32767 ->
  let b := 2 ^ k in let n := 4 * 2 ^ k in
  trip b n S7 c = clamp_i16 (Ztrunc (rnd (rnd (27648 * rnd (rnd (rnd (IZR n * IZR c / 27648) + IZR b) - IZR b)) / IZR n))).
Proof.
  intros Hk Hc b n. assert (Hb : 1 <= b <= 4 /\ 4 <= n <= 16).
  { assert (k = 0 \/ k = 1 \/ k = 2) as [E|[E|E]] by lia; subst b n; rewrite E; lia. }
  unfold trip, encoded, decode. destruct (Z.eqb_spec b 0) as [X|_]; [lia|].
  destruct (decode_offset c n b S7 Hc ltac:(lia) ltac:(lia)) as [_ D]. cbn zeta in D. change (IZR (full_code S7)) with 27648%R in D.
  assert (En : exactly (f32_of_Z n) (IZR n)) by (apply of_Z_exact; lia). assert (Eb : exactly (f32_of_Z b) (IZR b)) by (apply of_Z_exact; lia).
  assert (Pn : (4 <= IZR n <= 16)%R) by (split; apply IZR_le; lia). assert (Pb : (1 <= IZR b <= 4)%R) by (split; apply IZR_le; lia).
  assert (Bc : (-32768 <= IZR c <= 32767)%R) by (split; apply IZR_le; lia).
  assert (B1 : (Rabs (IZR n * IZR c / 27648) <= bpow radix2 5)%R).
  { change (bpow radix2 5) with 32%R. apply Rabs_le. split; nra. }
  apply (rnd_bound _ 5 ltac:(lia)) in B1. set (q := rnd (IZR n * IZR c / 27648)) in *. change (bpow radix2 5) with 32%R in B1. apply Rabs_le_inv in B1.
  assert (B2 : (Rabs (q + IZR b) <= bpow radix2 6)%R) by (change (bpow radix2 6) with 64%R; apply Rabs_le; split; lra).
  apply (rnd_bound _ 6 ltac:(lia)) in B2. set (x := rnd (q + IZR b)) in *. change (bpow radix2 6) with 64%R in B2. apply Rabs_le_inv in B2.
  assert (B3 : (Rabs (x - IZR b) <= bpow radix2 7)%R) by (change (bpow radix2 7) with 128%R; apply Rabs_le; split; lra).
  assert (S : exactly (f32_sub (f32_add (f32_div (f32_mul (f32_of_Z c) (f32_of_Z n)) (factor S7)) (f32_of_Z b)) (f32_of_Z b)) (rnd (x - IZR b))).
  { apply no_overflow; [apply rounds_sub; assumption|]. eapply Rle_trans; [exact B3|]. apply bpow_le. lia. }
  apply (rnd_bound _ 7 ltac:(lia)) in B3. set (y := rnd (x - IZR b)) in *. change (bpow radix2 7) with 128%R in B3.
  assert (B4 : (Rabs (27648 * y) <= bpow radix2 22)%R).
  { rewrite Rabs_mult, (Rabs_pos_eq 27648) by lra. change (bpow radix2 22) with 4194304%R. lra. }
  assert (M : exactly (f32_mul (factor S7) (f32_sub (f32_add (f32_div (f32_mul (f32_of_Z c) (f32_of_Z n)) (factor S7)) (f32_of_Z b)) (f32_of_Z b)))
                (rnd (27648 * y))).
  { apply no_overflow; [apply rounds_mul; [exact (factor_exact S7)|exact S]|]. eapply Rle_trans; [exact B4|]. apply bpow_le. lia. }
  apply (rnd_bound _ 22 ltac:(lia)) in B4.
  assert (B5 : (Rabs (rnd (27648 * y) / IZR n) <= bpow radix2 22)%R).
  { unfold Rdiv. rewrite Rabs_mult, (Rabs_pos_eq (/ IZR n)) by (left; apply Rinv_0_lt_compat; lra).
    assert (/ IZR n <= 1)%R by (rewrite <- Rinv_1; apply Rinv_le; lra).
    assert (0 < / IZR n)%R by (apply Rinv_0_lt_compat; lra).
    pose proof (Rabs_pos (rnd (27648 * y))). nra. }
  apply as_i16_exact. apply no_overflow; [apply rounds_div; [exact M|exact En|lra]|]. eapply Rle_trans; [exact B5|]. apply bpow_le. lia.
Qed.

(** A code that moves leaves a positive remainder. *)
Lemma moved_remainder r k c : 0 <= k <= 2 -> base_span r = Some (2 ^ k, 4 * 2 ^ k) -> -32768 <= c <= 32767 ->
  trip (2 ^ k) (4 * 2 ^ k) S7 c <> c -> exists M, 1 <= Z.abs c * 2 ^ (16 - order (c <? 0) (Z.abs c)) - 27 * M <= 20.
Proof.
  intros Hk Hr Hc Hm. destruct (trip_step r _ _ S7 c Hr Hc) as [Sp Sn].
  assert (N0 : c <> 0) by (intros ->; lia). set (neg := c <? 0) in *. set (C := Z.abs c) in *.
  assert (HC : 1 <= C <= 32768) by (subst C; lia).
  destruct (settles_order k neg C Hk HC) as (M & _ & Ey & D). exists M. set (e := order neg C) in *.
  destruct (Z.le_gt_cases (C * 2 ^ (16 - e) - 27 * M) 0) as [L|G]; [|lia]. exfalso. apply Hm.
  assert (He : 0 <= e <= 3).
  { subst e. unfold order. destruct neg; repeat match goal with |- context [?a <? ?b] => destruct (a <? b) end; lia. }
  rewrite (trip_offset k c Hk Hc) in *.
  set (sg := if neg then (-1)%R else 1%R) in *.
  assert (Ec : IZR c = (sg * IZR C)%R).
  { subst sg C neg. destruct (Z.ltb_spec c 0); [rewrite Z.abs_neq, opp_IZR by lia|rewrite Z.abs_eq by lia]; lra. }
  assert (Eb : IZR (2 ^ k) = bpow radix2 k) by (symmetry; apply bpow_Z; lia).
  assert (En : IZR (4 * 2 ^ k) = (4 * bpow radix2 k)%R) by (rewrite mult_IZR, Eb; reflexivity).
  assert (Rs : forall x, rnd (sg * x) = (sg * rnd x)%R).
  { intros x. subst sg. destruct neg; [|rewrite !Rmult_1_l; reflexivity]. replace (-1 * x)%R with (- x)%R by ring. rewrite round_NE_opp. ring. }
  rewrite En, Eb, Ec in *. set (beta := bpow radix2 k) in *. assert (Pb : (0 < beta)%R) by apply bpow_gt_0.
  replace (4 * beta * (sg * IZR C) / 27648)%R with (sg * (beta * IZR C / 6912))%R in * by field.
  rewrite Rs in *. rewrite (Rplus_comm (sg * _)) in *. rewrite Ey in *.
  replace (27648 * (sg * (IZR M * bpow radix2 (k + e - 24))))%R with (sg * (27648 * (IZR M * bpow radix2 (k + e - 24))))%R in * by ring.
  rewrite Rs in *. unfold Rdiv in *. rewrite (Rmult_assoc sg) in *. rewrite Rs in *.
  set (w := rnd (rnd (27648 * (IZR M * bpow radix2 (k + e - 24))) * / (4 * beta))) in *.
  assert (W : (IZR C <= w)%R).
  { assert (Z1 : (IZR C * (4 * beta) <= rnd (27648 * (IZR M * bpow radix2 (k + e - 24))))%R).
    { apply round_ge_generic; [typeclasses eauto..| |].
      - replace (IZR C * (4 * beta))%R with (IZR C * bpow radix2 (2 + k))%R by (rewrite bpow_plus; subst beta; change (bpow radix2 2) with 4%R; ring).
        apply format_scaled; lia.
      - assert (L' : C * 2 ^ (16 - e) <= 27 * M) by lia. clear L. rename L' into L. apply IZR_le in L. rewrite !mult_IZR in L.
        replace (k + e - 24) with (k + - (16 - e) + -8) by lia. rewrite !bpow_plus. change (bpow radix2 (-8)) with (/ 256)%R.
        rewrite <- bpow_Z in L by lia. pose proof (bpow_gt_0 radix2 (- (16 - e))) as B. pose proof (bpow_scale (16 - e) ltac:(lia)) as S.
        fold beta. set (v := bpow radix2 (- (16 - e))) in *. set (v' := bpow radix2 (16 - e)) in *.
        replace (27648 * (IZR M * (beta * v * / 256)))%R with (27 * IZR M * v * (4 * beta))%R by field.
        apply Rmult_le_compat_r; [lra|]. assert (E : (IZR C = IZR C * v' * v)%R) by (rewrite Rmult_assoc, S; ring). rewrite E.
        apply Rmult_le_compat_r; lra. }
    subst w. apply round_ge_generic; [typeclasses eauto..| |].
    - replace (IZR C) with (IZR C * bpow radix2 0)%R by (cbn [bpow]; ring). apply format_scaled; lia.
    - apply Rmult_le_reg_r with (4 * beta)%R; [lra|]. rewrite Rmult_assoc, Rinv_l, Rmult_1_r by lra. exact Z1. }
  apply Ztrunc_ge in W. clearbody w. subst sg C neg. destruct (Z.ltb_spec c 0) as [S|S].
  - specialize (Sn ltac:(lia)). replace (-1 * w)%R with (- w)%R in * by ring. rewrite Ztrunc_opp in *. unfold clamp_i16 in *. lia.
  - specialize (Sp ltac:(lia)). rewrite Rmult_1_l in *. unfold clamp_i16 in *. lia.
Qed.

(** The codes at which the unit changes are multiples of 27. *)
Lemma order_steady neg C : 0 < C - 1 -> ~ (27 | C) -> order neg (C - 1) = order neg C.
Proof.
  intros H N. assert (C <> 27 * 256 /\ C <> 27 * 512 /\ C <> 27 * 1024 /\ C <> 27 * 768) as (N1 & N2 & N3 & N4).
  { repeat split; intros ->; apply N; eexists; rewrite Z.mul_comm; reflexivity. }
  unfold order. destruct neg; repeat match goal with |- context [?a <? ?b] => destruct (Z.ltb_spec a b) end; lia.
Qed.

Lemma six_remainders a C M0 M1 M2 M3 M4 M5 : In a [8192; 16384; 32768; 65536] ->
  1 <= C * a - 27 * M0 <= 20 -> 1 <= (C - 1) * a - 27 * M1 <= 20 -> 1 <= (C - 2) * a - 27 * M2 <= 20 ->
  1 <= (C - 3) * a - 27 * M3 <= 20 -> 1 <= (C - 4) * a - 27 * M4 <= 20 -> 1 <= (C - 5) * a - 27 * M5 <= 20 -> False.
Proof.
  intros Ha H0 H1 H2 H3 H4 H5.
  assert (S : forall x y M M', x = y - 1 -> 1 <= y * a - 27 * M <= 20 -> 1 <= x * a - 27 * M' <= 20 ->
     exists t, x * a - 27 * M' = y * a - 27 * M - a + 27 * t) by (intros x y M M' ->; exists (M - M'); ring).
  destruct (S _ _ _ _ (eq_refl : C - 1 = C - 1) H0 H1) as (t1 & E1). destruct (S (C - 2) (C - 1) _ _ ltac:(lia) H1 H2) as (t2 & E2).
  destruct (S (C - 3) (C - 2) _ _ ltac:(lia) H2 H3) as (t3 & E3). destruct (S (C - 4) (C - 3) _ _ ltac:(lia) H3 H4) as (t4 & E4).
  destruct (S (C - 5) (C - 4) _ _ ltac:(lia) H4 H5) as (t5 & E5).
  set (d0 := C * a - 27 * M0) in *. set (d1 := (C - 1) * a - 27 * M1) in *. set (d2 := (C - 2) * a - 27 * M2) in *.
  set (d3 := (C - 3) * a - 27 * M3) in *. set (d4 := (C - 4) * a - 27 * M4) in *. set (d5 := (C - 5) * a - 27 * M5) in *.
  clearbody d0 d1 d2 d3 d4 d5. clear S. destruct Ha as [<-|[<-|[<-|[<-|[]]]]]; lia.
Qed.

Lemma offset_chain (g : Z -> Z) (s C : Z) (R : Z -> Prop) :
  (forall x, 0 <= x <= C -> g (s * x) = s * x \/ (R x /\ 1 <= x /\ g (s * x) = s * (x - 1))) ->
  ~ (6 <= C /\ R C /\ R (C - 1) /\ R (C - 2) /\ R (C - 3) /\ R (C - 4) /\ R (C - 5)) -> 0 <= C ->
  g (repeated 5 g (s * C)) = repeated 5 g (s * C).
Proof.
  intros G H HC. cbn [repeated].
  destruct (G C) as [E0|(L0 & P0 & E0)]; [lia|rewrite !E0; reflexivity|]. rewrite E0.
  destruct (G (C - 1)) as [E1|(L1 & P1 & E1)]; [lia|rewrite !E1; reflexivity|]. rewrite E1. replace (C - 1 - 1) with (C - 2) by lia.
  destruct (G (C - 2)) as [E2|(L2 & P2 & E2)]; [lia|rewrite !E2; reflexivity|]. rewrite E2. replace (C - 2 - 1) with (C - 3) by lia.
  destruct (G (C - 3)) as [E3|(L3 & P3 & E3)]; [lia|rewrite !E3; reflexivity|]. rewrite E3. replace (C - 3 - 1) with (C - 4) by lia.
  destruct (G (C - 4)) as [E4|(L4 & P4 & E4)]; [lia|rewrite !E4; reflexivity|]. rewrite E4. replace (C - 4 - 1) with (C - 5) by lia.
  destruct (G (C - 5)) as [E5|(L5 & P5 & E5)]; [lia|exact E5|]. exfalso. apply H. split; [lia|]. auto 10.
Qed.

Lemma trip_five_offset r k c : 0 <= k <= 2 -> base_span r = Some (2 ^ k, 4 * 2 ^ k) -> -32768 <= c <= 32767 ->
  let g := trip (2 ^ k) (4 * 2 ^ k) S7 in g (repeated 5 g c) = repeated 5 g c.
Proof.
  intros Hk Hr Hc g. destruct (base_span_range _ _ _ Hr) as [Hb Hs].
  set (neg := c <? 0). set (s := if neg then -1 else 1).
  assert (Ec : c = s * Z.abs c) by (subst s neg; destruct (Z.ltb_spec c 0); lia). rewrite Ec.
  apply (offset_chain g s (Z.abs c) (fun x => ~ (27 | x) /\ exists M, 1 <= x * 2 ^ (16 - order neg x) - 27 * M <= 20)); [| |lia].
  - intros x Hx. destruct (Z.eq_dec (g (s * x)) (s * x)) as [E|E]; [left; exact E|right].
    assert (Rx : -32768 <= s * x <= 32767) by (subst s neg; destruct (Z.ltb_spec c 0); lia).
    assert (N27 : ~ (27 | x)).
    { intros (j & ->). apply E. replace (s * (j * 27)) with (27 * (s * j)) by ring. apply trip_27; [assumption..|]. lia. }
    assert (N0 : x <> 0) by (intros ->; apply N27; exists 0; reflexivity).
    pose proof (moved_remainder r k _ Hk Hr Rx E) as M. destruct (trip_step r _ _ S7 _ Hr Rx) as [Sp Sn]. fold g in Sp, Sn.
    split; [split; [exact N27|]|split; [lia|]].
    + replace (s * x <? 0) with neg in M; [replace (Z.abs (s * x)) with x in M; [exact M|]|]; clear M;
        subst s neg; destruct (Z.ltb_spec c 0); lia.
    + clear M. subst s neg. destruct (Z.ltb_spec c 0); lia.
  - intros (C6 & (D0 & M0 & R0) & (D1 & M1 & R1) & (D2 & M2 & R2) & (D3 & M3 & R3) & (D4 & M4 & R4) & (_ & M5 & R5)).
    set (C := Z.abs c) in *. clearbody C neg. clear Ec Hr Hc Hb Hs s.
    assert (O1 : order neg (C - 1) = order neg C) by (apply order_steady; [lia|exact D0]).
    assert (O2 : order neg (C - 2) = order neg C) by (rewrite <- O1; replace (C - 2) with (C - 1 - 1) by lia; apply order_steady; [lia|exact D1]).
    assert (O3 : order neg (C - 3) = order neg C) by (rewrite <- O2; replace (C - 3) with (C - 2 - 1) by lia; apply order_steady; [lia|exact D2]).
    assert (O4 : order neg (C - 4) = order neg C) by (rewrite <- O3; replace (C - 4) with (C - 3 - 1) by lia; apply order_steady; [lia|exact D3]).
    assert (O5 : order neg (C - 5) = order neg C) by (rewrite <- O4; replace (C - 5) with (C - 4 - 1) by lia; apply order_steady; [lia|exact D4]).
    rewrite O1 in R1. rewrite O2 in R2. rewrite O3 in R3. rewrite O4 in R4. rewrite O5 in R5.
    apply (six_remainders (2 ^ (16 - order neg C)) C M0 M1 M2 M3 M4 M5); try assumption. clear. unfold order.
    destruct neg; repeat match goal with |- context [?a <? ?b] => destruct (a <? b) end; cbn; tauto.
Qed.

(** Every range. *)
Lemma trip_five_any r b n c : base_span r = Some (b, n) -> -32768 <= c <= 32767 ->
  trip b n S7 (repeated 5 (trip b n S7) c) = repeated 5 (trip b n S7) c.
Proof.
  intros Hr Hc. assert (Nr : r <> UI_Disabled) by (intros ->; discriminate).
  destruct (offset_span r Nr) as [(n' & H)|(k & Hk & H)].
  - destruct (from_zero_span _ _ H) as [Hs _]. rewrite Hs in Hr. apply Some_inj in Hr. apply pair_inj in Hr. destruct Hr as [<- <-].
    exact (trip_five r n' c H Hc).
  - pose proof H as H'. rewrite Hr in H'. apply Some_inj in H'. apply pair_inj in H'. destruct H' as [-> ->]. exact (trip_five_offset r k c Hk H Hc).
Qed.

Lemma repeated_five r b n c i : base_span r = Some (b, n) -> -32768 <= c <= 32767 ->
  Z.abs (repeated i (trip b n S7) c - c) <= 5 /\
  ((5 <= i)%nat -> trip b n S7 (repeated i (trip b n S7) c) = repeated i (trip b n S7) c).
Proof.
  intros Hr Hc. pose proof (trip_five_any r b n c Hr Hc) as F. set (g := trip b n S7) in *.
  assert (G : forall c, -32768 <= c <= 32767 -> (0 <= c -> c - 1 <= g c <= c /\ 0 <= g c) /\ (c <= 0 -> c <= g c <= c + 1 /\ g c <= 0))
    by (intros x Hx; apply (trip_step r); assumption).
  assert (Y : forall q, repeated (q + 5) g c = repeated 5 g c).
  { induction q as [|q IH]; [reflexivity|]. change (repeated (S q + 5) g c) with (g (repeated (q + 5) g c)). rewrite IH. exact F. }
  assert (S : forall q, -32768 <= repeated q g c <= 32767 /\ Z.abs (repeated q g c - c) <= Z.of_nat q).
  { induction q as [|q IH]; cbn [repeated]; [lia|]. set (x := repeated q g c) in *. destruct (G x) as [A B]; [lia|].
    destruct (Z.le_ge_cases 0 x); lia. }
  split.
  - destruct (Nat.le_gt_cases 5 i) as [L|L].
    + replace i with (i - 5 + 5)%nat by lia. rewrite Y. apply (S 5%nat).
    + pose proof (proj2 (S i)). lia.
  - intros L. replace i with (i - 5 + 5)%nat by lia. rewrite Y. exact F.
Qed.

(** ** Modules *)

Lemma C20_all : forall m k r n data data' d d', analog_output m k = Some (r, S7) -> r <> UI_Disabled ->
  rewrites_n m n data data' -> nth_error data k = Some d -> nth_error data' k = Some d' -> is_u16 d ->
  is_u16 d' /\ towards_zero (signed d) (signed d') /\
  (n = 1%nat -> Z.abs (signed d' - signed d) <= 1) /\
  (forall j, towards_zero (signed d) (27 * j) -> towards_zero (signed d') (27 * j)) /\
  Z.abs (signed d' - signed d) <= 5 /\
  (forall j, signed d = 27 * j -> d' = d) /\
  (forall data'' d'', (5 <= n)%nat -> rewrites m data' data'' -> nth_error data'' k = Some d'' -> d'' = d').
Proof.
  intros m k r n data data' d d' Ha Hr Hn Hd Hd' Hu.
  destruct (base_span r) as [[b s]|] eqn:Er; [|destruct r; try discriminate; congruence].
  destruct (rewrites_n_channel m k r b s Ha Er n data data' Hn d d' Hu Hd Hd') as [U' E].
  destruct (base_span_range _ _ _ Er) as [Hb Hs]. pose proof (signed_range d Hu) as Hc. change (u16_as_i16 d) with (signed d) in Hc.
  assert (G : forall c, -32768 <= c <= 32767 ->
    (0 <= c -> c - 1 <= trip b s S7 c <= c /\ 0 <= trip b s S7 c) /\ (c <= 0 -> c <= trip b s S7 c <= c + 1 /\ trip b s S7 c <= 0))
    by (intros c Hc'; apply (trip_step r); assumption).
  assert (G27 : forall j, -32768 <= 27 * j <= 32767 -> trip b s S7 (27 * j) = 27 * j) by (intros j Hj; apply trip_27; assumption).
  pose proof (iter_between _ G G27 n (signed d) Hc) as B. rewrite <- E in B.
  assert (J : forall j, towards_zero (signed d) (27 * j) -> towards_zero (signed d') (27 * j)).
  { intros j Hj. pose proof (iter_27 _ G G27 n (signed d) j Hc) as [L U]. rewrite <- E in L, U. unfold towards_zero in *. lia. }
  split; [exact U'|]. split; [exact B|]. split; [|split; [exact J|split; [|split]]].
  - intros ->. cbn [repeated] in E. rewrite E. destruct (G (signed d) Hc) as [P N].
    destruct (Z.le_ge_cases 0 (signed d)) as [S|S]; lia.
  - rewrite E. apply (repeated_five r b s (signed d) n Er Hc).
  - intros j Hj. apply signed_inj; [assumption..|]. pose proof (J j) as J1. unfold towards_zero in *. lia.
  - intros data'' d'' H5 Hw Hd''. pose proof (rewrite_channel _ _ _ _ _ _ _ _ Ha Hw Hd' Hd'') as X. rewrite Er in X.
    destruct X as [U'' X]. apply signed_inj; [assumption..|]. rewrite X. change (u16_as_i16 d') with (signed d'). rewrite E.
    apply (repeated_five r b s (signed d) n Er Hc). exact H5.
Qed.
