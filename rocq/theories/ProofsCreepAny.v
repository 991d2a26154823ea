(** Proofs about the codes of format S7 that move, on all ranges (C20). *)
From Coq Require Import ZArith Reals List Bool Lia Lra Psatz SpecFloat.
From Flocq Require Import Core BinarySingleNaN.
From Verif Require Import Base Facts F32 Types Lib Util Digital Analog Fcnt Fbc SpecCodec SpecCoupler SpecAnalog SpecCreep ProofsModule ProofsFloat ProofsAnalog
  ProofsReadback ProofsCreep ProofsCreepOffset.
Import ListNotations.
Local Open Scope Z_scope.

Lemma binary_order P : 2 <= P -> exists e, 0 <= e /\ 2 ^ e < P <= 2 ^ (e + 1).
Proof.
  intros H. exists (Z.log2 (P - 1)). pose proof (Z.log2_spec (P - 1) ltac:(lia)) as L. pose proof (Z.log2_nonneg (P - 1)).
  rewrite Z.add_1_r. lia.
Qed.
Lemma order_unique P e e' : 0 <= e -> 0 <= e' -> 2 ^ e < P <= 2 ^ (e + 1) -> 2 ^ e' < P <= 2 ^ (e' + 1) -> e = e'.
Proof.
  intros He He' H H'. destruct (Z.lt_trichotomy e e') as [L|[E|L]]; [|exact E|]; exfalso.
  - assert (2 ^ (e + 1) <= 2 ^ e') by (apply Z.pow_le_mono_r; lia). lia.
  - assert (2 ^ (e' + 1) <= 2 ^ e) by (apply Z.pow_le_mono_r; lia). lia.
Qed.

Section Writing.
(** The span, the magnitude of the code and the distance of the value from the base. *)
Variables (n C : Z) (z : R) (e : Z).
Hypothesis Hn : 4 <= n <= 20.
Hypothesis HC : 1 <= C <= 32768.
Hypothesis Hz : (0 <= z)%R.
Hypothesis He : 0 <= e.
Hypothesis HP : 2 ^ e < C * n <= 2 ^ (e + 1).
Notation W := (rnd (rnd (27648 * z) / IZR n)).

Lemma order_small : e <= 19.
Proof.
  destruct (Z.le_gt_cases e 19) as [L|L]; [exact L|exfalso]. assert (2 ^ 20 <= 2 ^ e) by (apply Z.pow_le_mono_r; lia).
  change (2 ^ 20) with 1048576 in *. nia.
Qed.

Lemma short_moves : (27648 * z + bpow radix2 (e - 24) < IZR (C * n))%R -> (W < IZR C)%R.
Proof.
  intros H. pose proof order_small as E19. set (P := C * n) in *.
  assert (PR : (bpow radix2 e < IZR P <= bpow radix2 (e + 1))%R).
  { rewrite !bpow_Z by lia. split; [apply IZR_lt|apply IZR_le]; lia. }
  pose proof (bpow_gt_0 radix2 (e - 24)) as B24. pose proof (bpow_gt_0 radix2 (e - 23)) as B23.
  assert (D : (Rabs (rnd (27648 * z) - 27648 * z) <= bpow radix2 (e + 1 - 25))%R).
  { apply rnd_half; [lia|]. rewrite Rabs_pos_eq by lra. lra. }
  replace (e + 1 - 25) with (e - 24) in D by lia. apply Rabs_le_inv in D. set (Y := rnd (27648 * z)) in *.
  assert (Y0 : (0 <= Y)%R).
  { apply round_ge_generic; [typeclasses eauto..|apply generic_format_0|lra]. }
  assert (YP : (Y < IZR P)%R) by lra.
  assert (Gap : (bpow radix2 (e - 23) <= IZR P - Y)%R).
  { destruct (Rle_lt_dec (bpow radix2 e) Y) as [L|L].
    - destruct (rnd_multiple Y (e + 1)) as (M & EM); [lia|replace (e + 1 - 1) with e by lia; lra|].
      rewrite round_generic in EM; [|typeclasses eauto|apply generic_format_round; typeclasses eauto].
      replace (e + 1 - 24) with (e - 23) in EM by lia.
      assert (EP : IZR P = (IZR (P * 2 ^ (23 - e)) * bpow radix2 (e - 23))%R).
      { rewrite mult_IZR, <- bpow_Z, Rmult_assoc, <- bpow_plus by lia. replace (23 - e + (e - 23)) with 0 by lia. cbn [bpow]. ring. }
      rewrite EP, EM in YP |- *. apply Rmult_lt_reg_r in YP; [|exact B23]. apply lt_IZR in YP.
      assert (X : (1 <= IZR (P * 2 ^ (23 - e)) - IZR M)%R) by (rewrite <- minus_IZR; apply IZR_le; lia).
      rewrite <- Rmult_minus_distr_r. rewrite <- (Rmult_1_l (bpow radix2 (e - 23))) at 1. apply Rmult_le_compat_r; lra.
    - assert (X : (bpow radix2 e + 1 <= IZR P)%R) by (rewrite bpow_Z, <- plus_IZR by lia; apply IZR_le; lia).
      assert (bpow radix2 (e - 23) <= 1)%R by (change 1%R with (bpow radix2 0); apply bpow_le; lia). lra. }
  assert (Pn : (4 <= IZR n <= 20)%R) by (split; apply IZR_le; lia).
  assert (Ch : exists h, 0 <= h <= 15 /\ C <= 2 ^ h /\ 2 ^ h < 2 * C).
  { destruct (Z.eq_dec C 1) as [->|N]; [exists 0; change (2 ^ 0) with 1; lia|].
    destruct (binary_order C ltac:(lia)) as (g & Hg & G). exists (g + 1). rewrite Z.pow_add_r in * by lia. change (2 ^ 1) with 2 in *.
    split; [|lia]. split; [lia|]. destruct (Z.le_gt_cases (g + 1) 15) as [L|L]; [exact L|exfalso].
    assert (2 ^ 15 <= 2 ^ g) by (apply Z.pow_le_mono_r; lia). change (2 ^ 15) with 32768 in *. lia. }
  destruct Ch as (h & Hh & C1 & C2).
  assert (CY : (Y / IZR n <= IZR C - bpow radix2 (e - 23) / IZR n)%R).
  { apply Rmult_le_reg_r with (IZR n); [lra|]. replace (Y / IZR n * IZR n)%R with Y by (field; lra).
    replace ((IZR C - bpow radix2 (e - 23) / IZR n) * IZR n)%R with (IZR C * IZR n - bpow radix2 (e - 23))%R by (field; lra).
    rewrite <- mult_IZR. fold P. lra. }
  assert (Y1 : (0 <= Y / IZR n)%R) by (apply Rmult_le_pos; [exact Y0|left; apply Rinv_0_lt_compat; lra]).
  assert (Dn : (0 < bpow radix2 (e - 23) / IZR n)%R) by (apply Rdiv_lt_0_compat; lra).
  assert (C1R : (IZR C <= bpow radix2 h)%R) by (rewrite bpow_Z by lia; apply IZR_le; exact C1).
  assert (D2 : (Rabs (rnd (Y / IZR n) - Y / IZR n) <= bpow radix2 (h - 25))%R).
  { apply rnd_half; [lia|]. rewrite Rabs_pos_eq by exact Y1. lra. }
  apply Rabs_le_inv in D2.
  assert (Key : (bpow radix2 (h - 25) < bpow radix2 (e - 23) / IZR n)%R).
  { apply Rmult_lt_reg_r with (IZR n); [lra|]. replace (bpow radix2 (e - 23) / IZR n * IZR n)%R with (bpow radix2 (e - 23)) by (field; lra).
    replace (h - 25) with (h + -25) by lia. replace (e - 23) with (e + 1 + 1 + -25) by lia. rewrite (bpow_plus _ h), (bpow_plus _ (e + 1 + 1)).
    pose proof (bpow_gt_0 radix2 (-25)) as B25.
    replace (bpow radix2 h * bpow radix2 (-25) * IZR n)%R with (bpow radix2 h * IZR n * bpow radix2 (-25))%R by ring.
    apply Rmult_lt_compat_r; [exact B25|]. rewrite (bpow_Z h), (bpow_Z (e + 1 + 1)), <- mult_IZR by lia. apply IZR_lt.
    rewrite (Z.pow_add_r 2 (e + 1) 1) by lia. change (2 ^ 1) with 2. subst P. nia. }
  lra.
Qed.

Lemma long_stays : ~ (27648 * z + bpow radix2 (e - 24) < IZR (C * n))%R -> (IZR C <= W)%R.
Proof.
  intros H. pose proof order_small as E19. set (P := C * n) in *.
  assert (Pn : (4 <= IZR n <= 20)%R) by (split; apply IZR_le; lia).
  assert (X1 : (IZR (2 ^ e) + 1 <= IZR P <= IZR (2 ^ (e + 1)))%R) by (rewrite <- plus_IZR; split; apply IZR_le; lia).
  rewrite <- !bpow_Z in X1 by lia. pose proof (bpow_gt_0 radix2 (e - 24)) as B.
  assert (B1 : (bpow radix2 (e - 24) <= 1)%R) by (change 1%R with (bpow radix2 0); apply bpow_le; lia).
  assert (G : rnd (IZR P - bpow radix2 (e - 24)) = IZR P).
  { rewrite (rnd_grid _ (e + 1)); [| lia | replace (e + 1 - 1) with e by lia; lra].
    replace (24 - (e + 1)) with (23 - e) by lia. rewrite Rmult_minus_distr_r, <- bpow_plus. replace (e - 24 + (23 - e)) with (-1) by lia.
    change (bpow radix2 (-1)) with (/ 2)%R. rewrite (bpow_Z (23 - e)), <- mult_IZR by lia. rewrite near_below.
    - rewrite mult_IZR, <- bpow_Z, Rmult_assoc, <- bpow_plus by lia. replace (23 - e + (e + 1 - 24)) with 0 by lia. cbn [bpow]. ring.
    - rewrite Z.even_mul. replace (23 - e) with (1 + (22 - e)) by lia. rewrite Z.pow_add_r, Z.even_mul by lia. cbn. apply orb_true_r. }
  assert (Y : (IZR P <= rnd (27648 * z))%R) by (rewrite <- G; apply round_le; [typeclasses eauto..|lra]).
  rewrite <- (rnd_Z C) at 1 by lia. apply round_le; [typeclasses eauto..|].
  apply Rmult_le_reg_r with (IZR n); [lra|]. replace (rnd (27648 * z) / IZR n * IZR n)%R with (rnd (27648 * z)) by (field; lra).
  rewrite <- mult_IZR. exact Y.
Qed.
End Writing.

Lemma bpow_powerRZ e : powerRZ 2 e = bpow radix2 e.
Proof. symmetry. apply (bpow_powerRZ radix2). Qed.

(** What is written, by the distance of the value read back from the base. *)
Lemma trip_by_value r b n c z : base_span r = Some (b, n) -> -32768 <= c <= 32767 -> c <> 0 -> (0 <= z)%R ->
  trip b n S7 c = clamp_i16 (Z.sgn c * Ztrunc (rnd (rnd (27648 * z) / IZR n))) ->
  (forall v, (Rabs (v - IZR b) = z)%R -> falls_short b n c v -> trip b n S7 c = one_less c) /\
  (forall v, (Rabs (v - IZR b) = z)%R -> ~ falls_short b n c v -> trip b n S7 c = c).
Proof.
  intros Hr Hc N0 Hz T. destruct (base_span_range _ _ _ Hr) as [Hb Hn]. destruct (trip_step r b n S7 c Hr Hc) as [Sp Sn].
  destruct (binary_order (Z.abs c * n)) as (e & He & HP); [nia|].
  unfold one_less. split; intros v Ev F.
  - destruct F as (e' & He' & HP' & F). assert (e' = e) by (apply (order_unique (Z.abs c * n)); assumption). subst e'.
    rewrite Ev, bpow_powerRZ in F. apply (short_moves n (Z.abs c) z e Hn ltac:(lia) Hz He HP) in F. apply Ztrunc_lt in F; [|lia].
    set (w := Ztrunc _) in *. rewrite T in *. unfold clamp_i16 in *. destruct (Z.lt_trichotomy c 0) as [L|[L|L]]; [|lia|].
    + rewrite (Z.sgn_neg c L) in *. lia.
    + rewrite (Z.sgn_pos c L) in *. lia.
  - assert (F' : ~ (27648 * z + bpow radix2 (e - 24) < IZR (Z.abs c * n))%R).
    { intros X. apply F. exists e. rewrite Ev, bpow_powerRZ. auto. }
    apply (long_stays n (Z.abs c) z e Hn ltac:(lia) He HP) in F'. apply Ztrunc_ge in F'.
    set (w := Ztrunc _) in *. rewrite T in *. unfold clamp_i16 in *. destruct (Z.lt_trichotomy c 0) as [L|[L|L]]; [|lia|].
    + rewrite (Z.sgn_neg c L) in *. lia.
    + rewrite (Z.sgn_pos c L) in *. lia.
Qed.

Lemma trip_by_sign b n c u : c <> 0 -> (0 <= IZR (Z.sgn c) * u)%R ->
  trip b n S7 c = clamp_i16 (Ztrunc (rnd (rnd (27648 * u) / IZR n))) ->
  (0 <= Rabs u)%R /\ trip b n S7 c = clamp_i16 (Z.sgn c * Ztrunc (rnd (rnd (27648 * Rabs u) / IZR n))).
Proof.
  intros N0 S T. split; [apply Rabs_pos|]. rewrite T. f_equal. destruct (Z.lt_trichotomy c 0) as [L|[L|L]]; [|lia|].
  - rewrite (Z.sgn_neg c L) in *. rewrite (Rabs_left1 u) by lra. replace (27648 * - u)%R with (- (27648 * u))%R by ring. rewrite round_NE_opp.
    replace (- rnd (27648 * u) / IZR n)%R with (- (rnd (27648 * u) / IZR n))%R by (unfold Rdiv; ring). rewrite round_NE_opp, Ztrunc_opp. lia.
  - rewrite (Z.sgn_pos c L) in *. rewrite (Rabs_pos_eq u) by lra. lia.
Qed.

Lemma order_bound neg C : 0 <= order neg C <= 3.
Proof. unfold order. destruct neg; repeat match goal with |- context [?a <? ?b] => destruct (a <? b) end; lia. Qed.

(** The value read back, and what is written for it. *)
Lemma trip_value r b n c : base_span r = Some (b, n) -> -32768 <= c <= 32767 -> c <> 0 ->
  exists u, exactly (decode b n S7 c) (IZR b + u) /\ (0 <= IZR (Z.sgn c) * u)%R /\
    trip b n S7 c = clamp_i16 (Ztrunc (rnd (rnd (27648 * u) / IZR n))).
Proof.
  intros Hr Hc N0. assert (Hd : r <> UI_Disabled) by (intros ->; discriminate).
  destruct (offset_span r Hd) as [(n' & Hz)|(k & Hk & Hs)].
  - destruct (from_zero_span _ _ Hz) as [Hs Hn]. rewrite Hs in Hr. apply Some_inj, pair_inj in Hr. destruct Hr as [<- <-].
    exists (rnd (IZR n' * IZR c / 27648)). split; [|split].
    + rewrite Rplus_0_l. apply (decode_zero c n' S7); lia.
    + assert (P : (4 <= IZR n')%R) by (apply IZR_le; lia). destruct (Z.lt_trichotomy c 0) as [L|[L|L]]; [|lia|].
      * rewrite (Z.sgn_neg c L). assert (IZR c < 0)%R by (apply IZR_lt; exact L).
        assert (rnd (IZR n' * IZR c / 27648) <= 0)%R by (apply round_le_generic; [typeclasses eauto..|apply generic_format_0|nra]). lra.
      * rewrite (Z.sgn_pos c L). assert (0 < IZR c)%R by (apply IZR_lt; exact L).
        assert (0 <= rnd (IZR n' * IZR c / 27648))%R by (apply round_ge_generic; [typeclasses eauto..|apply generic_format_0|nra]). lra.
    + apply (trip_creep n' c ltac:(lia) Hc).
  - rewrite Hs in Hr. apply Some_inj, pair_inj in Hr. destruct Hr as [<- <-].
    pose proof (trip_offset k c Hk Hc) as T. cbn zeta in T.
    assert (Hb : 1 <= 2 ^ k <= 4) by (assert (k = 0 \/ k = 1 \/ k = 2) as [E|[E|E]] by lia; rewrite E; lia).
    destruct (decode_offset c (4 * 2 ^ k) (2 ^ k) S7 Hc ltac:(lia) ltac:(lia)) as [_ D]. cbn zeta in D. change (IZR (full_code S7)) with 27648%R in D.
    set (neg := c <? 0). set (C := Z.abs c). assert (HC : 1 <= C <= 32768) by (subst C; lia).
    destruct (settles_order k neg C Hk HC) as (M & Ex & Ey & B). set (e := order neg C) in *.
    assert (He : 0 <= e <= 3) by apply order_bound.
    set (sg := if neg then (-1)%R else 1%R) in *.
    assert (Ec : IZR c = (sg * IZR C)%R).
    { subst sg C neg. destruct (Z.ltb_spec c 0); [rewrite Z.abs_neq, opp_IZR by lia|rewrite Z.abs_eq by lia]; lra. }
    assert (Eb : IZR (2 ^ k) = bpow radix2 k) by (symmetry; apply bpow_Z; lia).
    assert (En : IZR (4 * 2 ^ k) = (4 * bpow radix2 k)%R) by (rewrite mult_IZR, Eb; reflexivity).
    assert (Rs : forall x, rnd (sg * x) = (sg * rnd x)%R).
    { intros x. subst sg. destruct neg; [|rewrite !Rmult_1_l; reflexivity]. replace (-1 * x)%R with (- x)%R by ring. rewrite round_NE_opp. ring. }
    assert (EQ : (rnd (rnd (IZR (4 * 2 ^ k) * IZR c / 27648) + IZR (2 ^ k)) = rnd (bpow radix2 k + sg * rnd (bpow radix2 k * IZR C / 6912)))%R).
    { rewrite En, Eb, Ec. replace (4 * bpow radix2 k * (sg * IZR C) / 27648)%R with (sg * (bpow radix2 k * IZR C / 6912))%R by field.
      rewrite Rs, Rplus_comm. reflexivity. }
    rewrite EQ in T, D. set (y := rnd (bpow radix2 k + sg * _)) in *. rewrite <- Ex in Ey.
    exists (y - bpow radix2 k)%R. split; [|split].
    + unfold decode. destruct (Z.eqb_spec (2 ^ k) 0) as [X|_]; [lia|]. rewrite Eb. replace (bpow radix2 k + (y - bpow radix2 k))%R with y by ring. exact D.
    + rewrite Ex. assert (M0 : 0 <= M).
      { assert (2 ^ 13 <= 2 ^ (16 - e)) by (apply Z.pow_le_mono_r; lia). change (2 ^ 13) with 8192 in *. nia. }
      apply IZR_le in M0. pose proof (bpow_gt_0 radix2 (k + e - 24)) as P.
      assert (S : (IZR (Z.sgn c) * sg = 1)%R).
      { subst sg neg. destruct (Z.ltb_spec c 0); [rewrite Z.sgn_neg by lia|rewrite Z.sgn_pos by lia]; lra. }
      rewrite <- Rmult_assoc, S. rewrite Rmult_1_l. apply Rmult_le_pos; lra.
    + rewrite T, Eb, Ey. reflexivity.
Qed.

(** ** Modules *)

Lemma C20_any_all : forall m k r base span data data' d d' x, analog_output m k = Some (r, S7) -> base_span r = Some (base, span) ->
  rewrites m data data' -> nth_error data k = Some d -> nth_error data' k = Some d' -> is_u16 d -> reads_back m k d (Decimal32 x) ->
  is_u16 d' /\
  (falls_short base span (signed d) (real x) -> signed d' = one_less (signed d)) /\
  (~ falls_short base span (signed d) (real x) -> d' = d).
Proof.
  intros m k r b n data data' d d' x Ha Hr Hw Hd Hd' Hu Hx.
  pose proof (rewrite_channel _ _ _ _ _ _ _ _ Ha Hw Hd Hd') as X. rewrite Hr in X. destruct X as [U' X].
  pose proof (read_back_analog _ _ _ _ _ _ Ha Hx) as V. rewrite decode_is, Hr in V. cbn [analog_value] in V. injection V as V.
  change (u16_as_i16 d) with (signed d) in X, V. pose proof (signed_range d Hu) as Hc. change (u16_as_i16 d) with (signed d) in Hc.
  split; [exact U'|]. set (c := signed d) in *. destruct (Z.eq_dec c 0) as [Z0|N0].
  - split; intros F.
    + exfalso. destruct F as (e & He & P & _). rewrite Z0 in P. cbn [Z.abs Z.mul] in P. pose proof (Z.pow_pos_nonneg 2 e). lia.
    + destruct (trip_step r b n S7 c Hr Hc) as [A B]. apply signed_inj; [assumption..|]. fold c. lia.
  - destruct (trip_value r b n c Hr Hc N0) as (u & Eu & Su & T). rewrite <- V in Eu. destruct Eu as (_ & _ & Eu).
    destruct (trip_by_sign b n c u N0 Su T) as [Pu T']. destruct (trip_by_value r b n c (Rabs u) Hr Hc N0 Pu T') as [A B].
    assert (Ex : Rabs (real x - IZR b) = Rabs u) by (rewrite Eu; f_equal; ring).
    split; intros F; [rewrite X; exact (A _ Ex F)|]. apply signed_inj; [assumption..|]. fold c. rewrite X. exact (B _ Ex F).
Qed.
