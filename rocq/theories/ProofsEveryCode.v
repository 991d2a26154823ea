(** Proofs that every code of an analog output can be requested (C111). *)
From Coq Require Import ZArith Reals List Bool Lia Lra Psatz SpecFloat.
From Flocq Require Import Core BinarySingleNaN.
From Verif Require Import Base Facts F32 Types Lib Util Digital Analog Fcnt Com Fbc SpecCodec SpecSerial SpecCoupler SpecImage SpecAnalog SpecFeedback SpecGlitch SpecKeep SpecHold SpecEveryCode
  ProofsLoop ProofsModule ProofsCoupler ProofsFloat ProofsAnalog ProofsReadback ProofsKeep ProofsHold.
Import ListNotations.
Local Open Scope Z_scope.

Lemma inside_bound c t : -32768 <= c <= 32767 -> inside c t -> (Rabs t <= 32770)%R.
Proof.
  intros [L U] H. apply IZR_le in L, U. apply Rabs_le. destruct H as [[_ H]|[_ H]]; lra.
Qed.

Lemma inside_trunc c t w : inside c t -> (Rabs (w - t) < / 100)%R -> Ztrunc w = c.
Proof.
  intros H Hw. apply Rabs_def2 in Hw. destruct H as [[P H]|[P H]]; apply IZR_le in P.
  - rewrite Ztrunc_floor by lra. apply Zfloor_imp. rewrite plus_IZR. lra.
  - rewrite Ztrunc_ceil by lra. apply Zceil_imp. rewrite minus_IZR. lra.
Qed.

Lemma C111_rule_all m k r f base span x d c :
  analog_output m k = Some (r, f) -> base_span r = Some (base, span) -> sends m k (Decimal32 x) d ->
  f32_valid x = true -> finite x -> -32768 <= c <= 32767 ->
  inside c (exact_code base span (full_code f) (real x)) -> signed d = c.
Proof.
  intros Ea Eb Hs V F Hc Hi. pose proof (sent_code _ _ _ _ _ _ Ea Hs) as E. rewrite Eb in E. destruct E as [_ ->].
  destruct (base_span_range _ _ _ Eb) as [Hb Hn].
  destruct (encoded_value base span f x (real x) Hb Hn) as (w & Hw & ->).
  - split; [exact V|]. split; [exact F|reflexivity].
  - exact (inside_bound _ _ Hc Hi).
  - rewrite (inside_trunc _ _ _ Hi Hw). unfold clamp_i16. lia.
Qed.

(** ** A value in the middle *)

Definition away (c : Z) : Z := if c <? 0 then 2 * c - 1 else 2 * c + 1.
Definition middle (b n : Z) (f : data_format) (c : Z) : f32 :=
  f32_add (f32_div (f32_div (f32_mul (f32_of_Z (away c)) (f32_of_Z n)) (factor f)) (f32_of_Z 2)) (f32_of_Z b).

Lemma away_bound c : -32768 <= c <= 32767 -> -65537 <= away c <= 65537.
Proof. unfold away. destruct (Z.ltb_spec c 0); lia. Qed.

Lemma middle_value b n f c : 0 <= b <= 4 -> 4 <= n <= 20 -> -32768 <= c <= 32767 ->
  exists v, exactly (middle b n f c) v /\ (Rabs (exact_code b n (full_code f) v - IZR (away c) / 2) <= 6 / 100)%R.
Proof.
  intros Hb Hn Hc. pose proof (away_bound _ Hc) as Ht. unfold middle, exact_code. set (t := away c) in *.
  set (F := IZR (full_code f)). set (N := IZR n). set (T := IZR t). set (B := IZR b).
  assert (HF : (16384 <= F <= 27648)%R) by (subst F; destruct f; cbn [full_code]; lra).
  assert (HN : (4 <= N <= 20)%R) by (subst N; split; apply IZR_le; lia).
  assert (HB : (0 <= B <= 4)%R) by (subst B; split; apply IZR_le; lia).
  assert (IN : (/ 20 <= / N <= / 4)%R) by (split; apply Rinv_le; lra).
  assert (IF : (/ 27648 <= / F <= / 16384)%R) by (split; apply Rinv_le; lra).
  assert (HT : (Rabs T <= 65537)%R) by (apply (abs_Z_le t 65537); lia).
  assert (Q : exactly (f32_div (f32_mul (f32_of_Z t) (f32_of_Z n)) (factor f)) (rnd (N * T / F))) by (apply scaled_exact; nia).
  set (e := (N * T / F)%R) in *. pose proof bpow_m150 as M. set (eta := bpow radix2 (-150)) in *.
  assert (Be : (Rabs e <= 82)%R).
  { subst e. unfold Rdiv. rewrite !Rabs_mult, (Rabs_pos_eq N), (Rabs_pos_eq (/ F)) by lra. pose proof (Rabs_pos T).
    assert (N * Rabs T <= 20 * 65537)%R by nra. assert (0 <= N * Rabs T)%R by nra. nra. }
  pose proof (rnd_abs e) as R1. fold eta in R1.
  assert (B1 : (Rabs (rnd e) <= 83)%R).
  { replace (rnd e) with ((rnd e - e) + e)%R by ring. apply Rle_trans with (1 := Rabs_triang _ _). lra. }
  assert (E2 : exactly (f32_of_Z 2) 2) by (apply of_Z_exact; lia).
  set (h := (rnd e / 2)%R).
  assert (Bh : (Rabs h <= 42)%R).
  { subst h. unfold Rdiv. rewrite Rabs_mult, (Rabs_pos_eq (/ 2)) by lra. lra. }
  assert (H : exactly (f32_div (f32_div (f32_mul (f32_of_Z t) (f32_of_Z n)) (factor f)) (f32_of_Z 2)) (rnd h)).
  { apply no_overflow; [apply (rounds_div _ _ _ _ Q E2); lra|]. fold h.
    apply Rle_trans with (bpow radix2 7); [change (bpow radix2 7) with 128%R; lra|apply bpow_le; lia]. }
  pose proof (rnd_abs h) as R2. fold eta in R2.
  assert (B2 : (Rabs (rnd h) <= 43)%R).
  { replace (rnd h) with ((rnd h - h) + h)%R by ring. apply Rle_trans with (1 := Rabs_triang _ _). lra. }
  assert (Eb : exactly (f32_of_Z b) B) by (apply of_Z_small; lia).
  assert (B3 : (Rabs (rnd h + B) <= 47)%R).
  { apply Rle_trans with (1 := Rabs_triang _ _). rewrite (Rabs_pos_eq B) by lra. lra. }
  exists (rnd (rnd h + B)). split.
  { apply no_overflow; [apply rounds_add; assumption|].
    apply Rle_trans with (bpow radix2 7); [change (bpow radix2 7) with 128%R; lra|apply bpow_le; lia]. }
  pose proof (rnd_abs (rnd h + B)) as R3. fold eta in R3.
  set (y := (rnd (rnd h + B) - (rnd h + B))%R) in *.
  replace (F * (rnd (rnd h + B) - B) / N - T / 2)%R with (F * / N * (y + ((rnd h - h) + (rnd e - e) * / 2)))%R.
  2:{ subst y. subst h. subst e. field. lra. }
  rewrite Rabs_mult, (Rabs_pos_eq (F * / N)) by nra.
  assert (D : (Rabs (y + ((rnd h - h) + (rnd e - e) * / 2)) <= 8 / 1000000)%R).
  { apply Rle_trans with (1 := Rabs_triang _ _).
    assert (Rabs ((rnd h - h) + (rnd e - e) * / 2) <= Rabs (rnd h - h) + Rabs ((rnd e - e) * / 2))%R by apply Rabs_triang.
    rewrite (Rabs_mult (rnd e - e)), (Rabs_pos_eq (/ 2)) in H0 by lra. lra. }
  assert (G : (0 <= F * / N <= 6912)%R) by (split; nra).
  pose proof (Rabs_pos (y + ((rnd h - h) + (rnd e - e) * / 2))). nra.
Qed.

Lemma middle_inside c t : (Rabs (t - IZR (away c) / 2) <= 6 / 100)%R -> inside c t /\ (Rabs (t - IZR c) <= 56 / 100)%R.
Proof.
  unfold away, inside. intros H. apply Rabs_le_inv in H. destruct (Z.ltb_spec c 0).
  - rewrite minus_IZR, mult_IZR in H. split; [right; split; [lia|lra]|apply Rabs_le; lra].
  - rewrite plus_IZR, mult_IZR in H. split; [left; split; [lia|lra]|apply Rabs_le; lra].
Qed.

Lemma middle_of r base span f d : base_span r = Some (base, span) -> is_u16 d ->
  exists x, f32_valid x = true /\ finite x /\ inside (signed d) (exact_code base span (full_code f) (real x)) /\
    (Rabs (exact_code base span (full_code f) (real x) - IZR (signed d)) <= 56 / 100)%R.
Proof.
  intros Eb Hd. destruct (base_span_range _ _ _ Eb) as [Hb Hn]. pose proof (signed_range d Hd) as Hc.
  change (u16_as_i16 d) with (signed d) in Hc.
  destruct (middle_value base span f (signed d) Hb Hn Hc) as (v & (V & F & E) & H).
  exists (middle base span f (signed d)). rewrite E. split; [exact V|]. split; [exact F|]. apply middle_inside. exact H.
Qed.

Lemma signed_inj d d' : is_u16 d -> is_u16 d' -> signed d = signed d' -> d = d'.
Proof. unfold is_u16, signed. destruct (Z.ltb_spec d 32768), (Z.ltb_spec d' 32768); lia. Qed.

Lemma C111_every_all m k r f base span d :
  all_analog_outputs m -> analog_output m k = Some (r, f) -> base_span r = Some (base, span) -> is_u16 d ->
  exists x, f32_valid x = true /\ finite x /\ sends m k (Decimal32 x) d /\
    (Rabs (exact_code base span (full_code f) (real x) - IZR (signed d)) <= 56 / 100)%R.
Proof.
  intros Hm Ea Eb Hd. destruct (middle_of r base span f d Eb Hd) as (x & V & F & I & D). exists x.
  split; [exact V|]. split; [exact F|]. split; [|exact D].
  assert (Hk : (k < 4)%nat) by (apply Hm; rewrite Ea; discriminate).
  assert (Ch : channels m = 4%nat) by (destruct m; try discriminate; reflexivity).
  destruct (proj1 C17_all Debug m (repeat (Decimal32 x) 4)) as (data & Hdata & L).
  - rewrite Ch. lia.
  - rewrite Ch. exact Hm.
  - rewrite Ch. apply repeat_length.
  - repeat constructor.
  - rewrite Ch in L. destruct (nth_error data k) as [d'|] eqn:E; [|apply nth_error_None in E; lia].
    assert (S : sends m k (Decimal32 x) d').
    { exists Debug, (repeat (Decimal32 x) 4), data. split; [exact Hdata|]. split; [|exact E].
      apply nth_error_repeat. exact Hk. }
    pose proof (sent_code _ _ _ _ _ _ Ea S) as X. rewrite Eb in X. destruct X as [Hd' _].
    rewrite (signed_inj d d' Hd Hd'); [exact S|]. symmetry.
    exact (C111_rule_all _ _ _ _ _ _ _ _ _ Ea Eb S V F (signed_range d Hd) I).
Qed.

Lemma C111_wire_all prof c i m o off k r f base span d :
  reachable prof c -> alone c i m o off -> analog_output m k = Some (r, f) -> base_span r = Some (base, span) -> is_u16 d ->
  exists x, f32_valid x = true /\ finite x /\
    (Rabs (exact_code base span (full_code f) (real x) - IZR (signed d)) <= 56 / 100)%R /\
    snd (set_output c (mk_address i k) (Decimal32 x)) = Ok tt /\
    forall input output c1 image, cycle prof (fst (set_output c (mk_address i k) (Decimal32 x))) input output c1 (Ok image) ->
      output_register image off k = Some d.
Proof.
  intros Hr Hal Ea Eb Hd. destruct (middle_of r base span f d Eb Hd) as (x & V & F & I & D). exists x.
  split; [exact V|]. split; [exact F|]. split; [exact D|].
  pose proof (alone_placed _ _ _ _ _ _ _ _ _ Hr Hal Ea) as (Hat & _ & Ha & _).
  assert (Ch : channels m = 4%nat) by (destruct m; try discriminate; reflexivity).
  assert (Hv : valid_address c (mk_address i k)).
  { exists m. split; [apply Hat|]. cbn [a_channel]. rewrite Ch. apply Ha. rewrite Ea. discriminate. }
  split; [rewrite set_output_valid by exact Hv; reflexivity|]. intros input output c1 image H.
  assert (Hr' : reachable prof (fst (set_output c (mk_address i k) (Decimal32 x)))) by (apply R_set; [exact Hr|exact V]).
  destruct (set_static c (mk_address i k) (Decimal32 x)) as (_ & _ & S1 & S2 & _).
  pose proof (alone_static _ _ _ _ _ _ S1 S2 Hal) as Hal'.
  destruct (tick_code _ _ _ _ _ _ _ _ _ _ _ _ _ Hr' H Hal' Ea) as (w0 & old & w & _ & _ & _ & Ew & Uw & S & _).
  rewrite set_requested in S by exact Hv.
  assert (address_eqb (mk_address i k) (mk_address i k) = true) as X by (destruct (address_eqb_spec (mk_address i k) (mk_address i k)); congruence).
  rewrite X in S. rewrite Ew. f_equal. apply signed_inj; [exact Uw|exact Hd|].
  exact (C111_rule_all _ _ _ _ _ _ _ _ _ Ea Eb S V F (signed_range d Hd) I).
Qed.
