(** Proofs about the analog channels: C16, C17, C18, C21, C22. *)
From Coq Require Import ZArith Reals List Bool Lia Lra SpecFloat.
From Flocq Require Import Core Relative BinarySingleNaN.
From Verif Require Import Base Facts F32 Types Lib Util Digital Analog Fcnt Fbc SpecCodec SpecCoupler SpecAnalog ProofsModule ProofsFloat.
Import ListNotations.
Local Open Scope Z_scope.

(** ** From modules to values *)

Lemma traverse_nth {A B} (f : A -> outcome B) l r k a b : traverse f l = Ok r ->
  nth_error l k = Some a -> nth_error r k = Some b -> f a = Ok b.
Proof.
  intros H Ha Hb. apply traverse_ok in H. apply Forall2_nth_error in H. destruct H as [_ H]. exact (H k a b Ha Hb).
Qed.

Lemma seq_nth {B} n k r (f : nat -> outcome B) b : traverse f (seq 0 n) = Ok r -> nth_error r k = Some b -> f k = Ok b.
Proof.
  intros H Hb. apply (traverse_nth f (seq 0 n) r k k b H); [|exact Hb].
  apply nth_error_Some_lt in Hb. apply traverse_length in H. rewrite seq_length in H.
  rewrite nth_error_seq. destruct (Nat.ltb_spec k n); [reflexivity|lia].
Qed.

Lemma map_some {A B} (f : A -> B) o b : option_map f o = Some b -> exists a, o = Some a /\ f a = b.
Proof. destruct o as [a|]; [|discriminate]. intros H. apply Some_inj in H. exists a. auto. Qed.

Lemma current_value d r f : ai_i_value d r f = analog_value (u16_to_analog_ui_value d (current_range r) f).
Proof. destruct r; reflexivity. Qed.

Lemma shown_analog m k d v r f : analog_input m k = Some (r, f) -> shows m k d v ->
  v = analog_value (u16_to_analog_ui_value d r f).
Proof.
  intros S (data & vs & H & Hd & Hv).
  destruct m; try discriminate; cbn [analog_input] in S; apply map_some in S; destruct S as (p & Hp & E); apply pair_inj in E;
    destruct E as [E1 E2]; cbn [mod_process_input_data] in H.
  - unfold ai_ui_diag_process_input_data in H. split_if H. split_if H.
    pose proof (seq_nth _ _ _ _ _ H Hv) as X. cbn beta in X. unfold index in X. rewrite Hd, Hp in X. cbn [bind] in X.
    apply Ok_inj in X. congruence.
  - unfold ai_ui_process_input_data in H. split_if H. split_if H.
    pose proof (seq_nth _ _ _ _ _ H Hv) as X. cbn beta in X. unfold index in X. rewrite Hd, Hp in X. cbn [bind] in X.
    apply Ok_inj in X. congruence.
  - unfold ai_i_process_input_data in H. split_if H. split_if H.
    pose proof (seq_nth _ _ _ _ _ H Hv) as X. cbn beta in X. unfold index in X. rewrite Hd, Hp in X. cbn [bind] in X.
    apply Ok_inj in X. rewrite current_value in X. congruence.
Qed.

Lemma read_back_analog m k d v r f : analog_output m k = Some (r, f) -> reads_back m k d v ->
  v = analog_value (u16_to_analog_ui_value d r f).
Proof.
  intros S (data & vs & H & Hd & Hv).
  assert (He : nth_error (enumerate data) k = Some (k, d)) by (rewrite nth_error_enumerate, Hd; reflexivity).
  destruct m; try discriminate; cbn [analog_output] in S; apply map_some in S; destruct S as (p & Hp & E); apply pair_inj in E;
    destruct E as [E1 E2]; cbn [mod_process_output_data] in H.
  - unfold ao_process_output_data in H. split_if H.
    pose proof (traverse_nth _ _ _ _ _ _ H He Hv) as X. cbn beta iota in X. unfold index in X. rewrite Hp in X. cbn [bind] in X.
    apply Ok_inj in X. congruence.
  - unfold ao_diag_process_output_data in H. split_if H.
    pose proof (traverse_nth _ _ _ _ _ _ H He Hv) as X. cbn beta iota in X. unfold index in X. rewrite Hp in X. cbn [bind] in X.
    apply Ok_inj in X. congruence.
Qed.

Lemma sent_analog m k d v r f : analog_output m k = Some (r, f) -> sends m k v d -> value_to_u16 v r f = Ok d.
Proof.
  intros S (prof & values & data & H & Hv & Hd).
  assert (He : nth_error (enumerate values) k = Some (k, v)) by (rewrite nth_error_enumerate, Hv; reflexivity).
  destruct m; try discriminate; cbn [analog_output] in S; apply map_some in S; destruct S as (p & Hp & E); apply pair_inj in E;
    destruct E as [E1 E2]; cbn [mod_process_output_values] in H.
  - unfold ao_process_output_values in H. split_if H. split_if H.
    pose proof (traverse_nth _ _ _ _ _ _ H He Hd) as X. cbn beta iota in X. unfold index in X. rewrite Hp in X. cbn [bind] in X.
    congruence.
  - unfold ao_diag_process_output_values in H. split_if H. split_if H.
    pose proof (traverse_nth _ _ _ _ _ _ H He Hd) as X. cbn beta iota in X. unfold index in X. rewrite Hp in X. cbn [bind] in X.
    congruence.
Qed.

(** ** C16 *)

Lemma signed_range d : is_u16 d -> -32768 <= u16_as_i16 d <= 32767.
Proof. unfold is_u16, u16_as_i16. intros H. destruct (Z.ltb_spec d 32768); lia. Qed.

Lemma factor_exact f : exactly (factor f) (IZR (full_code f)).
Proof. destruct f; apply of_Z_exact; cbv; discriminate. Qed.

Lemma full_pos f : (0 < IZR (full_code f))%R.
Proof. destruct f; cbn [full_code]; lra. Qed.

(** the scaled code before the base is added *)
Lemma scaled_exact d n f : Z.abs (d * n) <= 2 ^ 24 -> Z.abs d <= 2 ^ 24 -> Z.abs n <= 2 ^ 24 ->
  exactly (f32_div (f32_mul (f32_of_Z d) (f32_of_Z n)) (factor f)) (rnd (IZR n * IZR d / IZR (full_code f))).
Proof.
  intros H Hd Hn. pose proof (mul_exact _ _ _ _ (of_Z_exact d Hd) (of_Z_exact n Hn) H) as M.
  pose proof (rounds_div _ _ _ _ M (factor_exact f) (full_pos f)) as D.
  rewrite mult_IZR, (Rmult_comm (IZR d)) in D. apply no_overflow; [exact D|].
  assert (B : (Rabs (IZR n * IZR d) <= IZR (2 ^ 24))%R).
  { rewrite <- mult_IZR. apply abs_Z_le. rewrite Z.mul_comm. exact H. }
  assert (P : (1 <= IZR (full_code f))%R) by (destruct f; cbn [full_code]; lra).
  unfold Rdiv. rewrite Rabs_mult. rewrite (Rabs_pos_eq (/ _)); [|left; apply Rinv_0_lt_compat; apply full_pos].
  assert (I : (/ IZR (full_code f) <= 1)%R) by (rewrite <- Rinv_1; apply Rinv_le; lra).
  assert (I0 : (0 < / IZR (full_code f))%R) by (apply Rinv_0_lt_compat; apply full_pos).
  assert (IZR (2 ^ 24) <= bpow radix2 127)%R by (apply (pow_le_127 _ 24); lia).
  pose proof (Rabs_pos (IZR n * IZR d)). nra.
Qed.


Lemma exact_abs c n f : -32768 <= c <= 32767 -> 0 <= n <= 20 -> (Rabs (IZR n * IZR c / IZR (full_code f)) <= 40)%R.
Proof.
  intros Hc Hn. rewrite <- mult_IZR. assert (B : Z.abs (n * c) <= 655360) by nia. apply abs_Z_le in B.
  unfold Rdiv. rewrite Rabs_mult. rewrite (Rabs_pos_eq (/ _)); [|left; apply Rinv_0_lt_compat; apply full_pos].
  assert (/ IZR (full_code f) <= / 16384)%R by (destruct f; cbn [full_code]; [lra|apply Rinv_le; lra]).
  assert (0 < / IZR (full_code f))%R by (apply Rinv_0_lt_compat; apply full_pos).
  pose proof (Rabs_pos (IZR (n * c))). nra.
Qed.

(** ranges that start at zero *)
Lemma decode_zero c n f : -32768 <= c <= 32767 -> 0 <= n <= 20 ->
  exactly (f32_div (f32_mul (f32_of_Z c) (f32_of_Z n)) (factor f)) (rnd (IZR n * IZR c / IZR (full_code f))).
Proof. intros Hc Hn. apply scaled_exact; nia. Qed.

(** ranges with an offset *)
Lemma decode_offset c n b f : -32768 <= c <= 32767 -> 0 <= n <= 20 -> 0 <= b <= 4 ->
  let q := f32_div (f32_mul (f32_of_Z c) (f32_of_Z n)) (factor f) in
  let e := (IZR n * IZR c / IZR (full_code f))%R in
  exactly q (rnd e) /\ exactly (f32_add q (f32_of_Z b)) (rnd (rnd e + IZR b)).
Proof.
  intros Hc Hn Hb q e. pose proof (decode_zero c n f Hc Hn) as Q. fold q e in Q. split; [exact Q|].
  assert (Eb : exactly (f32_of_Z b) (IZR b)) by (apply of_Z_exact; lia).
  apply no_overflow; [apply rounds_add; assumption|].
  pose proof (exact_abs c n f Hc Hn) as Be. fold e in Be.
  assert (B1 : (Rabs (rnd e) <= bpow radix2 6)%R).
  { apply rnd_bound; [lia|]. change (bpow radix2 6) with 64%R. lra. }
  apply Rle_trans with (1 := Rabs_triang _ _). change (bpow radix2 6) with 64%R in B1.
  assert (B2 : (Rabs (IZR b) <= 4)%R) by (apply (abs_Z_le b 4); lia).
  apply Rle_trans with (bpow radix2 7); [change (bpow radix2 7) with 128%R; lra|apply bpow_le; lia].
Qed.

Lemma offset_error c n b f : -32768 <= c <= 32767 -> 0 <= n <= 20 -> 0 <= b <= 4 ->
  let e := (IZR n * IZR c / IZR (full_code f))%R in
  (Rabs (rnd (rnd e + IZR b) - (IZR b + e)) <= / 131072)%R.
Proof.
  intros Hc Hn Hb e. pose proof (exact_abs c n f Hc Hn) as Be. fold e in Be.
  pose proof (rnd_abs e) as R1. pose proof (rnd_abs (rnd e + IZR b)) as R2. pose proof bpow_m150 as M.
  assert (B1 : (Rabs (rnd e) <= 64)%R) by (apply (rnd_bound e 6); [lia|change (bpow radix2 6) with 64%R; lra]).
  assert (B2 : (Rabs (IZR b) <= 4)%R) by (apply (abs_Z_le b 4); lia).
  assert (B3 : (Rabs (rnd e + IZR b) <= 68)%R) by (apply Rle_trans with (1 := Rabs_triang _ _); lra).
  replace (rnd (rnd e + IZR b) - (IZR b + e))%R with ((rnd (rnd e + IZR b) - (rnd e + IZR b)) + (rnd e - e))%R by ring.
  apply Rle_trans with (1 := Rabs_triang _ _). lra.
Qed.

(** format S5 is exact *)
Lemma rnd_S5 z : Z.abs z <= 2 ^ 24 -> rnd (IZR z / 16384) = (IZR z / 16384)%R.
Proof.
  intros H. change (IZR z / 16384)%R with (IZR z * bpow radix2 (-14))%R. apply rnd_scaled; [exact H|lia].
Qed.

Lemma value_S5 c n b : -32768 <= c <= 32767 -> 0 <= n <= 20 -> 0 <= b <= 4 ->
  rnd (rnd (IZR n * IZR c / IZR 16384) + IZR b) = (IZR b + IZR n * IZR c / IZR 16384)%R.
Proof.
  intros Hc Hn Hb. rewrite <- mult_IZR. rewrite rnd_S5 by nia.
  replace (IZR (n * c) / 16384 + IZR b)%R with (IZR (n * c + b * 16384) / 16384)%R by (rewrite plus_IZR, mult_IZR, mult_IZR; field).
  rewrite rnd_S5 by nia. rewrite plus_IZR, mult_IZR, mult_IZR. field.
Qed.

Lemma decoded_zero c n f : -32768 <= c <= 32767 -> 0 <= n <= 20 ->
  decoded 0 n (full_code f) c (f32_div (f32_mul (f32_of_Z c) (f32_of_Z n)) (factor f)).
Proof.
  intros Hc Hn. pose proof (decode_zero c n f Hc Hn) as D. unfold decoded, exact_value.
  set (e := (IZR n * IZR c / IZR (full_code f))%R) in *. rewrite Rplus_0_l.
  split; [intros _; apply exactly_nearest; exact D|]. split; [|split].
  - intros E. destruct D as (V & F & D). split; [exact V|]. split; [exact F|]. rewrite D. subst e. rewrite E.
    rewrite <- mult_IZR. apply rnd_S5. nia.
  - eexists. split; [apply exactly_nearest; exact D|]. apply exactly_nearest. rewrite Rplus_0_r.
    destruct D as (V & F & D). split; [exact V|]. split; [exact F|]. rewrite D. symmetry.
    apply round_generic; [typeclasses eauto|]. apply generic_format_round; typeclasses eauto.
  - destruct D as (V & F & D). rewrite D. pose proof (exact_abs c n f Hc Hn) as Be. fold e in Be.
    pose proof (rnd_abs e) as R1. pose proof bpow_m150 as M. lra.
Qed.

Lemma decoded_offset c n b f : -32768 <= c <= 32767 -> 0 <= n <= 20 -> 0 < b <= 4 ->
  decoded b n (full_code f) c (f32_add (f32_div (f32_mul (f32_of_Z c) (f32_of_Z n)) (factor f)) (f32_of_Z b)).
Proof.
  intros Hc Hn Hb. assert (Hb' : 0 <= b <= 4) by lia. destruct (decode_offset c n b f Hc Hn Hb') as [Q D].
  unfold decoded, exact_value.
  set (q := f32_div (f32_mul (f32_of_Z c) (f32_of_Z n)) (factor f)) in *.
  split; [lia|]. split; [|split].
  - intros E. destruct D as (V & F & D). split; [exact V|]. split; [exact F|]. rewrite D, E. apply value_S5; assumption.
  - exists q. split; [apply exactly_nearest; exact Q|]. destruct Q as (_ & _ & ->). apply exactly_nearest. exact D.
  - destruct D as (V & F & D). rewrite D. apply (offset_error c n b f); assumption.
Qed.

Lemma decode_all d r f : is_u16 d ->
  match base_span r with
  | Some (base, span) => exists x, u16_to_analog_ui_value d r f = Some x /\ decoded base span (full_code f) (signed d) x
  | None => u16_to_analog_ui_value d r f = None
  end.
Proof.
  intros Hd. pose proof (signed_range d Hd) as Hc. change (signed d) with (u16_as_i16 d).
  destruct r; cbn [base_span u16_to_analog_ui_value]; try reflexivity;
    (eexists; split; [reflexivity|]); first [apply decoded_zero; lia | apply decoded_offset; lia].
Qed.

Lemma C16_all : forall m k d v r f,
  analog_input m k = Some (r, f) /\ shows m k d v \/ analog_output m k = Some (r, f) /\ reads_back m k d v ->
  is_u16 d ->
  match base_span r with
  | None => v = Disabled
  | Some (base, span) => exists x, v = Decimal32 x /\ decoded base span (full_code f) (signed d) x
  end.
Proof.
  intros m k d v r f H Hd. assert (E : v = analog_value (u16_to_analog_ui_value d r f)).
  { destruct H as [[H1 H2]|[H1 H2]]; [exact (shown_analog _ _ _ _ _ _ H1 H2)|exact (read_back_analog _ _ _ _ _ _ H1 H2)]. }
  pose proof (decode_all d r f Hd) as D. destruct (base_span r) as [[base span]|].
  - destruct D as (x & Hx & D). exists x. rewrite E, Hx. auto.
  - rewrite E, D. reflexivity.
Qed.

Lemma settings_count {A B} (f : A -> B) (ch : list A) n :
  (forall k, (k < n)%nat <-> option_map f (nth_error ch k) <> None) -> length ch = n.
Proof.
  intros H. assert (X : forall k, (k < n)%nat <-> (k < length ch)%nat).
  { intros k. rewrite (H k). rewrite <- nth_error_Some. destruct (nth_error ch k); cbn [option_map]; split; congruence. }
  destruct (Nat.lt_trichotomy (length ch) n) as [L|[E|L]]; [|exact E|]; exfalso.
  - apply X in L. lia.
  - apply X in L. lia.
Qed.

Lemma traverse_total {A B} (f : A -> outcome B) l : (forall a, In a l -> exists b, f a = Ok b) ->
  exists r, traverse f l = Ok r.
Proof.
  induction l as [|a l IH]; intros H; cbn [traverse]; [eauto|].
  destruct (H a (or_introl eq_refl)) as (b & ->). cbn [bind].
  destruct IH as (r & ->); [intros x Hx; apply H; right; exact Hx|]. cbn [bind]. eauto.
Qed.

Lemma C16_total : forall m data, (0 < channels m)%nat -> length data = channels m ->
  ((forall k, (k < channels m)%nat <-> analog_input m k <> None) ->
     exists vs, mod_process_input_data m data = Ok vs /\ length vs = channels m) /\
  ((forall k, (k < channels m)%nat <-> analog_output m k <> None) ->
     exists vs, mod_process_output_data m data = Ok vs /\ length vs = channels m).
Proof.
  intros m data Hp Hd. split; intros H.
  - assert (exists vs, mod_process_input_data m data = Ok vs) as (vs & Hv).
    { destruct m; try (exfalso; apply (H O) in Hp; apply Hp; reflexivity); cbn [analog_input] in H; apply settings_count in H;
        cbn [mod_process_input_data].
      - unfold ai_ui_diag_process_input_data. change (channels (MUI16DIAG f ch)) with 4%nat in *. rewrite Hd, H. cbn [Nat.eqb negb].
        apply traverse_total. intros k Hk. apply in_seq in Hk.
        destruct (nth_error_lt_Some data k) as (x & Hx); [lia|]. destruct (nth_error_lt_Some ch k) as (q & Hq); [lia|].
        unfold index. rewrite Hx, Hq. cbn [bind]. eauto.
      - unfold ai_ui_process_input_data. replace (channels (MAIUI v f ch)) with (channel_count (ai_type v)) in * by (destruct v; reflexivity).
        rewrite Hd, H. rewrite Nat.eqb_refl. cbn [negb].
        apply traverse_total. intros k Hk. apply in_seq in Hk.
        destruct (nth_error_lt_Some data k) as (x & Hx); [lia|]. destruct (nth_error_lt_Some ch k) as (q & Hq); [lia|].
        unfold index. rewrite Hx, Hq. cbn [bind]. eauto.
      - unfold ai_i_process_input_data. change (channels (M8AI f ch)) with 8%nat in *. rewrite Hd, H. cbn [Nat.eqb negb].
        apply traverse_total. intros k Hk. apply in_seq in Hk.
        destruct (nth_error_lt_Some data k) as (x & Hx); [lia|]. destruct (nth_error_lt_Some ch k) as (q & Hq); [lia|].
        unfold index. rewrite Hx, Hq. cbn [bind]. eauto. }
    exists vs. split; [exact Hv|].
    destruct m; try (exfalso; apply (H O) in Hp; apply Hp; reflexivity); cbn [mod_process_input_data] in Hv.
    + unfold ai_ui_diag_process_input_data in Hv. split_if Hv. split_if Hv. apply traverse_length in Hv. exact Hv.
    + unfold ai_ui_process_input_data in Hv. split_if Hv. split_if Hv. apply traverse_length in Hv. destruct v; exact Hv.
    + unfold ai_i_process_input_data in Hv. split_if Hv. split_if Hv. apply traverse_length in Hv. exact Hv.
  - assert (exists vs, mod_process_output_data m data = Ok vs /\ length vs = channels m) as X; [|exact X].
    destruct m; try (exfalso; apply (H O) in Hp; apply Hp; reflexivity); cbn [analog_output] in H; apply settings_count in H;
      cbn [mod_process_output_data].
    + change (channels (M4AO ch)) with 4%nat in *. unfold ao_process_output_data. rewrite Hd. cbn [Nat.eqb negb].
      destruct (traverse_total (fun iv : nat * Z => let '(i, v) := iv in let? p := index ch i in
         Ok (analog_value (u16_to_analog_ui_value v (ao_range p) (ao_format p)))) (enumerate data)) as (vs & Hv).
      { intros (i & x) Hx. apply in_enumerate in Hx. destruct (nth_error_lt_Some ch i) as (q & Hq); [lia|].
        unfold index. rewrite Hq. cbn [bind]. eauto. }
      exists vs. split; [exact Hv|]. apply traverse_length in Hv. rewrite enumerate_length in Hv. lia.
    + change (channels (M4AODIAG ch)) with 4%nat in *. unfold ao_diag_process_output_data. rewrite Hd. cbn [Nat.eqb negb].
      destruct (traverse_total (fun iv : nat * Z => let '(i, v) := iv in let? p := index ch i in
         Ok (analog_value (u16_to_analog_ui_value v (aod_range p) (aod_format p)))) (enumerate data)) as (vs & Hv).
      { intros (i & x) Hx. apply in_enumerate in Hx. destruct (nth_error_lt_Some ch i) as (q & Hq); [lia|].
        unfold index. rewrite Hq. cbn [bind]. eauto. }
      exists vs. split; [exact Hv|]. apply traverse_length in Hv. rewrite enumerate_length in Hv. lia.
Qed.

(** ** C17 and C18: monotone functions *)

Lemma at_most_exact x y a b : exactly x a -> exactly y b -> (a <= b)%R -> at_most x y.
Proof.
  intros (_ & Fx & <-) (_ & Fy & <-) L. destruct x as [sx|sx| |sx mx ex]; try contradiction;
    destruct y as [sy|sy| |sy my ey]; try contradiction; exact L.
Qed.

Lemma valid_cases x : f32_valid x = true -> x = S754_nan \/ (exists s, x = S754_infinity s) \/ exactly x (real x).
Proof.
  intros V. destruct x as [s|s| |s m e]; eauto; right; right; (split; [exact V|]; split; [exact I|reflexivity]).
Qed.

Lemma rounds_valid x r : rounds x r -> f32_valid x = true /\ x <> S754_nan.
Proof.
  intros [[_ (V & F & _)]|[_ ->]]; [|split; [reflexivity|discriminate]].
  split; [exact V|]. intros ->. exact F.
Qed.

Lemma rnd_le a b : (a <= b)%R -> (rnd a <= rnd b)%R.
Proof. intros H. apply round_le; [typeclasses eauto..|exact H]. Qed.

Lemma rounds_mono x y a b : rounds x a -> rounds y b -> (a <= b)%R -> at_most x y.
Proof.
  intros Hx Hy L. pose proof (rnd_le a b L) as M. pose proof bpow128 as P.
  destruct Hx as [[Bx Ex]|[Bx Ex]], Hy as [[By Ey]|[By Ey]].
  - exact (at_most_exact x y _ _ Ex Ey M).
  - subst y. destruct (Rlt_bool_spec b 0) as [Nb|Nb].
    + exfalso. assert (N : (rnd b <= 0)%R) by (rewrite <- rnd_0; apply rnd_le; lra).
      rewrite Rabs_left1 in By by exact N. apply Rabs_def2 in Bx. lra.
    + destruct Ex as (_ & Fx & _). destruct x; try contradiction; exact I.
  - subst x. destruct (Rlt_bool_spec a 0) as [Na|Na].
    + destruct Ey as (_ & Fy & _). destruct y; try contradiction; exact I.
    + exfalso. assert (N : (0 <= rnd a)%R) by (rewrite <- rnd_0; apply rnd_le; exact Na).
      rewrite Rabs_pos_eq in Bx by exact N. apply Rabs_def2 in By. lra.
  - subst x y. destruct (Rlt_bool_spec a 0) as [Na|Na]; [destruct (Rlt_bool b 0); exact I|].
    rewrite (Rlt_bool_false b 0) by lra. exact I.
Qed.

(** [f] computes the monotone function [g] *)
Record lifts (f : f32 -> f32) (g : R -> R) : Prop := {
  lf_inf : forall s, f (S754_infinity s) = S754_infinity s;
  lf_nan : f S754_nan = S754_nan;
  lf_fin : forall x r, exactly x r -> rounds (f x) (g r);
  lf_mono : forall a b, (a <= b)%R -> (g a <= g b)%R }.

Lemma lifts_valid f g x : lifts f g -> f32_valid x = true -> f32_valid (f x) = true.
Proof.
  intros L V. destruct (valid_cases x V) as [->|[(s & ->)|E]].
  - rewrite (lf_nan f g L). reflexivity.
  - rewrite (lf_inf f g L). reflexivity.
  - exact (proj1 (rounds_valid _ _ (lf_fin f g L x _ E))).
Qed.

Lemma lifts_mono f g x y : lifts f g -> f32_valid x = true -> f32_valid y = true -> at_most x y -> at_most (f x) (f y).
Proof.
  intros L Vx Vy H. destruct (valid_cases x Vx) as [->|[(s & ->)|E]]; [contradiction| |].
  - rewrite (lf_inf f g L). destruct (valid_cases y Vy) as [->|[(t & ->)|E]]; [destruct s; contradiction| |].
    + rewrite (lf_inf f g L). exact H.
    + destruct (rounds_valid _ _ (lf_fin f g L y _ E)) as [_ N]. destruct s.
      * destruct (f y); try exact I. congruence.
      * exfalso. destruct E as (_ & Fy & _). destruct y; try contradiction; exact H.
  - destruct (valid_cases y Vy) as [->|[(t & ->)|E']]; [destruct x as [|[]| |]; contradiction| |].
    + rewrite (lf_inf f g L). destruct (rounds_valid _ _ (lf_fin f g L x _ E)) as [_ N]. destruct t.
      * exfalso. destruct E as (_ & Fx & _). destruct x; try contradiction; exact H.
      * destruct (f x) as [|[]| |]; try exact I. congruence.
    + apply (rounds_mono _ _ _ _ (lf_fin f g L x _ E) (lf_fin f g L y _ E')). apply (lf_mono f g L).
      destruct E as (_ & Fx & _), E' as (_ & Fy & _).
      destruct x as [sx|sx| |sx mx ex]; try contradiction; destruct y as [sy|sy| |sy my ey]; try contradiction; exact H.
Qed.

Lemma exactly_shape c k : exactly c k -> (0 < k)%R -> exists m e, c = S754_finite false m e.
Proof.
  intros (_ & F & E) P. destruct c as [s|s| |s m e]; try contradiction; cbn [real] in E; [lra|].
  destruct s; [|eauto]. exfalso. assert (0 < powerRZ 2 e)%R by (apply powerRZ_lt; lra).
  assert (IZR (Z.neg m) < 0)%R by (apply IZR_lt; lia). nra.
Qed.

Lemma lifts_mul c k : exactly c k -> (0 < k)%R -> lifts (fun x => f32_mul c x) (fun r => k * r)%R.
Proof.
  intros E P. destruct (exactly_shape c k E P) as (m & e & S). split.
  - intros s. rewrite S. destruct s; reflexivity.
  - rewrite S. reflexivity.
  - intros x r Hx. apply rounds_mul; assumption.
  - intros a b L. nra.
Qed.

Lemma lifts_div c k : exactly c k -> (0 < k)%R -> lifts (fun x => f32_div x c) (fun r => r / k)%R.
Proof.
  intros E P. destruct (exactly_shape c k E P) as (m & e & S). split.
  - intros s. rewrite S. destruct s; reflexivity.
  - rewrite S. reflexivity.
  - intros x r Hx. apply rounds_div; assumption.
  - intros a b L. apply Rmult_le_compat_r; [|exact L]. left. apply Rinv_0_lt_compat. exact P.
Qed.

Lemma lifts_sub c k : exactly c k -> (0 < k)%R -> lifts (fun x => f32_sub x c) (fun r => r - k)%R.
Proof.
  intros E P. destruct (exactly_shape c k E P) as (m & e & S). split.
  - intros s. rewrite S. destruct s; reflexivity.
  - rewrite S. reflexivity.
  - intros x r Hx. apply rounds_sub; assumption.
  - intros a b L. lra.
Qed.

(** conversion to [i16] *)
Lemma as_i16_exact x r : exactly x r -> f32_as_i16 x = clamp_i16 (Ztrunc r).
Proof.
  intros (_ & F & <-). destruct x as [s|s| |s m e]; try contradiction; cbn [real f32_as_i16].
  - rewrite Ztrunc_IZR. reflexivity.
  - f_equal.
    assert (T : (if 0 <=? e then Z.pos m * 2 ^ e else Z.pos m / 2 ^ - e) = Ztrunc (IZR (Z.pos m) * powerRZ 2 e)).
    { destruct (Z.leb_spec 0 e) as [He|He].
      - rewrite <- (Ztrunc_IZR (Z.pos m * 2 ^ e)). f_equal. rewrite mult_IZR. f_equal.
        change 2 with (radix_val radix2) at 1. rewrite (IZR_Zpower radix2 e He). rewrite bpow_powerRZ. reflexivity.
      - assert (P : (0 <= IZR (Z.pos m) * powerRZ 2 e)%R).
        { apply Rmult_le_pos; [apply IZR_le; lia|]. left. apply powerRZ_lt. lra. }
        rewrite Ztrunc_floor by exact P.
        rewrite <- Zfloor_div by (assert (0 < 2 ^ (- e)) by (apply Z.pow_pos_nonneg; lia); lia).
        f_equal. unfold Rdiv. f_equal. change 2 with (radix_val radix2) at 1. rewrite (IZR_Zpower radix2 (- e)) by lia. rewrite bpow_opp, Rinv_inv.
        rewrite bpow_powerRZ. reflexivity. }
    destruct s.
    + change (Z.neg m) with (- Z.pos m). rewrite opp_IZR, Ropp_mult_distr_l_reverse, Ztrunc_opp, <- T. reflexivity.
    + exact T.
Qed.

Lemma clamp_range z : -32768 <= clamp_i16 z <= 32767.
Proof. unfold clamp_i16. lia. Qed.

Lemma as_i16_range x : -32768 <= f32_as_i16 x <= 32767.
Proof. destruct x as [s|[]| |s m e]; cbn [f32_as_i16]; try lia. apply clamp_range. Qed.

Lemma as_i16_mono x y : f32_valid x = true -> f32_valid y = true -> at_most x y -> f32_as_i16 x <= f32_as_i16 y.
Proof.
  intros Vx Vy H. pose proof (as_i16_range x) as Rx. pose proof (as_i16_range y) as Ry.
  destruct (valid_cases x Vx) as [->|[(s & ->)|Ex]]; [contradiction| |].
  - destruct s; [cbn [f32_as_i16]; lia|]. destruct y as [sy|[]| |sy my ey]; try contradiction. cbn [f32_as_i16]; lia.
  - destruct (valid_cases y Vy) as [->|[(t & ->)|Ey]]; [destruct x as [|[]| |]; contradiction| |].
    + destruct t; [|cbn [f32_as_i16]; lia]. destruct Ex as (_ & Fx & _). destruct x; contradiction.
    + rewrite (as_i16_exact x _ Ex), (as_i16_exact y _ Ey). assert (L : (real x <= real y)%R).
      { destruct Ex as (_ & Fx & _), Ey as (_ & Fy & _).
        destruct x as [sx|sx| |sx mx ex]; try contradiction; destruct y as [sy|sy| |sy my ey]; try contradiction; exact H. }
      apply Ztrunc_le in L. unfold clamp_i16. lia.
Qed.

Lemma signed_i16 z : -32768 <= z <= 32767 -> is_u16 (i16_as_u16 z) /\ signed (i16_as_u16 z) = z.
Proof.
  intros H. unfold is_u16, signed, i16_as_u16. pose proof (Z.mod_pos_bound z 65536 eq_refl) as B. split; [lia|].
  destruct (Z.ltb_spec (z mod 65536) 32768) as [L|L].
  - destruct (Z.leb_spec 0 z); [apply Z.mod_small; lia|].
    rewrite <- (Z_mod_plus_full z 1 65536) in L. rewrite Z.mod_small in L by lia. lia.
  - destruct (Z.leb_spec 0 z); [rewrite Z.mod_small in L by lia; lia|].
    rewrite <- (Z_mod_plus_full z 1 65536). rewrite Z.mod_small by lia. lia.
Qed.

(** ** Encoding *)

Definition encoded (b n : Z) (f : data_format) (x : f32) : Z :=
  f32_as_i16 (f32_div (f32_mul (factor f) (if b =? 0 then x else f32_sub x (f32_of_Z b))) (f32_of_Z n)).

Lemma encode_is x r f : analog_ui_value_to_u16 x r f =
  match base_span r with Some (b, n) => i16_as_u16 (encoded b n f x) | None => 0 end.
Proof. destruct r; reflexivity. Qed.

Lemma base_span_range r b n : base_span r = Some (b, n) -> 0 <= b <= 4 /\ 4 <= n <= 20.
Proof. destruct r; intros H; try discriminate; apply Some_inj, pair_inj in H; lia. Qed.

Lemma of_Z_small n : 0 <= n <= 32768 -> exactly (f32_of_Z n) (IZR n).
Proof. intros H. apply of_Z_exact. lia. Qed.

Lemma encoded_mono b n f x y : 0 <= b <= 4 -> 4 <= n <= 20 -> f32_valid x = true -> f32_valid y = true -> at_most x y ->
  encoded b n f x <= encoded b n f y.
Proof.
  intros Hb Hn Vx Vy H. unfold encoded.
  pose proof (lifts_mul _ _ (factor_exact f) (full_pos f)) as Lm.
  assert (En : exactly (f32_of_Z n) (IZR n)) by (apply of_Z_small; lia). assert (Pn : (0 < IZR n)%R) by (apply IZR_lt; lia).
  pose proof (lifts_div _ _ En Pn) as Ld.
  set (u := fun x => if b =? 0 then x else f32_sub x (f32_of_Z b)).
  assert (U : f32_valid (u x) = true /\ f32_valid (u y) = true /\ at_most (u x) (u y)).
  { subst u. cbn beta. destruct (Z.eqb_spec b 0) as [E|E]; [auto|].
    assert (Eb : exactly (f32_of_Z b) (IZR b)) by (apply of_Z_small; lia). assert (Pb : (0 < IZR b)%R) by (apply IZR_lt; lia).
    pose proof (lifts_sub _ _ Eb Pb) as Ls.
    split; [exact (lifts_valid _ _ _ Ls Vx)|]. split; [exact (lifts_valid _ _ _ Ls Vy)|]. exact (lifts_mono _ _ _ _ Ls Vx Vy H). }
  destruct U as (Ux & Uy & Uxy). fold (u x) (u y).
  pose proof (lifts_valid _ _ _ Lm Ux) as Mx. pose proof (lifts_valid _ _ _ Lm Uy) as My. pose proof (lifts_mono _ _ _ _ Lm Ux Uy Uxy) as Mxy.
  apply as_i16_mono; [exact (lifts_valid _ _ _ Ld Mx)|exact (lifts_valid _ _ _ Ld My)|exact (lifts_mono _ _ _ _ Ld Mx My Mxy)].
Qed.

(** the error of the three operations *)
Lemma encoded_value b n f x v : 0 <= b <= 4 -> 4 <= n <= 20 -> exactly x v ->
  (Rabs (exact_code b n (full_code f) v) <= 32770)%R ->
  exists w, (Rabs (w - exact_code b n (full_code f) v) < / 100)%R /\ encoded b n f x = clamp_i16 (Ztrunc w).
Proof.
  intros Hb Hn Hx Ht. unfold exact_code in *.
  set (F := IZR (full_code f)) in *. set (N := IZR n) in *. set (a := (v - IZR b)%R) in *.
  assert (HF : (16384 <= F <= 27648)%R) by (subst F; destruct f; cbn [full_code]; lra).
  assert (HN : (4 <= N <= 20)%R) by (subst N; split; apply IZR_le; lia).
  assert (IN : (/ 20 <= / N <= / 4)%R) by (split; apply Rinv_le; lra).
  pose proof bpow_m150 as M. set (eta := bpow radix2 (-150)) in *.
  assert (Ea : Rabs a = (Rabs (F * a / N) * (N * / F))%R).
  { unfold Rdiv. rewrite !Rabs_mult. rewrite (Rabs_pos_eq F), (Rabs_pos_eq (/ N)) by lra. field. lra. }
  assert (IF : (/ 27648 <= / F <= / 16384)%R) by (split; apply Rinv_le; lra).
  assert (Ha : (Rabs a <= 41)%R).
  { rewrite Ea. pose proof (Rabs_pos (F * a / N)). assert (0 <= N * / F <= 20 * / 16384)%R by (split; nra). nra. }
  (* the difference *)
  assert (Hu : exists ua, exactly (if b =? 0 then x else f32_sub x (f32_of_Z b)) ua /\
             (Rabs (ua - a) <= Rabs a * / 16777216 + eta)%R).
  { destruct (Z.eqb_spec b 0) as [E|E].
    - exists v. split; [exact Hx|]. subst a. rewrite E. replace (v - (v - 0))%R with 0%R by ring. rewrite Rabs_R0.
      rewrite Rminus_0_r in *. pose proof (Rabs_pos v). lra.
    - assert (Eb : exactly (f32_of_Z b) (IZR b)) by (apply of_Z_small; lia).
      exists (rnd a). split; [|apply rnd_abs].
      apply no_overflow; [exact (rounds_sub _ _ _ _ Hx Eb)|]. fold a.
      apply Rle_trans with (bpow radix2 7); [change (bpow radix2 7) with 128%R; lra|apply bpow_le; lia]. }
  destruct Hu as (ua & Hu & Ru). set (u := if b =? 0 then x else f32_sub x (f32_of_Z b)) in *.
  assert (Bu : (Rabs ua <= 42)%R).
  { replace ua with ((ua - a) + a)%R by ring. apply Rle_trans with (1 := Rabs_triang _ _). lra. }
  (* the product *)
  set (p := (F * ua)%R).
  assert (Bp : (Rabs p <= 42 * 27648)%R).
  { subst p. rewrite Rabs_mult, (Rabs_pos_eq F) by lra. pose proof (Rabs_pos ua). nra. }
  assert (Hp : exactly (f32_mul (factor f) u) (rnd p)).
  { apply no_overflow; [exact (rounds_mul _ _ _ _ (factor_exact f) Hu)|]. fold F. fold p.
    apply Rle_trans with (bpow radix2 21); [change (bpow radix2 21) with 2097152%R; lra|apply bpow_le; lia]. }
  pose proof (rnd_abs p) as Rp. fold eta in Rp.
  assert (Brp : (Rabs (rnd p) <= 2097152)%R).
  { apply (rnd_bound p 21); [lia|]. change (bpow radix2 21) with 2097152%R. lra. }
  (* the quotient *)
  set (q := (rnd p / N)%R).
  assert (En : exactly (f32_of_Z n) N) by (apply of_Z_small; lia).
  assert (Bq : (Rabs q <= 2097152)%R).
  { subst q. unfold Rdiv. rewrite Rabs_mult, (Rabs_pos_eq (/ N)) by lra. pose proof (Rabs_pos (rnd p)). nra. }
  assert (Hq : exactly (f32_div (f32_mul (factor f) u) (f32_of_Z n)) (rnd q)).
  { apply no_overflow; [apply (rounds_div _ _ _ _ Hp En); lra|]. fold q.
    apply Rle_trans with (bpow radix2 21); [change (bpow radix2 21) with 2097152%R; lra|apply bpow_le; lia]. }
  pose proof (rnd_abs q) as Rq. fold eta in Rq.
  exists (rnd q). split; [|unfold encoded; fold u; apply as_i16_exact; exact Hq].
  (* put together *)
  set (t := (F * a / N)%R) in *.
  assert (D1 : (Rabs (p / N - t) <= Rabs t * / 16777216 + 6912 * eta)%R).
  { replace (p / N - t)%R with (F * / N * (ua - a))%R by (subst p t; field; lra).
    rewrite Rabs_mult, (Rabs_pos_eq (F * / N)) by nra.
    apply Rle_trans with (F * / N * (Rabs a * / 16777216 + eta))%R; [apply Rmult_le_compat_l; [nra|exact Ru]|].
    rewrite Ea. fold t.
    replace (F * / N * (Rabs t * (N * / F) * / 16777216 + eta))%R with (Rabs t * / 16777216 + F * / N * eta)%R by (field; lra).
    assert (F * / N <= 6912)%R by nra. nra. }
  assert (B1 : (Rabs (p / N) <= 32771)%R).
  { replace (p / N)%R with ((p / N - t) + t)%R by ring. apply Rle_trans with (1 := Rabs_triang _ _). lra. }
  assert (D2 : (Rabs (q - p / N) <= Rabs (p / N) * / 16777216 + eta)%R).
  { replace (q - p / N)%R with ((rnd p - p) * / N)%R by (subst q; field; lra).
    rewrite Rabs_mult, (Rabs_pos_eq (/ N)) by lra.
    apply Rle_trans with ((Rabs p * / 16777216 + eta) * / N)%R; [apply Rmult_le_compat_r; lra|].
    unfold Rdiv. rewrite Rabs_mult, (Rabs_pos_eq (/ N)) by lra. nra. }
  assert (B2 : (Rabs q <= 32772)%R).
  { replace q with ((q - p / N) + p / N)%R by ring. apply Rle_trans with (1 := Rabs_triang _ _). lra. }
  replace (rnd q - t)%R with ((rnd q - q) + ((q - p / N) + (p / N - t)))%R by ring.
  apply Rle_lt_trans with (1 := Rabs_triang _ _).
  assert (Rabs ((q - p / N) + (p / N - t)) <= Rabs (q - p / N) + Rabs (p / N - t))%R by apply Rabs_triang.
  lra.
Qed.

Lemma C18_code b n f x v : 0 <= b <= 4 -> 4 <= n <= 20 -> exactly x v ->
  (-32768 <= exact_code b n (full_code f) v <= 32767)%R ->
  (Rabs (IZR (encoded b n f x) - exact_code b n (full_code f) v) < 101 / 100)%R.
Proof.
  intros Hb Hn Hx Ht. destruct (encoded_value b n f x v Hb Hn Hx) as (w & Hw & ->); [apply Rabs_le; lra|].
  set (t := exact_code b n (full_code f) v) in *. apply Rabs_def2 in Hw.
  assert (T : (Rabs (IZR (Ztrunc w) - w) < 1)%R /\ -32768 <= Ztrunc w <= 32767).
  { destruct (Rle_or_lt 0 w) as [P|P].
    - rewrite Ztrunc_floor by exact P. pose proof (Zfloor_lb w) as L. pose proof (Zfloor_ub w) as U.
      split; [apply Rabs_def1; lra|]. split.
      + apply Z.le_trans with 0; [lia|]. apply (Zfloor_lub 0). exact P.
      + assert (IZR (Zfloor w) < IZR 32768)%R by lra. apply lt_IZR in H. lia.
    - rewrite Ztrunc_ceil by lra. pose proof (Zceil_ub w) as U.
      assert (L : (IZR (Zceil w) < w + 1)%R).
      { unfold Zceil. rewrite opp_IZR. pose proof (Zfloor_ub (- w)). lra. }
      split; [apply Rabs_def1; lra|]. split.
      + assert (IZR (-32769) < IZR (Zceil w))%R by lra. apply lt_IZR in H. lia.
      + assert (IZR (Zceil w) < IZR 32768)%R by lra. apply lt_IZR in H. lia. }
  destruct T as [T1 T2]. assert (clamp_i16 (Ztrunc w) = Ztrunc w) as -> by (unfold clamp_i16; lia).
  apply Rabs_def2 in T1. apply Rabs_def1; lra.
Qed.

(** saturation: a value just within the range has the extreme code *)
Definition high_mark (b n F : Z) : Z := 16384 * b + 16384 * 32768 * n / F.
Definition low_mark (b n F : Z) : Z := 16384 * b - 16384 * 32769 * n / F.

Lemma frac_exact k : Z.abs k <= 2 ^ 24 -> exactly (f32_frac k 16384) (IZR k / 16384).
Proof.
  intros H. unfold f32_frac. rewrite <- rnd_S5 by exact H. apply no_overflow.
  - apply rounds_div; [apply of_Z_exact; exact H|apply of_Z_exact; lia|lra].
  - apply Rle_trans with (IZR (2 ^ 24)); [|apply (pow_le_127 _ 24); lia].
    unfold Rdiv. rewrite Rabs_mult, (Rabs_pos_eq (/ 16384)) by lra. apply abs_Z_le in H. pose proof (Rabs_pos (IZR k)). lra.
Qed.

Lemma marks b n f : In (b, n) [(0, 20); (4, 16); (0, 10); (0, 5); (1, 4); (2, 8)] ->
  encoded b n f (f32_frac (high_mark b n (full_code f)) 16384) = 32767 /\
  encoded b n f (f32_frac (low_mark b n (full_code f)) 16384) = -32768.
Proof.
  intros H. repeat (destruct H as [H|H]; [apply pair_inj in H; destruct H as [<- <-]; destruct f; vm_compute; auto|]).
  contradiction.
Qed.

Lemma base_span_in r b n : base_span r = Some (b, n) -> In (b, n) [(0, 20); (4, 16); (0, 10); (0, 5); (1, 4); (2, 8)].
Proof. destruct r; intros H; try discriminate; apply Some_inj in H; subst; cbn; tauto. Qed.

Lemma saturates r b n f x v : base_span r = Some (b, n) -> exactly x v ->
  ((32768 <= exact_code b n (full_code f) v)%R -> encoded b n f x = 32767) /\
  ((exact_code b n (full_code f) v <= -32769)%R -> encoded b n f x = -32768).
Proof.
  intros Hr Hx. destruct (base_span_range _ _ _ Hr) as [Hb Hn]. destruct (marks b n f (base_span_in _ _ _ Hr)) as [Eh El].
  assert (HF : 16384 <= full_code f <= 27648) by (destruct f; cbn; lia).
  pose proof (as_i16_range (f32_div (f32_mul (factor f) (if b =? 0 then x else f32_sub x (f32_of_Z b))) (f32_of_Z n))) as Rg.
  change (-32768 <= encoded b n f x <= 32767) in Rg.
  assert (PF : (0 < IZR (full_code f))%R) by apply full_pos. assert (PN : (0 < IZR n)%R) by (apply IZR_lt; lia).
  assert (V : f32_valid x = true) by (destruct Hx as (V & _); exact V).
  assert (Q : (exact_code b n (full_code f) v * IZR n = IZR (full_code f) * (v - IZR b))%R) by (unfold exact_code; field; lra).
  unfold high_mark in Eh. unfold low_mark in El.
  set (F := full_code f) in *.
  split; intros H.
  - set (k := 16384 * b + 16384 * 32768 * n / F) in *.
    assert (Bk : 0 <= 16384 * 32768 * n / F <= 655360).
    { split; [apply Z.div_pos; lia|]. apply Z.div_le_upper_bound; nia. }
    assert (Hk : exactly (f32_frac k 16384) (IZR k / 16384)) by (apply frac_exact; lia).
    assert (Vk : f32_valid (f32_frac k 16384) = true) by (destruct Hk as (Vk & _); exact Vk).
    assert (L : (IZR k / 16384 <= v)%R).
    { assert (D : (IZR (16384 * 32768 * n / F) * IZR F <= 16384 * 32768 * IZR n)%R).
      { rewrite <- !mult_IZR. apply IZR_le. rewrite Z.mul_comm. apply Z.mul_div_le. lia. }
      subst k. rewrite plus_IZR, mult_IZR. set (z := IZR (16384 * 32768 * n / F)) in *.
      assert (S : (z <= 16384 * (v - IZR b))%R); [|lra].
      apply Rmult_le_reg_r with (IZR F); [exact PF|]. apply Rle_trans with (1 := D).
      replace (16384 * (v - IZR b) * IZR F)%R with (16384 * (IZR F * (v - IZR b)))%R by ring. rewrite <- Q. nra. }
    pose proof (encoded_mono b n f _ _ Hb Hn Vk V (at_most_exact _ _ _ _ Hk Hx L)) as Mo. rewrite Eh in Mo. lia.
  - set (k := 16384 * b - 16384 * 32769 * n / F) in *.
    assert (Bk : 0 <= 16384 * 32769 * n / F <= 655380).
    { split; [apply Z.div_pos; lia|]. apply Z.div_le_upper_bound; nia. }
    assert (Hk : exactly (f32_frac k 16384) (IZR k / 16384)) by (apply frac_exact; lia).
    assert (Vk : f32_valid (f32_frac k 16384) = true) by (destruct Hk as (Vk & _); exact Vk).
    assert (L : (v <= IZR k / 16384)%R).
    { assert (D : (IZR (16384 * 32769 * n / F) * IZR F <= 16384 * 32769 * IZR n)%R).
      { rewrite <- !mult_IZR. apply IZR_le. rewrite Z.mul_comm. apply Z.mul_div_le. lia. }
      subst k. rewrite minus_IZR, mult_IZR. set (z := IZR (16384 * 32769 * n / F)) in *.
      assert (S : (z <= - (16384 * (v - IZR b)))%R); [|lra].
      apply Rmult_le_reg_r with (IZR F); [exact PF|]. apply Rle_trans with (1 := D).
      replace (- (16384 * (v - IZR b)) * IZR F)%R with (- 16384 * (IZR F * (v - IZR b)))%R by ring. rewrite <- Q. nra. }
    pose proof (encoded_mono b n f _ _ Hb Hn V Vk (at_most_exact _ _ _ _ Hx Hk L)) as Mo. rewrite El in Mo. lia.
Qed.

Lemma encoded_special r b n f : base_span r = Some (b, n) ->
  encoded b n f S754_nan = 0 /\ encoded b n f (S754_infinity false) = 32767 /\ encoded b n f (S754_infinity true) = -32768.
Proof.
  intros H. apply base_span_in in H.
  repeat (destruct H as [H|H]; [apply pair_inj in H; destruct H as [<- <-]; destruct f; vm_compute; auto|]). contradiction.
Qed.

Lemma encoded_range b n f x : -32768 <= encoded b n f x <= 32767.
Proof. apply as_i16_range. Qed.

Lemma sent_code m k x d r f : analog_output m k = Some (r, f) -> sends m k (Decimal32 x) d ->
  match base_span r with Some (b, n) => is_u16 d /\ signed d = encoded b n f x | None => d = 0 end.
Proof.
  intros S H. pose proof (sent_analog _ _ _ _ _ _ S H) as E. cbn [value_to_u16] in E. apply Ok_inj in E. rewrite encode_is in E.
  destruct (base_span r) as [[b n]|]; [|auto]. subst d. apply signed_i16. apply encoded_range.
Qed.

Lemma C17_all :
  (forall prof m values, (0 < channels m)%nat -> (forall k, (k < channels m)%nat <-> analog_output m k <> None) ->
     length values = channels m -> Forall is_analog_value values ->
     exists data, mod_process_output_values prof m values = Ok data /\ length data = channels m) /\
  (forall m k r f v d, analog_output m k = Some (r, f) -> sends m k v d ->
     is_u16 d /\ is_analog_value v /\ (v = Disabled \/ r = UI_Disabled \/ v = Decimal32 S754_nan -> d = 0)) /\
  (forall m k r f base span x d, analog_output m k = Some (r, f) -> base_span r = Some (base, span) ->
     sends m k (Decimal32 x) d ->
     (x = S754_infinity false -> signed d = 32767) /\ (x = S754_infinity true -> signed d = -32768) /\
     (f32_valid x = true -> finite x ->
        ((32768 <= exact_code base span (full_code f) (real x))%R -> signed d = 32767) /\
        ((exact_code base span (full_code f) (real x) <= -32769)%R -> signed d = -32768))) /\
  (forall m1 k1 m2 k2 r f x1 x2 d1 d2, analog_output m1 k1 = Some (r, f) -> analog_output m2 k2 = Some (r, f) ->
     sends m1 k1 (Decimal32 x1) d1 -> sends m2 k2 (Decimal32 x2) d2 ->
     f32_valid x1 = true -> f32_valid x2 = true -> at_most x1 x2 -> signed d1 <= signed d2).
Proof.
  split; [|split; [|split]].
  - intros prof m values Hp H Hl Hv.
    assert (T : forall v, is_analog_value v -> forall r f, exists d, value_to_u16 v r f = Ok d).
    { intros v Av r f. destruct v; try contradiction; cbn [value_to_u16]; eauto. }
    assert (X : exists data, mod_process_output_values prof m values = Ok data).
    { destruct m; try (exfalso; apply (H O) in Hp; apply Hp; reflexivity); cbn [analog_output] in H; apply settings_count in H;
        cbn [mod_process_output_values].
      - change (channels (M4AO ch)) with 4%nat in *. unfold ao_process_output_values. rewrite Hl, H. cbn [Nat.eqb negb].
        apply traverse_total. intros (i & x) Hx. apply in_enumerate in Hx. destruct Hx as [Hi Hx].
        destruct (nth_error_lt_Some ch i) as (q & Hq); [lia|]. unfold index. rewrite Hq. cbn [bind]. apply T.
        rewrite Forall_forall in Hv. apply Hv. exact Hx.
      - change (channels (M4AODIAG ch)) with 4%nat in *. unfold ao_diag_process_output_values. rewrite Hl, H. cbn [Nat.eqb negb].
        apply traverse_total. intros (i & x) Hx. apply in_enumerate in Hx. destruct Hx as [Hi Hx].
        destruct (nth_error_lt_Some ch i) as (q & Hq); [lia|]. unfold index. rewrite Hq. cbn [bind]. apply T.
        rewrite Forall_forall in Hv. apply Hv. exact Hx. }
    destruct X as (data & X). exists data. split; [exact X|]. rewrite <- Hl.
    destruct m; try (exfalso; apply (H O) in Hp; apply Hp; reflexivity); cbn [mod_process_output_values] in X.
    + unfold ao_process_output_values in X. split_if X. split_if X. apply traverse_length in X. rewrite enumerate_length in X. exact X.
    + unfold ao_diag_process_output_values in X. split_if X. split_if X. apply traverse_length in X. rewrite enumerate_length in X. exact X.
  - intros m k r f v d Ha Hs. pose proof (sent_analog _ _ _ _ _ _ Ha Hs) as E.
    destruct v; try discriminate; cbn [value_to_u16] in E.
    + pose proof (sent_code _ _ _ _ _ _ Ha Hs) as S. destruct (base_span r) as [[b n]|] eqn:Er.
      * split; [apply S|]. split; [exact I|]. intros [X|[X|X]]; [discriminate|subst r; discriminate|].
        apply Ok_inj in E. match type of X with Decimal32 ?y = _ => assert (y = S754_nan) as -> by congruence end.
        destruct (encoded_special r b n f Er) as (N & _). rewrite encode_is, Er, N in E. subst d. reflexivity.
      * subst d. split; [unfold is_u16; lia|]. split; [exact I|]. reflexivity.
    + apply Ok_inj in E. subst d. split; [unfold is_u16; lia|]. split; [exact I|]. reflexivity.
  - intros m k r f base span x d Ha Hr Hs. pose proof (sent_code _ _ _ _ _ _ Ha Hs) as S. rewrite Hr in S. destruct S as [_ ->].
    destruct (encoded_special r base span f Hr) as (_ & P & N).
    split; [intros ->; exact P|]. split; [intros ->; exact N|]. intros V F.
    apply (saturates r base span f x (real x) Hr). split; [exact V|]. split; [exact F|reflexivity].
  - intros m1 k1 m2 k2 r f x1 x2 d1 d2 A1 A2 S1 S2 V1 V2 L.
    pose proof (sent_code _ _ _ _ _ _ A1 S1) as E1. pose proof (sent_code _ _ _ _ _ _ A2 S2) as E2.
    destruct (base_span r) as [[b n]|] eqn:Er; [|subst; lia]. destruct E1 as [_ ->], E2 as [_ ->].
    destruct (base_span_range _ _ _ Er) as [Hb Hn]. apply encoded_mono; assumption.
Qed.

Lemma C18_all : forall m k r f base span x d, analog_output m k = Some (r, f) -> base_span r = Some (base, span) ->
  sends m k (Decimal32 x) d -> f32_valid x = true -> finite x ->
  (-32768 <= exact_code base span (full_code f) (real x) <= 32767)%R ->
  (Rabs (IZR (signed d) - exact_code base span (full_code f) (real x)) < 101 / 100)%R.
Proof.
  intros m k r f base span x d Ha Hr Hs V F H. pose proof (sent_code _ _ _ _ _ _ Ha Hs) as S. rewrite Hr in S. destruct S as [_ ->].
  destruct (base_span_range _ _ _ Hr) as [Hb Hn]. apply C18_code; try assumption. split; [exact V|]. split; [exact F|reflexivity].
Qed.

(** ** C21 *)

Lemma shown_rtd u ch k d v p : nth_error ch k = Some p -> shows (MRTD u ch) k d v ->
  v = analog_value (u16_to_rtd_value d (rtd_measurement_range p)).
Proof.
  intros Hp (data & vs & H & Hd & Hv). cbn [mod_process_input_data] in H. unfold rtd_process_input_data in H. split_if H. split_if H.
  pose proof (seq_nth _ _ _ _ _ H Hv) as X. cbn beta in X. unfold index in X. rewrite Hd, Hp in X. cbn [bind] in X.
  apply Ok_inj in X. congruence.
Qed.

Lemma tenth_exact c : -32768 <= c <= 32767 -> exactly (f32_div (f32_of_Z c) (f32_of_Z 10)) (rnd (IZR c / 10)).
Proof.
  intros H. apply no_overflow.
  - apply rounds_div; [apply of_Z_exact; lia|apply of_Z_exact; lia|lra].
  - apply Rle_trans with (bpow radix2 15); [|apply bpow_le; lia]. change (bpow radix2 15) with 32768%R.
    assert (B : (Rabs (IZR c) <= 32768)%R) by (apply abs_Z_le; lia). unfold Rdiv. rewrite Rabs_mult, (Rabs_pos_eq (/ 10)) by lra. lra.
Qed.

(** two roundings *)
Lemma two_roundings eps1 eps2 : (Rabs eps1 <= / 16777217)%R -> (Rabs eps2 <= / 16777217)%R ->
  (Rabs ((1 + eps1) * (1 + eps2) - 1) <= / 8388608)%R.
Proof.
  intros H1 H2. apply Rabs_le_inv in H1, H2. apply Rabs_le.
  replace ((1 + eps1) * (1 + eps2) - 1)%R with (eps1 + eps2 + eps1 * eps2)%R by ring.
  assert (- (/ 16777217 * / 16777217) <= eps1 * eps2 <= / 16777217 * / 16777217)%R by (split; nra). lra.
Qed.

Lemma resistance_within n d : 1 <= n <= 4000 -> is_u16 d ->
  within (/ 8388608) (f32_div (f32_mul (f32_of_Z n) (f32_of_Z d)) (f32_of_Z 0x6C00)) (IZR n * IZR d / 27648).
Proof.
  unfold is_u16. intros Hn Hd.
  assert (En : exactly (f32_of_Z n) (IZR n)) by (apply of_Z_exact; lia).
  assert (Ed : exactly (f32_of_Z d) (IZR d)) by (apply of_Z_exact; lia).
  assert (Ef : exactly (f32_of_Z 0x6C00) 27648) by (apply of_Z_exact; lia).
  set (p := (IZR n * IZR d)%R).
  assert (Zp : d = 0 /\ p = 0%R \/ (1 <= p)%R).
  { destruct (Z.eq_dec d 0) as [->|E]; [left; split; [reflexivity|subst p; ring]|right].
    subst p. rewrite <- mult_IZR. apply IZR_le. nia. }
  assert (P0 : (0 <= p <= 262140000)%R) by (subst p; rewrite <- mult_IZR; split; apply IZR_le; nia).
  destruct (rnd_rel p) as (e1 & B1 & E1).
  { destruct Zp as [[_ ->]|Zp]; [auto|right]. rewrite Rabs_pos_eq by lra. apply Rle_trans with (bpow radix2 0); [apply bpow_le; lia|exact Zp]. }
  assert (Hp : exactly (f32_mul (f32_of_Z n) (f32_of_Z d)) (rnd p)).
  { apply no_overflow; [apply rounds_mul; assumption|]. fold p. rewrite Rabs_pos_eq by lra.
    apply Rle_trans with (bpow radix2 28); [change (bpow radix2 28) with 268435456%R; lra|apply bpow_le; lia]. }
  assert (B1' : (- / 16777217 <= e1 <= / 16777217)%R) by (apply Rabs_le_inv in B1; lra).
  set (q := (rnd p / 27648)%R).
  destruct (rnd_rel q) as (e2 & B2 & E2).
  { destruct Zp as [[_ Z0]|Zp]; [left; subst q; rewrite Z0, rnd_0; lra|right].
    assert (/ 60000 <= q)%R by (subst q; rewrite E1; nra). rewrite Rabs_pos_eq by lra.
    apply Rle_trans with (bpow radix2 (-16)); [apply bpow_le; lia|]. change (bpow radix2 (-16)) with (/ 65536)%R. lra. }
  assert (Hq : exactly (f32_div (f32_mul (f32_of_Z n) (f32_of_Z d)) (f32_of_Z 0x6C00)) (rnd q)).
  { apply no_overflow; [apply rounds_div; [exact Hp|exact Ef|lra]|]. fold q.
    assert (0 <= q <= 268435456)%R by (subst q; rewrite E1; nra). rewrite Rabs_pos_eq by lra.
    apply Rle_trans with (bpow radix2 28); [change (bpow radix2 28) with 268435456%R; lra|apply bpow_le; lia]. }
  destruct Hq as (V & F & E). split; [exact V|]. split; [exact F|]. rewrite E, E2. subst q. rewrite E1.
  replace (p * (1 + e1) / 27648 * (1 + e2) - p / 27648)%R with (((1 + e1) * (1 + e2) - 1) * (p / 27648))%R by field.
  rewrite Rabs_mult. apply Rmult_le_compat_r; [apply Rabs_pos|]. apply two_roundings; assumption.
Qed.

Lemma C21_all : forall u ch k p d v, nth_error ch k = Some p -> shows (MRTD u ch) k d v -> is_u16 d ->
  match rtd_measurement_range p with
  | RTD_Disabled => v = Disabled
  | r => exists x, v = Decimal32 x /\
      match full_resistance r with
      | Some full => within (/ 8388608) x (IZR full * IZR d / 27648)
      | None => nearest x (IZR (signed d) / 10)
      end
  end.
Proof.
  intros u ch k p d v Hp Hs Hd. pose proof (shown_rtd _ _ _ _ _ _ Hp Hs) as E. subst v.
  pose proof (signed_range d Hd) as Hc. change (signed d) with (u16_as_i16 d).
  destruct (rtd_measurement_range p); cbn [u16_to_rtd_value full_resistance analog_value]; try reflexivity;
    (eexists; split; [reflexivity|]); first [apply exactly_nearest; apply tenth_exact; exact Hc|apply resistance_within; [lia|exact Hd]].
Qed.

(** ** C22 *)

Lemma shown_tc u ch k d v p : nth_error ch k = Some p -> shows (MTC u ch) k d v ->
  v = if tc_is_enabled p then
        match u16_to_thermal_value d (tc_measurement_range p) with Some x => Decimal32 x | None => VNone end
      else Disabled.
Proof.
  intros Hp (data & vs & H & Hd & Hv). cbn [mod_process_input_data] in H. unfold tc_process_input_data in H. split_if H.
  apply Ok_inj in H. subst vs. rewrite nth_error_map in Hv.
  assert (C : nth_error (combine data ch) k = Some (d, p)).
  { clear -Hp Hd. revert ch k Hp Hd. induction data as [|a data IH]; intros [|b ch] [|k]; cbn; try discriminate.
    - congruence.
    - apply IH. }
  rewrite C in Hv. cbn [option_map] in Hv. congruence.
Qed.

Definition tenth : f32 := f32_frac 1 10.
Lemma tenth_value : exactly tenth (13421773 / 134217728).
Proof.
  split; [reflexivity|]. split; [exact I|]. unfold tenth. replace (f32_frac 1 10) with (S754_finite false 13421773 (-27)) by (vm_compute; reflexivity).
  cbn [real]. change (powerRZ 2 (-27)) with (/ 2 ^ 27)%R. replace (2 ^ 27)%R with 134217728%R by (cbn; lra). reflexivity.
Qed.

Lemma temperature_within c : -32768 <= c <= 32767 -> within (/ 4194304) (f32_mul (f32_of_Z c) tenth) (IZR c / 10).
Proof.
  intros Hc. assert (Ec : exactly (f32_of_Z c) (IZR c)) by (apply of_Z_exact; lia).
  set (p := (IZR c * (13421773 / 134217728))%R).
  assert (Bc : (Rabs (IZR c) <= 32768)%R) by (apply abs_Z_le; lia).
  assert (Zp : c = 0 \/ (1 <= Rabs (IZR c))%R).
  { destruct (Z.eq_dec c 0); [auto|right]. rewrite <- abs_IZR. apply IZR_le. lia. }
  assert (Ap : Rabs p = (Rabs (IZR c) * (13421773 / 134217728))%R) by (subst p; rewrite Rabs_mult, (Rabs_pos_eq (_ / _)); lra).
  destruct (rnd_rel p) as (e & B & E).
  { destruct Zp as [->|Zp]; [left; subst p; ring|right]. rewrite Ap.
    apply Rle_trans with (bpow radix2 (-4)); [apply bpow_le; lia|]. change (bpow radix2 (-4)) with (/ 16)%R. lra. }
  assert (H : exactly (f32_mul (f32_of_Z c) tenth) (rnd p)).
  { apply no_overflow; [apply (rounds_mul _ _ _ _ Ec tenth_value)|]. fold p. rewrite Ap.
    apply Rle_trans with (bpow radix2 15); [change (bpow radix2 15) with 32768%R; lra|apply bpow_le; lia]. }
  destruct H as (V & F & H). split; [exact V|]. split; [exact F|]. rewrite H, E. subst p.
  replace (IZR c * (13421773 / 134217728) * (1 + e) - IZR c / 10)%R
    with (((134217730 / 134217728) * (1 + e) - 1) * (IZR c / 10))%R by field.
  rewrite Rabs_mult. apply Rmult_le_compat_r; [apply Rabs_pos|]. apply Rabs_le_inv in B. apply Rabs_le. lra.
Qed.

Lemma voltage_exact k z c : 0 <= k <= 6 -> Z.abs z <= 2 -> exactly (f32_of_Z 32767) 32767 -> -32768 <= c <= 32767 ->
  forall x, exactly x (IZR z * bpow radix2 (- k)) ->
  exactly (f32_div (f32_mul x (f32_of_Z c)) (f32_of_Z 32767)) (rnd (IZR z * bpow radix2 (- k) * IZR c / 32767)).
Proof.
  intros Hk Hz E1 Hc x Hx. assert (Ec : exactly (f32_of_Z c) (IZR c)) by (apply of_Z_exact; lia).
  assert (Bk : (0 < bpow radix2 (- k) <= 1)%R) by (split; [apply bpow_gt_0|change 1%R with (bpow radix2 0); apply bpow_le; lia]).
  assert (Bz : (Rabs (IZR z) <= 2)%R) by (apply abs_Z_le; exact Hz).
  assert (Bc : (Rabs (IZR c) <= 32768)%R) by (apply abs_Z_le; lia).
  assert (R : rnd (IZR z * bpow radix2 (- k) * IZR c) = (IZR z * bpow radix2 (- k) * IZR c)%R).
  { replace (IZR z * bpow radix2 (- k) * IZR c)%R with (IZR (z * c) * bpow radix2 (- k))%R by (rewrite mult_IZR; ring).
    apply rnd_scaled; nia. }
  assert (Bm : (Rabs (IZR z * bpow radix2 (- k) * IZR c) <= 65536)%R).
  { rewrite !Rabs_mult, (Rabs_pos_eq (bpow _ _)) by lra. pose proof (Rabs_pos (IZR z)). pose proof (Rabs_pos (IZR c)).
    assert (Rabs (IZR z) * bpow radix2 (- k) <= 2)%R by nra. assert (0 <= Rabs (IZR z) * bpow radix2 (- k))%R by nra. nra. }
  assert (M : exactly (f32_mul x (f32_of_Z c)) (IZR z * bpow radix2 (- k) * IZR c)).
  { rewrite <- R. apply no_overflow; [apply rounds_mul; assumption|].
    apply Rle_trans with (bpow radix2 16); [change (bpow radix2 16) with 65536%R; exact Bm|apply bpow_le; lia]. }
  apply no_overflow; [apply rounds_div; [exact M|exact E1|lra]|].
  apply Rle_trans with (bpow radix2 16); [change (bpow radix2 16) with 65536%R|apply bpow_le; lia].
  unfold Rdiv. rewrite Rabs_mult, (Rabs_pos_eq (/ 32767)) by lra. pose proof (Rabs_pos (IZR z * bpow radix2 (- k) * IZR c)). lra.
Qed.

Lemma C22_all : forall u ch k p d v, nth_error ch k = Some p -> shows (MTC u ch) k d v -> is_u16 d ->
  match tc_measurement_range p with
  | TC_Disabled => v = Disabled
  | r =>
      match full_microvolts r with
      | Some full => exists x, v = Decimal32 x /\ nearest x (IZR full / 1000000 * IZR (signed d) / 32767)
      | None => d = 0x7FFF /\ v = VNone \/
                d <> 0x7FFF /\ exists x, v = Decimal32 x /\ within (/ 4194304) x (IZR (signed d) / 10)
      end
  end.
Proof.
  intros u ch k p d v Hp Hs Hd. pose proof (shown_tc _ _ _ _ _ _ Hp Hs) as E. subst v.
  pose proof (signed_range d Hd) as Hc. change (signed d) with (u16_as_i16 d). unfold tc_is_enabled.
  assert (E1 : exactly (f32_of_Z 32767) 32767) by (apply of_Z_exact; lia).
  assert (V : forall j z full x, 0 <= j <= 6 -> Z.abs z <= 2 -> exactly x (IZR z * bpow radix2 (- j)) ->
            (IZR full / 1000000 = IZR z * bpow radix2 (- j))%R ->
            nearest (f32_div (f32_mul x (f32_of_Z (u16_as_i16 d))) (f32_of_Z 32767)) (IZR full / 1000000 * IZR (u16_as_i16 d) / 32767)).
  { intros j z full x Hj Hz Hx ->. apply exactly_nearest. apply voltage_exact; assumption. }
  assert (X : forall j, 0 <= j <= 6 -> forall x, x = S754_finite false 8388608 (-23 - j) -> exactly x (IZR 1 * bpow radix2 (- j))).
  { intros j Hj x ->. split; [|split; [exact I|]].
    - assert (j = 0 \/ j = 1 \/ j = 2 \/ j = 3 \/ j = 4 \/ j = 5 \/ j = 6) as J by lia.
      repeat (destruct J as [->|J]; [reflexivity|]). subst j. reflexivity.
    - cbn [real]. rewrite <- (bpow_powerRZ radix2). unfold Zminus. rewrite bpow_plus. change (bpow radix2 (-23)) with (/ 8388608)%R. field. }
  destruct (tc_measurement_range p); cbn [u16_to_thermal_value full_microvolts]; try reflexivity;
    try (destruct (Z.eqb_spec d 32767) as [->|N];
         [left; split; reflexivity|right; split; [exact N|]; eexists; split; [reflexivity|]; apply temperature_within; exact Hc]);
    (eexists; split; [reflexivity|]).
  - apply (V 6 1); [lia|lia| |cbn; lra]. apply X; [lia|]. vm_compute. reflexivity.
  - apply (V 5 1); [lia|lia| |cbn; lra]. apply X; [lia|]. vm_compute. reflexivity.
  - apply (V 4 1); [lia|lia| |cbn; lra]. apply X; [lia|]. vm_compute. reflexivity.
  - apply (V 3 1); [lia|lia| |cbn; lra]. apply X; [lia|]. vm_compute. reflexivity.
  - apply (V 2 1); [lia|lia| |cbn; lra]. apply X; [lia|]. vm_compute. reflexivity.
  - apply (V 1 1); [lia|lia| |cbn; lra]. apply X; [lia|]. vm_compute. reflexivity.
  - apply (V 0 1); [lia|lia| |cbn; lra]. apply X; [lia|]. vm_compute. reflexivity.
  - apply (V 0 2); [lia|lia| |cbn; lra]. change (bpow radix2 (- 0)) with 1%R. rewrite Rmult_1_r. apply of_Z_exact. lia.
Qed.
