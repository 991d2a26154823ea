(** Proofs about the frequencies a coupler reports (C88). *)
From Coq Require Import ZArith Reals List Bool Lia Lra Psatz SpecFloat.
From Flocq Require Import Core BinarySingleNaN.
From Verif Require Import Base F32 Types Lib Util Fcnt Fbc Facts SpecCodec SpecCoupler SpecAnalog SpecImage SpecLossless SpecTerminal SpecFrequency
  ProofsCodec ProofsFcnt ProofsFloat ProofsAnalog ProofsHertz ProofsCoupler ProofsCycle ProofsLossless ProofsTerminal.
Import ListNotations.
Local Open Scope Z_scope.

(** The seconds as a number. *)
Definition seconds (s n : Z) : R := rnd (IZR s + rnd (rnd (IZR n) / 1000000000)).

Lemma billion_exact : exactly (f32_of_Z NANOS_PER_SEC) 1000000000.
Proof.
  pose proof (of_Z_big 1000000000 ltac:(lia)) as E. assert (R : rnd 1000000000 = 1000000000%R); [|rewrite R in E; exact E].
  replace 1000000000%R with (IZR 1953125 * bpow radix2 9)%R by (cbn; lra). apply rnd_scaled; lia.
Qed.
Lemma rnd_billion : rnd 1000000000 = 1000000000%R.
Proof.
  replace 1000000000%R with (IZR 1953125 * bpow radix2 9)%R by (cbn; lra). apply rnd_scaled; lia.
Qed.

Lemma part_range n : 0 <= n < 1000000000 -> (0 <= rnd (rnd (IZR n) / 1000000000) <= 1)%R.
Proof.
  intros H. assert (I : (0 <= IZR n <= 1000000000)%R) by (split; apply IZR_le; lia).
  assert (A : (0 <= rnd (IZR n) <= 1000000000)%R).
  { split; [rewrite <- rnd_0|rewrite <- rnd_billion]; apply rnd_le; lra. }
  assert (O : rnd 1 = 1%R) by (apply (rnd_Z 1); lia).
  split; [rewrite <- rnd_0|rewrite <- O]; apply rnd_le; lra.
Qed.

Lemma seconds_exact s n : 0 <= s <= 2 ^ 24 -> 0 <= n < 1000000000 ->
  exactly (f32_add (f32_of_Z s) (f32_div (f32_of_Z n) (f32_of_Z NANOS_PER_SEC))) (seconds s n).
Proof.
  intros Hs Hn. pose proof (part_range n Hn) as P.
  assert (I : (0 <= IZR n <= 1000000000)%R) by (split; apply IZR_le; lia).
  assert (A : (0 <= rnd (IZR n) <= 1000000000)%R).
  { split; [rewrite <- rnd_0|rewrite <- rnd_billion]; apply rnd_le; lra. }
  assert (Eq : exactly (f32_div (f32_of_Z n) (f32_of_Z NANOS_PER_SEC)) (rnd (rnd (IZR n) / 1000000000))).
  { apply no_overflow; [apply rounds_div; [apply of_Z_big; lia|exact billion_exact|lra]|].
    rewrite Rabs_pos_eq by lra. apply Rle_trans with (bpow radix2 1); [change (bpow radix2 1) with 2%R; lra|apply bpow_le; lia]. }
  apply no_overflow; [apply rounds_add; [apply of_Z_exact; lia|exact Eq]|].
  assert (S : (0 <= IZR s <= 16777216)%R) by (split; apply IZR_le; lia).
  rewrite Rabs_pos_eq by lra. apply Rle_trans with (bpow radix2 25); [change (bpow radix2 25) with 33554432%R; lra|apply bpow_le; lia].
Qed.

Lemma seconds_mono s n s' n' : 0 <= n < 1000000000 -> 0 <= n' < 1000000000 ->
  s * 1000000000 + n <= s' * 1000000000 + n' -> (seconds s n <= seconds s' n')%R.
Proof.
  intros Hn Hn' H. pose proof (part_range n Hn) as P. pose proof (part_range n' Hn') as P'.
  apply rnd_le. destruct (Z.eq_dec s s') as [<-|N].
  - apply Rplus_le_compat_l. apply rnd_le.
    assert (rnd (IZR n) <= rnd (IZR n'))%R by (apply rnd_le, IZR_le; lia). lra.
  - assert (s + 1 <= s') by lia. assert (IZR s + 1 <= IZR s')%R by (rewrite <- plus_IZR; apply IZR_le; lia). lra.
Qed.

(** One nanosecond is the least positive time. *)
Lemma seconds_pos s n : 0 <= s -> 0 <= n < 1000000000 -> 0 < s + n -> (0 < seconds s n)%R.
Proof.
  intros Hs Hn Hp. assert (L : (seconds 0 1 <= seconds s n)%R) by (apply seconds_mono; lia).
  apply Rlt_le_trans with (2 := L). unfold seconds.
  assert (O : rnd 1 = 1%R) by (apply (rnd_Z 1); lia). rewrite O.
  assert (T : rnd (bpow radix2 (-40)) = bpow radix2 (-40)).
  { replace (bpow radix2 (-40)) with (IZR 1 * bpow radix2 (-40))%R by (cbn; lra). apply rnd_scaled; lia. }
  assert (G : (bpow radix2 (-40) <= 1 / 1000000000)%R) by (change (bpow radix2 (-40)) with (/ 1099511627776)%R; lra).
  apply Rlt_le_trans with (bpow radix2 (-40)); [apply bpow_gt_0|]. rewrite <- T at 1. apply rnd_le. rewrite Rplus_0_l.
  rewrite <- T. apply rnd_le. exact G.
Qed.

Lemma hertz_rounds i d : fi_duration i = Some d -> is_u32 (fi_count i) -> valid_duration d -> d_secs d <= 2 ^ 24 -> 0 < nanoseconds d ->
  exists x, hertz i = Some x /\ rounds x (rnd (IZR (fi_count i)) / seconds (d_secs d) (d_nanos d)).
Proof.
  intros Hd Hc V Hs Hp. unfold hertz. rewrite Hd. eexists. split; [reflexivity|].
  unfold valid_duration, is_u64, nanoseconds, is_u32 in *.
  apply rounds_div; [apply of_Z_big; lia|apply seconds_exact; lia|apply seconds_pos; lia].
Qed.

Lemma C88_order_all : forall i j d e x y, is_u32 (fi_count i) -> is_u32 (fi_count j) ->
  fi_duration i = Some d -> fi_duration j = Some e -> valid_duration d -> valid_duration e -> d_secs d <= 2 ^ 24 ->
  fi_count i <= fi_count j -> nanoseconds e <= nanoseconds d -> 0 < nanoseconds e \/ 0 < fi_count i ->
  hertz i = Some x -> hertz j = Some y -> at_most x y.
Proof.
  intros i j d e x y Hi Hj Ed Ee Vd Ve Hs Hc Hn Hp Hx Hy.
  pose proof Vd as Vd'. pose proof Ve as Ve'. unfold valid_duration, is_u64, nanoseconds, is_u32 in Vd', Ve', Hn, Hp, Hi, Hj.
  assert (X : 0 < nanoseconds d -> rounds x (rnd (IZR (fi_count i)) / seconds (d_secs d) (d_nanos d))).
  { intros P. destruct (hertz_rounds i d Ed Hi Vd Hs P) as (x' & Hx' & R). rewrite Hx in Hx'. apply Some_inj in Hx'. subst x'. exact R. }
  destruct (Z.eq_dec (nanoseconds e) 0) as [Z0|Z0]; unfold nanoseconds in Z0.
  - (* the second frequency is infinite *)
    pose proof (C25_all j Hj) as C. rewrite Ee in C. destruct C as (y' & Hy' & _ & C); [lia|lia|]. rewrite Hy in Hy'. apply Some_inj in Hy'. subst y'.
    rewrite C by lia. destruct (Z.eqb_spec (fi_count j) 0) as [E|_]; [lia|].
    assert (N : x <> S754_nan).
    { destruct (Z.eq_dec (nanoseconds d) 0) as [Zd|Zd]; unfold nanoseconds in Zd.
      - pose proof (C25_all i Hi) as D. rewrite Ed in D. destruct D as (x' & Hx' & _ & D); [lia|lia|]. rewrite Hx in Hx'. apply Some_inj in Hx'. subst x'.
        rewrite D by lia. destruct (Z.eqb_spec (fi_count i) 0) as [E|_]; [lia|discriminate].
      - apply (rounds_valid _ _ (X ltac:(unfold nanoseconds; lia))). }
    destruct x as [s|[|]| |s m ex]; try exact I. congruence.
  - destruct (hertz_rounds j e Ee Hj Ve) as (y' & Hy' & R); [nia|unfold nanoseconds; lia|]. rewrite Hy in Hy'. apply Some_inj in Hy'. subst y'.
    apply (rounds_mono _ _ _ _ (X ltac:(unfold nanoseconds; lia)) R).
    assert (S : (seconds (d_secs e) (d_nanos e) <= seconds (d_secs d) (d_nanos d))%R) by (apply seconds_mono; lia).
    assert (P : (0 < seconds (d_secs e) (d_nanos e))%R) by (apply seconds_pos; lia).
    assert (K : (0 <= rnd (IZR (fi_count i)) <= rnd (IZR (fi_count j)))%R).
    { split; [rewrite <- rnd_0|]; apply rnd_le, IZR_le; lia. }
    unfold Rdiv. apply Rmult_le_compat; [lra|left; apply Rinv_0_lt_compat; lra|lra|apply Rinv_le_contravar; lra].
Qed.

Lemma counted_input prof k period count i : counted prof k period count i ->
  is_u32 count /\ fi_count i = count /\ 0 <= period /\
  (fi_duration i = None <-> no_period <= period) /\
  (forall d, fi_duration i = Some d -> valid_duration d /\ nanoseconds d = 125 * period).
Proof.
  intros (c & input & output & c' & image & j & ch & o & off & Hr & H & Hat & Eo & P & Hc & Hp & Hn).
  destruct (C83_inputs_all _ _ _ _ _ _ _ _ _ _ Hr H Hat eq_refl Eo P) as (row & N & _ & HP).
  unfold cell in Hc. rewrite N in Hc. destruct (HP k _ Hc) as (i' & E & C1 & _ & C2).
  injection E as <-. cbv zeta in Hp, Hn, C2. rewrite <- Hp in C2. rewrite <- Hn in C1.
  assert (U : Forall is_u16 (registers_at 0 input off)).
  { assert (Hu : Forall is_u16 input) by apply H. unfold registers_at. cbv zeta.
    destruct P as [P|[_ P]]; [|discriminate P]. rewrite P. cbn [Z.eqb]. apply Forall_forall. intros x Hx.
    apply (proj1 (Forall_forall _ _) Hu). match type of Hx with In _ (skipn ?n _) => rewrite <- (firstn_skipn n input) end. apply in_or_app. right. exact Hx. }
  pose proof (fun q => reg_u16 (registers_at 0 input off) q U) as R.
  pose proof (R (4 * k)%nat) as R0. pose proof (R (4 * k + 1)%nat) as R1. pose proof (R (4 * k + 2)%nat) as R2. pose proof (R (4 * k + 3)%nat) as R3.
  unfold word32, is_u32, is_u16 in *. destruct C2 as [C2 C3].
  split; [lia|]. split; [exact C1|]. split; [lia|]. split; [exact C2|exact C3].
Qed.

Lemma C88_value_all : forall prof k period count i, counted prof k period count i ->
  (no_period <= period -> hertz i = None) /\
  (0 < period < no_period -> exists x, hertz i = Some x /\ within (/ 2097152) x (8000000 * IZR count / IZR period)) /\
  (period = 0 -> hertz i = Some (if count =? 0 then S754_nan else S754_infinity false)).
Proof.
  intros prof k period count i H. destruct (counted_input _ _ _ _ _ H) as (U & E & Hp & H1 & H2).
  assert (U' : is_u32 (fi_count i)) by (rewrite E; exact U).
  pose proof (C25_all i U') as C. split; [|split].
  - intros L. apply H1 in L. rewrite L in C. exact C.
  - intros L. destruct (fi_duration i) as [d|] eqn:Ed; [|exfalso; assert (no_period <= period) by (apply H1; reflexivity); lia].
    destruct (H2 d eq_refl) as [V N]. unfold valid_duration, is_u64, nanoseconds in V, N.
    destruct C as (x & Hx & C & _); [lia|lia|]. exists x. split; [exact Hx|].
    replace (8000000 * IZR count / IZR period)%R with (IZR (fi_count i) / (IZR (d_secs d) + IZR (d_nanos d) / 1000000000))%R; [apply C; lia|].
    rewrite E. assert (Q : (IZR (d_secs d) + IZR (d_nanos d) / 1000000000 = 125 * IZR period / 1000000000)%R).
    { assert (T : IZR (d_secs d * 1000000000 + d_nanos d) = IZR (125 * period)) by (f_equal; exact N).
      rewrite plus_IZR, !mult_IZR in T. lra. }
    rewrite Q. assert (0 < IZR period)%R by (apply IZR_lt; lia). field. lra.
  - intros ->. destruct (fi_duration i) as [d|] eqn:Ed; [|exfalso; assert (no_period <= 0) by (apply H1; reflexivity); unfold no_period in *; lia].
    destruct (H2 d eq_refl) as [V N]. unfold valid_duration, is_u64, nanoseconds in V, N.
    destruct C as (x & Hx & _ & C); [lia|lia|]. rewrite Hx, C by lia. rewrite E. reflexivity.
Qed.

Lemma C88_shown_order_all : forall prof k period count i prof' k' period' count' i' x x',
  counted prof k period count i -> counted prof' k' period' count' i' ->
  count <= count' -> period' <= period < no_period -> 0 < period' \/ 0 < count ->
  hertz i = Some x -> hertz i' = Some x' -> at_most x x'.
Proof.
  intros prof k period count i prof' k' period' count' i' x x' H H' Hc Hp Hz Hx Hx'.
  destruct (counted_input _ _ _ _ _ H) as (U & E & P & H1 & H2). destruct (counted_input _ _ _ _ _ H') as (U' & E' & P' & H1' & H2').
  destruct (fi_duration i) as [d|] eqn:Ed; [|exfalso; assert (no_period <= period) by (apply H1; reflexivity); lia].
  destruct (fi_duration i') as [e|] eqn:Ee; [|exfalso; assert (no_period <= period') by (apply H1'; reflexivity); lia].
  destruct (H2 d eq_refl) as [V N]. destruct (H2' e eq_refl) as [V' N'].
  apply (C88_order_all i i' d e); try assumption; try (rewrite E; assumption); try (rewrite E'; assumption).
  - unfold valid_duration, is_u64, nanoseconds, no_period in *. lia.
  - lia.
  - lia.
  - rewrite E. lia.
Qed.
