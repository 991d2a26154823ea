(** Proofs for addresses, offsets and parameter windows: C06 - C08. *)
From Coq Require Import ZArith List Bool Lia ZifyBool ZifyNat.
From Verif Require Import Base Facts Types Lib Fbc SpecCatalogue SpecAddr.
Import ListNotations.
Local Open Scope Z_scope.
Ltac Zify.zify_post_hook ::= Z.div_mod_to_equations.

(** *** C06 *)

Lemma to_register_address_eq a : is_u16 a ->
  to_register_address a = (a / 16, Z.to_nat (a mod 16)).
Proof.
  unfold is_u16, to_register_address. intros Ha. f_equal.
  - rewrite Z.shiftr_land. change (Z.shiftr 65520 4) with (2 ^ 12 - 1).
    rewrite land_pow2_mask, Z.shiftr_div_pow2 by lia. change (2 ^ 12) with 4096.
    change (2 ^ 4) with 16. lia.
  - change 15 with (2 ^ 4 - 1). rewrite land_pow2_mask by lia. reflexivity.
Qed.

Lemma to_bit_address_eq r b : 0 <= r -> (b < 16)%nat ->
  to_bit_address r b = (r mod 4096) * 16 + Z.of_nat b.
Proof.
  intros Hr Hb. unfold to_bit_address, as_u16.
  rewrite (Z.mod_small (Z.of_nat b)) by lia.
  rewrite Z.shiftl_mul_pow2 by lia. change (2 ^ 4) with 16.
  replace ((r * 16) mod 65536) with (Z.shiftl (r mod 4096) 4).
  2:{ rewrite Z.shiftl_mul_pow2 by lia. change (2 ^ 4) with 16. lia. }
  rewrite Z.lor_comm, lor_shiftl_add by lia. change (2 ^ 4) with 16. lia.
Qed.

Lemma to_bit_address_u16 r b : is_u16 (to_bit_address r b).
Proof.
  unfold to_bit_address, as_u16, is_u16.
  set (x := Z.shiftl r 4 mod 65536). set (y := Z.of_nat b mod 65536).
  assert (Hx : 0 <= x < 2 ^ 16) by (change (2 ^ 16) with 65536; lia).
  assert (Hy : 0 <= y < 2 ^ 16) by (change (2 ^ 16) with 65536; lia).
  split; [apply Z.lor_nonneg; lia|].
  destruct (Z.eq_dec (Z.lor x y) 0) as [->|Hne]; [lia|].
  change 65536 with (2 ^ 16). apply Z.log2_lt_pow2.
  - assert (0 <= Z.lor x y) by (apply Z.lor_nonneg; lia). lia.
  - rewrite Z.log2_lor by lia. apply Z.max_lub_lt.
    + destruct (Z.eq_dec x 0) as [->|]; [reflexivity|]. apply Z.log2_lt_pow2; lia.
    + destruct (Z.eq_dec y 0) as [->|]; [reflexivity|]. apply Z.log2_lt_pow2; lia.
Qed.

Lemma split_merge a : is_u16 a ->
  let '(r, b) := to_register_address a in to_bit_address r b = a.
Proof.
  intros Ha. rewrite to_register_address_eq by exact Ha. unfold is_u16 in Ha.
  rewrite to_bit_address_eq by lia. lia.
Qed.

Lemma merge_split r b : 0 <= r < 0x1000 -> (b < 16)%nat ->
  to_register_address (to_bit_address r b) = (r, b).
Proof.
  intros Hr Hb. rewrite to_register_address_eq by apply to_bit_address_u16.
  rewrite to_bit_address_eq by lia. f_equal; lia.
Qed.

Lemma merge_collides r b : ~ (0 <= r < 0x1000 /\ (b < 16)%nat) ->
  exists r' b', 0 <= r' < 0x1000 /\ (b' < 16)%nat /\ (r', b') <> (r, b) /\
                to_bit_address r' b' = to_bit_address r b.
Proof.
  intros Hout. pose proof (to_bit_address_u16 r b) as Hu.
  pose proof (split_merge _ Hu) as Hs. rewrite to_register_address_eq in Hs by exact Hu.
  unfold is_u16 in Hu.
  exists (to_bit_address r b / 16), (Z.to_nat (to_bit_address r b mod 16)).
  split; [lia|]. split; [lia|]. split; [|exact Hs].
  intros E. injection E as E1 E2. apply Hout. lia.
Qed.

Lemma C06_all :
  (forall a, is_u16 a ->
     exists r b, to_register_address a = (r, b) /\ r = a / 16 /\ Z.of_nat b = a mod 16 /\
                 to_bit_address r b = a) /\
  (forall r b, 0 <= r < 0x1000 -> (b < 16)%nat ->
     to_register_address (to_bit_address r b) = (r, b)) /\
  (forall r b, ~ (0 <= r < 0x1000 /\ (b < 16)%nat) ->
     exists r' b', 0 <= r' < 0x1000 /\ (b' < 16)%nat /\ (r', b') <> (r, b) /\
                   to_bit_address r' b' = to_bit_address r b).
Proof.
  split; [|split; [exact merge_split|exact merge_collides]].
  intros a Ha. exists (a / 16), (Z.to_nat (a mod 16)).
  pose proof (split_merge a Ha) as Hs. rewrite to_register_address_eq in Hs by exact Ha.
  split; [apply to_register_address_eq; exact Ha|]. unfold is_u16 in Ha.
  split; [reflexivity|]. split; [lia|exact Hs].
Qed.

(** *** C07 *)

Lemma offsets_ok data :
  exists l, offsets_of_process_data data = Ok l /\ length l = Nat.div (length data) 2 /\
    forall i o, nth_error l i = Some o ->
      exists out inp, nth_error data (2 * i) = Some out /\ nth_error data (2 * i + 1) = Some inp /\
        o = mk_offset (word_to_offset inp) (word_to_offset out).
Proof.
  set (g := fun i => mk_offset (word_to_offset (nth (i * 2 + 1) data 0))
                               (word_to_offset (nth (i * 2) data 0))).
  exists (map g (seq 0 (Nat.div (length data) 2))). split; [|split].
  - unfold offsets_of_process_data. apply traverse_map_ok. intros i Hi. apply in_seq in Hi.
    rewrite (index_lt data (i * 2 + 1) 0) by lia. rewrite (index_lt data (i * 2) 0) by lia.
    reflexivity.
  - rewrite map_length, seq_length. reflexivity.
  - intros i o Ho. rewrite nth_error_map, nth_error_seq in Ho.
    destruct (Nat.ltb_spec i (Nat.div (length data) 2)) as [Hi|Hi]; [|discriminate].
    cbn [option_map] in Ho. injection Ho as <-.
    exists (nth (i * 2) data 0), (nth (i * 2 + 1) data 0).
    replace (2 * i)%nat with (i * 2)%nat by lia.
    split; [apply nth_error_nth'; lia|]. split; [apply nth_error_nth'; lia|]. reflexivity.
Qed.

Lemma C07_all data :
  exists l, offsets_of_process_data data = Ok l /\ length l = Nat.div (length data) 2 /\
    forall i o, nth_error l i = Some o ->
      exists out inp, nth_error data (2 * i) = Some out /\ nth_error data (2 * i + 1) = Some inp /\
        (mo_output o = None <-> out = 0xFFFF) /\ (mo_input o = None <-> inp = 0xFFFF) /\
        (forall v, mo_output o = Some v -> v = out) /\ (forall v, mo_input o = Some v -> v = inp).
Proof.
  destruct (offsets_ok data) as (l & Hl & Hlen & Hn). exists l. split; [exact Hl|].
  split; [exact Hlen|]. intros i o Ho. destruct (Hn i o Ho) as (out & inp & H1 & H2 & ->).
  exists out, inp. split; [exact H1|]. split; [exact H2|]. cbn [mo_output mo_input].
  unfold word_to_offset.
  destruct (Z.eqb_spec out 0xFFFF); destruct (Z.eqb_spec inp 0xFFFF);
    repeat split; intros; try congruence; try discriminate.
Qed.

(** *** C08 *)

Lemma param_count_ok t n : documented_param_count t = Some n <-> param_register_count t = Ok n.
Proof.
  destruct t; cbn [documented_param_count param_register_count]; split; intros H;
    congruence || (injection H as <-; reflexivity).
Qed.

Lemma param_count_unsupported t :
  documented_param_count t = None -> param_register_count t = Panic Unsupported.
Proof. destruct t; cbn; intros H; reflexivity || discriminate. Qed.

Lemma param_addresses_spec prof ms l :
  (length ms <= 64)%nat ->
  (param_addresses_and_register_counts prof ms = Ok l <->
   length l = length ms /\
   forall i t a c, nth_error ms i = Some t -> nth_error l i = Some (a, c) ->
     a = 0xC000 + 256 * Z.of_nat i /\ documented_param_count t = Some c).
Proof.
  intros Hlen. unfold param_addresses_and_register_counts. rewrite traverse_ok, Forall2_nth_error.
  rewrite enumerate_length.
  assert (Hstep : forall i t a c, nth_error ms i = Some t ->
     ((let? a := add_u16 prof ADDR_MODULE_PARAMETERS (as_u16 (Z.of_nat i * 256)) in
       let? c := param_register_count t in Ok (a, c)) = Ok (a, c) <->
      a = 0xC000 + 256 * Z.of_nat i /\ documented_param_count t = Some c)).
  { intros i t a c Hi. assert (i < length ms)%nat by (apply nth_error_Some; congruence).
    unfold add_u16, arith, as_u16, ADDR_MODULE_PARAMETERS.
    replace ((Z.of_nat i * 256) mod 65536) with (256 * Z.of_nat i) by lia.
    destruct ((0 <=? 49152 + 256 * Z.of_nat i) && (49152 + 256 * Z.of_nat i <? 65536)) eqn:E; [|lia].
    cbn [bind]. rewrite param_count_ok. destruct (param_register_count t); cbn [bind].
    - split; intros H'; [injection H' as <- <-; auto|destruct H' as [-> H']; congruence].
    - split; intros H'; [discriminate|destruct H' as [_ H']; discriminate].
    - split; intros H'; [discriminate|destruct H' as [_ H']; discriminate]. }
  split.
  - intros [Hl H]. split; [auto|]. intros i t a c Hi Hc.
    apply Hstep; [exact Hi|]. apply (H i (i, t) (a, c)); [|exact Hc].
    rewrite nth_error_enumerate, Hi. reflexivity.
  - intros [Hl H]. split; [auto|]. intros i [j t] [a c] Hi Hc.
    rewrite nth_error_enumerate in Hi. destruct (nth_error ms i) as [t'|] eqn:Ht; [|discriminate].
    cbn [option_map] in Hi. injection Hi as <- <-. apply Hstep; [exact Ht|]. apply (H i t' a c Ht Hc).
Qed.

Lemma param_addresses_supported prof ms :
  (length ms <= 64)%nat -> Forall (fun t => documented_param_count t <> None) ms ->
  exists l, param_addresses_and_register_counts prof ms = Ok l.
Proof.
  intros Hlen Hs.
  set (g := fun im : nat * module_type => (0xC000 + 256 * Z.of_nat (fst im),
     match documented_param_count (snd im) with Some c => c | None => 0 end)).
  exists (map g (enumerate ms)). apply param_addresses_spec; [exact Hlen|].
  split; [rewrite map_length; apply enumerate_length|].
  intros i t a c Hi Hc. rewrite nth_error_map, nth_error_enumerate, Hi in Hc.
  cbn [option_map] in Hc. unfold g in Hc. cbn [fst snd] in Hc. injection Hc as <- <-.
  split; [reflexivity|]. rewrite Forall_forall in Hs. specialize (Hs t (nth_error_In _ _ Hi)).
  destruct (documented_param_count t); congruence.
Qed.

Lemma documented_param_count_bound t c : documented_param_count t = Some c -> 0 <= c <= 33.
Proof. destruct t; cbn; intros H; try discriminate; injection H as <-; lia. Qed.

Lemma param_windows prof ms l : (length ms <= 64)%nat ->
  param_addresses_and_register_counts prof ms = Ok l ->
  Forall (fun w => 0xC000 <= fst w /\ fst w + snd w <= 0x10000) l /\
  forall i j a b, i <> j -> nth_error l i = Some a -> nth_error l j = Some b -> disjoint_windows a b.
Proof.
  intros Hlen Hok. apply param_addresses_spec in Hok; [|exact Hlen]. destruct Hok as [Hl H].
  assert (Hin : forall i a c, nth_error l i = Some (a, c) ->
     a = 0xC000 + 256 * Z.of_nat i /\ 0 <= c <= 33 /\ (i < 64)%nat).
  { intros i a c Hi. assert (i < length l)%nat by (apply nth_error_Some; congruence).
    destruct (nth_error ms i) as [t|] eqn:Ht; [|apply nth_error_None in Ht; lia].
    destruct (H i t a c Ht Hi) as [-> Hc]. apply documented_param_count_bound in Hc. lia. }
  split.
  - apply Forall_forall. intros [a c] Hi. apply In_nth_error in Hi. destruct Hi as [i Hi].
    apply Hin in Hi. cbn [fst snd]. lia.
  - intros i j [a ca] [b cb] Hij Hi Hj. apply Hin in Hi. apply Hin in Hj.
    unfold disjoint_windows. cbn [fst snd]. lia.
Qed.

Lemma param_addresses_at prof ms l i w : param_addresses_and_register_counts prof ms = Ok l ->
  nth_error l i = Some w ->
  (let? a := add_u16 prof ADDR_MODULE_PARAMETERS (as_u16 (Z.of_nat i * 256)) in Ok a) = Ok (fst w).
Proof.
  intros H Hi. unfold param_addresses_and_register_counts in H.
  apply traverse_ok, Forall2_nth_error in H. destruct H as [Hl H].
  assert (Hlt : (i < length (enumerate ms))%nat).
  { rewrite Hl. apply nth_error_Some. congruence. }
  destruct (nth_error (enumerate ms) i) as [[j t]|] eqn:Hj; [|apply nth_error_None in Hj; lia].
  specialize (H i _ _ Hj Hi). cbv beta iota in H.
  rewrite nth_error_enumerate in Hj. destruct (nth_error ms i); [|discriminate].
  cbn [option_map] in Hj. injection Hj as <- <-.
  apply bind_ok in H. destruct H as (a & Ha & H). apply bind_ok in H. destruct H as (c & Hc & H).
  injection H as <-. rewrite Ha. reflexivity.
Qed.

Lemma param_addresses_overflow_debug ms :
  (64 < length ms)%nat -> Forall (fun t => documented_param_count t <> None) ms ->
  param_addresses_and_register_counts Debug ms = Panic ArithmeticOverflow.
Proof.
  intros Hlen Hs.
  rewrite <- (firstn_skipn 64 ms).
  unfold param_addresses_and_register_counts, enumerate. rewrite enumerate_from_app, traverse_app.
  assert (Hf : length (firstn 64 ms) = 64%nat) by (rewrite firstn_length; lia).
  assert (Hs' : Forall (fun t => documented_param_count t <> None) (firstn 64 ms)).
  { apply Forall_forall. intros t Ht. rewrite Forall_forall in Hs. apply Hs.
    rewrite <- (firstn_skipn 64 ms). apply in_or_app. left. exact Ht. }
  destruct (param_addresses_supported Debug (firstn 64 ms)) as [l Hl]; [lia|exact Hs'|].
  unfold param_addresses_and_register_counts, enumerate in Hl. rewrite Hl. cbn [bind].
  rewrite Hf. destruct (skipn 64 ms) as [|t ts] eqn:E.
  { assert (length (skipn 64 ms) = 0%nat) by (rewrite E; reflexivity). rewrite skipn_length in *. lia. }
  cbn [Nat.add enumerate_from traverse]. reflexivity.
Qed.

Lemma param_addresses_release ms l i a c :
  param_addresses_and_register_counts Release ms = Ok l -> nth_error l i = Some (a, c) ->
  a = (0xC000 + 256 * Z.of_nat i) mod 65536.
Proof.
  intros H Hi. pose proof (param_addresses_at _ _ _ _ _ H Hi) as Ha. cbn [fst] in Ha.
  unfold add_u16, arith, as_u16, ADDR_MODULE_PARAMETERS in Ha.
  match type of Ha with context [if ?b then _ else _] => destruct b eqn:E end;
    cbn [bind] in Ha; apply Ok_inj in Ha; lia.
Qed.

Lemma param_addresses_release_ok ms : Forall (fun t => documented_param_count t <> None) ms ->
  exists l, param_addresses_and_register_counts Release ms = Ok l /\ length l = length ms.
Proof.
  intros Hs.
  assert (H : exists l, param_addresses_and_register_counts Release ms = Ok l).
  { unfold param_addresses_and_register_counts.
    set (g := fun im : nat * module_type => ((0xC000 + 256 * Z.of_nat (fst im)) mod 65536,
       match documented_param_count (snd im) with Some c => c | None => 0 end)).
    exists (map g (enumerate ms)). apply traverse_map_ok. intros [i t] Hi.
    apply In_nth_error in Hi. destruct Hi as [k Hk]. rewrite nth_error_enumerate in Hk.
    destruct (nth_error ms k) as [t'|] eqn:Ht; [|discriminate]. cbn [option_map] in Hk.
    injection Hk as <- <-. rewrite Forall_forall in Hs. specialize (Hs t' (nth_error_In _ _ Ht)).
    unfold g. cbn [fst snd]. destruct (documented_param_count t') as [c|] eqn:Hc; [|contradiction].
    apply param_count_ok in Hc. rewrite Hc.
    unfold add_u16, arith, as_u16, ADDR_MODULE_PARAMETERS.
    destruct (_ && _) eqn:E; cbn [bind]; f_equal; f_equal; lia. }
  destruct H as [l Hl]. exists l. split; [exact Hl|].
  apply traverse_length in Hl. rewrite enumerate_length in Hl. exact Hl.
Qed.

Lemma C08_all :
  (forall prof ms, (length ms <= 64)%nat -> Forall (fun t => documented_param_count t <> None) ms ->
     exists l, param_addresses_and_register_counts prof ms = Ok l /\ length l = length ms /\
       (forall i t a c, nth_error ms i = Some t -> nth_error l i = Some (a, c) ->
          a = 0xC000 + 256 * Z.of_nat i /\ documented_param_count t = Some c) /\
       Forall (fun w => 0xC000 <= fst w /\ fst w + snd w <= 0x10000) l /\
       (forall i j a b, i <> j -> nth_error l i = Some a -> nth_error l j = Some b ->
          disjoint_windows a b)) /\
  (forall ms, (64 < length ms)%nat -> Forall (fun t => documented_param_count t <> None) ms ->
     param_addresses_and_register_counts Debug ms = Panic ArithmeticOverflow /\
     exists l, param_addresses_and_register_counts Release ms = Ok l /\ length l = length ms /\
       forall i a c, nth_error l i = Some (a, c) -> a = (0xC000 + 256 * Z.of_nat i) mod 65536).
Proof.
  split.
  - intros prof ms Hlen Hs. destruct (param_addresses_supported prof ms Hlen Hs) as [l Hl].
    exists l. split; [exact Hl|]. pose proof Hl as Hl'. apply param_addresses_spec in Hl'; [|exact Hlen].
    destruct Hl' as [H1 H2]. split; [exact H1|]. split; [exact H2|].
    eapply param_windows; eassumption.
  - intros ms Hlen Hs. split; [apply param_addresses_overflow_debug; assumption|].
    destruct (param_addresses_release_ok ms Hs) as (l & Hl & Hlen').
    exists l. split; [exact Hl|]. split; [exact Hlen'|]. intros i a c.
    apply param_addresses_release with (ms := ms). exact Hl.
Qed.

Lemma param_unsupported_panics prof pre t post :
  (length pre < 64)%nat -> Forall (fun t => documented_param_count t <> None) pre ->
  documented_param_count t = None ->
  param_addresses_and_register_counts prof (pre ++ t :: post) = Panic Unsupported.
Proof.
  intros Hlen Hs Ht. unfold param_addresses_and_register_counts, enumerate.
  rewrite enumerate_from_app, traverse_app.
  destruct (param_addresses_supported prof pre) as [l Hl]; [lia|exact Hs|].
  unfold param_addresses_and_register_counts, enumerate in Hl. rewrite Hl. cbn [bind].
  cbn [enumerate_from traverse Nat.add].
  unfold add_u16, arith, as_u16, ADDR_MODULE_PARAMETERS.
  destruct (_ && _) eqn:E; [|lia]. cbn [bind]. rewrite param_count_unsupported by exact Ht. reflexivity.
Qed.
