(** General lemmas about the conventions of [Base]. *)
From Coq Require Import ZArith List Bool Lia ZifyBool ZifyNat.
From Verif Require Import Base.
Import ListNotations.
Local Open Scope Z_scope.
Ltac Zify.zify_post_hook ::= Z.div_mod_to_equations.

Definition no_panic {A} (o : outcome A) : Prop := match o with Panic _ => False | _ => True end.

Lemma Forall2_length {A B} (R : A -> B -> Prop) l r : Forall2 R l r -> length l = length r.
Proof. induction 1; cbn [length]; auto. Qed.

(** To be used instead of [injection], which computes on arithmetic. *)
Lemma Ok_inj {A} (a b : A) : Ok a = Ok b -> a = b.
Proof. congruence. Qed.
Lemma Some_inj {A} (a b : A) : Some a = Some b -> a = b.
Proof. congruence. Qed.
Lemma pair_inj {A B} (a c : A) (b d : B) : (a, b) = (c, d) -> a = c /\ b = d.
Proof. split; congruence. Qed.

Lemma bind_ok {A B} (x : outcome A) (f : A -> outcome B) b :
  bind x f = Ok b <-> exists a, x = Ok a /\ f a = Ok b.
Proof.
  destruct x as [a|e|p]; cbn [bind]; split; intros H; eauto; try discriminate.
  - destruct H as (a' & Ha & Hf). injection Ha as <-. exact Hf.
  - destruct H as (a' & Ha & _). discriminate.
  - destruct H as (a' & Ha & _). discriminate.
Qed.

Lemma bind_no_panic {A B} (x : outcome A) (f : A -> outcome B) :
  no_panic x -> (forall a, x = Ok a -> no_panic (f a)) -> no_panic (bind x f).
Proof. destruct x; cbn [bind no_panic]; auto. Qed.

Lemma index_ok {A} (l : list A) i a : index l i = Ok a <-> nth_error l i = Some a.
Proof. unfold index. destruct (nth_error l i); split; congruence. Qed.

Lemma index_lt {A} (l : list A) i d : (i < length l)%nat -> index l i = Ok (nth i l d).
Proof. intros H. apply index_ok. apply nth_error_nth'. exact H. Qed.

Lemma index_ge {A} (l : list A) i : (length l <= i)%nat -> index l i = Panic IndexOutOfBounds.
Proof. intros H. unfold index. apply nth_error_None in H. rewrite H. reflexivity. Qed.

Lemma index_no_err {A} (l : list A) i e : index l i <> Err e.
Proof. unfold index. destruct (nth_error l i); discriminate. Qed.

Lemma index_cons {A} (a : A) l i : index (a :: l) (S i) = index l i.
Proof. reflexivity. Qed.

Lemma traverse_ok {A B} (f : A -> outcome B) l r :
  traverse f l = Ok r <-> Forall2 (fun a b => f a = Ok b) l r.
Proof.
  revert r. induction l as [|a l IH]; intros r; cbn [traverse].
  - split; intros H. { injection H as <-. constructor. } { inversion H. reflexivity. }
  - rewrite bind_ok. split; intros H.
    + destruct H as (b & Hb & H). apply bind_ok in H. destruct H as (bs & Hbs & H).
      injection H as <-. constructor; [exact Hb|]. apply IH. exact Hbs.
    + inversion H as [|? b ? bs Hb Hbs]; subst. exists b. split; [exact Hb|].
      apply IH in Hbs. rewrite Hbs. reflexivity.
Qed.

Lemma traverse_map_ok {A B} (f : A -> outcome B) g l :
  (forall a, In a l -> f a = Ok (g a)) -> traverse f l = Ok (map g l).
Proof.
  induction l as [|a l IH]; intros H; cbn [traverse map]; [reflexivity|].
  rewrite (H a) by (left; reflexivity). cbn [bind].
  rewrite IH by (intros; apply H; right; assumption). reflexivity.
Qed.

Lemma traverse_ext {A B} (f g : A -> outcome B) l :
  (forall a, In a l -> f a = g a) -> traverse f l = traverse g l.
Proof.
  induction l as [|a l IH]; intros H; cbn [traverse]; [reflexivity|].
  rewrite (H a) by (left; reflexivity).
  rewrite IH by (intros; apply H; right; assumption). reflexivity.
Qed.

Lemma traverse_map {A B C} (f : B -> outcome C) (g : A -> B) l :
  traverse f (map g l) = traverse (fun a => f (g a)) l.
Proof. induction l as [|a l IH]; cbn [traverse map]; [reflexivity|]. rewrite IH. reflexivity. Qed.

Lemma traverse_app {A B} (f : A -> outcome B) l1 l2 :
  traverse f (l1 ++ l2) = let? a := traverse f l1 in let? b := traverse f l2 in Ok (a ++ b).
Proof.
  induction l1 as [|a l IH]; cbn [traverse app bind].
  - destruct (traverse f l2); reflexivity.
  - destruct (f a); cbn [bind]; try reflexivity. rewrite IH.
    destruct (traverse f l); cbn [bind]; try reflexivity.
    destruct (traverse f l2); reflexivity.
Qed.

Lemma traverse_length {A B} (f : A -> outcome B) l r : traverse f l = Ok r -> length r = length l.
Proof. intros H. apply traverse_ok in H. symmetry. eapply Forall2_length. exact H. Qed.

Lemma traverse_no_panic {A B} (f : A -> outcome B) l :
  (forall a, In a l -> no_panic (f a)) -> no_panic (traverse f l).
Proof.
  induction l as [|a l IH]; intros H; cbn [traverse]; [exact I|].
  apply bind_no_panic; [apply H; left; reflexivity|]. intros b _.
  apply bind_no_panic; [apply IH; intros; apply H; right; assumption|]. intros; exact I.
Qed.

(** The result of [traverse] is an error exactly if some element gives an error
    and everything before succeeds. *)
Lemma traverse_err {A B} (f : A -> outcome B) l e :
  traverse f l = Err e <->
  exists l1 a l2 r, l = l1 ++ a :: l2 /\ traverse f l1 = Ok r /\ f a = Err e.
Proof.
  split.
  - revert e. induction l as [|a l IH]; intros e; cbn [traverse]; [discriminate|].
    destruct (f a) as [b|e'|p] eqn:Ha; cbn [bind].
    + destruct (traverse f l) as [bs|e'|p] eqn:Hl; cbn [bind]; intros H; try discriminate.
      injection H as <-. destruct (IH e' eq_refl) as (l1 & x & l2 & r & -> & Hr & Hx).
      exists (a :: l1), x, l2, (b :: r). cbn [traverse app]. rewrite Ha, Hr. auto.
    + intros H. injection H as <-. exists [], a, l, []. auto.
    + discriminate.
  - intros (l1 & a & l2 & r & -> & Hr & Ha). rewrite traverse_app, Hr. cbn [bind traverse].
    rewrite Ha. reflexivity.
Qed.

Lemma Forall2_nth_error {A B} (R : A -> B -> Prop) l r :
  Forall2 R l r <->
  length l = length r /\
  forall i a b, nth_error l i = Some a -> nth_error r i = Some b -> R a b.
Proof.
  split.
  - intros H. split; [eapply Forall2_length; exact H|].
    induction H as [|a b l r Hab _ IH]; intros [|i] x y; cbn [nth_error]; try discriminate.
    + intros Hx Hy. injection Hx as <-. injection Hy as <-. exact Hab.
    + apply IH.
  - revert r. induction l as [|a l IH]; intros [|b r] [Hl H]; try discriminate; constructor.
    + apply (H O a b); reflexivity.
    + apply IH. split; [injection Hl as Hl; exact Hl|]. intros i. apply (H (S i)).
Qed.

Lemma nth_error_Some_lt {A} (l : list A) i a : nth_error l i = Some a -> (i < length l)%nat.
Proof. intros H. apply nth_error_Some. congruence. Qed.

Lemma nth_error_lt_Some {A} (l : list A) i : (i < length l)%nat -> exists a, nth_error l i = Some a.
Proof.
  intros H. destruct (nth_error l i) as [a|] eqn:E; [eauto|]. apply nth_error_None in E. lia.
Qed.

Lemma nth_error_seq n i : nth_error (seq 0 n) i = if Nat.ltb i n then Some i else None.
Proof.
  destruct (Nat.ltb_spec i n) as [H|H].
  - rewrite nth_error_nth' with (d := O) by (rewrite seq_length; exact H).
    rewrite seq_nth by exact H. reflexivity.
  - apply nth_error_None. rewrite seq_length. exact H.
Qed.

Lemma nth_error_enumerate_from {A} k (l : list A) i :
  nth_error (enumerate_from k l) i = option_map (fun a => ((k + i)%nat, a)) (nth_error l i).
Proof.
  revert k i. induction l as [|a l IH]; intros k [|i]; cbn [enumerate_from nth_error option_map];
    try reflexivity.
  - rewrite Nat.add_0_r. reflexivity.
  - rewrite IH. rewrite Nat.add_succ_r. reflexivity.
Qed.

Lemma nth_error_enumerate {A} (l : list A) i :
  nth_error (enumerate l) i = option_map (fun a => (i, a)) (nth_error l i).
Proof. apply nth_error_enumerate_from. Qed.

Lemma enumerate_from_length {A} k (l : list A) : length (enumerate_from k l) = length l.
Proof. revert k. induction l as [|a l IH]; intros k; cbn [enumerate_from length]; auto. Qed.

Lemma enumerate_length {A} (l : list A) : length (enumerate l) = length l.
Proof. apply enumerate_from_length. Qed.

Lemma enumerate_from_app {A} k (l1 l2 : list A) :
  enumerate_from k (l1 ++ l2) = enumerate_from k l1 ++ enumerate_from (k + length l1) l2.
Proof.
  revert k. induction l1 as [|a l IH]; intros k; cbn [enumerate_from app length].
  - rewrite Nat.add_0_r. reflexivity.
  - rewrite IH, Nat.add_succ_r. reflexivity.
Qed.

(** Traversing the positions [0 .. n-1] and reading from the list is traversing the
    list. *)
Lemma traverse_index {A B} (f : A -> outcome B) (l : list A) n :
  (n <= length l)%nat ->
  traverse (fun i => let? d := index l i in f d) (seq 0 n) = traverse f (firstn n l).
Proof.
  revert l. induction n as [|n IH]; intros l H; [reflexivity|].
  destruct l as [|a l]; cbn [length] in H; [lia|].
  cbn [seq traverse firstn]. unfold index at 1. cbn [nth_error bind].
  destruct (f a); cbn [bind]; try reflexivity.
  rewrite <- seq_shift, traverse_map.
  rewrite <- (IH l) by lia. reflexivity.
Qed.

Lemma store_ok {A} (l : list A) i a : (i < length l)%nat ->
  store l i a = Ok (firstn i l ++ a :: skipn (S i) l).
Proof.
  revert i. induction l as [|x l IH]; intros [|i] H; cbn [length] in H; try lia.
  - reflexivity.
  - cbn [store]. rewrite IH by lia. reflexivity.
Qed.

Lemma store_length {A} (l l' : list A) i a : store l i a = Ok l' -> length l' = length l.
Proof.
  revert i l'. induction l as [|x l IH]; intros [|i] l'; cbn [store]; try discriminate.
  - intros H. injection H as <-. reflexivity.
  - intros H. apply bind_ok in H. destruct H as (t & Ht & H). injection H as <-.
    cbn [length]. f_equal. eapply IH. exact Ht.
Qed.

Lemma store_lt {A} (l l' : list A) i a : store l i a = Ok l' -> (i < length l)%nat.
Proof.
  revert i l'. induction l as [|x l IH]; intros [|i] l'; cbn [store length]; try discriminate.
  - lia.
  - intros H. apply bind_ok in H. destruct H as (t & Ht & H). apply IH in Ht. lia.
Qed.

Lemma store_nth_error {A} (l l' : list A) i a j : store l i a = Ok l' ->
  nth_error l' j = if Nat.eqb j i then Some a else nth_error l j.
Proof.
  revert i l' j. induction l as [|x l IH]; intros [|i] l' j; cbn [store]; try discriminate.
  - intros H. injection H as <-. destruct j; reflexivity.
  - intros H. apply bind_ok in H. destruct H as (t & Ht & H). injection H as <-.
    destruct j as [|j]; cbn [nth_error Nat.eqb]; [reflexivity|]. eapply IH. exact Ht.
Qed.

Lemma store_no_err {A} (l : list A) i a e : store l i a <> Err e.
Proof.
  revert i. induction l as [|x l IH]; intros [|i]; cbn [store]; try discriminate.
  specialize (IH i). destruct (store l i a); cbn [bind]; try discriminate. congruence.
Qed.

Lemma nth_error_ext {A} (l1 l2 : list A) :
  (forall i, nth_error l1 i = nth_error l2 i) -> l1 = l2.
Proof.
  revert l2. induction l1 as [|a l1 IH]; intros [|b l2] H.
  - reflexivity.
  - specialize (H O). discriminate.
  - specialize (H O). discriminate.
  - f_equal. { specialize (H O). cbn in H. congruence. }
    apply IH. intros i. apply (H (S i)).
Qed.

(** Maps *)
Section MapFacts.
  Context {K V : Type} (eqb : K -> K -> bool) (eqb_spec : forall a b, reflect (a = b) (eqb a b)).

  Lemma map_get_remove k k' (m : list (K * V)) :
    map_get eqb k (map_remove eqb k' m) = if eqb k' k then None else map_get eqb k m.
  Proof.
    unfold map_remove. induction m as [|[k0 v] m IH]; cbn [filter map_get fst].
    - destruct (eqb k' k); reflexivity.
    - destruct (eqb_spec k' k0) as [->|Hne]; cbn [negb].
      + rewrite IH. destruct (eqb_spec k0 k) as [->|Hk]; [reflexivity|].
        destruct (eqb_spec k k0); [congruence|reflexivity].
      + cbn [map_get]. destruct (eqb_spec k k0) as [->|Hk].
        * destruct (eqb_spec k' k0); [contradiction|reflexivity].
        * exact IH.
  Qed.

  Lemma map_get_insert k k' v (m : list (K * V)) :
    map_get eqb k (map_insert eqb k' v m) = if eqb k' k then Some v else map_get eqb k m.
  Proof.
    unfold map_insert. cbn [map_get]. rewrite map_get_remove.
    destruct (eqb_spec k k') as [->|H].
    - destruct (eqb_spec k' k'); [reflexivity|contradiction].
    - destruct (eqb_spec k' k); [congruence|reflexivity].
  Qed.

  Lemma map_get_in k v (m : list (K * V)) : map_get eqb k m = Some v -> In (k, v) m.
  Proof.
    induction m as [|[k0 v0] m IH]; cbn [map_get]; [discriminate|].
    destruct (eqb_spec k k0) as [->|H]; intros Hg.
    - injection Hg as <-. left. reflexivity.
    - right. apply IH. exact Hg.
  Qed.

  Lemma map_get_none k (m : list (K * V)) : map_get eqb k m = None <-> ~ In k (map fst m).
  Proof.
    induction m as [|[k0 v0] m IH]; cbn [map_get map fst In].
    - tauto.
    - destruct (eqb_spec k k0) as [->|H].
      + split; [discriminate|]. tauto.
      + rewrite IH. split; intros Hn; [intros [E|E]; [congruence|tauto] | tauto].
  Qed.

  Lemma in_map_remove k k' v (m : list (K * V)) :
    In (k, v) (map_remove eqb k' m) <-> In (k, v) m /\ k <> k'.
  Proof.
    unfold map_remove. rewrite filter_In. cbn [fst].
    destruct (eqb_spec k' k); cbn [negb]; intuition congruence.
  Qed.

  Lemma nodup_remove k (m : list (K * V)) :
    NoDup (map fst m) -> NoDup (map fst (map_remove eqb k m)).
  Proof.
    induction m as [|[k0 v0] m IH]; intros H; cbn [map fst] in *; [exact H|].
    inversion H as [|? ? Hni Hnd]; subst. cbn [map_remove filter fst].
    destruct (eqb k k0); cbn [negb]; [apply IH; exact Hnd|].
    cbn [map fst]. constructor; [|apply IH; exact Hnd].
    intros Hin. apply Hni. apply in_map_iff in Hin. destruct Hin as ([k1 v1] & E & Hin).
    cbn [fst] in E. subst k1. apply (in_map_remove k0 k v1 m) in Hin.
    apply in_map_iff. exists (k0, v1). tauto.
  Qed.

  Lemma nodup_insert k v (m : list (K * V)) :
    NoDup (map fst m) -> NoDup (map fst (map_insert eqb k v m)).
  Proof.
    intros H. unfold map_insert. cbn [map fst]. constructor; [|apply nodup_remove; exact H].
    rewrite <- map_get_none, map_get_remove. destruct (eqb_spec k k); congruence.
  Qed.

  Lemma map_get_nodup_in k v (m : list (K * V)) :
    NoDup (map fst m) -> In (k, v) m -> map_get eqb k m = Some v.
  Proof.
    induction m as [|[k0 v0] m IH]; cbn [map fst In map_get]; [tauto|].
    intros Hnd [E|Hin]; inversion Hnd as [|? ? Hni Hnd']; subst.
    - injection E as -> ->. destruct (eqb_spec k k); congruence.
    - destruct (eqb_spec k k0) as [->|Hne]; [|apply IH; assumption].
      exfalso. apply Hni. apply in_map_iff. exists (k0, v). auto.
  Qed.
End MapFacts.

Lemma firstn_skipn_S {A} (l : list A) i d : (i < length l)%nat ->
  skipn i l = nth i l d :: skipn (S i) l.
Proof.
  revert i. induction l as [|a l IH]; intros [|i] H; cbn [length] in H; try lia; [reflexivity|].
  cbn [skipn nth]. apply IH. lia.
Qed.

(** Bit level facts on [Z]. *)
Lemma land_pow2_mask a n : 0 <= n -> Z.land a (2 ^ n - 1) = a mod 2 ^ n.
Proof.
  intros Hn. replace (2 ^ n - 1) with (Z.ones n) by (rewrite Z.ones_equiv; lia).
  apply Z.land_ones. exact Hn.
Qed.

Lemma testbit_high a n m : 0 <= a < 2 ^ n -> n <= m -> Z.testbit a m = false.
Proof.
  intros Ha Hm. destruct (Z.ltb_spec n 0) as [Hn|Hn].
  { rewrite Z.pow_neg_r in Ha by exact Hn. lia. }
  destruct (Z.eq_dec a 0) as [->|Hz]; [apply Z.testbit_0_l|].
  apply Z.bits_above_log2; [lia|].
  apply Z.lt_le_trans with n; [|exact Hm]. apply Z.log2_lt_pow2; lia.
Qed.

Lemma lor_shiftl_add a b n : 0 <= n -> 0 <= a < 2 ^ n -> Z.lor a (Z.shiftl b n) = a + b * 2 ^ n.
Proof.
  intros Hn Ha. rewrite <- Z.shiftl_mul_pow2 by exact Hn.
  symmetry. rewrite Z.add_nocarry_lxor, Z.lxor_lor; try reflexivity.
  - apply Z.bits_inj'. intros m Hm. rewrite Z.land_spec, Z.bits_0.
    destruct (Z.ltb_spec m n) as [H|H].
    + rewrite Z.shiftl_spec_low by exact H. apply andb_false_r.
    + rewrite (testbit_high a n m) by assumption. reflexivity.
  - apply Z.bits_inj'. intros m Hm. rewrite Z.land_spec, Z.bits_0.
    destruct (Z.ltb_spec m n) as [H|H].
    + rewrite Z.shiftl_spec_low by exact H. apply andb_false_r.
    + rewrite (testbit_high a n m) by assumption. reflexivity.
Qed.

Lemma skipn_skipn_add {A} i j (l : list A) : skipn i (skipn j l) = skipn (j + i) l.
Proof.
  revert l. induction j as [|j IH]; intros l; [reflexivity|].
  destruct l as [|a l]; [rewrite !skipn_nil; reflexivity|]. cbn [skipn Nat.add]. apply IH.
Qed.
