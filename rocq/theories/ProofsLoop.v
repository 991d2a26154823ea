(** The loop of [Coupler::next]: every iteration changes only the entries of its own module. *)
From Coq Require Import ZArith List Bool Lia ZifyBool ZifyNat Permutation.
From Verif Require Import Base Facts F32 Types Lib Util Digital Analog Fcnt Com Fbc
  SpecCodec SpecSerial SpecCoupler ProofsCodec ProofsSerial.
Import ListNotations.
Local Open Scope Z_scope.
Ltac Zify.zify_post_hook ::= Z.div_mod_to_equations.

Lemma address_eqb_spec a b : reflect (a = b) (address_eqb a b).
Proof.
  destruct a as [m c], b as [m' c']. unfold address_eqb. cbn [a_module a_channel].
  destruct (Nat.eqb_spec m m') as [->|H]; destruct (Nat.eqb_spec c c') as [->|H'];
    cbn [andb]; constructor; congruence.
Qed.

(** *** Two-dimensional stores *)

Lemma store2_ok {A} (v v' : list (list A)) i j a : store2 v i j a = Ok v' ->
  length v' = length v /\
  (forall k, k <> i -> nth_error v' k = nth_error v k) /\
  exists row row', nth_error v i = Some row /\ nth_error v' i = Some row' /\
    length row' = length row /\ (j < length row)%nat /\
    forall k, nth_error row' k = if Nat.eqb k j then Some a else nth_error row k.
Proof.
  unfold store2. intros H. apply bind_ok in H. destruct H as (row & Hr & H). apply bind_ok in H.
  destruct H as (row' & Hs & H). apply index_ok in Hr.
  split; [eapply store_length; exact H|].
  pose proof (store_nth_error _ _ _ _ 0 Hs) as _.
  split.
  - intros k Hk. rewrite (store_nth_error _ _ _ _ k H).
    destruct (Nat.eqb_spec k i) as [->|_]; [congruence|reflexivity].
  - exists row, row'. split; [exact Hr|]. split.
    + rewrite (store_nth_error _ _ _ _ i H). rewrite Nat.eqb_refl. reflexivity.
    + split; [eapply store_length; exact Hs|]. split; [eapply store_lt; exact Hs|].
      intros k. apply (store_nth_error _ _ _ _ k Hs).
Qed.

Lemma store2_exists {A} (v : list (list A)) i j a row : nth_error v i = Some row -> (j < length row)%nat ->
  exists v', store2 v i j a = Ok v'.
Proof.
  intros Hr Hj. unfold store2. assert (Hi : index v i = Ok row) by (apply index_ok; exact Hr).
  rewrite Hi. cbn [bind]. rewrite store_ok by exact Hj. cbn [bind].
  rewrite store_ok by (eapply nth_error_Some_lt; exact Hr). eauto.
Qed.

Lemma store2_no_err {A} (v : list (list A)) i j a e : store2 v i j a <> Err e.
Proof.
  unfold store2. destruct (index v i) as [row|e'|p] eqn:E; cbn [bind]; try discriminate.
  - destruct (store row j a) as [row'|e'|p] eqn:E2; cbn [bind]; try discriminate.
    + apply store_no_err.
    + exfalso. exact (store_no_err _ _ _ _ E2).
  - exfalso. exact (index_no_err _ _ _ E).
Qed.

(** *** Pending writes of a module *)

Lemma apply_writes_spec m chs : forall w n w' n', apply_writes m chs w n = Ok (w', n') ->
  length n' = length n /\
  (forall i, i <> m -> nth_error n' i = nth_error n i) /\
  (forall a, map_get address_eqb a w' =
     if Nat.eqb (a_module a) m && (if in_dec Nat.eq_dec (a_channel a) chs then true else false)
     then None else map_get address_eqb a w) /\
  (forall row, nth_error n m = Some row -> exists row', nth_error n' m = Some row' /\
     length row' = length row /\
     forall j, nth_error row' j =
       if in_dec Nat.eq_dec j chs then
         match map_get address_eqb (mk_address m j) w with Some v => Some v | None => nth_error row j end
       else nth_error row j).
Proof.
  induction chs as [|c chs IH]; intros w n w' n' H; cbn [apply_writes] in H.
  - apply Ok_inj, pair_inj in H. destruct H as [<- <-]. split; [reflexivity|]. split; [reflexivity|].
    split; [intros a; rewrite andb_false_r; reflexivity|]. intros row Hr. exists row. auto.
  - destruct (map_get address_eqb (mk_address m c) w) as [v|] eqn:Eg.
    + apply bind_ok in H. destruct H as (n1 & Hs & H).
      destruct (store2_ok _ _ _ _ _ Hs) as (L1 & F1 & r0 & r1 & N0 & N1 & Lr & Hlt & C1).
      destruct (IH _ _ _ _ H) as (L2 & F2 & W2 & R2). split; [lia|]. split; [|split].
      * intros i Hi. rewrite F2 by exact Hi. apply F1. exact Hi.
      * intros a. rewrite W2, (map_get_remove address_eqb address_eqb_spec).
        destruct a as [am ac]. cbn [a_module a_channel]. unfold address_eqb. cbn [a_module a_channel].
        destruct (Nat.eqb_spec m am) as [->|Hm].
        -- rewrite Nat.eqb_refl. cbn [andb].
           destruct (Nat.eqb_spec c ac) as [->|Hc].
           ++ destruct (in_dec Nat.eq_dec ac chs); destruct (in_dec Nat.eq_dec ac (ac :: chs)) as [|N]; try reflexivity;
                exfalso; apply N; left; reflexivity.
           ++ destruct (in_dec Nat.eq_dec ac chs) as [i|ni]; destruct (in_dec Nat.eq_dec ac (c :: chs)) as [i'|ni']; try reflexivity.
              ** exfalso. apply ni'. right. exact i.
              ** exfalso. destruct i' as [E|i']; [congruence|contradiction].
        -- destruct (Nat.eqb_spec am m); [congruence|]. reflexivity.
      * intros row Hr. rewrite N0 in Hr. apply Some_inj in Hr. subst row.
        destruct (R2 r1 N1) as (row' & Hr' & Ll & Hc). exists row'. split; [exact Hr'|]. split; [lia|].
        intros j. rewrite Hc, (map_get_remove address_eqb address_eqb_spec), C1.
        unfold address_eqb at 1. cbn [a_module a_channel]. rewrite Nat.eqb_refl. cbn [andb].
        destruct (Nat.eqb_spec c j) as [->|Hcj].
        -- rewrite Nat.eqb_refl. rewrite Eg.
           destruct (in_dec Nat.eq_dec j chs); destruct (in_dec Nat.eq_dec j (j :: chs)) as [|N]; try reflexivity;
             exfalso; apply N; left; reflexivity.
        -- destruct (Nat.eqb_spec j c); [congruence|].
           destruct (in_dec Nat.eq_dec j chs) as [i|ni]; destruct (in_dec Nat.eq_dec j (c :: chs)) as [i'|ni']; try reflexivity.
           ++ exfalso. apply ni'. right. exact i.
           ++ exfalso. destruct i' as [E|i']; [congruence|contradiction].
    + destruct (IH _ _ _ _ H) as (L2 & F2 & W2 & R2). split; [exact L2|]. split; [exact F2|]. split.
      * intros a. rewrite W2. destruct a as [am ac]. cbn [a_module a_channel].
        destruct (Nat.eqb_spec am m) as [->|Hm]; [|reflexivity]. cbn [andb].
        destruct (in_dec Nat.eq_dec ac chs) as [i|ni]; destruct (in_dec Nat.eq_dec ac (c :: chs)) as [i'|ni']; try reflexivity.
        -- exfalso. apply ni'. right. exact i.
        -- destruct i' as [<-|i']; [|contradiction]. exact Eg.
      * intros row Hr. destruct (R2 row Hr) as (row' & Hr' & Ll & Hc). exists row'.
        split; [exact Hr'|]. split; [exact Ll|]. intros j. rewrite Hc.
        destruct (in_dec Nat.eq_dec j chs) as [i|ni]; destruct (in_dec Nat.eq_dec j (c :: chs)) as [i'|ni']; try reflexivity.
        -- exfalso. apply ni'. right. exact i.
        -- destruct i' as [<-|i']; [|contradiction]. rewrite Eg. reflexivity.
Qed.

Lemma apply_writes_exists m chs : forall w n row, nth_error n m = Some row ->
  (forall j, In j chs -> (j < length row)%nat) -> exists w' n', apply_writes m chs w n = Ok (w', n').
Proof.
  induction chs as [|c chs IH]; intros w n row Hr Hj; cbn [apply_writes]; [eauto|].
  destruct (map_get address_eqb (mk_address m c) w) as [v|].
  - destruct (store2_exists n m c v row Hr) as (n1 & Hn1). { apply Hj. left. reflexivity. }
    rewrite Hn1. cbn [bind]. destruct (store2_ok _ _ _ _ _ Hn1) as (_ & _ & r0 & r1 & N0 & N1 & Lr & _).
    rewrite Hr in N0. apply Some_inj in N0. subst r0.
    apply (IH _ n1 r1 N1). intros j Hin. rewrite Lr. apply Hj. right. exact Hin.
  - apply (IH _ n row Hr). intros j Hin. apply Hj. right. exact Hin.
Qed.

Lemma apply_writes_no_err m chs : forall w n e, apply_writes m chs w n <> Err e.
Proof.
  induction chs as [|c chs IH]; intros w n e; cbn [apply_writes]; [discriminate|].
  destruct (map_get address_eqb (mk_address m c) w) as [v|]; [|apply IH].
  destruct (store2 n m c v) as [n1|e'|p] eqn:E; cbn [bind]; [apply IH|exfalso; exact (store2_no_err _ _ _ _ _ E)|discriminate].
Qed.

(** *** One iteration *)

(** The entries of module [i] are the same. *)
Definition agree (i : nat) (s s' : loop_state) : Prop :=
  nth_error (l_next_out s') i = nth_error (l_next_out s) i /\
  (forall j, map_get address_eqb (mk_address i j) (l_write s') = map_get address_eqb (mk_address i j) (l_write s)) /\
  map_get Nat.eqb i (l_processors s') = map_get Nat.eqb i (l_processors s) /\
  map_get Nat.eqb i (l_in_bytes s') = map_get Nat.eqb i (l_in_bytes s) /\
  map_get Nat.eqb i (l_out_bytes s') = map_get Nat.eqb i (l_out_bytes s).

Lemma agree_refl i s : agree i s s.
Proof. unfold agree. auto. Qed.
Lemma agree_trans i a b c : agree i a b -> agree i b c -> agree i a c.
Proof.
  intros (A1 & A2 & A3 & A4 & A5) (B1 & B2 & B3 & B4 & B5).
  split; [congruence|]. split; [intros j; rewrite B2; apply A2|]. split; [congruence|]. split; congruence.
Qed.

(** The processor after a possible write of the pending bytes. *)
Definition fed (p : processor) (request : option channel_value) : processor :=
  match request with Some (Bytes data) => fst (processor_write p data) | _ => p end.

(** Values shown for a serial module. *)
Definition shown_in (i : rs_in) : channel_value :=
  if ri_data_available i && negb (Nat.eqb (length (ri_data i)) 0) then Bytes (ri_data i) else VNone.
Definition shown_out (last : Z) (o : rs_out) : channel_value :=
  if negb (Nat.eqb (length (ro_data o)) 0) && negb (ro_tx_cnt o =? last) then Bytes (ro_data o) else VNone.

Inductive own (prof : profile) (m : nat) (iv ov : list channel_value) (s s' : loop_state) : Prop :=
| Own_com p rin rout p' rs h t :
    map_get Nat.eqb m (l_processors s) = Some p ->
    nth_error iv 0 = Some (ComRsIn rin) -> nth_error ov 0 = Some (ComRsOut rout) ->
    processor_next prof (fed p (map_get address_eqb (mk_address m 0) (l_write s))) rin rout = Ok (p', rs) ->
    nth_error (l_next_out s) m = Some (h :: t) ->
    nth_error (l_next_out s') m = Some (ComRsOut rs :: t) ->
    (forall j, map_get address_eqb (mk_address m j) (l_write s') =
       if Nat.eqb j 0 then None else map_get address_eqb (mk_address m j) (l_write s)) ->
    map_get Nat.eqb m (l_processors s') = Some p' ->
    map_get Nat.eqb m (l_in_bytes s') = Some (shown_in rin) ->
    map_get Nat.eqb m (l_out_bytes s') = Some (shown_out (l_last_tx_cnt s) rout) ->
    l_last_tx_cnt s' = ro_tx_cnt rout ->
    own prof m iv ov s s'
| Own_idle p :
    map_get Nat.eqb m (l_processors s) = Some p ->
    (forall rin rout, ~ (nth_error iv 0 = Some (ComRsIn rin) /\ nth_error ov 0 = Some (ComRsOut rout))) ->
    s' = s -> own prof m iv ov s s'
| Own_plain :
    map_get Nat.eqb m (l_processors s) = None ->
    (forall row, nth_error (l_next_out s) m = Some row -> exists row',
       nth_error (l_next_out s') m = Some row' /\ length row' = length row /\
       forall j, nth_error row' j =
         if Nat.ltb j (length ov) then
           match map_get address_eqb (mk_address m j) (l_write s) with
           | Some v => Some v | None => nth_error row j end
         else nth_error row j) ->
    (forall j, map_get address_eqb (mk_address m j) (l_write s') =
       if Nat.ltb j (length ov) then None else map_get address_eqb (mk_address m j) (l_write s)) ->
    map_get Nat.eqb m (l_processors s') = None ->
    l_in_bytes s' = l_in_bytes s -> l_out_bytes s' = l_out_bytes s ->
    l_last_tx_cnt s' = l_last_tx_cnt s ->
    own prof m iv ov s s'.

Definition keys_ok (s : loop_state) : Prop :=
  NoDup (map fst (l_in_bytes s)) /\ NoDup (map fst (l_out_bytes s)).

Lemma in_dec_seq j n : (if in_dec Nat.eq_dec j (seq 0 n) then true else false) = Nat.ltb j n.
Proof.
  destruct (in_dec Nat.eq_dec j (seq 0 n)) as [i|i]; rewrite in_seq in i; lia.
Qed.

Lemma get_insert_same {V} k (v : V) m : map_get Nat.eqb k (map_insert Nat.eqb k v m) = Some v.
Proof. rewrite (map_get_insert Nat.eqb Nat.eqb_spec), Nat.eqb_refl. reflexivity. Qed.
Lemma get_insert_other {V} k k' (v : V) m : k <> k' -> map_get Nat.eqb k (map_insert Nat.eqb k' v m) = map_get Nat.eqb k m.
Proof.
  intros H. rewrite (map_get_insert Nat.eqb Nat.eqb_spec). destruct (Nat.eqb_spec k' k); [congruence|reflexivity].
Qed.

Lemma next_step_spec prof m iv ov s s' : next_step prof m iv ov s = Ok s' ->
  own prof m iv ov s s' /\ (forall i, i <> m -> agree i s s') /\
  length (l_next_out s') = length (l_next_out s) /\ (keys_ok s -> keys_ok s').
Proof.
  unfold next_step. intros H.
  destruct (map_get Nat.eqb m (l_processors s)) as [p|] eqn:Ep.
  - apply bind_ok in H. destruct H as (i0 & Hi & H). apply index_ok in Hi.
    destruct i0 as [|?|rin|?|?|?|?|?| |];
      try (apply Ok_inj in H; subst s'; split; [|split; [intros; apply agree_refl|auto]];
           eapply Own_idle; [exact Ep|intros rin rout [E _]; rewrite Hi in E; discriminate|reflexivity]).
    apply bind_ok in H. destruct H as (o0 & Ho & H). apply index_ok in Ho.
    destruct o0 as [|?|?|rout|?|?|?|?| |];
      try (apply Ok_inj in H; subst s'; split; [|split; [intros; apply agree_refl|auto]];
           eapply Own_idle; [exact Ep|intros rin' rout [_ E]; rewrite Ho in E; discriminate|reflexivity]).
    fold (fed p (map_get address_eqb (mk_address m 0) (l_write s))) in H.
    apply bind_ok in H. destruct H as ((p' & rs) & Hn & H).
    apply bind_ok in H. destruct H as (next_out & Hs & H). apply Ok_inj in H. subst s'.
    destruct (store2_ok _ _ _ _ _ Hs) as (L1 & F1 & r0 & r1 & N0 & N1 & Lr & Hlt & C1).
    split; [|split; [|split]].
    + destruct r0 as [|h t]; [cbn [length] in Hlt; lia|].
      eapply (Own_com prof m iv ov s _ p rin rout p' rs h t);
        cbn [l_next_out l_write l_processors l_in_bytes l_out_bytes l_last_tx_cnt]; auto.
      * rewrite N1. f_equal. apply nth_error_ext. intros k. rewrite C1. destruct k; reflexivity.
      * intros j. rewrite (map_get_remove address_eqb address_eqb_spec). unfold address_eqb at 1.
        cbn [a_module a_channel]. rewrite Nat.eqb_refl. cbn [andb]. destruct j; reflexivity.
      * apply get_insert_same.
      * unfold shown_in. destruct (_ && _); apply get_insert_same.
      * unfold shown_out. destruct (_ && _); apply get_insert_same.
    + intros i Hi'. unfold agree. cbn [l_next_out l_write l_processors l_in_bytes l_out_bytes].
      split; [apply F1; exact Hi'|]. split.
      { intros j. rewrite (map_get_remove address_eqb address_eqb_spec). unfold address_eqb at 1.
        cbn [a_module a_channel]. destruct (Nat.eqb_spec m i); [congruence|reflexivity]. }
      split; [apply get_insert_other; exact Hi'|].
      split; (destruct (_ && _); rewrite ?get_insert_other by exact Hi'; reflexivity).
    + exact L1.
    + intros [K1 K2]. unfold keys_ok. cbn [l_in_bytes l_out_bytes].
      split; (destruct (_ && _); repeat apply (nodup_insert Nat.eqb Nat.eqb_spec); assumption).
  - apply bind_ok in H. destruct H as ((w & n) & Ha & H). apply Ok_inj in H. subst s'.
    destruct (apply_writes_spec _ _ _ _ _ _ Ha) as (L & F & W & R).
    split; [|split; [|split]].
    + apply Own_plain; cbn [l_next_out l_write l_processors l_in_bytes l_out_bytes l_last_tx_cnt]; auto.
      * intros row Hr. destruct (R row Hr) as (row' & Hr' & Hl & Hc). exists row'.
        split; [exact Hr'|]. split; [exact Hl|]. intros j. rewrite Hc, <- in_dec_seq.
        destruct (in_dec _ _ _); reflexivity.
      * intros j. rewrite W. cbn [a_module a_channel]. rewrite Nat.eqb_refl, in_dec_seq. reflexivity.
    + intros i Hi. unfold agree. cbn [l_next_out l_write l_processors l_in_bytes l_out_bytes].
      split; [apply F; exact Hi|]. split; [|auto]. intros j. rewrite W. cbn [a_module].
      destruct (Nat.eqb_spec i m); [congruence|reflexivity].
    + exact L.
    + exact (fun K => K).
Qed.

Lemma processor_next_no_err prof p i o e : processor_next prof p i o <> Err e.
Proof.
  unfold processor_next. destruct (p_init_state p); try discriminate.
  destruct (p_out_data p); cbn [bind]; [discriminate|].
  unfold inc_cnt, add_usize, arith. destruct (_ && _); cbn [bind].
  - destruct (negb _); discriminate.
  - destruct prof; cbn [bind]; [discriminate|]. destruct (negb _); discriminate.
Qed.

Lemma next_step_no_err prof m iv ov s e : next_step prof m iv ov s <> Err e.
Proof.
  unfold next_step. destruct (map_get Nat.eqb m (l_processors s)) as [p|].
  - destruct (index iv 0) as [i0|e'|q] eqn:E; cbn [bind]; [|exfalso; exact (index_no_err _ _ _ E)|discriminate].
    destruct i0; try discriminate.
    destruct (index ov 0) as [o0|e'|q] eqn:E2; cbn [bind]; [|exfalso; exact (index_no_err _ _ _ E2)|discriminate].
    destruct o0; try discriminate.
    match goal with |- bind ?x _ <> _ => destruct x as [(p' & rs)|e'|q] eqn:E3; cbn [bind];
      [|exfalso; exact (processor_next_no_err _ _ _ _ _ E3)|discriminate] end.
    match goal with |- bind ?x _ <> _ => destruct x as [n|e'|q] eqn:E4; cbn [bind];
      [discriminate|exfalso; exact (store2_no_err _ _ _ _ _ E4)|discriminate] end.
  - destruct (apply_writes _ _ _ _) as [(w & n)|e'|q] eqn:E; cbn [bind];
      [discriminate|exfalso; exact (apply_writes_no_err _ _ _ _ _ E)|discriminate].
Qed.

(** *** The loop *)

Lemma next_loop_spec prof l : forall k s s', next_loop prof (enumerate_from k l) s = Ok s' ->
  length (l_next_out s') = length (l_next_out s) /\ (keys_ok s -> keys_ok s') /\
  (forall i, (i < k \/ k + length l <= i)%nat -> agree i s s') /\
  (forall i iv ov, nth_error l i = Some (iv, ov) -> exists s1 s2,
     agree (k + i) s s1 /\ next_step prof (k + i) iv ov s1 = Ok s2 /\ agree (k + i) s2 s').
Proof.
  induction l as [|(iv & ov) l IH]; intros k s s' H; cbn [enumerate_from next_loop] in H.
  - apply Ok_inj in H. subst s'. split; [reflexivity|]. split; [auto|].
    split; [intros; apply agree_refl|]. intros [|i] iv ov Hi; discriminate.
  - apply bind_ok in H. destruct H as (s1 & Hs & H).
    destruct (next_step_spec _ _ _ _ _ _ Hs) as (_ & Hf & Hl & Hk).
    destruct (IH (S k) s1 s' H) as (L & K & F & O).
    split; [lia|]. split; [auto|]. split.
    + intros i Hi. cbn [length] in Hi. eapply agree_trans; [apply Hf; lia|apply F; lia].
    + intros [|i] iv' ov' Hi; cbn [nth_error] in Hi.
      * apply Some_inj, pair_inj in Hi. destruct Hi as [<- <-]. rewrite Nat.add_0_r.
        exists s, s1. split; [apply agree_refl|]. split; [exact Hs|]. apply F. lia.
      * destruct (O i iv' ov' Hi) as (a & b & A & B & C). exists a, b.
        replace (k + S i)%nat with (S k + i)%nat by lia.
        split; [|auto]. eapply agree_trans; [apply Hf; lia|exact A].
Qed.

Lemma next_loop_no_err prof l : forall s e, next_loop prof l s <> Err e.
Proof.
  induction l as [|(m & iv & ov) l IH]; intros s e; cbn [next_loop]; [discriminate|].
  destruct (next_step prof m iv ov s) as [s'|e'|p] eqn:E; cbn [bind];
    [apply IH|exfalso; exact (next_step_no_err _ _ _ _ _ _ E)|discriminate].
Qed.

(** When an iteration succeeds. *)
Lemma next_step_exists prof m iv ov s row :
  nth_error (l_next_out s) m = Some row -> (length ov <= length row)%nat ->
  (forall p, map_get Nat.eqb m (l_processors s) = Some p ->
     (0 < length iv)%nat /\ (0 < length ov)%nat /\
     forall rin, nth_error iv 0 = Some (ComRsIn rin) -> counter (ri_tx_cnt_ack rin)) ->
  exists s', next_step prof m iv ov s = Ok s'.
Proof.
  intros Hr Hl Hp. unfold next_step. destruct (map_get Nat.eqb m (l_processors s)) as [p|].
  - destruct (Hp p eq_refl) as (Hi & Ho & Hc).
    destruct iv as [|i0 iv]; [cbn [length] in Hi; lia|]. cbn [index nth_error bind].
    destruct i0; try (eexists; reflexivity).
    destruct ov as [|o0 ov]; [cbn [length] in Ho; lia|]. cbn [index nth_error bind].
    destruct o0; try (eexists; reflexivity).
    fold (fed p (map_get address_eqb (mk_address m 0) (l_write s))).
    set (q := fed p _).
    assert (Hst : exists k, p_init_state q = stage k).
    { destruct (p_init_state q); [exists 0%nat|exists 1%nat|exists 2%nat]; reflexivity. }
    destruct Hst as (k & Hk).
    destruct (next_ok prof q i o k Hk) as (p' & rs & Hn). { apply Hc. reflexivity. }
    rewrite Hn. cbn [bind].
    destruct (store2_exists (l_next_out s) m 0 (ComRsOut rs) row Hr) as (n & Hs).
    { cbn [length] in Hl. lia. }
    rewrite Hs. cbn [bind]. eexists. reflexivity.
  - destruct (apply_writes_exists m (seq 0 (length ov)) (l_write s) (l_next_out s) row Hr) as (w & n & Ha).
    { intros j Hj. apply in_seq in Hj. lia. }
    rewrite Ha. cbn [bind]. eexists. reflexivity.
Qed.

Lemma next_loop_exists prof l : forall k s,
  (forall i iv ov, nth_error l i = Some (iv, ov) ->
     (exists row, nth_error (l_next_out s) (k + i) = Some row /\ (length ov <= length row)%nat) /\
     forall p, map_get Nat.eqb (k + i)%nat (l_processors s) = Some p ->
       (0 < length iv)%nat /\ (0 < length ov)%nat /\
       forall rin, nth_error iv 0 = Some (ComRsIn rin) -> counter (ri_tx_cnt_ack rin)) ->
  exists s', next_loop prof (enumerate_from k l) s = Ok s'.
Proof.
  induction l as [|(iv & ov) l IH]; intros k s H; cbn [enumerate_from next_loop]; [eauto|].
  destruct (H 0%nat iv ov eq_refl) as ((row & Hr & Hl) & Hp). rewrite Nat.add_0_r in *.
  destruct (next_step_exists prof k iv ov s row Hr Hl Hp) as (s1 & Hs). rewrite Hs. cbn [bind].
  apply IH. intros i iv' ov' Hi. specialize (H (S i) iv' ov' Hi).
  replace (S k + i)%nat with (k + S i)%nat by lia.
  destruct (next_step_spec _ _ _ _ _ _ Hs) as (_ & Hf & _ & _).
  destruct (Hf (k + S i)%nat) as (A1 & _ & A3 & _); [lia|]. rewrite A1, A3. exact H.
Qed.

(** *** Patching rows *)

Lemma patch_spec entries : forall rows rows', NoDup (map fst entries) -> patch entries rows = Ok rows' ->
  length rows' = length rows /\
  forall i, nth_error rows' i =
    match map_get Nat.eqb i entries with
    | None => nth_error rows i
    | Some v => match nth_error rows i with Some (_ :: t) => Some (v :: t) | x => x end
    end.
Proof.
  induction entries as [|(m & v) entries IH]; intros rows rows' Hnd H; cbn [patch] in H.
  - apply Ok_inj in H. subst rows'. split; reflexivity.
  - apply bind_ok in H. destruct H as (rows1 & Hs & H). cbn [map fst] in Hnd.
    inversion Hnd as [|? ? Hni Hnd']; subst.
    destruct (store2_ok _ _ _ _ _ Hs) as (L1 & F1 & r0 & r1 & N0 & N1 & Lr & Hlt & C1).
    destruct (IH _ _ Hnd' H) as (L & P). split; [lia|]. intros i. rewrite P. cbn [map_get].
    destruct (Nat.eqb_spec i m) as [->|Hi].
    + assert (Hg : map_get Nat.eqb m entries = None) by (apply (map_get_none Nat.eqb Nat.eqb_spec); exact Hni).
      rewrite Hg, N1, N0. destruct r0 as [|h t]; [cbn [length] in Hlt; lia|]. f_equal.
      apply nth_error_ext. intros k. rewrite C1. destruct k; reflexivity.
    + rewrite (F1 i Hi). reflexivity.
Qed.

Lemma patch_exists entries : forall rows,
  (forall i v, In (i, v) entries -> exists h t, nth_error rows i = Some (h :: t)) ->
  exists rows', patch entries rows = Ok rows'.
Proof.
  induction entries as [|(m & v) entries IH]; intros rows H; cbn [patch]; [eauto|].
  destruct (H m v (or_introl eq_refl)) as (h & t & Hr).
  destruct (store2_exists rows m 0 v (h :: t) Hr) as (rows1 & Hs). { cbn [length]. lia. }
  rewrite Hs. cbn [bind]. apply IH. intros i v' Hin.
  destruct (store2_ok _ _ _ _ _ Hs) as (L1 & F1 & r0 & r1 & N0 & N1 & Lr & Hlt & C1).
  destruct (Nat.eq_dec i m) as [->|Hi].
  - rewrite N1. rewrite Hr in N0. apply Some_inj in N0. subst r0.
    destruct r1 as [|h1 t1]; [cbn [length] in Lr; lia|]. eauto.
  - rewrite F1 by exact Hi. apply (H i v'). right. exact Hin.
Qed.

Lemma patch_no_err entries : forall rows e, patch entries rows <> Err e.
Proof.
  induction entries as [|(m & v) entries IH]; intros rows e; cbn [patch]; [discriminate|].
  destruct (store2 rows m 0 v) as [r|e'|p] eqn:E; cbn [bind];
    [apply IH|exfalso; exact (store2_no_err _ _ _ _ _ E)|discriminate].
Qed.

(** Permuting a map without duplicate keys does not change look-ups. *)
Lemma get_permutation {V} (m m' : list (nat * V)) : NoDup (map fst m) -> Permutation m m' ->
  NoDup (map fst m') /\ forall i, map_get Nat.eqb i m' = map_get Nat.eqb i m.
Proof.
  intros Hnd Hp.
  assert (Hnd' : NoDup (map fst m')) by (eapply Permutation_NoDup; [apply Permutation_map; exact Hp|exact Hnd]).
  split; [exact Hnd'|]. intros i. destruct (map_get Nat.eqb i m) as [v|] eqn:E.
  - apply (map_get_nodup_in Nat.eqb Nat.eqb_spec); [exact Hnd'|].
    apply (Permutation_in _ Hp). apply (map_get_in Nat.eqb Nat.eqb_spec). exact E.
  - apply (map_get_none Nat.eqb Nat.eqb_spec). apply (map_get_none Nat.eqb Nat.eqb_spec) in E.
    intros Hin. apply E. eapply Permutation_in; [apply Permutation_map, Permutation_sym; exact Hp|exact Hin].
Qed.
