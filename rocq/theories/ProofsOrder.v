(** Proof of C47: nothing depends on the order of hash map entries. *)
From Coq Require Import ZArith List Bool Lia ZifyBool ZifyNat Permutation.
From Verif Require Import Base Facts F32 Types Lib Util Digital Analog Fcnt Com Fbc
  SpecCodec SpecSerial SpecCoupler SpecImage ProofsLayout ProofsImage ProofsLoop ProofsCycle ProofsCoupler.
Import ListNotations.
Local Open Scope Z_scope.
Ltac Zify.zify_post_hook ::= Z.div_mod_to_equations.

Definition alike {A} (R : A -> A -> Prop) (x y : outcome A) : Prop :=
  match x, y with
  | Ok a, Ok b => R a b
  | Err e, Err e' => e = e'
  | Panic p, Panic p' => p = p'
  | _, _ => False
  end.

Lemma alike_refl {A} (R : A -> A -> Prop) x : (forall a, R a a) -> alike R x x.
Proof. intros H. destruct x; cbn [alike]; auto. Qed.

Definition same_writes (w w' : list (address * channel_value)) : Prop :=
  forall a, map_get address_eqb a w = map_get address_eqb a w'.
Definition same_map {V} (m m' : list (nat * V)) : Prop := forall i, map_get Nat.eqb i m = map_get Nat.eqb i m'.

Lemma same_map_insert {V} (m m' : list (nat * V)) k v : same_map m m' ->
  same_map (map_insert Nat.eqb k v m) (map_insert Nat.eqb k v m').
Proof. intros H i. rewrite !(map_get_insert Nat.eqb Nat.eqb_spec). destruct (Nat.eqb k i); [reflexivity|apply H]. Qed.
Lemma same_writes_remove w w' a : same_writes w w' -> same_writes (map_remove address_eqb a w) (map_remove address_eqb a w').
Proof. intros H b. rewrite !(map_get_remove address_eqb address_eqb_spec). destruct (address_eqb a b); [reflexivity|apply H]. Qed.
Lemma same_writes_insert w w' a v : same_writes w w' -> same_writes (map_insert address_eqb a v w) (map_insert address_eqb a v w').
Proof. intros H b. rewrite !(map_get_insert address_eqb address_eqb_spec). destruct (address_eqb a b); [reflexivity|apply H]. Qed.

Record same_loop (s s' : loop_state) : Prop := {
  sl_write : same_writes (l_write s) (l_write s');
  sl_proc : same_map (l_processors s) (l_processors s');
  sl_last : l_last_tx_cnt s = l_last_tx_cnt s';
  sl_next : l_next_out s = l_next_out s';
  sl_in : same_map (l_in_bytes s) (l_in_bytes s');
  sl_out : same_map (l_out_bytes s) (l_out_bytes s') }.

Lemma apply_writes_alike m chs : forall w w' n, same_writes w w' ->
  alike (fun x y => same_writes (fst x) (fst y) /\ snd x = snd y) (apply_writes m chs w n) (apply_writes m chs w' n).
Proof.
  induction chs as [|c chs IH]; intros w w' n H; cbn [apply_writes].
  - cbn [alike fst snd]. auto.
  - rewrite <- (H (mk_address m c)). destruct (map_get address_eqb (mk_address m c) w) as [v|]; [|apply IH; exact H].
    destruct (store2 n m c v) as [n1|e|p]; cbn [bind alike]; try reflexivity. apply IH. apply same_writes_remove. exact H.
Qed.

Lemma next_step_alike prof i iv ov s s' : same_loop s s' ->
  alike same_loop (next_step prof i iv ov s) (next_step prof i iv ov s').
Proof.
  intros [Hw Hp Hl Hn Hi Ho]. unfold next_step. rewrite <- (Hp i), <- Hl, <- Hn.
  destruct (map_get Nat.eqb i (l_processors s)) as [p|].
  - destruct (index iv 0) as [i0|e|x]; cbn [bind alike]; try reflexivity.
    destruct i0; try (cbn [alike]; split; assumption).
    destruct (index ov 0) as [o0|e|x]; cbn [bind alike]; try reflexivity.
    destruct o0; try (cbn [alike]; split; assumption).
    cbv zeta. rewrite <- (Hw (mk_address i 0)).
    match goal with |- alike _ (bind ?x _) _ => destruct x as [(p1 & rs)|e|x0] end; cbn [bind alike]; try reflexivity.
    destruct (store2 (l_next_out s) i 0 (ComRsOut rs)) as [n1|e|x1]; cbn [bind alike]; try reflexivity.
    split; cbn [l_write l_processors l_last_tx_cnt l_next_out l_in_bytes l_out_bytes]; try reflexivity.
    + apply same_writes_remove. exact Hw.
    + apply same_map_insert. exact Hp.
    + destruct (ri_data_available i0 && negb (Nat.eqb (length (ri_data i0)) 0)); repeat apply same_map_insert; exact Hi.
    + destruct (negb (Nat.eqb (length (ro_data o)) 0) && negb (ro_tx_cnt o =? l_last_tx_cnt s));
        repeat apply same_map_insert; exact Ho.
  - pose proof (apply_writes_alike i (seq 0 (length ov)) _ _ (l_next_out s) Hw) as H.
    destruct (apply_writes i (seq 0 (length ov)) (l_write s) (l_next_out s)) as [(w1 & n1)|e|x],
      (apply_writes i (seq 0 (length ov)) (l_write s') (l_next_out s)) as [(w2 & n2)|e'|x']; cbn [alike bind fst snd] in *; try contradiction; try exact H.
    destruct H as [H1 ->]. split; cbn [l_write l_processors l_last_tx_cnt l_next_out l_in_bytes l_out_bytes]; auto.
Qed.

Lemma next_loop_alike prof l : forall s s', same_loop s s' -> alike same_loop (next_loop prof l s) (next_loop prof l s').
Proof.
  induction l as [|(i & (iv & ov)) l IH]; intros s s' H; cbn [next_loop]; [exact H|].
  pose proof (next_step_alike prof i iv ov s s' H) as H1.
  destruct (next_step prof i iv ov s), (next_step prof i iv ov s'); cbn [alike bind] in *; try contradiction; auto.
Qed.

Lemma patch_alike e e' rows rows1 rows2 : NoDup (map fst e) -> NoDup (map fst e') -> same_map e e' ->
  patch e rows = Ok rows1 -> patch e' rows = Ok rows2 -> rows1 = rows2.
Proof.
  intros N N' H H1 H2. destruct (patch_spec _ _ _ N H1) as [_ P1]. destruct (patch_spec _ _ _ N' H2) as [_ P2].
  apply nth_error_ext. intros i. rewrite P1, P2, (H i). reflexivity.
Qed.

Lemma same_coupler_refl c : same_coupler c c.
Proof. unfold same_coupler. auto 10. Qed.
Lemma same_coupler_sym c c' : same_coupler c c' -> same_coupler c' c.
Proof. intros (H1 & H2 & H3 & H4 & H5 & H6 & H7). unfold same_coupler. auto 10. Qed.
Lemma same_coupler_trans a b c : same_coupler a b -> same_coupler b c -> same_coupler a c.
Proof.
  intros (H1 & H2 & H3 & H4 & H5 & H6 & H7) (G1 & G2 & G3 & G4 & G5 & G6 & G7). unfold same_coupler.
  repeat match goal with |- _ /\ _ => split end; congruence.
Qed.

Lemma same_infos c c' : same_coupler c c' -> infos c = infos c'.
Proof. intros (_ & _ & H3 & H4 & _). unfold infos. congruence. Qed.

Lemma same_ok c c' : same_coupler c c' -> coupler_ok c -> coupler_ok c'.
Proof.
  intros (_ & _ & H3 & H4 & _ & H6 & H7) Hok. apply (same_parts_ok c); auto.
  - intros i p. rewrite <- H7. apply (ok_proc c Hok).
  - intros i l ch Hm. destruct (ok_com c Hok i l ch Hm) as (p & Hp). exists p. rewrite <- H7. exact Hp.
  - intros a v. rewrite <- H6. apply (ok_req c Hok).
Qed.

Lemma same_next prof c1 c2 input output c1' r1 c2' r2 : coupler_ok c1 -> same_coupler c1 c2 ->
  cycle prof c1 input output c1' r1 -> cycle prof c2 input output c2' r2 ->
  r1 = r2 /\ same_coupler c1' c2'.
Proof.
  intros Hok Hs (Hui & Huo & oi & oo & Hi & Ho & N1) (_ & _ & oi' & oo' & Hi' & Ho' & N2).
  pose proof (same_ok _ _ Hs Hok) as Hok2. pose proof (same_infos _ _ Hs) as Einf.
  destruct (process_input_data prof (infos c1) input) as [ins|e|p] eqn:Ei.
  2,3: pose proof Ei as Ei2; rewrite Einf in Ei2; unfold next in N1, N2; rewrite Ei in N1; rewrite Ei2 in N2;
    apply pair_inj in N1, N2; destruct N1 as [<- <-], N2 as [<- <-]; split; [reflexivity|exact Hs].
  destruct (process_output_data prof (infos c1) output) as [outs|e|p] eqn:Eo.
  2,3: pose proof Ei as Ei2; rewrite Einf in Ei2; pose proof Eo as Eo2; rewrite Einf in Eo2;
    unfold next in N1, N2; rewrite Ei, Eo in N1; rewrite Ei2, Eo2 in N2;
    apply pair_inj in N1, N2; destruct N1 as [<- <-], N2 as [<- <-]; split; [reflexivity|];
    destruct Hs as (H1 & H2 & H3 & H4 & H5 & H6 & H7); unfold same_coupler; auto 10.
  pose proof Ei as Ei2. rewrite Einf in Ei2. pose proof Eo as Eo2. rewrite Einf in Eo2.
  destruct (cycle_spec prof oi oo c1 input output ins outs Hok Hi Ho Hui Huo Ei Eo)
    as (d1 & sent1 & M1 & (s1 & in1 & out1 & L1 & [K1 K1'] & P1 & Q1 & -> & ->) & _).
  destruct (cycle_spec prof oi' oo' c2 input output ins outs Hok2 Hi' Ho' Hui Huo Ei2 Eo2)
    as (d2 & sent2 & M2 & (s2 & in2 & out2 & L2 & [K2 K2'] & P2 & Q2 & -> & ->) & _).
  rewrite N1 in M1. rewrite N2 in M2. apply pair_inj in M1, M2. destruct M1 as [-> ->], M2 as [-> ->].
  destruct Hs as (H1 & H2 & H3 & H4 & H5 & H6 & H7).
  pose proof (next_loop_alike prof (enumerate (combine ins outs))
                (mk_loop (c_write c1) (c_processors c1) (c_last_tx_cnt c1) outs [] [])
                (mk_loop (c_write c2) (c_processors c2) (c_last_tx_cnt c2) outs [] [])) as Hl.
  rewrite L1, L2 in Hl. cbn [alike] in Hl.
  destruct Hl as [W P L N I O].
  { split; cbn [l_write l_processors l_last_tx_cnt l_next_out l_in_bytes l_out_bytes]; auto; intros x; reflexivity. }
  rewrite Einf, N. split; [reflexivity|].
  destruct (get_permutation _ _ K1 (Hi (l_in_bytes s1))) as [X1 Y1]. destruct (get_permutation _ _ K1' (Ho (l_out_bytes s1))) as [X1' Y1'].
  destruct (get_permutation _ _ K2 (Hi' (l_in_bytes s2))) as [X2 Y2]. destruct (get_permutation _ _ K2' (Ho' (l_out_bytes s2))) as [X2' Y2'].
  assert (in1 = in2). { eapply patch_alike; [exact X1|exact X2| |exact P1|exact P2]. intros x. rewrite Y1, Y2. apply I. }
  assert (out1 = out2). { eapply patch_alike; [exact X1'|exact X2'| |exact Q1|exact Q2]. intros x. rewrite Y1', Y2'. apply O. }
  subst in2 out2. unfold same_coupler, inputs, outputs, requested, serial.
  cbn [c_in_values c_out_values c_write c_modules c_offsets c_processors c_last_tx_cnt]. auto 10.
Qed.

Lemma same_valid c1 c2 a : same_coupler c1 c2 -> (valid_address c1 a <-> valid_address c2 a).
Proof. intros (_ & _ & H & _). unfold valid_address. rewrite H. reflexivity. Qed.

Lemma same_set c1 c2 a v : same_coupler c1 c2 ->
  snd (set_output c1 a v) = snd (set_output c2 a v) /\ same_coupler (fst (set_output c1 a v)) (fst (set_output c2 a v)).
Proof.
  intros Hs. destruct (valid_address_dec c1 a) as [Hv|Hv].
  - pose proof (proj1 (same_valid c1 c2 a Hs) Hv) as Hv2. rewrite !set_output_valid by assumption. split; [reflexivity|].
    destruct Hs as (H1 & H2 & H3 & H4 & H5 & H6 & H7). unfold same_coupler, requested. cbn [fst c_write].
    repeat match goal with |- _ /\ _ => split end; auto. intros b. apply same_writes_insert. exact H6.
  - assert (Hv2 : ~ valid_address c2 a) by (rewrite <- (same_valid c1 c2 a Hs); exact Hv).
    rewrite !set_output_invalid by assumption. auto.
Qed.

Lemma same_with c1 c2 i p : same_coupler c1 c2 ->
  same_coupler (with_processors c1 (map_insert Nat.eqb i p (c_processors c1)))
               (with_processors c2 (map_insert Nat.eqb i p (c_processors c2))).
Proof.
  intros (H1 & H2 & H3 & H4 & H5 & H6 & H7). unfold same_coupler.
  repeat match goal with |- _ /\ _ => split end; auto. apply same_map_insert. exact H7.
Qed.

Lemma same_read c1 c2 i n : same_coupler c1 c2 ->
  snd (coupler_read c1 i n) = snd (coupler_read c2 i n) /\ same_coupler (fst (coupler_read c1 i n)) (fst (coupler_read c2 i n)).
Proof.
  intros Hs. pose proof Hs as (_ & _ & _ & _ & _ & _ & H7). specialize (H7 i). unfold serial in H7. unfold coupler_read. rewrite <- H7.
  destruct (map_get Nat.eqb i (c_processors c1)) as [p|]; [|auto].
  destruct (processor_read p n) as (p' & b). cbn [fst snd]. split; [reflexivity|]. apply same_with. exact Hs.
Qed.

Lemma same_write c1 c2 i b : same_coupler c1 c2 ->
  snd (coupler_write c1 i b) = snd (coupler_write c2 i b) /\ same_coupler (fst (coupler_write c1 i b)) (fst (coupler_write c2 i b)).
Proof.
  intros Hs. pose proof Hs as (_ & _ & _ & _ & _ & _ & H7). specialize (H7 i). unfold serial in H7. unfold coupler_write. rewrite <- H7.
  destruct (map_get Nat.eqb i (c_processors c1)) as [p|]; [|auto].
  destruct (processor_write p b) as (p' & n). cbn [fst snd]. split; [reflexivity|]. apply same_with. exact Hs.
Qed.

Lemma calls_ok prof c x c' a : coupler_ok c -> calls prof c x c' a -> coupler_ok c'.
Proof.
  intros Hok H. destruct H as [c a v Hv|c i n|c i b Hb|c input output c' r Hc _].
  - apply set_ok; assumption.
  - apply read_ok. exact Hok.
  - apply write_ok; assumption.
  - eapply cycle_ok; eassumption.
Qed.

Lemma calls_reachable prof c x c' a : reachable prof c -> calls prof c x c' a -> reachable prof c'.
Proof.
  intros Hr H. destruct H as [c a v Hv|c i n|c i b Hb|c input output c' r (Hui & Huo & oi & oo & Hi & Ho & Hn) Hp].
  - apply R_set; assumption.
  - apply R_read. exact Hr.
  - apply R_write; assumption.
  - exact (R_next prof c oi oo input output c' r Hr Hi Ho Hui Huo Hn Hp).
Qed.

Lemma same_calls prof c1 c2 x c1' c2' a1 a2 : coupler_ok c1 -> same_coupler c1 c2 ->
  calls prof c1 x c1' a1 -> calls prof c2 x c2' a2 -> a1 = a2 /\ same_coupler c1' c2'.
Proof.
  intros Hok Hs H1 H2. destruct H1 as [c a v Hv|c i n|c i b Hb|c input output c' r Hc _]; inversion H2; subst.
  - destruct (same_set c c2 a v Hs) as [-> H]. auto.
  - destruct (same_read c c2 i n Hs) as [-> H]. auto.
  - destruct (same_write c c2 i b Hs) as [-> H]. auto.
  - destruct (same_next prof c c2 input output c' r c2' r0 Hok Hs Hc) as [<- H]; [assumption|]. split; [|exact H].
    destruct H as (-> & -> & _). reflexivity.
Qed.

Lemma same_runs prof xs : forall c1 c2 c1' c2' a1 a2, coupler_ok c1 -> same_coupler c1 c2 ->
  runs prof c1 xs c1' a1 -> runs prof c2 xs c2' a2 -> a1 = a2 /\ same_coupler c1' c2'.
Proof.
  induction xs as [|x xs IH]; intros c1 c2 c1' c2' a1 a2 Hok Hs H1 H2; inversion H1; subst; inversion H2; subst.
  - auto.
  - match goal with A : calls prof c1 x ?d1 ?e1, B : calls prof c2 x ?d2 ?e2, C : runs prof ?d1 xs _ _, D : runs prof ?d2 xs _ _ |- _ =>
      destruct (same_calls prof c1 c2 x d1 d2 e1 e2 Hok Hs A B) as [-> Hs'];
      destruct (IH d1 d2 _ _ _ _ (calls_ok _ _ _ _ _ Hok A) Hs' C D) as [-> Hs'']; auto end.
Qed.

Lemma C47_all :
  (forall prof c input output c1 r1 c2 r2, reachable prof c ->
     cycle prof c input output c1 r1 -> cycle prof c input output c2 r2 ->
     r1 = r2 /\ inputs c1 = inputs c2 /\ outputs c1 = outputs c2 /\ same_coupler c1 c2) /\
  (forall prof xs c1 c2 c1' c2' a1 a2, reachable prof c1 -> same_coupler c1 c2 ->
     runs prof c1 xs c1' a1 -> runs prof c2 xs c2' a2 -> a1 = a2 /\ same_coupler c1' c2').
Proof.
  split.
  - intros prof c input output c1 r1 c2 r2 Hr H1 H2.
    destruct (same_next prof c c input output c1 r1 c2 r2 (reachable_ok _ _ Hr) (same_coupler_refl c) H1 H2) as [E H].
    split; [exact E|]. pose proof H as (E1 & E2 & _). auto.
  - intros prof xs c1 c2 c1' c2' a1 a2 Hr. apply same_runs. eapply reachable_ok. exact Hr.
Qed.

(** Requests for one channel and for different channels, in terms of indistinguishable couplers. *)
Lemma C37_same_all :
  (forall c a v w, same_coupler (fst (set_output (fst (set_output c a v)) a w)) (fst (set_output c a w))) /\
  (forall c a b v w, a <> b ->
     same_coupler (fst (set_output (fst (set_output c a v)) b w)) (fst (set_output (fst (set_output c b w)) a v))).
Proof.
  assert (Hst : forall c1 c2, inputs c1 = inputs c2 -> outputs c1 = outputs c2 -> c_modules c1 = c_modules c2 ->
            c_offsets c1 = c_offsets c2 -> c_processors c1 = c_processors c2 -> c_last_tx_cnt c1 = c_last_tx_cnt c2 ->
            (forall a, requested c1 a = requested c2 a) -> same_coupler c1 c2).
  { intros c1 c2 H1 H2 H3 H4 H5 H6 H7. unfold same_coupler, serial. rewrite H5. auto 10. }
  assert (Hreq : forall c a v b, requested (fst (set_output c a v)) b =
            if address_eqb a b then match nth_error (c_modules c) (a_module a) with
              | Some m => if Nat.ltb (a_channel a) (channels m) then Some v else requested c b
              | None => requested c b end else requested c b).
  { intros c a v b. destruct (valid_address_dec c a) as [Hv|Hv].
    - rewrite set_requested by exact Hv. destruct Hv as (m & -> & Hc).
      replace (Nat.ltb (a_channel a) (channels m)) with true by lia. reflexivity.
    - rewrite set_output_invalid by exact Hv. cbn [fst]. unfold valid_address in Hv.
      destruct (nth_error (c_modules c) (a_module a)) as [m|]; [|destruct (address_eqb a b); reflexivity].
      destruct (Nat.ltb_spec (a_channel a) (channels m)) as [Hl|Hl]; [exfalso; eauto|]. destruct (address_eqb a b); reflexivity. }
  split.
  - intros c a v w. destruct (set_static c a v) as (S1 & S2 & S3 & S4 & S5 & S6).
    destruct (set_static (fst (set_output c a v)) a w) as (T1 & T2 & T3 & T4 & T5 & T6).
    destruct (set_static c a w) as (U1 & U2 & U3 & U4 & U5 & U6).
    apply Hst; try congruence. intros b. rewrite !Hreq, S3. destruct (address_eqb a b); [|reflexivity].
    destruct (nth_error (c_modules c) (a_module a)) as [m|]; [|reflexivity].
    destruct (Nat.ltb (a_channel a) (channels m)); reflexivity.
  - intros c a b v w Hab. destruct (set_static c a v) as (S1 & S2 & S3 & S4 & S5 & S6).
    destruct (set_static (fst (set_output c a v)) b w) as (T1 & T2 & T3 & T4 & T5 & T6).
    destruct (set_static c b w) as (U1 & U2 & U3 & U4 & U5 & U6).
    destruct (set_static (fst (set_output c b w)) a v) as (V1 & V2 & V3 & V4 & V5 & V6).
    apply Hst; try congruence. intros d. rewrite !Hreq, S3, U3.
    destruct (address_eqb_spec b d) as [->|_], (address_eqb_spec a d) as [->|_]; try reflexivity. congruence.
Qed.
