(** Proofs about what requests do and do not change (C44, C46). *)
From Coq Require Import ZArith List Bool Lia ZifyBool ZifyNat Permutation.
From Verif Require Import Base Facts F32 Types Lib Util Com Fbc SpecCodec SpecSerial SpecCoupler SpecEffect
  ProofsLayout ProofsModule ProofsSerial ProofsLoop ProofsCycle ProofsCoupler ProofsOrder.
Import ListNotations.
Local Open Scope Z_scope.

Definition bytes_of (r : option channel_value) : option (list Z) :=
  match r with Some (Bytes b) => Some b | _ => None end.
Lemma fed_bytes p r r' : bytes_of r = bytes_of r' -> fed p r = fed p r'.
Proof.
  unfold fed. destruct r as [v|], r' as [v'|]; [destruct v, v'|destruct v|destruct v'|]; cbn; intros H; try discriminate; try reflexivity.
  apply Some_inj in H. subst. reflexivity.
Qed.

(** Loops that agree in everything but the rows they send and in requests outside [K]. *)
Record akin (K N : nat -> Prop) (s s' : loop_state) : Prop := {
  ak_write : forall i, K i -> bytes_of (map_get address_eqb (mk_address i 0) (l_write s)) =
                              bytes_of (map_get address_eqb (mk_address i 0) (l_write s'));
  ak_none : forall i, N i -> map_get Nat.eqb i (l_processors s) = None;
  ak_proc : same_map (l_processors s) (l_processors s');
  ak_last : l_last_tx_cnt s = l_last_tx_cnt s';
  ak_in : same_map (l_in_bytes s) (l_in_bytes s');
  ak_out : same_map (l_out_bytes s) (l_out_bytes s') }.

Lemma akin_step (K N : nat -> Prop) prof m iv ov s s' t t' :
  (forall rin rout, nth_error iv 0 = Some (ComRsIn rin) -> nth_error ov 0 = Some (ComRsOut rout) -> K m \/ N m) ->
  akin K N s s' -> next_step prof m iv ov s = Ok t -> next_step prof m iv ov s' = Ok t' -> akin K N t t'.
Proof.
  intros HK [A1 A2 A3 A4 A5 A6] H H'.
  destruct (next_step_spec _ _ _ _ _ _ H) as (O & G & _ & _). destruct (next_step_spec _ _ _ _ _ _ H') as (O' & G' & _ & _).
  destruct O as [p rin rout p' rs h tl P1 P2 P3 P4 P5 P6 P7 P8 P9 P10 P11|p P1 P2 P3|P1 P2 P3 P4 P5 P6 P7];
  destruct O' as [q rin' rout' q' rs' h' tl' Q1 Q2 Q3 Q4 Q5 Q6 Q7 Q8 Q9 Q10 Q11|q Q1 Q2 Q3|Q1 Q2 Q3 Q4 Q5 Q6 Q7];
    try (exfalso; rewrite (A3 m) in P1; congruence); try (exfalso; eapply P2; split; eassumption);
    try (exfalso; eapply Q2; split; eassumption).
  - rewrite P2 in Q2. rewrite P3 in Q3. injection Q2 as <-. injection Q3 as <-.
    rewrite (A3 m), Q1 in P1. apply Some_inj in P1. subst q.
    assert (Km : K m). { destruct (HK _ _ P2 P3) as [Hk|Hn]; [exact Hk|]. apply A2 in Hn. rewrite (A3 m) in Hn. congruence. }
    rewrite <- (fed_bytes p _ _ (A1 m Km)) in Q4. rewrite P4 in Q4. apply Ok_inj, pair_inj in Q4. destruct Q4 as [<- <-].
    split.
    + intros i Hi. destruct (Nat.eq_dec i m) as [->|E]; [rewrite P7, Q7; reflexivity|].
      destruct (G i E) as (_ & W & _). destruct (G' i E) as (_ & W' & _). rewrite W, W'. exact (A1 i Hi).
    + intros i Hi. destruct (Nat.eq_dec i m) as [->|E]; [apply A2 in Hi; rewrite (A3 m) in Hi; congruence|].
      destruct (G i E) as (_ & _ & W & _). rewrite W. exact (A2 i Hi).
    + intros i. destruct (Nat.eq_dec i m) as [->|E]; [congruence|].
      destruct (G i E) as (_ & _ & W & _). destruct (G' i E) as (_ & _ & W' & _). rewrite W, W'. apply A3.
    + congruence.
    + intros i. destruct (Nat.eq_dec i m) as [->|E]; [congruence|].
      destruct (G i E) as (_ & _ & _ & W & _). destruct (G' i E) as (_ & _ & _ & W' & _). rewrite W, W'. apply A5.
    + intros i. destruct (Nat.eq_dec i m) as [->|E]; [congruence|].
      destruct (G i E) as (_ & _ & _ & _ & W). destruct (G' i E) as (_ & _ & _ & _ & W'). rewrite W, W'. apply A6.
  - subst t t'. split; assumption.
  - split.
    + intros i Hi. destruct (Nat.eq_dec i m) as [->|E]; [rewrite P3, Q3; destruct (Nat.ltb 0 (length ov)); [reflexivity|exact (A1 m Hi)]|].
      destruct (G i E) as (_ & W & _). destruct (G' i E) as (_ & W' & _). rewrite W, W'. exact (A1 i Hi).
    + intros i Hi. destruct (Nat.eq_dec i m) as [->|E]; [exact P4|].
      destruct (G i E) as (_ & _ & W & _). rewrite W. exact (A2 i Hi).
    + intros i. destruct (Nat.eq_dec i m) as [->|E]; [congruence|].
      destruct (G i E) as (_ & _ & W & _). destruct (G' i E) as (_ & _ & W' & _). rewrite W, W'. apply A3.
    + congruence.
    + rewrite P5, Q5. exact A5.
    + rewrite P6, Q6. exact A6.
Qed.

Lemma akin_loop (K N : nat -> Prop) prof l : forall s s' t t',
  (forall m iv ov, In (m, (iv, ov)) l -> forall rin rout, nth_error iv 0 = Some (ComRsIn rin) ->
     nth_error ov 0 = Some (ComRsOut rout) -> K m \/ N m) ->
  akin K N s s' -> next_loop prof l s = Ok t -> next_loop prof l s' = Ok t' -> akin K N t t'.
Proof.
  induction l as [|(m & (iv & ov)) l IH]; intros s s' t t' HK A H H'; cbn [next_loop] in H, H'.
  - apply Ok_inj in H, H'. subst. exact A.
  - apply bind_ok in H, H'. destruct H as (s1 & S1 & H), H' as (s1' & S1' & H').
    refine (IH s1 s1' t t' (fun m iv ov Hin => HK m iv ov (or_intror Hin)) _ H H').
    exact (akin_step K N prof m iv ov s s' s1 s1' (HK m iv ov (or_introl eq_refl)) A S1 S1').
Qed.

(** The serial modules that take part in cycles. *)
Definition live (c : coupler) (i : nat) : Prop :=
  exists m o, module_at c i m o /\ is_serial m = true /\ mo_input o <> None /\ mo_output o <> None.

Lemma akin_cycle prof c1 c2 input output c1' r1 c2' r2 ins outs : coupler_ok c1 -> coupler_ok c2 ->
  c_modules c1 = c_modules c2 -> c_offsets c1 = c_offsets c2 -> c_last_tx_cnt c1 = c_last_tx_cnt c2 ->
  (forall i, serial c1 i = serial c2 i) ->
  (forall i, live c1 i -> bytes_of (requested c1 (mk_address i 0)) = bytes_of (requested c2 (mk_address i 0))) ->
  cycle prof c1 input output c1' r1 -> cycle prof c2 input output c2' r2 ->
  process_input_data prof (infos c1) input = Ok ins -> process_output_data prof (infos c1) output = Ok outs ->
  inputs c1' = inputs c2' /\ outputs c1' = outputs c2' /\ c_last_tx_cnt c1' = c_last_tx_cnt c2' /\
  (forall i, serial c1' i = serial c2' i).
Proof.
  intros Ok1 Ok2 Sm So Sl Ss Sw H1 H2 Ei Eo.
  assert (EI : infos c1 = infos c2) by (unfold infos; congruence).
  pose proof (cycle_inv _ _ _ _ _ _ Ok1 H1) as I1.
  destruct I1 as [(_ & Q & _)|[(x & _ & _ & Q & _)|(ins0 & outs0 & sent & F1 & F2 & _ & _ & _ & _ & _ & _ & Hm)]];
    [exfalso; exact (Q _ Ei)|exfalso; exact (Q _ Eo)|].
  rewrite Ei in F1. rewrite Eo in F2. apply Ok_inj in F1, F2. subst ins0 outs0.
  destruct H1 as (Hui & Huo & oi & oo & Hi & Ho & N1), H2 as (_ & _ & oi' & oo' & Hi' & Ho' & N2).
  pose proof Ei as Ei2. rewrite EI in Ei2. pose proof Eo as Eo2. rewrite EI in Eo2.
  destruct (cycle_spec prof oi oo c1 input output ins outs Ok1 Hi Ho Hui Huo Ei Eo)
    as (d1 & sent1 & M1 & (s1 & in1 & out1 & L1 & [K1 K1'] & P1 & Q1 & -> & ->) & _).
  destruct (cycle_spec prof oi' oo' c2 input output ins outs Ok2 Hi' Ho' Hui Huo Ei2 Eo2)
    as (d2 & sent2 & M2 & (s2 & in2 & out2 & L2 & [K2 K2'] & P2 & Q2 & -> & ->) & _).
  rewrite N1 in M1. rewrite N2 in M2. apply pair_inj in M1, M2. destruct M1 as [-> ->], M2 as [-> ->].
  assert (A : akin (live c1) (fun i => serial c1 i = None) s1 s2).
  { refine (akin_loop _ _ prof _ _ _ _ _ _ _ L1 L2).
    - intros i iv ov Hin rin rout R1 R2. apply In_nth_error in Hin. destruct Hin as (k & Hk).
      rewrite nth_error_enumerate in Hk. destruct (nth_error (combine ins outs) k) as [(iv' & ov')|] eqn:Ek; [|discriminate].
      injection Hk as E1 E2 E3. subst k iv' ov'. rewrite nth_error_combine in Ek.
      destruct (nth_error ins i) as [iv'|] eqn:Eiv; [|discriminate]. destruct (nth_error outs i) as [ov'|] eqn:Eov; [|discriminate].
      injection Ek as E1 E2. subst iv' ov'.
      assert (Hlt : (i < length (c_modules c1))%nat).
      { rewrite <- (infos_length c1 Ok1). apply nth_error_Some_lt in Eiv. apply traverse_length in Ei. lia. }
      destruct (module_exists c1 i Ok1 Hlt) as (m & o & Hat). destruct (Hm i m o Hat) as (iv' & ov' & X1 & X2 & _ & _ & C).
      rewrite Eiv in X1. rewrite Eov in X2. apply Some_inj in X1, X2. subst iv' ov'.
      destruct C as [row S1 S2 S3 S4 S5 S6 S7 S8 S9|l ch rin' rout' p p' rs last E1 E2 E3 G1 G2 G3 O1 O2 T1 T2 T3 T4 T5 T6 T7
                     |l ch E1 V1 V2 V3 V4 V5 V6 V7].
      + right. exact S7.
      + left. exists m, o. split; [exact Hat|]. split; [subst m; reflexivity|]. auto.
      + exfalso. destruct V1 as [[_ V1]|[_ V1]]; subst; discriminate.
    - split; cbn [l_write l_processors l_last_tx_cnt l_in_bytes l_out_bytes]; auto; intros x; reflexivity. }
  destruct A as [A1 A2 A3 A4 A5 A6].
  destruct (get_permutation _ _ K1 (Hi (l_in_bytes s1))) as [X1 Y1]. destruct (get_permutation _ _ K1' (Ho (l_out_bytes s1))) as [X1' Y1'].
  destruct (get_permutation _ _ K2 (Hi' (l_in_bytes s2))) as [X2 Y2]. destruct (get_permutation _ _ K2' (Ho' (l_out_bytes s2))) as [X2' Y2'].
  unfold inputs, outputs, serial. cbn [c_in_values c_out_values c_processors c_last_tx_cnt].
  split; [|split; [|split; [exact A4|exact A3]]].
  - refine (patch_alike _ _ _ _ _ X1 X2 _ P1 P2). intros x. rewrite Y1, Y2. apply A5.
  - refine (patch_alike _ _ _ _ _ X1' X2' _ Q1 Q2). intros x. rewrite Y1', Y2'. apply A6.
Qed.

(** Requests after a cycle that decodes both images. *)
Lemma requests_after prof c input output c' r ins outs i m o : coupler_ok c -> cycle prof c input output c' r ->
  process_input_data prof (infos c) input = Ok ins -> process_output_data prof (infos c) output = Ok outs ->
  module_at c i m o ->
  forall j, requested c' (mk_address i j) = None \/
    (is_serial m = true /\ (mo_input o = None \/ mo_output o = None) /\ requested c' (mk_address i j) = requested c (mk_address i j)).
Proof.
  intros Hok H Ei Eo Hat j.
  destruct (cycle_inv _ _ _ _ _ _ Hok H) as [(_ & Q & _)|[(x & _ & _ & Q & _)|(ins0 & outs0 & sent & F1 & F2 & _ & _ & _ & _ & _ & _ & Hm)]];
    [exfalso; exact (Q _ Ei)|exfalso; exact (Q _ Eo)|].
  destruct (Hm i m o Hat) as (iv & ov & _ & _ & _ & _ & C).
  destruct C as [row S1 S2 S3 S4 S5 S6 S7 S8 S9|l ch rin' rout' p p' rs last E1 E2 E3 G1 G2 G3 O1 O2 T1 T2 T3 T4 T5 T6 T7
                     |l ch E1 V1 V2 V3 V4 V5 V6 V7]; auto.
  right. subst m. split; [reflexivity|]. split; [|apply V5]. destruct V1 as [[V1 _]|[V1 _]]; auto.
Qed.
Lemma offsets_decide (o : module_offset) : (mo_input o = None \/ mo_output o = None) \/ (mo_input o <> None /\ mo_output o <> None).
Proof. destruct (mo_input o), (mo_output o); auto; right; split; discriminate. Qed.
Lemma requests_after_live prof c input output c' r ins outs i m o : coupler_ok c -> cycle prof c input output c' r ->
  process_input_data prof (infos c) input = Ok ins -> process_output_data prof (infos c) output = Ok outs ->
  module_at c i m o -> (is_serial m = false \/ (mo_input o <> None /\ mo_output o <> None)) ->
  forall j, requested c' (mk_address i j) = None.
Proof.
  intros Hok H Ei Eo Hat Hl j. destruct (requests_after _ _ _ _ _ _ _ _ _ _ _ Hok H Ei Eo Hat j) as [E|(E1 & E2 & _)]; [exact E|].
  exfalso. destruct Hl as [Hl|[Hl1 Hl2]]; [congruence|]. destruct E2; contradiction.
Qed.
Lemma requests_after_dead prof c input output c' r ins outs i m o : coupler_ok c -> cycle prof c input output c' r ->
  process_input_data prof (infos c) input = Ok ins -> process_output_data prof (infos c) output = Ok outs ->
  module_at c i m o -> is_serial m = true -> (mo_input o = None \/ mo_output o = None) ->
  forall j, requested c' (mk_address i j) = requested c (mk_address i j).
Proof.
  intros Hok H Ei Eo Hat Hs Hd j.
  destruct (cycle_inv _ _ _ _ _ _ Hok H) as [(_ & Q & _)|[(x & _ & _ & Q & _)|(ins0 & outs0 & sent & F1 & F2 & _ & _ & _ & _ & _ & _ & Hm)]];
    [exfalso; exact (Q _ Ei)|exfalso; exact (Q _ Eo)|].
  destruct (Hm i m o Hat) as (iv & ov & _ & _ & _ & _ & C).
  destruct C as [row S1 S2 S3 S4 S5 S6 S7 S8 S9|l ch rin' rout' p p' rs last E1 E2 E3 G1 G2 G3 O1 O2 T1 T2 T3 T4 T5 T6 T7
                     |l ch E1 V1 V2 V3 V4 V5 V6 V7]; [congruence|destruct Hd; contradiction|apply V5].
Qed.
Lemma outside_none c a : coupler_ok c -> (length (c_modules c) <= a_module a)%nat -> requested c a = None.
Proof.
  intros Hok Hl. destruct (requested c a) as [v|] eqn:E; [|reflexivity].
  destruct (ok_req c Hok a v E) as (_ & m & Hm & _). apply nth_error_Some_lt in Hm. lia.
Qed.

Lemma C44_effect_all : forall prof c1 c2 input output c1' r1 c2' r2 ins outs,
  reachable prof c1 -> reachable prof c2 -> same_but_requests c1 c2 ->
  cycle prof c1 input output c1' r1 -> cycle prof c2 input output c2' r2 ->
  process_input_data prof (infos c1) input = Ok ins -> process_output_data prof (infos c1) output = Ok outs ->
  same_coupler c1' c2'.
Proof.
  intros prof c1 c2 input output c1' r1 c2' r2 ins outs R1 R2 (Sm & So & Sl & Ss & Sr) H1 H2 Ei Eo.
  apply reachable_ok in R1, R2.
  assert (EI : infos c1 = infos c2) by (unfold infos; congruence).
  assert (Hb : forall i, live c1 i -> bytes_of (requested c1 (mk_address i 0)) = bytes_of (requested c2 (mk_address i 0))).
  { intros i (m & o & [Hm _] & Hs & _). f_equal. exact (Sr (mk_address i 0) m Hm Hs). }
  destruct (akin_cycle _ _ _ _ _ _ _ _ _ _ _ R1 R2 Sm So Sl Ss Hb H1 H2 Ei Eo) as (A1 & A2 & A3 & A4).
  destruct (cycle_static _ _ _ _ _ _ H1) as [M1 M2]. destruct (cycle_static _ _ _ _ _ _ H2) as [M1' M2'].
  unfold same_coupler. repeat match goal with |- _ /\ _ => split end; try exact A4; try congruence.
  intros [i j]. destruct (Nat.ltb_spec i (length (c_modules c1))) as [Hi|Hi].
  - destruct (module_exists c1 i R1 Hi) as (m & o & Hat).
    assert (Hat2 : module_at c2 i m o) by (unfold module_at in *; rewrite <- Sm, <- So; exact Hat).
    pose proof Ei as Ei2. rewrite EI in Ei2. pose proof Eo as Eo2. rewrite EI in Eo2.
    destruct (is_serial m) eqn:Em; [destruct (offsets_decide o) as [Hd|Hl]|].
    + rewrite (requests_after_dead _ _ _ _ _ _ _ _ _ _ _ R1 H1 Ei Eo Hat Em Hd), (requests_after_dead _ _ _ _ _ _ _ _ _ _ _ R2 H2 Ei2 Eo2 Hat2 Em Hd).
      exact (Sr (mk_address i j) m (proj1 Hat) Em).
    + rewrite (requests_after_live _ _ _ _ _ _ _ _ _ _ _ R1 H1 Ei Eo Hat (or_intror Hl)), (requests_after_live _ _ _ _ _ _ _ _ _ _ _ R2 H2 Ei2 Eo2 Hat2 (or_intror Hl)). reflexivity.
    + rewrite (requests_after_live _ _ _ _ _ _ _ _ _ _ _ R1 H1 Ei Eo Hat (or_introl Em)), (requests_after_live _ _ _ _ _ _ _ _ _ _ _ R2 H2 Ei2 Eo2 Hat2 (or_introl Em)). reflexivity.
  - rewrite (outside_none c1' (mk_address i j) (cycle_ok _ _ _ _ _ _ R1 H1)) by (cbn; rewrite M1; exact Hi).
    rewrite (outside_none c2' (mk_address i j) (cycle_ok _ _ _ _ _ _ R2 H2)) by (cbn; rewrite M1', <- Sm; exact Hi). reflexivity.
Qed.

(** ** Useless requests *)

(** Only rows of modules with an output address get into the image. *)
Lemma output_loop_rows prof l : forall k v v' out, 
  (forall i m o, nth_error l i = Some (m, o) -> mo_output o <> None -> nth_error v (k + i) = nth_error v' (k + i)) ->
  output_loop prof (enumerate_from k l) v out = output_loop prof (enumerate_from k l) v' out.
Proof.
  induction l as [|(m & o) l IH]; intros k v v' out H; cbn [enumerate_from output_loop]; [reflexivity|].
  assert (E : match mo_output o with None => Ok out | Some _ => let? x := index v k in output_step prof m o x out end =
              match mo_output o with None => Ok out | Some _ => let? x := index v' k in output_step prof m o x out end).
  { destruct (mo_output o) eqn:Eo; [|reflexivity]. unfold index. specialize (H 0%nat m o eq_refl). rewrite Nat.add_0_r in H.
    rewrite H by (rewrite Eo; discriminate). reflexivity. }
  rewrite E. clear E. destruct (match mo_output o with None => _ | Some _ => _ end) as [out1| |]; cbn [bind]; [|reflexivity..].
  apply IH. intros i m' o' Hi Ho. specialize (H (S i) m' o' Hi Ho). replace (k + S i)%nat with (S k + i)%nat in H by lia. exact H.
Qed.
Lemma values_rows prof l v v' : length v = length v' ->
  (forall i m o, nth_error l i = Some (m, o) -> mo_output o <> None -> nth_error v i = nth_error v' i) ->
  process_output_values prof l v = process_output_values prof l v'.
Proof.
  intros Hl H. unfold process_output_values. rewrite Hl. destruct (negb _); [reflexivity|]. apply output_loop_rows. exact H.
Qed.

Lemma C46_useless_all : forall prof c a v c1 m o input output c2 r c3 r', reachable prof c -> rust_value v ->
  module_at c (a_module a) m o -> useless m o v -> requested c a = None -> set_output c a v = (c1, Ok tt) ->
  cycle prof c1 input output c2 r -> cycle prof c input output c3 r' ->
  r = r' /\ (same_coupler c2 c3 \/ same_coupler c2 (fst (set_output c3 a v))).
Proof.
  intros prof c a v c1 m o input output c2 r c3 r' Hr Hv Hat Hu Hn Hset H1 H.
  apply reachable_ok in Hr.
  assert (Hva : valid_address c a).
  { destruct (valid_address_dec c a) as [V|V]; [exact V|]. rewrite (set_output_invalid c a v V) in Hset. discriminate. }
  assert (E1 : c1 = fst (set_output c a v)) by (rewrite Hset; reflexivity).
  assert (R1 : coupler_ok c1) by (rewrite E1; apply set_ok; assumption).
  destruct (set_static c a v) as (S1 & S2 & S3 & S4 & S5 & S6). rewrite <- E1 in S1, S2, S3, S4, S5, S6.
  assert (Srq : forall b, requested c1 b = if address_eqb a b then Some v else requested c b).
  { intros b. rewrite E1. apply set_requested. exact Hva. }
  assert (Sother : forall b, b <> a -> requested c1 b = requested c b).
  { intros b Hb. rewrite Srq. destruct (address_eqb_spec a b); [congruence|reflexivity]. }
  assert (Sser : forall i, serial c1 i = serial c i) by (intros i; unfold serial; rewrite S5; reflexivity).
  assert (EI : infos c1 = infos c) by (unfold infos; congruence).
  destruct (cycle_static _ _ _ _ _ _ H1) as [M1 M2]. destruct (cycle_static _ _ _ _ _ _ H) as [M1' M2'].
  assert (Hva3 : valid_address c3 a) by (unfold valid_address in *; rewrite M1'; exact Hva).
  (* the coupler [c3] with the request *)
  assert (Pend : inputs c2 = inputs c3 -> outputs c2 = outputs c3 -> c_last_tx_cnt c2 = c_last_tx_cnt c3 ->
            (forall i, serial c2 i = serial c3 i) -> requested c2 a = Some v ->
            (forall b, b <> a -> requested c2 b = requested c3 b) -> same_coupler c2 (fst (set_output c3 a v))).
  { intros T1 T2 T3 T4 T5 T6. destruct (set_static c3 a v) as (U1 & U2 & U3 & U4 & U5 & U6). unfold same_coupler.
    repeat match goal with |- _ /\ _ => split end; try congruence.
    - intros b. rewrite (set_requested c3 a v b Hva3). destruct (address_eqb_spec a b) as [<-|Hb]; [exact T5|]. apply T6. congruence.
    - intros i. unfold serial in *. rewrite U5. apply T4. }
  pose proof (cycle_inv _ _ _ _ _ _ R1 H1) as I1. pose proof (cycle_inv _ _ _ _ _ _ Hr H) as I2. rewrite EI in I1.
  destruct I1 as [(X & N & Ee & Ep & Ew)|[(ins & Ei & X & N & Ee & Ep & Ew)|(ins & outs & sent & Ei & Eo & Er & L0 & L1 & L2 & Hq & Hp & Hm)]].
  - destruct I2 as [(X' & N' & Ee' & Ep' & Ew')|[(ins' & Ei' & _)|(ins' & outs' & sent' & Ei' & _)]]; try (exfalso; exact (N _ Ei')).
    split. { destruct r as [w|e|p]; [exfalso; exact (Ew w eq_refl)|symmetry; apply Ee', Ee; reflexivity|symmetry; apply Ep', Ep; reflexivity]. }
    right. subst c2 c3. rewrite <- E1. apply same_coupler_refl.
  - destruct I2 as [(X' & N' & _)|[(ins' & Ei' & X' & N' & Ee' & Ep' & Ew')|(ins' & outs' & sent' & Ei' & Eo' & _)]];
      [exfalso; exact (N' _ Ei)| |exfalso; exact (N _ Eo')].
    split. { destruct r as [w|e|p]; [exfalso; exact (Ew w eq_refl)|symmetry; apply Ee', Ee; reflexivity|symmetry; apply Ep', Ep; reflexivity]. }
    rewrite Ei in Ei'. apply Ok_inj in Ei'. subst ins'. right.
    assert (Rq : forall b, requested c2 b = requested c1 b) by (intros b; rewrite X; reflexivity).
    assert (Rq' : forall b, requested c3 b = requested c b) by (intros b; rewrite X'; reflexivity).
    apply Pend.
    + rewrite X, X'. reflexivity.
    + rewrite X, X'. exact S2.
    + rewrite X, X'. exact S6.
    + intros i. rewrite X, X'. exact (Sser i).
    + rewrite Rq, Srq. destruct (address_eqb_spec a a); [reflexivity|congruence].
    + intros b Hb. rewrite Rq, Rq'. exact (Sother b Hb).
  - destruct I2 as [(X' & N' & _)|[(ins' & Ei' & X' & N' & _)|(ins' & outs' & sent' & Ei' & Eo' & Er' & L0' & L1' & L2' & Hq' & Hp' & Hm')]];
      [exfalso; exact (N' _ Ei)|exfalso; exact (N' _ Eo)|].
    rewrite Ei in Ei'. rewrite Eo in Eo'. apply Ok_inj in Ei', Eo'. subst ins' outs'.
    assert (Hbytes : forall i, live c1 i -> bytes_of (requested c1 (mk_address i 0)) = bytes_of (requested c (mk_address i 0))).
    { intros i (m' & o' & [Hm1 Ho1] & Hs' & Hi1 & Hi2). rewrite Srq. destruct (address_eqb_spec a (mk_address i 0)) as [Ea|_]; [|reflexivity].
      subst a. cbn [a_module] in Hat. destruct Hat as [Hm2 Ho2]. rewrite S3, Hm2 in Hm1. rewrite S4, Ho2 in Ho1.
      apply Some_inj in Hm1, Ho1. subst m' o'. rewrite Hn. destruct Hu as [[Hu _]|[_ [Hu|[Hu|Hu]]]]; try congruence.
      destruct v; try reflexivity. exfalso. eapply Hu. reflexivity. }
    split.
    + rewrite Er, Er'. apply values_rows; [congruence|]. intros i m' o' Hi Ho'. apply infos_at in Hi.
      assert (Hi1 : module_at c1 i m' o') by (unfold module_at in *; rewrite S3, S4; exact Hi).
      destruct (Hm i m' o' Hi1) as (iv & ov & Hiv & Hov & _ & _ & C). destruct (Hm' i m' o' Hi) as (iv' & ov' & Hiv' & Hov' & _ & _ & C').
      rewrite Hiv in Hiv'. rewrite Hov in Hov'. apply Some_inj in Hiv', Hov'. subst iv' ov'.
      destruct C as [row P1 P2 P3 P4 P5 P6 P7 P8 P9|l ch rin rout p p' rs last F1 F2 F3 G1 G2 G3 O1 O2 T1 T2 T3 T4 T5 T6 T7
                     |l ch F1 V1 V2 V3 V4 V5 V6 V7];
      destruct C' as [row' P1' P2' P3' P4' P5' P6' P7' P8' P9'|l' ch' rin' rout' q q' rs' last' F1' F2' F3' G1' G2' G3' O1' O2' T1' T2' T3' T4' T5' T6' T7'
                     |l' ch' F1' V1' V2' V3' V4' V5' V6' V7'];
        try (exfalso; subst m'; discriminate).
      * rewrite P2, P2'. f_equal. apply nth_error_ext. intros j. rewrite P4, P4'.
        destruct (Nat.eq_dec i (a_module a)) as [->|Ei'].
        -- exfalso. destruct Hat as [Hm2 Ho2], Hi as [Hm3 Ho3]. rewrite Hm2 in Hm3. rewrite Ho2 in Ho3. apply Some_inj in Hm3, Ho3. subst m' o'.
           destruct Hu as [[_ Hu]|[Hu _]]; congruence.
        -- rewrite (Sother (mk_address i j)); [reflexivity|]. intros <-. apply Ei'. reflexivity.
      * rewrite F2 in F2'. rewrite F3 in F3'. injection F2' as <-. injection F3' as <-.
        rewrite Sser, T1' in T1. apply Some_inj in T1. subst q.
        assert (Hl : live c1 i) by (exists m', o'; split; [exact Hi1|]; split; [subst m'; reflexivity|]; split; assumption).
        rewrite (fed_bytes p _ _ (Hbytes i Hl)), T2' in T2. apply Ok_inj, pair_inj in T2. destruct T2 as [<- <-]. congruence.
      * exfalso. destruct V1' as [[Q _]|[Q _]]; contradiction.
      * exfalso. destruct V1 as [[Q _]|[Q _]]; contradiction.
      * congruence.
    + destruct (akin_cycle _ _ _ _ _ _ _ _ _ ins outs R1 Hr S3 S4 S6 Sser Hbytes H1 H) as (A1 & A2 & A3 & A4); [rewrite EI; exact Ei|rewrite EI; exact Eo|].
      pose proof Ei as Ei1. rewrite <- EI in Ei1. pose proof Eo as Eo1. rewrite <- EI in Eo1.
      assert (Rest : forall b, b <> a -> requested c2 b = requested c3 b).
      { intros [i j] Hb. destruct (Nat.ltb_spec i (length (c_modules c))) as [Hi|Hi].
        - destruct (module_exists c i Hr Hi) as (m' & o' & Hat').
          assert (Hat1 : module_at c1 i m' o') by (unfold module_at in *; rewrite S3, S4; exact Hat').
          destruct (is_serial m') eqn:Em; [destruct (offsets_decide o') as [Hd|Hl]|].
          + rewrite (requests_after_dead _ _ _ _ _ _ _ _ _ _ _ R1 H1 Ei1 Eo1 Hat1 Em Hd).
            rewrite (requests_after_dead _ _ _ _ _ _ _ _ _ _ _ Hr H Ei Eo Hat' Em Hd). exact (Sother _ Hb).
          + rewrite (requests_after_live _ _ _ _ _ _ _ _ _ _ _ R1 H1 Ei1 Eo1 Hat1 (or_intror Hl)).
            rewrite (requests_after_live _ _ _ _ _ _ _ _ _ _ _ Hr H Ei Eo Hat' (or_intror Hl)). reflexivity.
          + rewrite (requests_after_live _ _ _ _ _ _ _ _ _ _ _ R1 H1 Ei1 Eo1 Hat1 (or_introl Em)).
            rewrite (requests_after_live _ _ _ _ _ _ _ _ _ _ _ Hr H Ei Eo Hat' (or_introl Em)). reflexivity.
        - rewrite (outside_none c2 (mk_address i j) (cycle_ok _ _ _ _ _ _ R1 H1)) by (cbn; rewrite M1, S3; exact Hi).
          rewrite (outside_none c3 (mk_address i j) (cycle_ok _ _ _ _ _ _ Hr H)) by (cbn; rewrite M1'; exact Hi). reflexivity. }
      assert (Hat1 : module_at c1 (a_module a) m o) by (unfold module_at in *; rewrite S3, S4; exact Hat).
      destruct a as [i j]. cbn [a_module] in *.
      assert (D : (is_serial m = true /\ (mo_input o = None \/ mo_output o = None)) \/ (is_serial m = false \/ (mo_input o <> None /\ mo_output o <> None))).
      { destruct (is_serial m); [|auto]. destruct (offsets_decide o); auto. }
      destruct D as [[Em Hd]|Hl].
      * right. apply Pend; auto.
        rewrite (requests_after_dead _ _ _ _ _ _ _ _ _ _ _ R1 H1 Ei1 Eo1 Hat1 Em Hd).
        rewrite Srq. destruct (address_eqb_spec (mk_address i j) (mk_address i j)); [reflexivity|congruence].
      * left. unfold same_coupler. repeat match goal with |- _ /\ _ => split end; try exact A4; try congruence.
        intros b. destruct (address_eqb_spec b (mk_address i j)) as [->|Hb]; [|exact (Rest b Hb)].
        rewrite (requests_after_live _ _ _ _ _ _ _ _ _ _ _ R1 H1 Ei1 Eo1 Hat1 Hl).
        rewrite (requests_after_live _ _ _ _ _ _ _ _ _ _ _ Hr H Ei Eo Hat Hl). reflexivity.
Qed.

(** ** Useless requests in histories *)

Lemma cycle_exists prof c input output : Forall is_u16 input -> Forall is_u16 output ->
  exists c' r, cycle prof c input output c' r.
Proof.
  intros Hi Ho. exists (fst (next prof (fun l => l) (fun l => l) c input output)), (snd (next prof (fun l => l) (fun l => l) c input output)).
  refine (cycle_of_next prof (fun l => l) (fun l => l) _ _ _ _ _ _ _ Hi Ho _); try (intros l; apply Permutation_refl). apply surjective_pairing.
Qed.

Lemma request_stays_none prof c input output c' r a : coupler_ok c -> cycle prof c input output c' r ->
  requested c a = None -> requested c' a = None.
Proof.
  intros Hok H Hn. destruct (cycle_inv _ _ _ _ _ _ Hok H) as [(E & _)|[(ins & _ & E & _)|(ins & outs & sent & Ei & Eo & _)]].
  - subst. exact Hn.
  - subst. exact Hn.
  - destruct a as [i j]. destruct (Nat.ltb_spec i (length (c_modules c))) as [Hi|Hi].
    + destruct (module_exists c i Hok Hi) as (m & o & Hat).
      destruct (requests_after _ _ _ _ _ _ _ _ _ _ _ Hok H Ei Eo Hat j) as [E|(_ & _ & E)]; [exact E|congruence].
    + apply outside_none; [exact (cycle_ok _ _ _ _ _ _ Hok H)|]. destruct (cycle_static _ _ _ _ _ _ H) as [M _]. cbn. rewrite M. exact Hi.
Qed.

Lemma read_set c i n a v : snd (coupler_read (fst (set_output c a v)) i n) = snd (coupler_read c i n) /\
  fst (coupler_read (fst (set_output c a v)) i n) = fst (set_output (fst (coupler_read c i n)) a v).
Proof.
  destruct (valid_address_dec c a) as [V|V].
  - rewrite (set_output_valid c a v V). cbn [fst]. unfold coupler_read. cbn [c_processors].
    destruct (map_get Nat.eqb i (c_processors c)) as [p|].
    + destruct (processor_read p n) as [p' b]. cbn [fst snd]. rewrite set_output_valid by exact V. split; reflexivity.
    + cbn [fst snd]. rewrite set_output_valid by exact V. split; reflexivity.
  - rewrite (set_output_invalid c a v V). cbn [fst]. split; [reflexivity|].
    rewrite set_output_invalid; [reflexivity|]. intros (m & Hm & Hc). apply V. exists m. split; [|exact Hc].
    destruct (read_static c i n) as (_ & _ & E & _). rewrite <- E. exact Hm.
Qed.
Lemma write_set c i b a v : snd (coupler_write (fst (set_output c a v)) i b) = snd (coupler_write c i b) /\
  fst (coupler_write (fst (set_output c a v)) i b) = fst (set_output (fst (coupler_write c i b)) a v).
Proof.
  destruct (valid_address_dec c a) as [V|V].
  - rewrite (set_output_valid c a v V). cbn [fst]. unfold coupler_write. cbn [c_processors].
    destruct (map_get Nat.eqb i (c_processors c)) as [p|].
    + destruct (processor_write p b) as [p' n]. cbn [fst snd]. rewrite set_output_valid by exact V. split; reflexivity.
    + cbn [fst snd]. rewrite set_output_valid by exact V. split; reflexivity.
  - rewrite (set_output_invalid c a v V). cbn [fst]. split; [reflexivity|].
    rewrite set_output_invalid; [reflexivity|]. intros (m & Hm & Hc). apply V. exists m. split; [|exact Hc].
    destruct (write_static c i b) as (_ & _ & E & _). rewrite <- E. exact Hm.
Qed.
Lemma set_set_answer c a v b w : snd (set_output (fst (set_output c a v)) b w) = snd (set_output c b w).
Proof.
  destruct (valid_address_dec c b) as [V|V].
  - rewrite (set_output_valid c b w V), (set_output_valid (fst (set_output c a v)) b w); [reflexivity|]. apply set_valid. exact V.
  - rewrite (set_output_invalid c b w V), (set_output_invalid (fst (set_output c a v)) b w); [reflexivity|]. rewrite set_valid. exact V.
Qed.

(** [c1] is [c], possibly with a useless request for [a] left. *)
Definition carries (a : address) (v : channel_value) (c1 c : coupler) : Prop :=
  same_coupler c1 c \/ (requested c a = None /\ same_coupler c1 (fst (set_output c a v))).

Lemma carries_calls prof a v m o c1 c x c1' c' a1 a2 : reachable prof c1 -> reachable prof c -> rust_value v ->
  module_at c (a_module a) m o -> valid_address c a -> useless m o v -> carries a v c1 c ->
  calls prof c1 x c1' a1 -> calls prof c x c' a2 -> a1 = a2 /\ carries a v c1' c'.
Proof.
  intros R1 R Hv Hat Hva Hu [Hs|[Hn Hs]] H1 H.
  { destruct (same_calls _ _ _ _ _ _ _ _ (reachable_ok _ _ R1) Hs H1 H) as [E S]. split; [exact E|left; exact S]. }
  destruct H1 as [c1 b w Hw|c1 i n|c1 i buf Hb|c1 input output c1' r Hc Hp].
  - inversion H; subst. destruct (same_set _ _ b w Hs) as [E S]. rewrite E, set_set_answer. split; [reflexivity|].
    destruct (address_eqb_spec a b) as [<-|Hab].
    + left. exact (same_coupler_trans _ _ _ S (proj1 C37_same_all c a v w)).
    + right. split; [|exact (same_coupler_trans _ _ _ S (proj2 C37_same_all c a b v w Hab))].
      destruct (valid_address_dec c b) as [V|V].
      * rewrite (set_requested c b w a V). destruct (address_eqb_spec b a); [congruence|exact Hn].
      * rewrite (set_output_invalid c b w V). exact Hn.
  - inversion H; subst. destruct (same_read _ _ i n Hs) as [E S]. destruct (read_set c i n a v) as [E2 S2].
    rewrite E, E2. split; [reflexivity|]. right. rewrite S2 in S. split; [|exact S].
    destruct (read_static c i n) as (_ & _ & _ & _ & W & _). unfold requested. rewrite W. exact Hn.
  - inversion H; subst. destruct (same_write _ _ i buf Hs) as [E S]. destruct (write_set c i buf a v) as [E2 S2].
    rewrite E, E2. split; [reflexivity|]. right. rewrite S2 in S. split; [|exact S].
    destruct (write_static c i buf) as (_ & _ & _ & _ & W & _). unfold requested. rewrite W. exact Hn.
  - inversion H as [| | |? ? ? c3 r' Hc3 Hp3]; subst.
    destruct (cycle_exists prof (fst (set_output c a v)) input output (proj1 Hc) (proj1 (proj2 Hc))) as (c2 & r2 & Hc2).
    destruct (same_next _ _ _ _ _ _ _ _ _ (reachable_ok _ _ R1) Hs Hc Hc2) as [Er S].
    assert (Hset : set_output c a v = (fst (set_output c a v), Ok tt)) by (rewrite (set_output_valid c a v Hva); reflexivity).
    destruct (C46_useless_all prof c a v _ m o input output c2 r2 c' r' R Hv Hat Hu Hn Hset Hc2 Hc3) as [Er2 [S2|S2]].
    + pose proof (same_coupler_trans _ _ _ S S2) as S3. split; [|left; exact S3].
      subst. destruct S3 as (-> & -> & _). reflexivity.
    + pose proof (same_coupler_trans _ _ _ S S2) as S3. split.
      * subst. destruct S3 as (-> & -> & _). destruct (set_static c' a v) as (-> & -> & _). reflexivity.
      * right. split; [|exact S3]. exact (request_stays_none _ _ _ _ _ _ _ (reachable_ok _ _ R) Hc3 Hn).
Qed.

Lemma calls_kept prof c x c' a : calls prof c x c' a -> c_modules c' = c_modules c /\ c_offsets c' = c_offsets c.
Proof.
  intros H. destruct H as [c a v Hv|c i n|c i b Hb|c input output c' r H Hp].
  - destruct (set_static c a v) as (_ & _ & H1 & H2 & _). auto.
  - destruct (read_static c i n) as (_ & _ & H1 & H2 & _). auto.
  - destruct (write_static c i b) as (_ & _ & H1 & H2 & _). auto.
  - exact (cycle_static _ _ _ _ _ _ H).
Qed.

Lemma C46_forever_all : forall prof c a v c1 m o xs c2 answers c3 answers', reachable prof c -> rust_value v ->
  module_at c (a_module a) m o -> useless m o v -> requested c a = None -> set_output c a v = (c1, Ok tt) ->
  runs prof c1 xs c2 answers -> runs prof c xs c3 answers' -> answers = answers'.
Proof.
  intros prof c a v c1 m o xs c2 answers c3 answers' Hr Hv Hat Hu Hn Hset H1 H.
  assert (Hva : valid_address c a).
  { destruct (valid_address_dec c a) as [V|V]; [exact V|]. rewrite (set_output_invalid c a v V) in Hset. discriminate. }
  assert (E1 : c1 = fst (set_output c a v)) by (rewrite Hset; reflexivity).
  assert (R1 : reachable prof c1) by (rewrite E1; apply R_set; assumption).
  assert (Hc : carries a v c1 c) by (right; split; [exact Hn|rewrite <- E1; apply same_coupler_refl]).
  clear Hset E1 Hn. revert c Hr Hat Hva Hc c3 answers' H.
  induction H1 as [c1|c1 x d1 e1 xs c2 xa Hx Hxs IH]; intros c Hr Hat Hva Hc c3 answers' H.
  - inversion H; subst. reflexivity.
  - inversion H as [|? ? d e ? ? ya Hy Hys]; subst.
    destruct (carries_calls _ _ _ _ _ _ _ _ _ _ _ _ R1 Hr Hv Hat Hva Hu Hc Hx Hy) as [-> Hc'].
    f_equal. destruct (calls_kept _ _ _ _ _ Hy) as [M1 M2].
    apply (IH (calls_reachable _ _ _ _ _ R1 Hx) d (calls_reachable _ _ _ _ _ Hr Hy)) with (c3 := c3); [| |exact Hc'|exact Hys].
    + unfold module_at in *. rewrite M1, M2. exact Hat.
    + unfold valid_address in *. rewrite M1. exact Hva.
Qed.
