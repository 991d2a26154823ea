(** Proofs of C36 - C38, C43 - C47 and C54: requests and cycles of a coupler. *)
From Coq Require Import ZArith List Bool Lia ZifyBool ZifyNat Permutation.
From Verif Require Import Base Facts F32 Types Lib Util Digital Analog Fcnt Com Fbc
  SpecCodec SpecSerial SpecCoupler SpecImage ProofsAddr ProofsCodec ProofsFcnt ProofsSerialCodec
  ProofsSerial ProofsParams ProofsNew ProofsModule ProofsImage ProofsLayout ProofsLoop ProofsCycle.
Import ListNotations.
Local Open Scope Z_scope.
Ltac Zify.zify_post_hook ::= Z.div_mod_to_equations.

(** *** C36 *)

Lemma next_static prof oi oo c input output c' r : next prof oi oo c input output = (c', r) ->
  c_modules c' = c_modules c /\ c_offsets c' = c_offsets c.
Proof.
  unfold next. intros H.
  repeat match type of H with context [match ?x with _ => _ end] => destruct x end;
    apply pair_inj in H; destruct H as [<- _]; split; reflexivity.
Qed.

Definition in_shape (ms : list (module * module_offset)) (rows : list (list channel_value)) : Prop :=
  length rows = length ms /\ forall i m o, nth_error ms i = Some (m, o) ->
    exists row, nth_error rows i = Some row /\
      length row = match mo_input o with Some _ => input_width m | None => channels m end.
Definition out_shape (ms : list (module * module_offset)) (rows : list (list channel_value)) : Prop :=
  length rows = length ms /\ forall i m o, nth_error ms i = Some (m, o) ->
    exists row, nth_error rows i = Some row /\ length row = channels m.

Lemma ok_complete c i m o : coupler_ok c -> nth_error (infos c) i = Some (m, o) -> complete m.
Proof. intros Hok H. apply infos_at in H. destruct H as [H _]. eapply complete_at; eassumption. Qed.

Lemma ins_shape prof c input ins : coupler_ok c -> process_input_data prof (infos c) input = Ok ins ->
  in_shape (infos c) ins.
Proof.
  intros Hok H. rewrite process_input_rows in H. split; [eapply traverse_length; exact H|].
  intros i m o Hi. destruct (traverse_row_at _ _ _ _ _ H Hi) as (row & Hr & Hrow).
  exists row. split; [exact Hr|]. eapply (in_row_length _ (m, o)); [|exact Hrow]. eapply ok_complete; eassumption.
Qed.

Lemma cycle_inv prof c input output c' r : coupler_ok c -> cycle prof c input output c' r ->
  (c' = c /\ (forall ins, process_input_data prof (infos c) input <> Ok ins) /\
     (forall e, process_input_data prof (infos c) input = Err e <-> r = Err e) /\
     (forall p, process_input_data prof (infos c) input = Panic p <-> r = Panic p) /\ (forall w, r <> Ok w)) \/
  (exists ins, process_input_data prof (infos c) input = Ok ins /\
     c' = mk_coupler ins (c_out_values c) (c_write c) (c_modules c) (c_offsets c) (c_processors c) (c_last_tx_cnt c) /\
     (forall outs, process_output_data prof (infos c) output <> Ok outs) /\
     (forall e, process_output_data prof (infos c) output = Err e <-> r = Err e) /\
     (forall p, process_output_data prof (infos c) output = Panic p <-> r = Panic p) /\ (forall w, r <> Ok w)) \/
  (exists ins outs sent, process_input_data prof (infos c) input = Ok ins /\
     process_output_data prof (infos c) output = Ok outs /\
     r = process_output_values prof (infos c) sent /\
     length sent = length (c_modules c) /\ length (inputs c') = length (c_modules c) /\
     length (outputs c') = length (c_modules c) /\
     (forall a, (length (c_modules c) <= a_module a)%nat -> requested c' a = requested c a) /\
     (forall i, (length (c_modules c) <= i)%nat -> serial c' i = serial c i) /\
     forall i m o, module_at c i m o -> exists iv ov,
      nth_error ins i = Some iv /\ nth_error outs i = Some ov /\
      input_row prof (m, o) input = Ok iv /\ output_row prof (m, o) output = Ok ov /\
      module_cycle prof c c' sent i m o iv ov).
Proof.
  intros Hok (Hui & Huo & oi & oo & Hi & Ho & H).
  destruct (process_input_data prof (infos c) input) as [ins|e|p] eqn:Ei.
  - destruct (process_output_data prof (infos c) output) as [outs|e|p] eqn:Eo.
    + right. right. destruct (cycle_spec prof oi oo c input output ins outs Hok Hi Ho Hui Huo Ei Eo)
        as (c1 & sent & Hn & _ & _ & _ & H1 & H2 & H3 & H4 & H5 & H6).
      rewrite Hn in H. apply pair_inj in H. destruct H as [<- <-]. exists ins, outs, sent. auto 12.
    + right. left. exists ins. unfold next in H. rewrite Ei, Eo in H. apply pair_inj in H. destruct H as [<- <-].
      split; [reflexivity|]. split; [reflexivity|]. split; [discriminate|].
      split; [intros x; split; congruence|]. split; [intros x; split; congruence|discriminate].
    + right. left. exists ins. unfold next in H. rewrite Ei, Eo in H. apply pair_inj in H. destruct H as [<- <-].
      split; [reflexivity|]. split; [reflexivity|]. split; [discriminate|].
      split; [intros x; split; congruence|]. split; [intros x; split; congruence|discriminate].
  - left. unfold next in H. rewrite Ei in H. apply pair_inj in H. destruct H as [<- <-].
    split; [reflexivity|]. split; [discriminate|].
    split; [intros x; split; congruence|]. split; [intros x; split; congruence|discriminate].
  - left. unfold next in H. rewrite Ei in H. apply pair_inj in H. destruct H as [<- <-].
    split; [reflexivity|]. split; [discriminate|].
    split; [intros x; split; congruence|]. split; [intros x; split; congruence|discriminate].
Qed.

Lemma decoded_shape c c' prof sent ins outs input output : coupler_ok c ->
  process_input_data prof (infos c) input = Ok ins ->
  length (inputs c') = length (c_modules c) -> length (outputs c') = length (c_modules c) ->
  (forall i m o, module_at c i m o -> exists iv ov,
      nth_error ins i = Some iv /\ nth_error outs i = Some ov /\
      input_row prof (m, o) input = Ok iv /\ output_row prof (m, o) output = Ok ov /\
      module_cycle prof c c' sent i m o iv ov) ->
  in_shape (infos c) (inputs c') /\ out_shape (infos c) (outputs c').
Proof.
  intros Hok Ei Li Lo H. split; (split; [rewrite infos_length by exact Hok; assumption|]); intros i m o Hi;
    pose proof (ok_complete _ _ _ _ Hok Hi) as Hc; apply infos_at in Hi;
    destruct (H i m o Hi) as (iv & ov & _ & _ & Hri & Hro & Hm);
    apply in_row_length in Hri; try exact Hc; apply out_row_length in Hro; cbn [fst snd] in Hri, Hro.
  - destruct Hm as [row S1 S2 S3 S4 S5 S6 S6' S7 S8|l ch rin rout p0 p' rs last -> -> -> G1 G2 G3 _ _ S1 S2 S3 S4 S5 S6 S7
                     |l ch -> S1 S2 S3 S4 S5 S6 S7]; eauto.
  - destruct Hm as [row S1 S2 S3 S4 S5 S6 S6' S7 S8|l ch rin rout p0 p' rs last -> -> -> G1 G2 G3 _ _ S1 S2 S3 S4 S5 S6 S7
                     |l ch -> S1 S2 S3 S4 S5 S6 S7]; eauto.
Qed.

Definition shapes (c : coupler) : Prop :=
  (inputs c = [] \/ in_shape (infos c) (inputs c)) /\ (outputs c = [] \/ out_shape (infos c) (outputs c)).

Lemma cycle_of_next prof oi oo c input output c' r : hash_order oi -> hash_order oo ->
  Forall is_u16 input -> Forall is_u16 output -> next prof oi oo c input output = (c', r) ->
  cycle prof c input output c' r.
Proof. intros. split; [assumption|]. split; [assumption|]. exists oi, oo. auto. Qed.

Lemma cycle_static prof c input output c' r : cycle prof c input output c' r ->
  c_modules c' = c_modules c /\ c_offsets c' = c_offsets c.
Proof. intros (_ & _ & oi & oo & _ & _ & H). eapply next_static. exact H. Qed.

Lemma cycle_ok prof c input output c' r : coupler_ok c -> cycle prof c input output c' r -> coupler_ok c'.
Proof.
  intros Hok (Hi & Ho & oi & oo & H1 & H2 & H). exact (next_coupler_ok _ _ _ _ _ _ _ _ Hok H1 H2 Hi Ho H).
Qed.

Lemma infos_static prof c input output c' r : cycle prof c input output c' r -> infos c' = infos c.
Proof. intros H. apply cycle_static in H. unfold infos. destruct H as [-> ->]. reflexivity. Qed.

Lemma set_static c a v : inputs (fst (set_output c a v)) = inputs c /\ outputs (fst (set_output c a v)) = outputs c /\
  c_modules (fst (set_output c a v)) = c_modules c /\ c_offsets (fst (set_output c a v)) = c_offsets c /\
  c_processors (fst (set_output c a v)) = c_processors c /\ c_last_tx_cnt (fst (set_output c a v)) = c_last_tx_cnt c.
Proof. unfold set_output. destruct (is_valid_addr c a) as [[|]| |]; auto 10. Qed.

Lemma read_static c i n : inputs (fst (coupler_read c i n)) = inputs c /\ outputs (fst (coupler_read c i n)) = outputs c /\
  c_modules (fst (coupler_read c i n)) = c_modules c /\ c_offsets (fst (coupler_read c i n)) = c_offsets c /\
  c_write (fst (coupler_read c i n)) = c_write c /\ c_last_tx_cnt (fst (coupler_read c i n)) = c_last_tx_cnt c.
Proof.
  unfold coupler_read. destruct (map_get Nat.eqb i (c_processors c)) as [p|]; [|auto 10].
  destruct (processor_read p n). auto 10.
Qed.

Lemma write_static c i b : inputs (fst (coupler_write c i b)) = inputs c /\ outputs (fst (coupler_write c i b)) = outputs c /\
  c_modules (fst (coupler_write c i b)) = c_modules c /\ c_offsets (fst (coupler_write c i b)) = c_offsets c /\
  c_write (fst (coupler_write c i b)) = c_write c /\ c_last_tx_cnt (fst (coupler_write c i b)) = c_last_tx_cnt c.
Proof.
  unfold coupler_write. destruct (map_get Nat.eqb i (c_processors c)) as [p|]; [|auto 10].
  destruct (processor_write p b). auto 10.
Qed.

Lemma shapes_static c c' : inputs c' = inputs c /\ outputs c' = outputs c /\ c_modules c' = c_modules c /\
  c_offsets c' = c_offsets c /\ True -> shapes c -> shapes c'.
Proof. intros (H1 & H2 & H3 & H4 & _) H. unfold shapes, infos in *. rewrite H1, H2, H3, H4. exact H. Qed.

Lemma cycle_shapes prof c input output c' r : coupler_ok c -> shapes c -> cycle prof c input output c' r -> shapes c'.
Proof.
  intros Hok Hs H. pose proof (infos_static _ _ _ _ _ _ H) as Ei.
  destruct (cycle_inv _ _ _ _ _ _ Hok H) as [(-> & _)|[(ins & E1 & -> & _)|(ins & outs & sent & E1 & _ & _ & _ & E2 & E3 & _ & _ & E4)]].
  - exact Hs.
  - destruct Hs as [_ Hs]. split; [|exact Hs]. right. exact (ins_shape _ _ _ _ Hok E1).
  - unfold shapes. rewrite Ei. destruct (decoded_shape _ _ _ _ _ _ _ _ Hok E1 E2 E3 E4) as [S1 S2]. auto.
Qed.

Lemma reachable_shapes prof c : reachable prof c -> shapes c.
Proof.
  induction 1 as [cfg c Hr Hc|c a v Hr IH Hv|c i n Hr IH|c i buf Hr IH Hb|c oi oo input output c' r Hr IH Hi Ho Hui Huo Hn _].
  - destruct Hr as [_ _]. unfold coupler_new in Hc. apply bind_ok in Hc. destruct Hc as (u & _ & Hc).
    apply bind_ok in Hc. destruct Hc as (offs & _ & Hc). apply bind_ok in Hc. destruct Hc as ((ms & ps) & _ & Hc).
    apply Ok_inj in Hc. subst c. split; left; reflexivity.
  - eapply shapes_static; [|exact IH]. destruct (set_static c a v) as (H1 & H2 & H3 & H4 & _). auto.
  - eapply shapes_static; [|exact IH]. destruct (read_static c i n) as (H1 & H2 & H3 & H4 & _). auto.
  - eapply shapes_static; [|exact IH]. destruct (write_static c i buf) as (H1 & H2 & H3 & H4 & _). auto.
  - exact (cycle_shapes _ _ _ _ _ _ (reachable_ok _ _ Hr) IH (cycle_of_next _ _ _ _ _ _ _ _ Hi Ho Hui Huo Hn)).
Qed.

Lemma in_shape_rows c rows : coupler_ok c -> in_shape (infos c) rows ->
  length rows = length (c_modules c) /\ forall i m, nth_error (c_modules c) i = Some m ->
    exists row, nth_error rows i = Some row /\ (m <> MSIL -> length row = channels m).
Proof.
  intros Hok [L H]. rewrite infos_length in L by exact Hok. split; [exact L|]. intros i m Hm.
  destruct (module_exists c i Hok (nth_error_Some_lt _ _ _ Hm)) as (m' & o & Hat).
  pose proof Hat as [Hm' _]. rewrite Hm in Hm'. apply Some_inj in Hm'. subst m'.
  apply infos_at in Hat. destruct (H i m o Hat) as (row & Hr & Hl). exists row. split; [exact Hr|].
  intros Hn. rewrite Hl. destruct (mo_input o); [|reflexivity]. destruct m; try reflexivity. congruence.
Qed.
Lemma out_shape_rows c rows : coupler_ok c -> out_shape (infos c) rows ->
  length rows = length (c_modules c) /\ forall i m, nth_error (c_modules c) i = Some m ->
    exists row, nth_error rows i = Some row /\ length row = channels m.
Proof.
  intros Hok [L H]. rewrite infos_length in L by exact Hok. split; [exact L|]. intros i m Hm.
  destruct (module_exists c i Hok (nth_error_Some_lt _ _ _ Hm)) as (m' & o & Hat).
  pose proof Hat as [Hm' _]. rewrite Hm in Hm'. apply Some_inj in Hm'. subst m'.
  apply infos_at in Hat. exact (H i m o Hat).
Qed.

Lemma C36_partial_all :
  (forall prof c input output c' image, reachable prof c -> cycle prof c input output c' (Ok image) ->
     c_modules c' = c_modules c /\
     length (inputs c') = length (c_modules c) /\ length (outputs c') = length (c_modules c) /\
     forall i m, nth_error (c_modules c) i = Some m ->
       (exists row, nth_error (outputs c') i = Some row /\ length row = channels m) /\
       exists row, nth_error (inputs c') i = Some row /\ (m <> MSIL -> length row = channels m)) /\
  (forall prof c, reachable prof c ->
     (inputs c = [] \/ length (inputs c) = length (c_modules c) /\
        forall i m, nth_error (c_modules c) i = Some m ->
          exists row, nth_error (inputs c) i = Some row /\ (m <> MSIL -> length row = channels m)) /\
     (outputs c = [] \/ length (outputs c) = length (c_modules c) /\
        forall i m, nth_error (c_modules c) i = Some m ->
          exists row, nth_error (outputs c) i = Some row /\ length row = channels m)).
Proof.
  split.
  - intros prof c input output c' image Hr H. pose proof (reachable_ok _ _ Hr) as Hok.
    pose proof (cycle_static _ _ _ _ _ _ H) as [Hm _].
    destruct (cycle_inv _ _ _ _ _ _ Hok H) as [(_ & _ & _ & _ & Hn)|[(ins & _ & _ & _ & _ & _ & Hn)|(ins & outs & sent & E1 & _ & _ & _ & E2 & E3 & _ & _ & E4)]].
    + exfalso. exact (Hn image eq_refl).
    + exfalso. exact (Hn image eq_refl).
    + destruct (decoded_shape _ _ _ _ _ _ _ _ Hok E1 E2 E3 E4) as [S1 S2].
      destruct (in_shape_rows c _ Hok S1) as [L1 R1]. destruct (out_shape_rows c _ Hok S2) as [L2 R2].
      split; [exact Hm|]. split; [exact L1|]. split; [exact L2|]. intros i m Hi. split; [apply R2|apply R1]; exact Hi.
  - intros prof c Hr. pose proof (reachable_ok _ _ Hr) as Hok. destruct (reachable_shapes _ _ Hr) as [S1 S2]. split.
    + destruct S1 as [S1|S1]; [left; exact S1|right; exact (in_shape_rows c _ Hok S1)].
    + destruct S2 as [S2|S2]; [left; exact S2|right; exact (out_shape_rows c _ Hok S2)].
Qed.

(** *** C37 *)

Lemma valid_address_dec c a : valid_address c a \/ ~ valid_address c a.
Proof.
  unfold valid_address. destruct (nth_error (c_modules c) (a_module a)) as [m|].
  - destruct (Nat.ltb_spec (a_channel a) (channels m)); [left; eauto|right].
    intros (m' & E & Hc). apply Some_inj in E. subst m'. lia.
  - right. intros (m & E & _). discriminate.
Qed.

Lemma set_output_valid c a v : valid_address c a ->
  set_output c a v = (mk_coupler (c_in_values c) (c_out_values c) (map_insert address_eqb a v (c_write c))
         (c_modules c) (c_offsets c) (c_processors c) (c_last_tx_cnt c), Ok tt).
Proof.
  intros (m & Hm & Hc). unfold set_output. rewrite valid_addr_spec, Hm.
  replace (Nat.ltb (a_channel a) (channels m)) with true by lia. reflexivity.
Qed.
Lemma set_output_invalid c a v : ~ valid_address c a -> set_output c a v = (c, Err AddressError).
Proof.
  intros H. unfold set_output. rewrite valid_addr_spec. unfold valid_address in H.
  destruct (nth_error (c_modules c) (a_module a)) as [m|]; [|reflexivity].
  destruct (Nat.ltb_spec (a_channel a) (channels m)); [|reflexivity]. exfalso. apply H. eauto.
Qed.

Lemma set_requested c a v b : valid_address c a ->
  requested (fst (set_output c a v)) b = if address_eqb a b then Some v else requested c b.
Proof.
  intros H. rewrite set_output_valid by exact H. unfold requested. cbn [fst c_write].
  apply (map_get_insert address_eqb address_eqb_spec).
Qed.

Lemma set_valid c a v b : valid_address (fst (set_output c a v)) b <-> valid_address c b.
Proof. unfold valid_address. destruct (set_static c a v) as (_ & _ & -> & _). reflexivity. Qed.

Lemma set_all_static reqs : forall c, inputs (set_all c reqs) = inputs c /\ outputs (set_all c reqs) = outputs c /\
  c_modules (set_all c reqs) = c_modules c /\ c_offsets (set_all c reqs) = c_offsets c /\
  (forall i, serial (set_all c reqs) i = serial c i).
Proof.
  induction reqs as [|(a & v) reqs IH]; intros c; cbn [set_all]; [auto 10|].
  destruct (IH (fst (set_output c a v))) as (H1 & H2 & H3 & H4 & H5).
  destruct (set_static c a v) as (S1 & S2 & S3 & S4 & S5 & _).
  rewrite H1, H2, H3, H4. repeat match goal with |- _ /\ _ => split end; auto.
  intros i. rewrite H5. unfold serial. rewrite S5. reflexivity.
Qed.

Lemma set_all_app r1 : forall c r2, set_all c (r1 ++ r2) = set_all (set_all c r1) r2.
Proof. induction r1 as [|(a & v) r1 IH]; intros c r2; [reflexivity|]. cbn [app set_all]. apply IH. Qed.

Lemma set_all_other reqs : forall c a, (forall v, ~ In (a, v) reqs) -> requested (set_all c reqs) a = requested c a.
Proof.
  induction reqs as [|(b & w) reqs IH]; intros c a H; cbn [set_all]; [reflexivity|].
  rewrite IH by (intros v Hv; apply (H v); right; exact Hv).
  destruct (valid_address_dec c b) as [Hb|Hb].
  - rewrite set_requested by exact Hb. destruct (address_eqb_spec b a) as [->|_]; [|reflexivity].
    exfalso. apply (H w). left. reflexivity.
  - rewrite set_output_invalid by exact Hb. reflexivity.
Qed.

Lemma set_all_valid reqs c a : valid_address (set_all c reqs) a <-> valid_address c a.
Proof. unfold valid_address. destruct (set_all_static reqs c) as (_ & _ & -> & _). reflexivity. Qed.

Lemma C37_all :
  (forall c a v,
     (valid_address c a -> snd (set_output c a v) = Ok tt) /\
     (~ valid_address c a -> set_output c a v = (c, Err AddressError))) /\
  (forall c a v c', set_output c a v = (c', Ok tt) ->
     inputs c' = inputs c /\ outputs c' = outputs c /\ c_modules c' = c_modules c /\
     c_offsets c' = c_offsets c /\ (forall i, serial c' i = serial c i) /\
     requested c' a = Some v /\ forall b, b <> a -> requested c' b = requested c b) /\
  (forall c reqs a, ~ valid_address c a -> requested (set_all c reqs) a = requested c a) /\
  (forall c reqs a last, latest reqs a last -> valid_address c a ->
     requested (set_all c reqs) a = match last with Some v => Some v | None => requested c a end) /\
  (forall c reqs, inputs (set_all c reqs) = inputs c /\ outputs (set_all c reqs) = outputs c /\
     forall i, serial (set_all c reqs) i = serial c i).
Proof.
  split; [|split; [|split; [|split]]].
  - intros c a v. split; intros H.
    + rewrite set_output_valid by exact H. reflexivity.
    + apply set_output_invalid. exact H.
  - intros c a v c' H. destruct (valid_address_dec c a) as [Hv|Hv].
    2:{ rewrite set_output_invalid in H by exact Hv. discriminate. }
    pose proof (set_static c a v) as (S1 & S2 & S3 & S4 & S5 & _).
    pose proof (fun b => set_requested c a v b Hv) as Hr. rewrite H in S1, S2, S3, S4, S5, Hr. cbn [fst] in *.
    split; [exact S1|]. split; [exact S2|]. split; [exact S3|]. split; [exact S4|].
    split; [intros i; unfold serial; rewrite S5; reflexivity|]. split.
    + rewrite Hr. destruct (address_eqb_spec a a); [reflexivity|congruence].
    + intros b Hb. rewrite Hr. destruct (address_eqb_spec a b); [congruence|reflexivity].
  - intros c reqs a Hv. revert c Hv. induction reqs as [|(b & w) reqs IH]; intros c Hv; [reflexivity|]. cbn [set_all].
    rewrite IH by (rewrite set_valid; exact Hv). destruct (valid_address_dec c b) as [Hb|Hb].
    + rewrite set_requested by exact Hb. destruct (address_eqb_spec b a) as [->|_]; [contradiction|reflexivity].
    + rewrite set_output_invalid by exact Hb. reflexivity.
  - intros c reqs a last H Hv. destruct H as [l a H|l1 l2 a v H].
    + apply set_all_other. exact H.
    + rewrite set_all_app. cbn [set_all]. rewrite set_all_other by exact H.
      rewrite set_requested by (rewrite set_all_valid; exact Hv).
      destruct (address_eqb_spec a a); [reflexivity|congruence].
  - intros c reqs. destruct (set_all_static reqs c) as (H1 & H2 & _ & _ & H3). auto.
Qed.

(** *** C38 and C54 *)

Lemma ok_cycle prof c input output c' image : coupler_ok c -> cycle prof c input output c' (Ok image) ->
  exists ins outs sent, process_input_data prof (infos c) input = Ok ins /\
     process_output_data prof (infos c) output = Ok outs /\
     process_output_values prof (infos c) sent = Ok image /\
     length sent = length (c_modules c) /\ length outs = length (c_modules c) /\
     (forall a, (length (c_modules c) <= a_module a)%nat -> requested c' a = requested c a) /\
     (forall i, (length (c_modules c) <= i)%nat -> serial c' i = serial c i) /\
     forall i m o, module_at c i m o -> exists iv ov,
      nth_error ins i = Some iv /\ nth_error outs i = Some ov /\
      input_row prof (m, o) input = Ok iv /\ output_row prof (m, o) output = Ok ov /\
      module_cycle prof c c' sent i m o iv ov.
Proof.
  intros Hok H. destruct (cycle_inv _ _ _ _ _ _ Hok H) as [(_ & _ & _ & _ & Hn)|[(ins & _ & _ & _ & _ & _ & Hn)|(ins & outs & sent & E1 & E2 & E3 & E4 & _ & _ & E5 & E6 & E7)]].
  - exfalso. exact (Hn image eq_refl).
  - exfalso. exact (Hn image eq_refl).
  - exists ins, outs, sent. repeat match goal with |- _ /\ _ => split end; auto.
    rewrite process_output_rows in E2. apply traverse_length in E2. rewrite E2. apply infos_length. exact Hok.
Qed.

Lemma C38_all : forall prof c input output c' image,
  reachable prof c -> cycle prof c input output c' (Ok image) ->
  exists readback sent,
    process_output_data prof (infos c) output = Ok readback /\
    process_output_values prof (infos c) sent = Ok image /\
    length sent = length (c_modules c) /\ length readback = length (c_modules c) /\
    forall i m, nth_error (c_modules c) i = Some m -> is_serial m = false ->
      exists old new, nth_error readback i = Some old /\ nth_error sent i = Some new /\
        length old = channels m /\ length new = channels m /\
        (forall j, (j < channels m)%nat ->
           nth_error new j = match requested c (mk_address i j) with
                             | Some v => Some v | None => nth_error old j end) /\
        forall j, requested c' (mk_address i j) = None.
Proof.
  intros prof c input output c' image Hr H. pose proof (reachable_ok _ _ Hr) as Hok.
  destruct (ok_cycle _ _ _ _ _ _ Hok H) as (ins & outs & sent & E1 & E2 & E3 & E4 & E4' & _ & _ & E5).
  exists outs, sent. split; [exact E2|]. split; [exact E3|]. split; [exact E4|]. split; [exact E4'|].
  intros i m Hm Hs. destruct (module_exists c i Hok (nth_error_Some_lt _ _ _ Hm)) as (m' & o & Hat).
  pose proof Hat as [Hm' _]. rewrite Hm in Hm'. apply Some_inj in Hm'. subst m'.
  destruct (E5 i m o Hat) as (iv & ov & Hiv & Hov & Hri & Hro & Hc). apply out_row_length in Hro. cbn [fst] in Hro.
  destruct Hc as [row S1 S2 S3 S4 S5 S6|l ch rin rout p0 p' rs last -> _ _ _ _ _ _ _|l ch -> _]; try discriminate.
  exists ov, row. repeat match goal with |- _ /\ _ => split end; auto; congruence.
Qed.

Lemma C54_all : forall prof c input output c' r,
  reachable prof c -> cycle prof c input output c' r ->
  forall ins outs, process_input_data prof (infos c) input = Ok ins ->
  process_output_data prof (infos c) output = Ok outs ->
  length (inputs c') = length (c_modules c) /\ length (outputs c') = length (c_modules c) /\
  forall i m o, module_at c i m o ->
    exists iv ov, nth_error ins i = Some iv /\ nth_error outs i = Some ov /\
      (is_serial m = false -> nth_error (inputs c') i = Some iv /\ nth_error (outputs c') i = Some ov) /\
      (is_serial m = true -> mo_input o <> None -> mo_output o <> None ->
         exists rin rout, iv = [ComRsIn rin] /\ ov = [ComRsOut rout] /\
           nth_error (inputs c') i =
             Some [if ri_data_available rin then match ri_data rin with [] => VNone | _ => Bytes (ri_data rin) end else VNone] /\
           exists shown, nth_error (outputs c') i = Some [shown] /\
             (shown = VNone \/ ro_data rout <> [] /\ shown = Bytes (ro_data rout))).
Proof.
  intros prof c input output c' r Hr H ins outs Ei Eo. pose proof (reachable_ok _ _ Hr) as Hok.
  destruct (cycle_inv _ _ _ _ _ _ Hok H) as [(_ & Hn & _)|[(ins' & _ & _ & Hn & _)|(ins' & outs' & sent & E1 & E2 & E3 & E4 & L1 & L2 & _ & _ & E7)]].
  - exfalso. exact (Hn _ Ei).
  - exfalso. exact (Hn _ Eo).
  - rewrite E1 in Ei. rewrite E2 in Eo. apply Ok_inj in Ei, Eo. subst ins' outs'.
    split; [exact L1|]. split; [exact L2|]. intros i m o Hat.
    destruct (E7 i m o Hat) as (iv & ov & Hiv & Hov & Hri & Hro & Hc). exists iv, ov.
    split; [exact Hiv|]. split; [exact Hov|].
    destruct Hc as [row S1 S2 S3 S4 S5 S6 S6' S7 S8|l ch rin rout p0 p' rs last -> -> -> G1 G2 G3 _ _ S1 S2 S3 S4 S5 S6 S7
                     |l ch -> S1 S2 S3 S4 S5 S6 S7].
    + split; [auto|congruence].
    + split; [discriminate|]. intros _ _ _. exists rin, rout. split; [reflexivity|]. split; [reflexivity|]. split.
      * rewrite S6. unfold shown_in. destruct (ri_data_available rin); [|reflexivity].
        destruct (ri_data rin); reflexivity.
      * exists (shown_out last rout). split; [exact S7|]. unfold shown_out.
        destruct (ro_data rout) as [|b t]; [left; reflexivity|].
        cbn [length Nat.eqb negb andb]. destruct (negb (ro_tx_cnt rout =? last)); [right; split; [discriminate|reflexivity]|left; reflexivity].
    + split; [discriminate|]. intros _ H1 H2. exfalso. destruct S1 as [[N _]|[N _]]; congruence.
Qed.

(** *** C43 *)

Lemma prepare_no_panic prof off base n data : is_u16 off -> 0 <= base < 65536 ->
  (prof = Release \/ base <= off / 16) -> no_panic (prepare_raw_data_to_process prof off base n data).
Proof.
  intros Ho Hb Hp. unfold prepare_raw_data_to_process. rewrite to_register_address_eq by exact Ho.
  assert (Hs : exists s, sub_u16 prof (off / 16) base = Ok s).
  { unfold sub_u16, arith. destruct (_ && _) eqn:E; [eauto|]. destruct Hp as [->|Hle]; [eauto|].
    unfold is_u16 in *. lia. }
  destruct Hs as (s & ->). cbn [bind]. fold (word_count n). cbv zeta.
  pose proof (word_count_pos n) as Hw.
  destruct (Nat.ltb_spec (length data) (Z.to_nat s + word_count n)) as [Hl|Hl]; [exact I|].
  unfold slice. replace (Nat.leb (Z.to_nat s) (Z.to_nat s + word_count n) && Nat.leb (Z.to_nat s + word_count n) (length data))
    with true by lia. cbn [bind].
  set (k := Z.to_nat (off mod 16)). do 8 (destruct k as [|k]; [exact I|]). destruct k as [|k]; [|exact I].
  unfold shift_data. rewrite u16_to_u8_bytes.
  destruct (firstn _ _) as [|w t] eqn:E; [|exact I].
  apply (f_equal (@length Z)) in E. rewrite firstn_length, skipn_length in E. cbn [length] in E. lia.
Qed.

Lemma complete_outputs m raw : complete m -> no_panic (mod_process_output_data m raw).
Proof.
  intros Hc. destruct (C52_partial_all Debug m raw [] (Forall_nil _)) as (_ & _ & H & _).
  apply not_panic. apply H; intros ch ->; cbn [complete] in Hc; lia.
Qed.

Lemma decode_inputs_no_panic prof c input : coupler_ok c -> no_panic (process_input_data prof (infos c) input).
Proof.
  intros Hok. rewrite process_input_rows. apply traverse_no_panic. intros (m & o) Hin.
  apply In_nth_error in Hin. destruct Hin as (i & Hi). pose proof Hi as Hat. apply infos_at in Hat.
  destruct (ok_off c Hok i m o Hat) as [O1 _]. unfold input_row. cbn [fst snd] in *.
  destruct (mo_input o) as [off|]; [|exact I]. apply bind_no_panic.
  - specialize (O1 off eq_refl). apply prepare_no_panic; [exact O1| |right]; unfold ADDR_PACKED_PROCESS_INPUT_DATA, is_u16 in *; lia.
  - intros raw _. apply input_no_panic.
Qed.

Definition high_outputs (c : coupler) : Prop :=
  forall i m o off, module_at c i m o -> mo_output o = Some off -> 0x8000 <= off.

Lemma decode_outputs_no_panic prof c output : coupler_ok c -> (prof = Release \/ high_outputs c) ->
  no_panic (process_output_data prof (infos c) output).
Proof.
  intros Hok Hp. rewrite process_output_rows. apply traverse_no_panic. intros (m & o) Hin.
  apply In_nth_error in Hin. destruct Hin as (i & Hi). pose proof Hi as Hat. apply infos_at in Hat.
  destruct (ok_off c Hok i m o Hat) as [_ O1]. unfold output_row. cbn [fst snd] in *.
  destruct (mo_output o) as [off|] eqn:Eo; [|exact I]. specialize (O1 off eq_refl). apply bind_no_panic.
  - apply prepare_no_panic; [exact O1|unfold ADDR_PACKED_PROCESS_OUTPUT_DATA; lia|].
    destruct Hp as [Hp|Hp]; [left; exact Hp|right]. specialize (Hp i m o off Hat Eo).
    unfold ADDR_PACKED_PROCESS_OUTPUT_DATA. lia.
  - intros raw _. apply complete_outputs. eapply ok_complete; eassumption.
Qed.

(** The rows that are encoded consist of values of Rust types. *)
Lemma sent_wire prof c c' sent input output ins outs : coupler_ok c -> Forall is_u16 output ->
  length sent = length (c_modules c) ->
  (forall i m o, module_at c i m o -> exists iv ov,
      nth_error ins i = Some iv /\ nth_error outs i = Some ov /\
      input_row prof (m, o) input = Ok iv /\ output_row prof (m, o) output = Ok ov /\
      module_cycle prof c c' sent i m o iv ov) ->
  Forall (Forall wire_value) sent.
Proof.
  intros Hok Hu Hl H. apply Forall_forall. intros row Hin. apply In_nth_error in Hin. destruct Hin as (i & Hi).
  assert (Hlt : (i < length (c_modules c))%nat). { rewrite <- Hl. eapply nth_error_Some_lt. exact Hi. }
  destruct (module_exists c i Hok Hlt) as (m & o & Hat).
  destruct (H i m o Hat) as (iv & ov & _ & _ & _ & Hro & Hc).
  destruct (ok_off c Hok i m o Hat) as [_ O1].
  pose proof (out_row_wire _ _ _ _ Hu O1 Hro) as Hw.
  destruct Hc as [row0 S1 S2 S3 S4 S5 S6 S6' S7 S8|l ch rin rout p0 p' rs last -> -> -> G1 G2 G3 _ _ S1 S2 S3 S4 S5 S6 S7
                     |l ch -> S1 S2 S3 S4 S5 S6 S7].
  - rewrite Hi in S2. apply Some_inj in S2. subst row0. apply Forall_forall. intros v Hv.
    apply In_nth_error in Hv. destruct Hv as (j & Hj). rewrite S4 in Hj.
    destruct (requested c (mk_address i j)) as [w|] eqn:E.
    + apply Some_inj in Hj. subst w. apply rust_wire. apply (ok_req c Hok _ _ E).
    + rewrite Forall_forall in Hw. apply Hw. eapply nth_error_In. exact Hj.
  - rewrite Hi in S4. apply Some_inj in S4. subst row. constructor; [|constructor]. cbn [wire_value].
    destruct G3 as [(C1 & C2 & _) C3]. unfold in_counters, is_usize, counter in *. split; [lia|exact C3].
  - rewrite Hi in S2. apply Some_inj in S2. subst ov. exact Hw.
Qed.

Lemma output_row_exists_nonzero prof m o output ov off : output_row prof (m, o) output = Ok ov ->
  mo_output o = Some off -> is_u16 off -> Forall is_u16 output -> output_bytes m <> 0%nat.
Proof.
  intros H Ho Hu Hd Hz. unfold output_row in H. cbn [fst snd] in H. rewrite Ho in H.
  apply bind_ok in H. destruct H as (raw & Hp & H). destruct (prepare_any _ _ _ _ _ _ Hu Hd Hp) as [Hl _].
  apply no_output_rejects in H; [|exact Hz]. subst raw. pose proof (word_count_pos (output_bytes m)).
  cbn [length] in Hl. lia.
Qed.

Lemma infos_off c : coupler_ok c -> forall i m o off, nth_error (infos c) i = Some (m, o) ->
  mo_output o = Some off -> is_u16 off.
Proof. intros Hok i m o off Hi Ho. apply infos_at in Hi. destruct (ok_off c Hok i m o Hi) as [_ H]. exact (H off Ho). Qed.

Lemma C43_partial_all : forall prof c input output c' r, reachable prof c ->
  (prof = Release \/ forall i m o off, module_at c i m o -> mo_output o = Some off -> 0x8000 <= off) ->
  cycle prof c input output c' r -> forall p, r <> Panic p.
Proof.
  intros prof c input output c' r Hr Hp H p Er. pose proof (reachable_ok _ _ Hr) as Hok.
  pose proof (decode_inputs_no_panic prof c input Hok) as Hni.
  pose proof (decode_outputs_no_panic prof c output Hok Hp) as Hno.
  assert (Huo : Forall is_u16 output) by apply H.
  destruct (cycle_inv _ _ _ _ _ _ Hok H) as [(_ & _ & _ & Hpn & _)|[(ins & _ & _ & _ & _ & Hpn & _)|(ins & outs & sent & E1 & E2 & E3 & E4 & _ & _ & _ & _ & E7)]].
  - apply Hpn in Er. rewrite Er in Hni. exact Hni.
  - apply Hpn in Er. rewrite Er in Hno. exact Hno.
  - rewrite E3 in Er. revert Er. apply C51_wire.
    + exact (infos_off c Hok).
    + intros i m o off Hi Ho _. pose proof (infos_off c Hok i m o off Hi Ho) as Hu. apply infos_at in Hi.
      destruct (E7 i m o Hi) as (iv & ov & _ & _ & _ & Hro & _).
      eapply output_row_exists_nonzero; eassumption.
    + eapply sent_wire; eassumption.
Qed.

(** *** C44 *)

Lemma C44_partial_all : forall prof c input output c' e, reachable prof c ->
  cycle prof c input output c' (Err e) ->
  c_modules c' = c_modules c /\ c_offsets c' = c_offsets c /\
  ((forall ins, process_input_data prof (infos c) input <> Ok ins) ->
     c' = c /\ process_input_data prof (infos c) input = Err e) /\
  (forall ins, process_input_data prof (infos c) input = Ok ins ->
   (forall outs, process_output_data prof (infos c) output <> Ok outs) ->
     process_output_data prof (infos c) output = Err e /\ inputs c' = ins /\
     outputs c' = outputs c /\ (forall a, requested c' a = requested c a) /\
     (forall i, serial c' i = serial c i)).
Proof.
  intros prof c input output c' e Hr H. pose proof (reachable_ok _ _ Hr) as Hok.
  destruct (cycle_static _ _ _ _ _ _ H) as [M1 M2]. split; [exact M1|]. split; [exact M2|].
  destruct (cycle_inv _ _ _ _ _ _ Hok H) as [(-> & Hn & He & _)|[(ins & Hi & -> & Hn & He & _)|(ins & outs & sent & E1 & E2 & _)]].
  - split; [intros _; split; [reflexivity|apply He; reflexivity]|]. intros ins Hi. exfalso. exact (Hn _ Hi).
  - split; [intros Hx; exfalso; exact (Hx _ Hi)|]. intros ins' Hi' _. rewrite Hi in Hi'. apply Ok_inj in Hi'. subst ins'.
    split; [apply He; reflexivity|]. repeat match goal with |- _ /\ _ => split end; reflexivity.
  - split; [intros Hx; exfalso; exact (Hx _ E1)|]. intros ins' _ Hx. exfalso. exact (Hx _ E2).
Qed.

(** *** C45 *)

Lemma value_to_u16_accepts v r f w : value_to_u16 v r f = Ok w -> v = Disabled \/ exists x, v = Decimal32 x.
Proof. destruct v; intros H; try discriminate; [right; eauto|left; reflexivity]. Qed.

Lemma encode_accepts prof m vs d v : Forall wire_value vs -> output_bytes m <> 0%nat -> is_serial m = false ->
  complete m -> mod_process_output_values prof m vs = Ok d -> In v vs -> can_output m v.
Proof.
  intros Hw Hz Hs Hc H Hin.
  assert (Hdig : forall n, digital_outputs m = Some n -> exists b, switches v = Some b).
  { intros n Hn. destruct (C14_all prof m n Hn) as (H1 & _).
    destruct (switches_dec vs) as [Es|Es].
    2:{ rewrite H1 in H by (right; exact Es). discriminate. }
    rewrite Forall_forall in Es. specialize (Es v Hin). destruct (switches v); [eauto|congruence]. }
  destruct m as [v0 ch|v0 ch| |ch|ch|ch|u ch|f ch|v0 f ch|f ch|u ch|ch|l ch| ]; cbn [output_bytes is_serial] in Hz, Hs;
    try congruence; cbn [can_output].
  - destruct v0; eapply Hdig; reflexivity.
  - eapply Hdig; reflexivity.
  - eapply Hdig; reflexivity.
  - cbn [mod_process_output_values] in H. unfold ao_process_output_values in H. destruct (negb _); [discriminate|].
    destruct (negb _); [discriminate|]. apply In_nth_error in Hin. destruct Hin as (i & Hi).
    assert (He : nth_error (enumerate vs) i = Some (i, v)).
    { rewrite (nth_error_enumerate vs i), Hi. reflexivity. }
    destruct (traverse_row_at _ _ _ _ _ H He) as (w & _ & Hw'). apply bind_ok in Hw'. destruct Hw' as (q & _ & Hw').
    eapply value_to_u16_accepts. exact Hw'.
  - cbn [mod_process_output_values] in H. unfold ao_diag_process_output_values in H. destruct (negb _); [discriminate|].
    destruct (negb _); [discriminate|]. apply In_nth_error in Hin. destruct Hin as (i & Hi).
    assert (He : nth_error (enumerate vs) i = Some (i, v)).
    { rewrite (nth_error_enumerate vs i), Hi. reflexivity. }
    destruct (traverse_row_at _ _ _ _ _ H He) as (w & _ & Hw'). apply bind_ok in Hw'. destruct Hw' as (q & _ & Hw').
    eapply value_to_u16_accepts. exact Hw'.
  - cbn [complete] in Hc. destruct (C23_all prof ch vs Hc (wire_presets _ Hw)) as (_ & H2 & H3 & _).
    destruct vs as [|v1 [|v2 [|v3 vs]]]; try (rewrite H3 in H by (left; discriminate); discriminate).
    destruct (preset v) as [a|] eqn:E1.
    2:{ rewrite H3 in H by (right; exists v; split; [exact Hin|exact E1]). discriminate. }
    exists a. split; [reflexivity|]. destruct (Z.leb_spec (nanoseconds (fo_duration a)) max_preset) as [Ma|Ma]; [exact Ma|].
    rewrite (H2 v a Hin E1 Ma) in H. discriminate.
Qed.

Lemma fed_queued p r : queued (fed p r) = queued p ++ match r with Some (Bytes b) => b | _ => [] end.
Proof.
  unfold fed. destruct r as [v|]; [destruct v|]; rewrite ?app_nil_r; try reflexivity. apply write_queued.
Qed.

Lemma next_queue prof p i o p' r : processor_next prof p i o = Ok (p', r) ->
  exists segs, (length segs <= 1)%nat /\ p_out_data p = segs ++ p_out_data p'.
Proof.
  intros H. destruct (any_stage p) as (k & Hk).
  destruct (next_cases _ _ _ _ _ _ _ Hk H) as (_ & _ & _ & _ & Lo & Hi).
  destruct (Nat.ltb_spec k 2) as [Hlt|Hge].
  - destruct (Lo Hlt) as (_ & _ & _ & _ & _ & E6 & _). exists []. rewrite E6. split; [cbn; lia|reflexivity].
  - destruct (Hi Hge) as (_ & _ & _ & [(Q3 & _)|(c & Q1 & _)] & _).
    + exists []. rewrite Q3. split; [cbn; lia|reflexivity].
    + exists [c]. rewrite Q1. split; [cbn; lia|reflexivity].
Qed.

Lemma C45_partial_all : forall prof c input output c' r,
  reachable prof c -> cycle prof c input output c' r ->
  (forall i m o j v, module_at c i m o -> is_serial m = false -> mo_output o <> None ->
     requested c (mk_address i j) = Some v -> ~ can_output m v -> forall image, r <> Ok image) /\
  (forall ins outs, process_input_data prof (infos c) input = Ok ins ->
     process_output_data prof (infos c) output = Ok outs ->
     (forall i m j, nth_error (c_modules c) i = Some m -> is_serial m = false ->
        requested c' (mk_address i j) = None) /\
     (forall i p, serial c i = Some p -> exists p', serial c' i = Some p' /\
        exists written sent, queued p ++ written = sent ++ queued p' /\
          (length sent <= payload_size (p_process_data_len p))%nat /\
          (written = [] \/ requested c (mk_address i 0) = Some (Bytes written)))).
Proof.
  intros prof c input output c' r Hr H. pose proof (reachable_ok _ _ Hr) as Hok.
  assert (Huo : Forall is_u16 output) by apply H. split.
  - intros i m o j v Hat Hs Ho Hreq Hna image ->.
    destruct (ok_cycle _ _ _ _ _ _ Hok H) as (ins & outs & sent & E1 & E2 & E3 & E4 & E4' & _ & _ & E5).
    pose proof (sent_wire _ _ _ _ _ _ _ _ Hok Huo E4 E5) as Hw.
    destruct (E5 i m o Hat) as (iv & ov & Hiv & Hov & Hri & Hro & Hc).
    destruct Hc as [row S1 S2 S3 S4 S5 S6|l ch rin rout p0 p' rs last -> _ _ _ _ _ _ _|l ch -> _]; try discriminate.
    assert (Hoffs : Forall (fun mo => off_ok (snd mo)) (infos c)).
    { apply Forall_forall. intros (m1 & o1) Hin. apply In_nth_error in Hin. destruct Hin as (k & Hk).
      intros off Hoff. eapply infos_off; eassumption. }
    destruct (process_lays _ _ _ _ Hoffs E3) as (_ & ps & _ & _ & Hps).
    destruct (Hps i m o) as (d & _ & _ & Hd). { apply infos_at. exact Hat. }
    destruct (Hd Ho) as (vs & Hvs & He). rewrite S2 in Hvs. apply Some_inj in Hvs. subst vs.
    apply Hna. destruct (mo_output o) as [off|] eqn:Eo; [|congruence].
    eapply encode_accepts; [| | | |exact He|].
    + rewrite Forall_forall in Hw. apply Hw. eapply nth_error_In. exact S2.
    + eapply output_row_exists_nonzero; [exact Hro|exact Eo| |exact Huo]. destruct (ok_off c Hok i m o Hat) as [_ O1]. apply O1. exact Eo.
    + exact Hs.
    + destruct Hat as [Hm _]. eapply complete_at; eassumption.
    + apply (nth_error_In _ j). rewrite S4, Hreq. reflexivity.
  - intros ins outs Ei Eo.
    destruct (cycle_inv _ _ _ _ _ _ Hok H) as [(_ & Hn & _)|[(ins' & _ & _ & Hn & _)|(ins' & outs' & sent & E1 & E2 & E3 & E4 & L1 & L2 & _ & _ & E7)]].
    + exfalso. exact (Hn _ Ei).
    + exfalso. exact (Hn _ Eo).
    + split.
      * intros i m j Hm Hs. destruct (module_exists c i Hok (nth_error_Some_lt _ _ _ Hm)) as (m' & o & Hat).
        pose proof Hat as [Hm' _]. rewrite Hm in Hm'. apply Some_inj in Hm'. subst m'.
        destruct (E7 i m o Hat) as (iv & ov & _ & _ & _ & _ & Hc).
        destruct Hc as [row S1 S2 S3 S4 S5 S6|l ch rin rout p0 p' rs last -> _ _ _ _ _ _ _|l ch -> _]; try discriminate. apply S5.
      * intros i p Hp. destruct (ok_proc c Hok i p Hp) as (l & ch & Hm & Hpo).
        destruct (module_exists c i Hok (nth_error_Some_lt _ _ _ Hm)) as (m' & o & Hat).
        pose proof Hat as [Hm' _]. rewrite Hm in Hm'. apply Some_inj in Hm'. subst m'.
        destruct (E7 i _ o Hat) as (iv & ov & _ & _ & _ & _ & Hc).
        destruct Hc as [row S1 S2 S3 S4 S5 S6 S6' S7 S8|l' ch' rin rout p0 p' rs last Em -> -> G1 G2 G3 _ _ S1 S2 S3 S4 S5 S6 S7
                     |l' ch' Em S1 S2 S3 S4 S5 S6 S7].
        -- discriminate.
        -- rewrite Hp in S1. apply Some_inj in S1. subst p0. exists p'. split; [exact S3|].
           destruct (next_queue _ _ _ _ _ _ S2) as (segs & Hl & Hq).
           pose proof (fed_ok l p (requested c (mk_address i 0)) Hpo (fun v Hv => proj1 (ok_req c Hok _ _ Hv))) as (F1 & F2 & _).
           pose proof (fed_queued p (requested c (mk_address i 0))) as Hf.
           exists (match requested c (mk_address i 0) with Some (Bytes b) => b | _ => [] end), (concat segs).
           rewrite <- Hf. unfold queued at 1. rewrite Hq, concat_app. split; [reflexivity|]. split.
           ++ destruct Hpo as (-> & _). rewrite Hq in F2. destruct segs as [|s [|s2 segs]]; cbn [concat length] in *; [lia| |lia].
              inversion F2 as [|? ? [F3 _] _]; subst. rewrite app_nil_r. exact F3.
           ++ destruct (requested c (mk_address i 0)) as [v|]; [destruct v|]; auto.
        -- exists p. split; [congruence|]. exists [], []. rewrite app_nil_r. split; [reflexivity|]. split; [cbn; lia|auto].
Qed.

(** *** C46 *)

Lemma C46_partial_all : forall prof c a v c1 input output c2 image,
  reachable prof c -> rust_value v -> set_output c a v = (c1, Ok tt) ->
  cycle prof c1 input output c2 (Ok image) ->
  exists m o, module_at c (a_module a) m o /\
    (is_serial m = false -> forall off, mo_output o = Some off ->
       can_output m v /\
       exists row d, nth_error row (a_channel a) = Some v /\ mod_process_output_values prof m row = Ok d /\
         ((off mod 16 = 0 \/ output_bytes m = 1%nat) ->
          (forall j m' o' off', (a_module a < j)%nat -> module_at c j m' o' -> mo_output o' = Some off' ->
             ~ (first_byte 0x0800 off <= first_byte 0x0800 off' < first_byte 0x0800 off + output_bytes m)%nat) ->
          image_bytes image (first_byte 0x0800 off) (output_bytes m) = firstn (output_bytes m) (bytes_of_words d))) /\
    (forall b, is_serial m = true -> mo_input o <> None -> mo_output o <> None -> v = Bytes b ->
       exists p p' sent, serial c (a_module a) = Some p /\ serial c2 (a_module a) = Some p' /\
         queued p ++ b = sent ++ queued p' /\ requested c2 a = None).
Proof.
  intros prof c a v c1 input output c2 image Hr Hv Hset H.
  destruct (valid_address_dec c a) as [Hva|Hva].
  2:{ rewrite set_output_invalid in Hset by exact Hva. discriminate. }
  pose proof (reachable_ok _ _ Hr) as Hok0.
  assert (Hr1 : reachable prof c1). { replace c1 with (fst (set_output c a v)) by (rewrite Hset; reflexivity). apply R_set; assumption. }
  pose proof (reachable_ok _ _ Hr1) as Hok.
  pose proof (set_static c a v) as (_ & _ & M1 & M2 & M3 & _). rewrite Hset in M1, M2, M3. cbn [fst] in M1, M2, M3.
  pose proof (set_requested c a v a Hva) as Hreq. rewrite Hset in Hreq. cbn [fst] in Hreq.
  destruct (address_eqb_spec a a) as [_|]; [|congruence].
  destruct Hva as (m & Hm & Hch).
  destruct (module_exists c _ Hok0 (nth_error_Some_lt _ _ _ Hm)) as (m' & o & Hat).
  pose proof Hat as [Hm' _]. rewrite Hm in Hm'. apply Some_inj in Hm'. subst m'.
  exists m, o. split; [exact Hat|].
  assert (Hat1 : forall i m' o', module_at c1 i m' o' <-> module_at c i m' o').
  { intros. unfold module_at. rewrite M1, M2. reflexivity. }
  assert (Huo : Forall is_u16 output) by apply H.
  destruct (ok_cycle _ _ _ _ _ _ Hok H) as (ins & outs & sent & E1 & E2 & E3 & E4 & E4' & _ & _ & E5).
  pose proof (sent_wire _ _ _ _ _ _ _ _ Hok Huo E4 E5) as Hw.
  destruct (E5 (a_module a) m o) as (iv & ov & Hiv & Hov & Hri & Hro & Hc). { apply Hat1. exact Hat. }
  split.
  - intros Hs off Eo. split.
    { destruct Hc as [row S1 S2 S3 S4 S5 S6|l ch rin rout p0 p' rs last -> _ _ _ _ _ _ _|l ch -> _]; try discriminate.
      assert (Hoffs : Forall (fun mo => off_ok (snd mo)) (infos c1)).
      { apply Forall_forall. intros (m1 & o1) Hin. apply In_nth_error in Hin. destruct Hin as (k & Hk).
        intros off1 Hoff1. eapply (infos_off c1 Hok); eassumption. }
      destruct (process_lays _ _ _ _ Hoffs E3) as (_ & ps & _ & _ & Hps).
      destruct (Hps (a_module a) m o) as (d & _ & _ & Hd). { apply infos_at, Hat1. exact Hat. }
      destruct Hd as (vs & Hvs & He); [congruence|]. rewrite S2 in Hvs. apply Some_inj in Hvs. subst vs.
      eapply encode_accepts; [| | | |exact He|].
      + rewrite Forall_forall in Hw. apply Hw. eapply nth_error_In. exact S2.
      + eapply output_row_exists_nonzero; [exact Hro|exact Eo| |exact Huo].
        destruct (ok_off c Hok0 _ m o Hat) as [_ O1]. apply O1. exact Eo.
      + exact Hs.
      + exact (complete_at c _ m Hok0 Hm).
      + apply (nth_error_In _ (a_channel a)). rewrite S4.
        replace (mk_address (a_module a) (a_channel a)) with a by (destruct a; reflexivity). rewrite Hreq. reflexivity. }
    destruct Hc as [row S1 S2 S3 S4 S5 S6|l ch rin rout p0 p' rs last -> _ _ _ _ _ _ _|l ch -> _]; try discriminate.
    assert (Hoffs : Forall (fun mo => off_ok (snd mo)) (infos c1)).
    { apply Forall_forall. intros (m1 & o1) Hin. apply In_nth_error in Hin. destruct Hin as (k & Hk).
      intros off1 Hoff1. eapply (infos_off c1 Hok); eassumption. }
    destruct (process_lays _ _ _ _ Hoffs E3) as (_ & ps & _ & _ & Hps).
    destruct (Hps (a_module a) m o) as (d & _ & _ & Hd). { apply infos_at, Hat1. exact Hat. }
    destruct Hd as (vs & Hvs & He); [congruence|]. rewrite S2 in Hvs. apply Some_inj in Hvs. subst vs.
    exists row, d. split.
    { rewrite S4. replace (mk_address (a_module a) (a_channel a)) with a by (destruct a; reflexivity). rewrite Hreq. reflexivity. }
    split; [exact He|]. intros Hb Hov'.
    destruct (C42_enc_wire prof (infos c1) sent image (a_module a) m o off (infos_off c1 Hok) Hw E3) as (vs & d' & Hvs & He' & Himg); auto.
    { apply infos_at, Hat1. exact Hat. }
    { intros j m1 o1 off1 Hj Hj1. apply (Hov' j m1 o1 off1 Hj). apply Hat1, infos_at. exact Hj1. }
    rewrite S2 in Hvs. apply Some_inj in Hvs. subst vs. rewrite He in He'. apply Ok_inj in He'. subst d'. exact Himg.
  - intros b Hs Hni Hno ->.
    destruct Hc as [row S1 S2 S3 S4 S5 S6|l ch rin rout p0 p' rs last -> -> -> G1 G2 G3 _ _ S1 S2 S3 S4 S5 S6 S7
                     |l ch -> S1 S2 S3 S4 S5 S6 S7].
    + congruence.
    + destruct (next_queue _ _ _ _ _ _ S2) as (segs & _ & Hq).
      pose proof (fed_queued p0 (requested c1 (mk_address (a_module a) 0))) as Hf.
      unfold channels in Hch. cbn [mod_type channel_count] in Hch.
      assert (Ea : mk_address (a_module a) 0 = a). { destruct a as [am ac]. cbn [a_module a_channel] in *. f_equal. lia. }
      rewrite Ea, Hreq in Hf. rewrite Ea, Hreq in Hq.
      exists p0, p', (concat segs). split; [unfold serial in *; rewrite M3 in S1; exact S1|]. split; [exact S3|].
      split; [|rewrite <- Ea; apply S5]. rewrite <- Hf. unfold queued at 1. rewrite Hq. apply concat_app.
    + exfalso. destruct S1 as [[N _]|[N _]]; congruence.
Qed.
