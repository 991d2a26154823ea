(** Proofs for C107 and C108: serial dialogues over a connection that delays and loses messages. *)
From Coq Require Import ZArith List Bool Lia ZifyBool ZifyNat.
From Verif Require Import Base Facts F32 Types Lib Util Com Fbc SpecCodec ProofsSerialCodec SpecSerial SpecCoupler SpecImage
  SpecSystem SpecFault SpecDelay ProofsSerial ProofsModule ProofsImage ProofsLayout ProofsLoop ProofsCycle ProofsCoupler
  ProofsNew ProofsOrder ProofsSerialSystem ProofsSystem ProofsPlant.
Import ListNotations.
Local Open Scope Z_scope.
Ltac Zify.zify_post_hook ::= Z.div_mod_to_equations.

(** *** Lists that switch once from one value to another *)

Definition phases {A} (o n : A) (l : list A) : Prop :=
  exists a b, l = a ++ b /\ Forall (eq o) a /\ Forall (eq n) b.

Lemma subsequence_forall {A} (P : A -> Prop) l' l : subsequence l' l -> Forall P l -> Forall P l'.
Proof. induction 1; intros Hf; inversion Hf; subst; auto. Qed.

Lemma phases_new {A} (o n : A) l : Forall (eq n) l -> phases o n l.
Proof. intros H. exists [], l. auto. Qed.

Lemma phases_old {A} (o n : A) l : Forall (eq o) l -> phases o n l.
Proof. intros H. exists l, []. rewrite app_nil_r. auto. Qed.

Lemma phases_cons {A} (o n : A) x l : phases o n (x :: l) <-> (x = o /\ phases o n l) \/ (x = n /\ Forall (eq n) l).
Proof.
  split.
  - intros (a & b & E & Ha & Hb). destruct a as [|y a]; cbn [app] in E.
    + subst b. inversion Hb; subst. auto.
    + inversion E; subst. inversion Ha; subst. left. split; [reflexivity|]. exists a, b. auto.
  - intros [(-> & a & b & -> & Ha & Hb)|(-> & H)].
    + exists (o :: a), b. auto.
    + apply phases_new. auto.
Qed.

Lemma phases_sub {A} (o n : A) l' l : subsequence l' l -> phases o n l -> phases o n l'.
Proof.
  induction 1 as [|x a b H IH|x a b H IH]; intros Hp; [exact Hp| |].
  - apply phases_cons in Hp. apply phases_cons. destruct Hp as [(E & Hp)|(E & Hp)]; [auto|].
    right. split; [exact E|]. eapply subsequence_forall; eassumption.
  - apply phases_cons in Hp. destruct Hp as [(E & Hp)|(E & Hp)]; [auto|].
    apply phases_new. eapply subsequence_forall; eassumption.
Qed.

Lemma phases_dup {A} (o n : A) a x b : phases o n (a ++ x :: b) -> phases o n (a ++ x :: x :: b).
Proof.
  induction a as [|y a IH]; cbn [app]; intros H; apply phases_cons in H; apply phases_cons.
  - destruct H as [(E & H)|(E & H)]; [left; split; [exact E|]; apply phases_cons; auto|right; auto].
  - destruct H as [(E & H)|(E & H)]; [left; auto|]. right. split; [exact E|].
    apply Forall_app in H. destruct H as [H1 H2]. inversion H2; subst. apply Forall_app. auto.
Qed.

Lemma phases_snoc {A} (o n : A) l : phases o n l -> phases o n (l ++ [n]).
Proof.
  intros (a & b & -> & Ha & Hb). exists a, (b ++ [n]). rewrite app_assoc. split; [reflexivity|]. split; [exact Ha|].
  apply Forall_app. auto.
Qed.

Lemma phases_in {A} (o n : A) l x : phases o n l -> In x l -> x = o \/ x = n.
Proof.
  intros (a & b & -> & Ha & Hb) Hx. rewrite Forall_forall in Ha, Hb. apply in_app_or in Hx.
  destruct Hx as [Hx|Hx]; [left; symmetry; auto|right; symmetry; auto].
Qed.

Lemma phases_after {A} (o n : A) a b : o <> n -> phases o n (a ++ n :: b) -> Forall (eq n) b.
Proof.
  intros Hne. induction a as [|y a IH]; cbn [app]; intros H; apply phases_cons in H.
  - destruct H as [(E & H)|(E & H)]; [congruence|exact H].
  - destruct H as [(E & H)|(E & H)]; [auto|]. apply Forall_app in H. destruct H as [_ H]. inversion H; subst. assumption.
Qed.

Lemma phases_before {A} (o n : A) a b : o <> n -> phases o n (a ++ o :: b) -> Forall (eq o) a.
Proof.
  intros Hne. induction a as [|y a IH]; cbn [app]; intros H; [constructor|]. apply phases_cons in H.
  destruct H as [(E & H)|(E & H)]; [subst; auto|]. exfalso. apply Forall_app in H. destruct H as [_ H].
  inversion H; congruence.
Qed.

Lemma sub_refl {A} (l : list A) : subsequence l l.
Proof. induction l; constructor; assumption. Qed.

Lemma sub_nil {A} (l : list A) : subsequence [] l.
Proof. induction l; constructor; assumption. Qed.

Lemma sub_app {A} (a a' b b' : list A) : subsequence a a' -> subsequence b b' -> subsequence (a ++ b) (a' ++ b').
Proof. induction 1; cbn [app]; intros; [assumption|constructor; auto|constructor; auto]. Qed.

Lemma sub_one {A} (a b : list A) x : subsequence (a ++ b) (a ++ x :: b).
Proof. apply sub_app; [apply sub_refl|]. constructor. apply sub_refl. Qed.

(** *** The message processor, its module and the messages between them *)

Record dsys : Set := mk_dsys { y_sys : system; y_in : list rs_in; y_out : list rs_out }.

Definition with_lat (s : system) (x : rs_in) : system :=
  mk_system (s_proc s) x (s_image s) (s_register s) (s_device s)
    (s_written s) (s_taken s) (s_offered s) (s_delivered s) (s_cycles s).
Definition with_reg (s : system) (x : rs_out) : system :=
  mk_system (s_proc s) (s_latch s) (s_image s) x (s_device s)
    (s_written s) (s_taken s) (s_offered s) (s_delivered s) (s_cycles s).

Definition local_event (e : event) : Prop := match e with HostRead | HostWrite => False | _ => True end.

Inductive devent : Set := VLocal (e : event) | VRequest | VReceive | VSubmit | VApply | VLoseIn | VLoseOut.

Inductive dstep (prof : profile) : dsys -> devent -> dsys -> Prop :=
| V_local s e s' qi qo : local_event e -> happen prof s e = Ok s' -> dstep prof (mk_dsys s qi qo) (VLocal e) (mk_dsys s' qi qo)
| V_request s qi qo : dstep prof (mk_dsys s qi qo) VRequest (mk_dsys s (qi ++ [s_device s]) qo)
| V_receive s x qi qo : dstep prof (mk_dsys s (x :: qi) qo) VReceive (mk_dsys (with_lat s x) qi qo)
| V_submit s qi qo : dstep prof (mk_dsys s qi qo) VSubmit (mk_dsys s qi (qo ++ [s_image s]))
| V_apply s x qi qo : dstep prof (mk_dsys s qi (x :: qo)) VApply (mk_dsys (with_reg s x) qi qo)
| V_lose_in s a x b qo : dstep prof (mk_dsys s (a ++ x :: b) qo) VLoseIn (mk_dsys s (a ++ b) qo)
| V_lose_out s qi a x b : dstep prof (mk_dsys s qi (a ++ x :: b)) VLoseOut (mk_dsys s qi (a ++ b)).

Inductive druns (prof : profile) : dsys -> list devent -> dsys -> Prop :=
| VR_nil y : druns prof y [] y
| VR_cons y e y1 es y2 : dstep prof y e y1 -> druns prof y1 es y2 -> druns prof y (e :: es) y2.

Lemma druns_app prof es1 : forall y y1 es2 y2, druns prof y es1 y1 -> druns prof y1 es2 y2 -> druns prof y (es1 ++ es2) y2.
Proof. induction es1; intros y y1 es2 y2 H1 H2; inversion H1; subst; [exact H2|]. econstructor; eauto. Qed.

(** *** Transmission *)

Definition prev4 (z : Z) : Z := (z + 3) mod 4.

Lemma prev4_ne z : prev4 z <> z.
Proof. unfold prev4. lia. Qed.

Lemma succ_prev z : counter z -> succ4 (prev4 z) = z.
Proof. unfold counter, succ4, prev4. lia. Qed.

Lemma prev_succ z : counter z -> prev4 (succ4 z) = z.
Proof. unfold counter, succ4, prev4. lia. Qed.

Definition acks (qi : list rs_in) : list Z := map ri_tx_cnt_ack qi.
Definition txs (qo : list rs_out) : list Z := map ro_tx_cnt qo.

(** All transmit counters, from the one that is known last to be outdated to the newest. *)
Definition chain (s : system) (qi : list rs_in) (qo : list rs_out) : list Z :=
  (lat s :: acks qi) ++ ack s :: (reg s :: txs qo).

Record inv_dtx (l : process_data_length) (y : dsys) : Prop := mk_inv_dtx {
  dt_inv : inv_tx l (y_sys y);
  dt_chain : phases (prev4 (tx (y_sys y))) (tx (y_sys y)) (chain (y_sys y) (y_in y) (y_out y));
  dt_data : lat (y_sys y) <> tx (y_sys y) -> forall o, In o (s_register (y_sys y) :: y_out y) ->
    ro_tx_cnt o = tx (y_sys y) -> ro_data o = ro_data (s_image (y_sys y));
  dt_init : (s_cycles (y_sys y) < 2)%nat -> Forall (eq (tx (y_sys y))) (chain (y_sys y) (y_in y) (y_out y)) }.

(** The input image that says how far the module is now has at most [n] others before it; likewise the output image
    that carries the newest segment. *)
Definition p1 (n : nat) (y : dsys) : Prop :=
  exists u v, lat (y_sys y) :: acks (y_in y) = u ++ v /\ (length u <= n)%nat /\ v <> [] /\ Forall (eq (ack (y_sys y))) v.
Definition p2 (y : dsys) : Prop := st2 (y_sys y).
Definition p3 (n : nat) (y : dsys) : Prop :=
  st2 (y_sys y) /\
  exists u v, reg (y_sys y) :: txs (y_out y) = u ++ v /\ (length u <= n)%nat /\ v <> [] /\ Forall (eq (tx (y_sys y))) v.

Definition is_loss (e : devent) : bool := match e with VLoseIn | VLoseOut => true | _ => false end.
Definition receives (e : devent) : nat := match e with VReceive => 1 | _ => 0 end.
Definition applies (e : devent) : nat := match e with VApply => 1 | _ => 0 end.

Record dstep_tx (l : process_data_length) (e : devent) (y y' : dsys) (popped new : list (list Z)) : Prop := mk_dstep_tx {
  dx_inv : inv_dtx l y';
  dx_queue : untaken (y_sys y) ++ new = popped ++ untaken (y_sys y');
  dx_written : s_written (y_sys y') = s_written (y_sys y) ++ concat new;
  dx_taken : s_taken (y_sys y') = s_taken (y_sys y) ++ concat popped;
  dx_cycles : (s_cycles (y_sys y) <= s_cycles (y_sys y'))%nat;
  dx_p1 : forall n, popped = [] -> (n = 0%nat \/ is_loss e = false) -> p1 n y -> p1 (n - receives e) y';
  dx_p2 : popped = [] -> p2 y -> p2 y';
  dx_p3 : forall n, popped = [] -> (n = 0%nat \/ is_loss e = false) -> p3 n y -> p3 (n - applies e) y';
  dx_request : e = VRequest -> p1 (S (length (y_in y))) y';
  dx_cycle : e = VLocal HostCycle -> (2 <= s_cycles (y_sys y))%nat -> p1 0 y -> untaken (y_sys y) <> [] -> p2 y';
  dx_submit : e = VSubmit -> p2 y -> p3 (S (length (y_out y))) y';
  dx_take : e = VLocal DevTake -> p3 0 y -> popped <> [] }.

Lemma p1_zero y : p1 0 y -> lat (y_sys y) = ack (y_sys y).
Proof.
  intros (u & v & E & L & Hv & Hf). destruct u; cbn [length] in L; [|lia]. cbn [app] in E. subst v.
  inversion Hf; subst. congruence.
Qed.

Lemma p3_zero y : p3 0 y -> st3 (y_sys y).
Proof.
  intros (H & u & v & E & L & Hv & Hf). destruct u; cbn [length] in L; [|lia]. cbn [app] in E. subst v.
  inversion Hf; subst. unfold st2, st3 in *. auto.
Qed.

(** A queue from which the first element is removed, or any one. *)
Lemma behind_first {A} (x : A) (P : A -> Prop) l n :
  (exists u v, x :: l = u ++ v /\ (length u <= n)%nat /\ v <> [] /\ Forall P v) -> l <> [] ->
  exists u v, l = u ++ v /\ (length u <= n - 1)%nat /\ v <> [] /\ Forall P v.
Proof.
  intros (u & v & E & L & Hv & Hf) Hl. destruct u as [|y u]; cbn [app] in E.
  - subst v. inversion Hf; subst. exists [], l. cbn [length app]. split; [reflexivity|]. split; [lia|]. auto.
  - inversion E; subst. exists u, v. cbn [length] in L. split; [reflexivity|]. split; [lia|]. auto.
Qed.

Lemma behind_none {A} (P : A -> Prop) x l l' : subsequence l' l ->
  (exists u v, x :: l = u ++ v /\ (length u <= 0)%nat /\ v <> [] /\ Forall P v) ->
  exists u v, x :: l' = u ++ v /\ (length u <= 0)%nat /\ v <> [] /\ Forall P v.
Proof.
  intros Hs (u & v & E & L & Hv & Hf). destruct u; cbn [length] in L; [|lia]. cbn [app] in E. subst v.
  exists [], (x :: l'). cbn [length app]. split; [reflexivity|]. split; [lia|]. split; [discriminate|].
  inversion Hf; subst. constructor; [assumption|]. eapply subsequence_forall; eassumption.
Qed.

Lemma behind_snoc {A} (P : A -> Prop) l n x : P x ->
  (exists u v, l = u ++ v /\ (length u <= n)%nat /\ v <> [] /\ Forall P v) ->
  exists u v, l ++ [x] = u ++ v /\ (length u <= n)%nat /\ v <> [] /\ Forall P v.
Proof.
  intros Hx (u & v & -> & L & Hv & Hf). exists u, (v ++ [x]). rewrite app_assoc. split; [reflexivity|]. split; [exact L|].
  split; [destruct v; discriminate|]. apply Forall_app. auto.
Qed.

Lemma behind_last {A} (P : A -> Prop) l x : P x ->
  exists u v, l ++ [x] = u ++ v /\ (length u <= length l)%nat /\ v <> [] /\ Forall P v.
Proof. intros Hx. exists l, [x]. split; [reflexivity|]. split; [lia|]. split; [discriminate|]. auto. Qed.

(** What the invariant of the chain says about the two ends. *)
Lemma chain_state o n s : o <> n -> forall qi qo, phases o n (chain s qi qo) ->
  (lat s = n /\ ack s = n /\ reg s = n /\ Forall (eq n) (chain s qi qo)) \/
  (lat s = o /\ ((ack s = o /\ (reg s = o \/ reg s = n)) \/ (ack s = n /\ reg s = n))).
Proof.
  intros Hne qi qo H. pose proof H as H0. unfold chain in H. cbn [app] in H. apply phases_cons in H.
  destruct H as [(E & H)|(E & H)].
  - right. split; [exact E|]. apply (phases_sub _ _ (ack s :: [reg s])) in H.
    + apply phases_cons in H. destruct H as [(E1 & H)|(E1 & H)].
      * left. split; [exact E1|]. apply (phases_in _ _ _ (reg s)) in H; [auto|left; reflexivity].
      * right. inversion H; subst. auto.
    + replace (ack s :: [reg s]) with ([] ++ ack s :: [reg s]) by reflexivity. apply sub_app.
      * apply sub_nil.
      * apply Sub_keep, Sub_keep, sub_nil.
  - left. split; [exact E|]. pose proof H as H1. apply Forall_app in H. destruct H as [_ H].
    inversion H as [|? ? E1 H' Ea]. inversion H' as [|? ? E2 H'' Eb]. split; [congruence|]. split; [congruence|].
    unfold chain. cbn [app]. constructor; [congruence|assumption].
Qed.

Lemma inv_tx_intro l s qi qo : p_process_data_len (s_proc s) = l -> p_init_state (s_proc s) = stage (s_cycles s) ->
  counter (tx s) -> phases (prev4 (tx s)) (tx s) (chain s qi qo) ->
  (lat s <> tx s -> ro_tx_cnt (s_register s) = tx s -> ro_data (s_register s) = ro_data (s_image s)) ->
  ((s_cycles s < 2)%nat -> Forall (eq (tx s)) (chain s qi qo)) ->
  s_written s = s_taken s ++ concat (untaken s) -> inv_tx l s.
Proof.
  intros H1 H2 H3 H4 H5 H6 H7.
  assert (Hc : forall z, In z (chain s qi qo) -> counter z).
  { intros z Hz. destruct (phases_in _ _ _ _ H4 Hz) as [->| ->]; [|exact H3]. unfold counter, prev4. lia. }
  assert (Hst : idle s \/ busy s).
  { destruct (chain_state _ _ s (prev4_ne _) qi qo H4) as [(E1 & E2 & E3 & _)|(E1 & E2)].
    - left. unfold idle. auto.
    - right. unfold busy. rewrite E1. split; [apply succ_prev; exact H3|].
      pose proof (prev4_ne (tx s)) as Hne. destruct E2 as [(E2 & [E3|E3])|(E2 & E3)].
      + left. auto.
      + right. split; [exact E3|]. split; [apply H5; [congruence|exact E3]|auto].
      + right. split; [exact E3|]. split; [apply H5; [congruence|exact E3]|auto]. }
  constructor; auto.
  - apply Hc. unfold chain. apply in_or_app. right. left. reflexivity.
  - apply Hc. left. reflexivity.
  - intros Hlt. specialize (H6 Hlt). unfold chain in H6. apply Forall_app in H6. destruct H6 as [H6 H6'].
    inversion H6; subst. inversion H6' as [|? ? ? H6'']; subst. inversion H6''; subst. unfold idle. auto.
Qed.

Lemma sub_map {A B} (f : A -> B) a b : subsequence a b -> subsequence (map f a) (map f b).
Proof. induction 1; cbn [map]; constructor; assumption. Qed.

Ltac yfields := cbn [y_sys y_in y_out] in *.

(** A cycle changes the transmit counter only when everybody knows it. *)
Lemma cycle_tx prof l s s' : inv_tx l s -> happen prof s HostCycle = Ok s' ->
  lat s' = lat s /\ ack s' = ack s /\ reg s' = reg s /\ s_register s' = s_register s /\
  ((tx s' = tx s /\ (ro_data (s_image s') = ro_data (s_image s) \/ (s_cycles s < 2)%nat)) \/
   (tx s' = succ4 (lat s) /\ tx s' <> tx s /\ (2 <= s_cycles s)%nat)).
Proof.
  intros Hi H. cbn [happen] in H. apply bind_ok in H. destruct H as ((p & r) & H & E). apply Ok_inj in E. subst s'.
  unfold lat, ack, reg, tx. sfields. do 4 (split; [reflexivity|]).
  destruct (next_cases prof (s_proc s) (s_latch s) (s_image s) p r (s_cycles s) (it_stage _ _ Hi) H) as (_ & _ & _ & _ & S5 & S6).
  destruct (Nat.ltb_spec (s_cycles s) 2) as [Hlt|Hge].
  - left. destruct (S5 Hlt) as (_ & _ & _ & _ & D & _). auto.
  - destruct (S6 Hge) as (_ & _ & _ & [(D1 & D2 & D3 & D4)|(c & D1 & D2 & D3 & D4)] & _); [auto|].
    right. rewrite inc_cnt_counter in D3 by apply Hi. apply Ok_inj in D3. unfold lat in *. auto.
Qed.

(** The other events at the two ends. *)
Lemma other_tx prof s e s' : local_event e -> e <> HostCycle -> e <> DevTake -> happen prof s e = Ok s' ->
  lat s' = lat s /\ ack s' = ack s /\ reg s' = reg s /\ s_register s' = s_register s /\ s_image s' = s_image s /\
  s_cycles s' = s_cycles s.
Proof.
  intros Hl N1 N2 H. destruct e as [buf|size| | | | |seg| |full ready]; cbn [happen] in H; try contradiction; try congruence.
  - apply Ok_inj in H. subst s'. unfold lat, ack, reg. sfields. auto 10.
  - destruct (processor_read (s_proc s) size). apply Ok_inj in H. subst s'. unfold lat, ack, reg. sfields. auto 10.
  - destruct (_ =? _); apply Ok_inj in H; subst s'; unfold lat, ack, reg; sfields; auto 10.
  - destruct (_ =? _); apply Ok_inj in H; subst s'; unfold lat, ack, reg; sfields; auto 10.
  - apply Ok_inj in H. subst s'. unfold lat, ack, reg. sfields. auto 10.
Qed.

Lemma take_tx prof s s' : happen prof s DevTake = Ok s' ->
  lat s' = lat s /\ ack s' = reg s /\ reg s' = reg s /\ s_register s' = s_register s /\ s_image s' = s_image s /\
  s_cycles s' = s_cycles s.
Proof.
  intros H. cbn [happen] in H. destruct (Z.eqb_spec (ro_tx_cnt (s_register s)) (ri_tx_cnt_ack (s_device s))) as [E|E];
    apply Ok_inj in H; subst s'; unfold lat, ack, reg; sfields; auto 10.
Qed.

Lemma dstep_tx_ok prof l e y y' : inv_dtx l y -> dstep prof y e y' ->
  exists popped new, dstep_tx l e y y' popped new.
Proof.
  intros Hi H. pose proof Hi as [I1 I2 I3 I4]. destruct H as [s e s' qi qo He H|s qi qo|s x qi qo|s qi qo|s x qi qo|s a x b qo|s qi a x b]; yfields.
  - (* at one of the ends *)
    destruct (step_tx_ok prof l e s I1) as (s1 & popped & new & H1 & [T1 T2 T3 T4 T5 T6 T7 T8 T9 T10 T11 T12 T13]).
    rewrite H in H1. apply Ok_inj in H1. subst s1. exists popped, new.
    pose proof (prev4_ne (tx s)) as Hne.
    destruct (chain_state _ _ s Hne qi qo I2) as [(C1 & C2 & C3 & C4)|(C1 & C2)].
    + (* everything is known *)
      assert (Hack : ack s' = tx s).
      { destruct e; try contradiction;
          try (assert (K : ack s' = ack s) by (eapply other_tx; [| | |exact H]; [exact I|discriminate|discriminate]); congruence).
        - destruct (cycle_tx _ _ _ _ I1 H) as (_ & K & _). congruence.
        - destruct (take_tx _ _ _ H) as (_ & K & _). congruence. }
      assert (Hchain : chain s' qi qo = chain s qi qo /\ s_register s' = s_register s /\
        ((tx s' = tx s /\ s_cycles s' = s_cycles s) \/ tx s' = tx s \/ (tx s' = succ4 (tx s) /\ (2 <= s_cycles s')%nat))).
      { destruct e; try contradiction;
          try (match type of H with happen _ _ ?e = _ =>
                 destruct (other_tx prof s e s' I ltac:(discriminate) ltac:(discriminate) H) as (K1 & K2 & K3 & K4 & K5 & K6) end; unfold chain, tx; rewrite K1, K2, K3, K5; auto).
        - destruct (cycle_tx _ _ _ _ I1 H) as (K1 & K2 & K3 & K4 & K5). unfold chain. rewrite K1, K2, K3.
          split; [reflexivity|]. split; [exact K4|]. destruct K5 as [(K5 & _)|(K5 & _ & K6)]; [auto|].
          right. right. rewrite K5, C1. split; [reflexivity|lia].
        - destruct (take_tx _ _ _ H) as (K1 & K2 & K3 & K4 & K5 & K6). unfold chain, tx.
          rewrite K1, K2, K3, K5, C2, C3. auto. }
      destruct Hchain as (Hch & Hrg & Htx).
      assert (Hlat : lat s' = tx s).
      { unfold chain in Hch. cbn [app] in Hch. inversion Hch. congruence. }
      assert (Hinv : inv_dtx l (mk_dsys s' qi qo)).
      { constructor; yfields; auto; try rewrite Hch.
        - destruct Htx as [(-> & _)|[->|(-> & _)]]; [apply phases_new; exact C4|apply phases_new; exact C4|].
          apply phases_old. rewrite prev_succ by apply I1. exact C4.
        - intros Hn o Ho Eo. exfalso. rewrite Hlat in Hn. rewrite Hrg in Ho.
          assert (Ho' : In (ro_tx_cnt o) (chain s qi qo)).
          { unfold chain, reg. apply in_or_app. right. right. destruct Ho as [<-|Ho]; [left; reflexivity|right].
            apply in_map. exact Ho. }
          rewrite Forall_forall in C4. apply C4 in Ho'. congruence.
        - intros Hlt. destruct Htx as [(-> & _)|[->|(_ & Hk)]]; [exact C4|exact C4|lia]. }
      assert (Hreg : reg s' = reg s) by (unfold reg; congruence).
      constructor; yfields; auto; try discriminate; cbn [receives applies is_loss].
      * intros n _ _ (u & v & E & L & Hv & Hf). exists u, v. yfields. rewrite Nat.sub_0_r. split; [rewrite Hlat, <- C1; exact E|].
        split; [exact L|]. split; [exact Hv|]. rewrite Hack, <- C2. exact Hf.
      * intros n _ _ (Hs & _). exfalso. apply Hs. exact C2.
      * intros E Hk Hp Hu. inversion E; subst. apply T11; auto. left. exact C1.
      * intros E (Hs & _). exfalso. apply Hs. exact C2.
    + (* something is on its way *)
      assert (Htx : tx s' = tx s /\ ro_data (s_image s') = ro_data (s_image s) /\ lat s' = lat s /\ s_register s' = s_register s /\
                (ack s' = ack s \/ e = DevTake /\ ack s' = reg s) /\ (2 <= s_cycles s)%nat).
      { assert (Hk : (2 <= s_cycles s)%nat).
        { destruct (Nat.ltb_spec (s_cycles s) 2) as [Hlt|Hge]; [|exact Hge]. exfalso. specialize (I4 Hlt).
          unfold chain in I4. cbn [app] in I4. inversion I4; subst. congruence. }
        destruct e; try contradiction;
          try (match type of H with happen _ _ ?e = _ =>
                 destruct (other_tx prof s e s' I ltac:(discriminate) ltac:(discriminate) H) as (K1 & K2 & K3 & K4 & K5 & K6) end; unfold tx; rewrite K5; auto 10).
        - destruct (cycle_tx _ _ _ _ I1 H) as (K1 & K2 & K3 & K4 & K5).
          destruct K5 as [(K5 & [K6|K6])|(K5 & K6 & _)]; [auto 10|lia|].
          exfalso. apply K6. rewrite K5, C1. apply succ_prev, I1.
        - destruct (take_tx _ _ _ H) as (K1 & K2 & K3 & K4 & K5 & K6). unfold tx. rewrite K5. auto 10. }
      destruct Htx as (Htx & Hdat & Hlat & Hrg & Hack & Hk).
      assert (Hreg : reg s' = reg s) by (unfold reg; congruence).
      assert (Hinv : inv_dtx l (mk_dsys s' qi qo)).
      { constructor; yfields; auto; try lia.
        - rewrite Htx. unfold chain. rewrite Hlat, Hreg. destruct Hack as [->|(_ & ->)]; [exact I2|].
          apply phases_dup. apply (phases_sub _ _ _ (chain s qi qo)); [|exact I2]. apply sub_one.
        - rewrite Hlat, Htx, Hdat, Hrg. exact I3. }
      assert (Hn : popped = [] -> ack s' = ack s).
      { intros Hp. destruct Hack as [E|(-> & E)]; [exact E|]. rewrite E.
        destruct (Z.eq_dec (reg s) (ack s)) as [E1|E1]; [exact E1|]. exfalso.
        assert (Ha : st2 s) by (unfold st2; destruct C2 as [(C2 & _)|(C2 & C3)]; congruence).
        assert (Hr : reg s = tx s) by (destruct C2 as [(C2 & [C3|C3])|(C2 & C3)]; congruence).
        apply (T8 Hp Ha). congruence. }
      constructor; yfields; auto; try discriminate; cbn [receives applies is_loss].
      * intros n Hp _ (u & v & E & L & Hv & Hf). exists u, v. yfields. rewrite Nat.sub_0_r, Hlat, (Hn Hp). auto.
      * intros n Hp _ (Hs & u & v & E & L & Hv & Hf). split; [apply T8; assumption|]. exists u, v. yfields.
        rewrite Nat.sub_0_r, Hreg, Htx. auto.
      * intros E Hk' Hp Hu. inversion E; subst. apply T11; auto. right. apply p1_zero in Hp. yfields. congruence.
      * intros E Hp. inversion E; subst. apply T13; [reflexivity|]. apply p3_zero in Hp. exact Hp.
  - (* the coupler sends its input image *)
    exists [], []. cbn [app concat].
    assert (Ech : chain s (qi ++ [s_device s]) qo = (lat s :: acks qi) ++ ack s :: ack s :: (reg s :: txs qo)).
    { unfold chain, acks. rewrite map_app. cbn [map app]. rewrite <- app_assoc. reflexivity. }
    constructor; yfields; rewrite ?app_nil_r; auto; try discriminate; cbn [receives applies is_loss].
    + constructor; yfields; auto; try rewrite Ech.
      * apply phases_dup. exact I2.
      * intros Hlt. specialize (I4 Hlt). unfold chain in I4. apply Forall_app in I4. destruct I4 as [G1 G2].
        apply Forall_app. split; [exact G1|]. inversion G2; subst. constructor; assumption.
    + intros n _ _ Hp. rewrite Nat.sub_0_r. unfold p1, acks in *. yfields. rewrite map_app.
      apply (behind_snoc _ (lat s :: map ri_tx_cnt_ack qi)); [reflexivity|exact Hp].
    + intros n _ _ Hp. rewrite Nat.sub_0_r. exact Hp.
    + intros _. unfold p1, acks. yfields. rewrite map_app.
      replace (S (length qi)) with (length (lat s :: map ri_tx_cnt_ack qi)) by (cbn [length]; rewrite map_length; reflexivity).
      apply (behind_last _ (lat s :: map ri_tx_cnt_ack qi)). reflexivity.
  - (* the program receives an input image *)
    exists [], []. cbn [app concat].
    assert (Es : subsequence (chain (with_lat s x) qi qo) (chain s (x :: qi) qo)).
    { unfold chain. cbn [acks map app]. apply Sub_drop, sub_refl. }
    pose proof (phases_sub _ _ _ _ Es I2) as I2'.
    assert (Hdata : lat (with_lat s x) <> tx s -> lat s <> tx s).
    { intros Hn E. apply Hn. unfold chain in I2. cbn [acks map app] in I2. rewrite E in I2.
      apply (phases_after _ _ []) in I2; [|apply prev4_ne]. inversion I2; subst. unfold lat, with_lat. sfields. auto. }
    assert (Hinv : inv_dtx l (mk_dsys (with_lat s x) qi qo)).
    { assert (H4' : (s_cycles s < 2)%nat -> Forall (eq (tx s)) (chain (with_lat s x) qi qo)).
      { intros Hlt. eapply subsequence_forall; [exact Es|]. apply I4, Hlt. }
      constructor; yfields; auto.
      apply (inv_tx_intro _ _ qi qo); try exact I2'; try exact H4'; try apply I1.
      intros Hn. apply I3; [apply Hdata; exact Hn|left; reflexivity]. }
    constructor; yfields; rewrite ?app_nil_r; auto; try discriminate; cbn [receives applies is_loss].
    + intros n _ _ Hp. unfold p1 in *. yfields. apply (behind_first (lat s)); [exact Hp|discriminate].
    + intros n _ _ Hp. rewrite Nat.sub_0_r. exact Hp.
  - (* the program sends its output image *)
    exists [], []. cbn [app concat].
    assert (Ech : chain s qi (qo ++ [s_image s]) = chain s qi qo ++ [tx s]).
    { unfold chain, txs. rewrite map_app. cbn [map]. rewrite <- app_assoc. reflexivity. }
    constructor; yfields; rewrite ?app_nil_r; auto; try discriminate; cbn [receives applies is_loss].
    + constructor; yfields; auto; try rewrite Ech.
      * apply phases_snoc. exact I2.
      * intros Hn o Ho Eo. destruct Ho as [Ho|Ho]; [apply I3; [exact Hn|left; exact Ho|exact Eo]|].
        apply in_app_or in Ho. destruct Ho as [Ho|[<-|[]]]; [apply I3; [exact Hn|right; exact Ho|exact Eo]|reflexivity].
      * intros Hlt. apply Forall_app. split; [apply I4, Hlt|]. auto.
    + intros n _ _ Hp. rewrite Nat.sub_0_r. exact Hp.
    + intros n _ _ (Hs & Hp). rewrite Nat.sub_0_r. split; [exact Hs|]. unfold txs in *. yfields. rewrite map_app.
      apply (behind_snoc _ (reg s :: map ro_tx_cnt qo)); [reflexivity|exact Hp].
    + intros _ Hs. split; [exact Hs|]. unfold txs. yfields. rewrite map_app.
      replace (S (length qo)) with (length (reg s :: map ro_tx_cnt qo)) by (cbn [length]; rewrite map_length; reflexivity).
      apply (behind_last _ (reg s :: map ro_tx_cnt qo)). reflexivity.
  - (* the coupler receives an output image *)
    exists [], []. cbn [app concat].
    assert (Es : subsequence (chain (with_reg s x) qi qo) (chain s qi (x :: qo))).
    { unfold chain. cbn [txs map]. apply sub_app; [apply sub_refl|]. apply Sub_keep, Sub_drop, sub_refl. }
    pose proof (phases_sub _ _ _ _ Es I2) as I2'.
    assert (Hinv : inv_dtx l (mk_dsys (with_reg s x) qi qo)).
    { assert (H4' : (s_cycles s < 2)%nat -> Forall (eq (tx s)) (chain (with_reg s x) qi qo)).
      { intros Hlt. eapply subsequence_forall; [exact Es|]. apply I4, Hlt. }
      constructor; yfields; auto.
      - apply (inv_tx_intro _ _ qi qo); try exact I2'; try exact H4'; try apply I1.
        intros Hn. apply I3; [exact Hn|right; left; reflexivity].
      - intros Hn o Ho. apply I3; [exact Hn|right; exact Ho]. }
    constructor; yfields; rewrite ?app_nil_r; auto; try discriminate; cbn [receives applies is_loss].
    + intros n _ _ Hp. rewrite Nat.sub_0_r. exact Hp.
    + intros n _ _ (Hs & Hp). split; [exact Hs|]. yfields. apply (behind_first (reg s)); [exact Hp|discriminate].
  - (* an input image gets lost *)
    exists [], []. cbn [app concat].
    assert (Eq : subsequence (acks (a ++ b)) (acks (a ++ x :: b))) by (apply sub_map, sub_one).
    assert (Es : subsequence (chain s (a ++ b) qo) (chain s (a ++ x :: b) qo)).
    { unfold chain. apply sub_app; [apply Sub_keep; exact Eq|apply sub_refl]. }
    constructor; yfields; rewrite ?app_nil_r; auto; try discriminate; cbn [receives applies is_loss].
    + constructor; yfields; auto; [eapply phases_sub; eassumption|].
      intros Hlt. eapply subsequence_forall; [exact Es|]. apply I4, Hlt.
    + intros n _ [->|Hn] Hp; [|discriminate]. unfold p1 in *. yfields. eapply behind_none; eassumption.
    + intros n _ _ Hp. rewrite Nat.sub_0_r. exact Hp.
  - (* an output image gets lost *)
    exists [], []. cbn [app concat].
    assert (Eq : subsequence (txs (a ++ b)) (txs (a ++ x :: b))) by (apply sub_map, sub_one).
    assert (Es : subsequence (chain s qi (a ++ b)) (chain s qi (a ++ x :: b))).
    { unfold chain. apply sub_app; [apply sub_refl|]. apply Sub_keep, Sub_keep. exact Eq. }
    constructor; yfields; rewrite ?app_nil_r; auto; try discriminate; cbn [receives applies is_loss].
    + constructor; yfields; auto; [eapply phases_sub; eassumption| |].
      * intros Hn o Ho. apply I3; [exact Hn|]. destruct Ho as [Ho|Ho]; [left; exact Ho|right].
        apply in_app_or in Ho. apply in_or_app. destruct Ho; [left|right; right]; assumption.
      * intros Hlt. eapply subsequence_forall; [exact Es|]. apply I4, Hlt.
    + intros n _ _ Hp. rewrite Nat.sub_0_r. exact Hp.
    + intros n _ [->|Hn] (Hs & Hp); [|discriminate]. split; [exact Hs|]. yfields. eapply behind_none; eassumption.
Qed.

Definition losses (es : list devent) : Prop := Forall (fun e => is_loss e = false) es.
Definition total (f : devent -> nat) (es : list devent) : nat := list_sum (map f es).

Record druns_tx (l : process_data_length) (es : list devent) (y y' : dsys) (popped new : list (list Z)) : Prop := {
  rx_inv : inv_dtx l y';
  rx_queue : untaken (y_sys y) ++ new = popped ++ untaken (y_sys y');
  rx_written : s_written (y_sys y') = s_written (y_sys y) ++ concat new;
  rx_taken : s_taken (y_sys y') = s_taken (y_sys y) ++ concat popped;
  rx_cycles : (s_cycles (y_sys y) <= s_cycles (y_sys y'))%nat;
  rx_p1 : forall n, popped = [] -> (n = 0%nat \/ losses es) -> p1 n y -> p1 (n - total receives es) y';
  rx_p2 : popped = [] -> p2 y -> p2 y';
  rx_p3 : forall n, popped = [] -> (n = 0%nat \/ losses es) -> p3 n y -> p3 (n - total applies es) y' }.

Lemma run_dtx prof l es : forall y y', inv_dtx l y -> druns prof y es y' ->
  exists popped new, druns_tx l es y y' popped new.
Proof.
  induction es as [|e es IH]; intros y y' Hi H; inversion H; subst.
  - exists [], []. constructor; cbn [app concat]; rewrite ?app_nil_r; auto;
      intros n _ _; cbn [total map list_sum fold_right]; rewrite Nat.sub_0_r; auto.
  - match goal with A : dstep _ y e ?y1, B : druns _ ?y1 es y' |- _ =>
      destruct (dstep_tx_ok prof l e y y1 Hi A) as (q1 & n1 & [T1 T2 T3 T4 T5 T6 T7 T8 _ _ _ _]);
      destruct (IH y1 y' T1 B) as (q2 & n2 & [U1 U2 U3 U4 U5 U6 U7 U8]) end.
    exists (q1 ++ q2), (n1 ++ n2). constructor; auto.
    + rewrite app_assoc, T2, <- app_assoc, U2, app_assoc. reflexivity.
    + rewrite U3, T3, concat_app, app_assoc. reflexivity.
    + rewrite U4, T4, concat_app, app_assoc. reflexivity.
    + lia.
    + intros n Hp Hl Hq. apply app_eq_nil in Hp. destruct Hp as [E1 E2].
      assert (L1 : n = 0%nat \/ is_loss e = false) by (destruct Hl as [Hl|Hl]; [auto|inversion Hl; auto]).
      assert (L2 : (n - receives e = 0)%nat \/ losses es) by (destruct Hl as [Hl|Hl]; [left; lia|inversion Hl; auto]).
      specialize (U6 _ E2 L2 (T6 n E1 L1 Hq)). unfold total. cbn [map list_sum fold_right].
      replace (n - (receives e + fold_right Nat.add 0 (map receives es)))%nat with (n - receives e - total receives es)%nat
        by (unfold total, list_sum; lia). exact U6.
    + intros Hp Hq. apply app_eq_nil in Hp. destruct Hp. auto.
    + intros n Hp Hl Hq. apply app_eq_nil in Hp. destruct Hp as [E1 E2].
      assert (L1 : n = 0%nat \/ is_loss e = false) by (destruct Hl as [Hl|Hl]; [auto|inversion Hl; auto]).
      assert (L2 : (n - applies e = 0)%nat \/ losses es) by (destruct Hl as [Hl|Hl]; [left; lia|inversion Hl; auto]).
      specialize (U8 _ E2 L2 (T8 n E1 L1 Hq)). unfold total. cbn [map list_sum fold_right].
      replace (n - (applies e + fold_right Nat.add 0 (map applies es)))%nat with (n - applies e - total applies es)%nat
        by (unfold total, list_sum; lia). exact U8.
Qed.

Lemma start_inv_dtx l s : start l s -> inv_dtx l (mk_dsys s [] []).
Proof.
  intros Hs. pose proof (start_inv_tx l s Hs) as Hi.
  destruct Hs as (H1 & (D1 & D2) & (E1 & E2 & E3) & H2 & H3 & H4 & H5 & H6 & H7 & H8 & H9 & H10 & H11).
  assert (Hc : Forall (eq (tx s)) (chain s [] [])).
  { unfold chain, lat, ack, reg, tx. cbn [acks txs map app]. rewrite H5, H6, H3. auto. }
  constructor; yfields; auto; [apply phases_new; exact Hc|].
  intros Hn. exfalso. apply Hn. unfold lat, tx. rewrite H5, H6. exact H3.
Qed.

(** A round at the two ends. *)
Definition dround (prof : profile) (y y' : dsys) : Prop :=
  exists a y1 b y2 c y3 y4 e y5 f y6 g y7 y8 h y0 y5',
    druns prof y a y1 /\ dstep prof y1 VRequest y0 /\ druns prof y0 b y2 /\ losses b /\
    (length (y_in y1) < total receives b)%nat /\ druns prof y2 c y3 /\
    dstep prof y3 (VLocal HostCycle) y4 /\ druns prof y4 e y5 /\ dstep prof y5 VSubmit y5' /\ druns prof y5' f y6 /\
    losses f /\ (length (y_out y5) < total applies f)%nat /\ druns prof y6 g y7 /\
    dstep prof y7 (VLocal DevTake) y8 /\ druns prof y8 h y'.

Lemma run_dround prof l y y' : inv_dtx l y -> (2 <= s_cycles (y_sys y))%nat -> dround prof y y' ->
  exists popped new, inv_dtx l y' /\
    untaken (y_sys y) ++ new = popped ++ untaken (y_sys y') /\
    s_written (y_sys y') = s_written (y_sys y) ++ concat new /\
    s_taken (y_sys y') = s_taken (y_sys y) ++ concat popped /\
    (s_cycles (y_sys y) <= s_cycles (y_sys y'))%nat /\ (untaken (y_sys y) <> [] -> popped <> []).
Proof.
  intros Hi Hk (a & y1 & b & y2 & c & y3 & y4 & e & y5 & f & y6 & g & y7 & y8 & h & y0 & y5' & Ha & Hr & Hb & Lb & Nb & Hc & Hcy
    & He & Hs & Hf & Lf & Nf & Hg & Ht & Hh).
  destruct (run_dtx prof l a y y1 Hi Ha) as (q1 & n1 & [I1 U1 W1 K1 C1 _ _ _]).
  destruct (dstep_tx_ok prof l _ y1 y0 I1 Hr) as (q2 & n2 & [I2 U2 W2 K2 C2 _ _ _ E2 _ _ _]).
  destruct (run_dtx prof l b y0 y2 I2 Hb) as (q3 & n3 & [I3 U3 W3 K3 C3 A3 _ _]).
  destruct (run_dtx prof l c y2 y3 I3 Hc) as (q3' & n3' & [I3' U3' W3' K3' C3' A3' _ _]).
  destruct (dstep_tx_ok prof l _ y3 y4 I3' Hcy) as (q4 & n4 & [I4 U4 W4 K4 C4 _ _ _ _ E4 _ _]).
  destruct (run_dtx prof l e y4 y5 I4 He) as (q5 & n5 & [I5 U5 W5 K5 C5 _ A5 _]).
  destruct (dstep_tx_ok prof l _ y5 y5' I5 Hs) as (q6 & n6 & [I6 U6 W6 K6 C6 _ _ _ _ _ E6 _]).
  destruct (run_dtx prof l f y5' y6 I6 Hf) as (q7 & n7 & [I7 U7 W7 K7 C7 _ _ A7]).
  destruct (run_dtx prof l g y6 y7 I7 Hg) as (q7' & n7' & [I7' U7' W7' K7' C7' _ _ A7']).
  destruct (dstep_tx_ok prof l _ y7 y8 I7' Ht) as (q8 & n8 & [I8 U8 W8 K8 C8 _ _ _ _ _ _ E8]).
  destruct (run_dtx prof l h y8 y' I8 Hh) as (q9 & n9 & [I9 U9 W9 K9 C9 _ _ _]).
  exists (q1 ++ q2 ++ q3 ++ q3' ++ q4 ++ q5 ++ q6 ++ q7 ++ q7' ++ q8 ++ q9),
         (n1 ++ n2 ++ n3 ++ n3' ++ n4 ++ n5 ++ n6 ++ n7 ++ n7' ++ n8 ++ n9).
  split; [exact I9|]. split; [|split; [|split; [|split]]].
  - rewrite app_assoc, U1, <- !app_assoc. f_equal. rewrite (app_assoc (untaken (y_sys y1))), U2, <- !app_assoc. f_equal.
    rewrite (app_assoc (untaken (y_sys y0))), U3, <- !app_assoc. f_equal.
    rewrite (app_assoc (untaken (y_sys y2))), U3', <- !app_assoc. f_equal.
    rewrite (app_assoc (untaken (y_sys y3))), U4, <- !app_assoc. f_equal.
    rewrite (app_assoc (untaken (y_sys y4))), U5, <- !app_assoc. f_equal.
    rewrite (app_assoc (untaken (y_sys y5))), U6, <- !app_assoc. f_equal.
    rewrite (app_assoc (untaken (y_sys y5'))), U7, <- !app_assoc. f_equal.
    rewrite (app_assoc (untaken (y_sys y6))), U7', <- !app_assoc. f_equal.
    rewrite (app_assoc (untaken (y_sys y7))), U8, <- !app_assoc. f_equal. exact U9.
  - rewrite W9, W8, W7', W7, W6, W5, W4, W3', W3, W2, W1, !concat_app, <- !app_assoc. reflexivity.
  - rewrite K9, K8, K7', K7, K6, K5, K4, K3', K3, K2, K1, !concat_app, <- !app_assoc. reflexivity.
  - lia.
  - intros Hu Hn. repeat match goal with H : _ ++ _ = [] |- _ => apply app_eq_nil in H; destruct H end. subst.
    cbn [app] in U1, U2, U3, U3', U4, U5.
    specialize (E2 eq_refl). specialize (A3 _ eq_refl (or_intror Lb) E2).
    replace (S (length (y_in y1)) - total receives b)%nat with 0%nat in A3 by lia.
    specialize (A3' _ eq_refl (or_introl eq_refl) A3). cbn [Nat.sub] in A3'.
    assert (Hu3 : untaken (y_sys y3) <> []).
    { rewrite <- U3', <- U3, <- U2, <- U1. destruct (untaken (y_sys y)); [contradiction|discriminate]. }
    specialize (E4 eq_refl ltac:(lia) A3' Hu3). specialize (A5 eq_refl E4). specialize (E6 eq_refl A5).
    specialize (A7 _ eq_refl (or_intror Lf) E6).
    replace (S (length (y_out y5)) - total applies f)%nat with 0%nat in A7 by lia.
    specialize (A7' _ eq_refl (or_introl eq_refl) A7). cbn [Nat.sub] in A7'. exact (E8 eq_refl A7' eq_refl).
Qed.

Inductive drounds (prof : profile) : nat -> dsys -> dsys -> Prop :=
| YR_nil y : drounds prof 0 y y
| YR_cons n y y1 y2 : dround prof y y1 -> drounds prof n y1 y2 -> drounds prof (S n) y y2.

Lemma run_drounds prof l n : forall y y', inv_dtx l y -> (2 <= s_cycles (y_sys y))%nat -> drounds prof n y y' ->
  exists popped new, inv_dtx l y' /\
    untaken (y_sys y) ++ new = popped ++ untaken (y_sys y') /\
    s_taken (y_sys y') = s_taken (y_sys y) ++ concat popped /\
    (n <= length popped \/ length (untaken (y_sys y)) <= length popped)%nat.
Proof.
  induction n as [|n IH]; intros y y' Hi Hk H; inversion H; subst.
  - exists [], []. cbn [app concat length]. rewrite !app_nil_r. split; [exact Hi|]. split; [reflexivity|].
    split; [reflexivity|]. left. lia.
  - match goal with A : dround _ y ?y1, B : drounds _ n ?y1 y' |- _ =>
      destruct (run_dround prof l y y1 Hi Hk A) as (q1 & n1 & I1 & U1 & W1 & K1 & C1 & N1);
      destruct (IH y1 y' I1 ltac:(lia) B) as (q2 & n2 & I2 & U2 & K2 & L2) end.
    exists (q1 ++ q2), (n1 ++ n2). split; [exact I2|]. split; [|split].
    + rewrite app_assoc, U1, <- !app_assoc, U2. reflexivity.
    + rewrite K2, K1, concat_app, app_assoc. reflexivity.
    + rewrite app_length. destruct (untaken (y_sys y)) as [|u us]; [right; cbn [length]; lia|].
      specialize (N1 ltac:(discriminate)). destruct q1 as [|x q1]; [contradiction|]. cbn [length].
      destruct L2 as [L2|L2]; [left; lia|].
      apply (f_equal (@length (list Z))) in U1. rewrite !app_length in U1. cbn [length] in U1. right. lia.
Qed.

(** *** Reception *)

Definition cnt (r0 : Z) (n : nat) : Z := (r0 + Z.of_nat n) mod 4.

(** The number of segments meant by a counter when [n] have been offered. *)
Definition num (r0 : Z) (n : nat) (c : Z) : nat := if c =? cnt r0 n then n else (n - 1)%nat.

Definition rchain (s : system) (qi : list rs_in) (qo : list rs_out) : list Z :=
  (ro_rx_cnt_ack (s_register s) :: map ro_rx_cnt_ack qo) ++
  ro_rx_cnt_ack (s_image s) :: ri_rx_cnt (s_latch s) :: map ri_rx_cnt qi.

Definition shows (r0 : Z) (a : nat) (offered : list (list Z)) (x : rs_in) : Prop :=
  presents (ri_data_available x) (ri_data x) (num r0 (length offered) (ri_rx_cnt x)) a offered.

Record inv_drx (lost : nat) (r0 : Z) (y : dsys) (a i m : nat) : Prop := mk_inv_drx {
  dr_inv : inv_rx lost r0 (y_sys y) a i m;
  dr_chain : phases (cnt r0 (length (s_offered (y_sys y)) - 1)) (cnt r0 (length (s_offered (y_sys y))))
               (rchain (y_sys y) (y_in y) (y_out y));
  dr_shows : Forall (shows r0 a (s_offered (y_sys y))) (y_in y) }.

(** At most [n] input images are to come before one that knows of [k] segments. *)
Definition q1 (r0 : Z) (n k : nat) (y : dsys) : Prop :=
  exists u v, s_latch (y_sys y) :: y_in y = u ++ v /\ (length u <= n)%nat /\ v <> [] /\
    Forall (fun x => (k <= num r0 (length (s_offered (y_sys y))) (ri_rx_cnt x))%nat) v.

Lemma num_cnt r0 n k : (k <= n <= k + 1)%nat -> num r0 n (cnt r0 k) = k.
Proof.
  intros H. unfold num, cnt. destruct (Z.eqb_spec ((r0 + Z.of_nat k) mod 4) ((r0 + Z.of_nat n) mod 4)); lia.
Qed.

Lemma cnt_ne r0 n : (1 <= n)%nat -> cnt r0 (n - 1) <> cnt r0 n.
Proof. unfold cnt. lia. Qed.

Lemma cnt_num r0 n c : c = cnt r0 (n - 1) \/ c = cnt r0 n -> cnt r0 (num r0 n c) = c.
Proof.
  unfold num. intros H. destruct (Z.eqb_spec c (cnt r0 n)) as [E|E]; [congruence|]. destruct H; congruence.
Qed.

Lemma num_le r0 n c : (num r0 n c <= n <= num r0 n c + 1)%nat.
Proof. unfold num. destruct (c =? cnt r0 n); lia. Qed.

(** The segments known increase along the chain. *)
Lemma num_order r0 n u x v y w : phases (cnt r0 (n - 1)) (cnt r0 n) (u ++ x :: v ++ y :: w) ->
  (num r0 n x <= num r0 n y)%nat.
Proof.
  intros H. destruct n as [|n]; [unfold num; destruct (x =? _), (y =? _); lia|].
  assert (Hne := cnt_ne r0 (S n) ltac:(lia)). unfold num.
  destruct (Z.eqb_spec x (cnt r0 (S n))) as [E|E]; [|destruct (y =? _); lia]. subst x.
  apply phases_after in H; [|exact Hne]. apply Forall_app in H. destruct H as [_ H]. inversion H; subst.
  rewrite Z.eqb_refl. lia.
Qed.

Lemma sub_forall_chain r0 n l x : phases (cnt r0 (n - 1)) (cnt r0 n) l -> In x l -> cnt r0 (num r0 n x) = x.
Proof. intros H Hx. apply cnt_num. eapply phases_in; eassumption. Qed.

(** The reception invariant of the two ends when the latch or the register is replaced. *)
Lemma inv_rx_latch lost r0 s a i m x : inv_rx lost r0 s a i m ->
  phases (cnt r0 (length (s_offered s) - 1)) (cnt r0 (length (s_offered s)))
    [ro_rx_cnt_ack (s_register s); ro_rx_cnt_ack (s_image s); ri_rx_cnt x] ->
  shows r0 a (s_offered s) x ->
  inv_rx lost r0 (with_lat s x) a i (num r0 (length (s_offered s)) (ri_rx_cnt x)).
Proof.
  intros [(O1 & O2) Erg Eim Elt Edv Plt Pdv Rin Rrc] H Hx.
  pose proof (num_order r0 (length (s_offered s)) [ro_rx_cnt_ack (s_register s)] _ [] _ [] H) as Ho.
  rewrite Eim in Ho. change ((r0 + Z.of_nat i) mod 4) with (cnt r0 i) in Ho. rewrite num_cnt in Ho by lia.
  pose proof (num_le r0 (length (s_offered s)) (ri_rx_cnt x)) as Hl.
  unfold with_lat. constructor; sfields; auto; [lia|].
  symmetry. apply (sub_forall_chain _ _ _ (ri_rx_cnt x) H). right. right. left. reflexivity.
Qed.

Lemma inv_rx_register lost r0 s a i m x : inv_rx lost r0 s a i m ->
  phases (cnt r0 (length (s_offered s) - 1)) (cnt r0 (length (s_offered s)))
    [ro_rx_cnt_ack (s_register s); ro_rx_cnt_ack x; ro_rx_cnt_ack (s_image s)] ->
  (a <= num r0 (length (s_offered s)) (ro_rx_cnt_ack x))%nat /\
  inv_rx lost r0 (with_reg s x) (num r0 (length (s_offered s)) (ro_rx_cnt_ack x)) i m.
Proof.
  intros [(O1 & O2) Erg Eim Elt Edv Plt Pdv Rin Rrc] H.
  pose proof (num_order r0 (length (s_offered s)) [] _ [] _ [ro_rx_cnt_ack (s_image s)] H) as Ho.
  pose proof (num_order r0 (length (s_offered s)) [ro_rx_cnt_ack (s_register s)] _ [] _ [] H) as Ho'.
  rewrite Erg in Ho. change ((r0 + Z.of_nat a) mod 4) with (cnt r0 a) in Ho. rewrite num_cnt in Ho by lia.
  rewrite Eim in Ho'. change ((r0 + Z.of_nat i) mod 4) with (cnt r0 i) in Ho'. rewrite num_cnt in Ho' by lia.
  split; [exact Ho|].
  unfold with_reg. constructor; sfields; auto; [lia| | |].
  - symmetry. apply (sub_forall_chain _ _ _ (ro_rx_cnt_ack x) H). right. left. reflexivity.
  - apply (presents_mono _ _ _ a); [exact Ho|exact Plt].
  - apply (presents_mono _ _ _ a); [exact Ho|exact Pdv].
Qed.

(** The events at the two ends. *)
Lemma ends_rx prof s e s' : p_init_state (s_proc s) = stage (s_cycles s) -> local_event e -> happen prof s e = Ok s' ->
  s_register s' = s_register s /\ s_latch s' = s_latch s /\
  (ro_rx_cnt_ack (s_image s') = ro_rx_cnt_ack (s_image s) \/
   e = HostCycle /\ ro_rx_cnt_ack (s_image s') = ri_rx_cnt (s_latch s)) /\
  (s_offered s' = s_offered s \/
   exists seg, s_offered s' = s_offered s ++ [seg] /\ ro_rx_cnt_ack (s_register s) = ri_rx_cnt (s_device s) /\ e = DevOffer seg).
Proof.
  intros Hst Hl H. destruct e as [buf|size| | | | |seg| |full ready]; cbn [happen] in H; try contradiction.
  - apply Ok_inj in H. subst s'. sfields. auto 10.
  - destruct (processor_read (s_proc s) size). apply Ok_inj in H. subst s'. sfields. auto 10.
  - apply bind_ok in H. destruct H as ((p & r) & H & E). apply Ok_inj in E. subst s'. sfields.
    destruct (next_cases prof (s_proc s) (s_latch s) (s_image s) p r (s_cycles s) Hst H) as (_ & _ & S3 & _). auto 10.
  - destruct (_ =? _); apply Ok_inj in H; subst s'; sfields; auto 10.
  - destruct (Z.eqb_spec (ro_rx_cnt_ack (s_register s)) (ri_rx_cnt (s_device s))) as [E|E]; apply Ok_inj in H; subst s'; sfields; [|auto 10].
    do 2 (split; [reflexivity|]). split; [auto|]. right. exists seg. auto.
  - destruct (_ =? _); apply Ok_inj in H; subst s'; sfields; auto 10.
  - apply Ok_inj in H. subst s'. sfields. auto 10.
Qed.

Lemma dstep_rx prof lost r0 e y y' a i m : p_init_state (s_proc (y_sys y)) = stage (s_cycles (y_sys y)) ->
  inv_drx lost r0 y a i m -> dstep prof y e y' ->
  p_init_state (s_proc (y_sys y')) = stage (s_cycles (y_sys y')) /\
  (s_cycles (y_sys y) <= s_cycles (y_sys y'))%nat /\
  (length (s_offered (y_sys y)) <= length (s_offered (y_sys y')))%nat /\
  exists a' i' m',
    inv_drx (if Nat.ltb (s_cycles (y_sys y)) 2 then length (s_offered (y_sys y')) else lost) r0 y' a' i' m' /\
    (i <= i')%nat /\ (e = VLocal HostCycle -> i' = m) /\
    (forall n k, (n = 0%nat \/ is_loss e = false) -> q1 r0 n k y -> q1 r0 (n - receives e) k y') /\
    (e = VRequest -> q1 r0 (S (length (y_in y))) (length (s_offered (y_sys y))) y').
Proof.
  intros Hst Hi H. pose proof Hi as [I1 I2 I3].
  destruct H as [s e s' qi qo He H|s qi qo|s x qi qo|s qi qo|s x qi qo|s u x v qo|s qi u x v]; yfields.
  - destruct (step_rx prof lost r0 e s s' a i m Hst I1 H) as (Hst' & a' & i' & m' & J & Ji & Jm & _ & Jc).
    destruct (happen_mono prof s e s' H) as (Mc & Mo).
    destruct (ends_rx prof s e s' Hst He H) as (E1 & E2 & E3 & E4).
    split; [exact Hst'|]. split; [exact Mc|]. split; [exact Mo|]. exists a', i', m'.
    pose proof (ir_order _ _ _ _ _ _ I1) as (O1 & O2). pose proof (ir_order _ _ _ _ _ _ J) as (O1' & O2').
    pose proof (ir_reg _ _ _ _ _ _ I1) as Rg. pose proof (ir_reg _ _ _ _ _ _ J) as Rg'. rewrite E1, Rg in Rg'.
    assert (Hstep : phases (cnt r0 (length (s_offered s') - 1)) (cnt r0 (length (s_offered s'))) (rchain s' qi qo) /\
              Forall (shows r0 a' (s_offered s')) qi /\
              (forall x, In x (s_latch s :: qi) -> num r0 (length (s_offered s')) (ri_rx_cnt x) = num r0 (length (s_offered s)) (ri_rx_cnt x))).
    { destruct E4 as [E4|(seg & E4 & E5 & ->)].
      - rewrite E4. rewrite E4 in O2'.
        assert (Ea : a' = a).
        { rewrite <- (num_cnt r0 (length (s_offered s)) a), <- (num_cnt r0 (length (s_offered s)) a') by lia.
          unfold cnt. rewrite Rg'. reflexivity. }
        subst a'. split; [|auto]. unfold rchain. rewrite E1, E2. destruct E3 as [->|(_ & ->)]; [exact I2|].
        apply phases_dup. apply (phases_sub _ _ _ (rchain s qi qo)); [|exact I2]. apply sub_one.
      - assert (Ea : a = length (s_offered s)).
        { pose proof (ir_device _ _ _ _ _ _ I1) as D. rewrite <- E5, Rg in D. lia. }
        assert (Hall : Forall (eq (cnt r0 (length (s_offered s)))) (rchain s qi qo)).
        { unfold rchain in *. cbn [app] in I2 |- *. rewrite Rg in I2 |- *. rewrite <- Ea in I2 |- *.
          change ((r0 + Z.of_nat a) mod 4) with (cnt r0 a) in *. constructor; [reflexivity|].
          destruct a as [|a0].
          - apply Forall_forall. intros z Hz. apply phases_cons in I2.
            assert (Hp : phases (cnt r0 0) (cnt r0 0) (map ro_rx_cnt_ack qo ++
                ro_rx_cnt_ack (s_image s) :: ri_rx_cnt (s_latch s) :: map ri_rx_cnt qi)).
            { destruct I2 as [(_ & I2)|(_ & I2)]; [exact I2|apply phases_new; exact I2]. }
            destruct (phases_in _ _ _ _ Hp Hz); congruence.
          - apply (phases_after _ _ []) in I2; [exact I2|]. apply cnt_ne. lia. }
        assert (Hch : rchain s' qi qo = rchain s qi qo).
        { unfold rchain. rewrite E1, E2. destruct E3 as [->|(E3 & _)]; [reflexivity|discriminate]. }
        assert (Hnum : num r0 (S (length (s_offered s))) (cnt r0 (length (s_offered s))) = length (s_offered s)) by (apply num_cnt; lia).
        assert (Hnum' : num r0 (length (s_offered s)) (cnt r0 (length (s_offered s))) = length (s_offered s)) by (apply num_cnt; lia).
        assert (El : length (s_offered s') = S (length (s_offered s))) by (rewrite E4, app_length; cbn [length]; lia).
        assert (Ea' : a' = a).
        { rewrite El in O2'.
          rewrite <- (num_cnt r0 (S (length (s_offered s))) a), <- (num_cnt r0 (S (length (s_offered s))) a') by lia.
          unfold cnt. rewrite Rg'. reflexivity. }
        assert (Hin : forall x, In x (s_latch s :: qi) -> ri_rx_cnt x = cnt r0 (length (s_offered s))).
        { intros x Hx. rewrite Forall_forall in Hall. symmetry. apply Hall. unfold rchain. apply in_or_app. right. right.
          apply (in_map ri_rx_cnt (s_latch s :: qi)). exact Hx. }
        split; [|split].
        + rewrite Hch, El. replace (S (length (s_offered s)) - 1)%nat with (length (s_offered s)) by lia.
          apply phases_old. exact Hall.
        + rewrite Forall_forall in I3 |- *. intros x Hx. specialize (I3 x Hx). unfold shows in *.
          rewrite El, (Hin x (or_intror Hx)), Hnum. rewrite (Hin x (or_intror Hx)), Hnum' in I3. rewrite E4, Ea'.
          apply presents_app; [lia|exact I3].
        + intros x Hx. rewrite El, (Hin x Hx), Hnum, Hnum'. reflexivity. }
    destruct Hstep as (P1 & P2 & P3).
    split; [constructor; yfields; assumption|]. split; [exact Ji|].
    split; [intros E; inversion E; subst; auto|]. split; [|discriminate].
    intros n k _ (u & v & E & L & Hv & Hf). cbn [receives]. rewrite Nat.sub_0_r. exists u, v. yfields. rewrite E2.
    split; [exact E|]. split; [exact L|]. split; [exact Hv|].
    rewrite Forall_forall in Hf |- *. intros x Hx. rewrite P3; [auto|]. rewrite E. apply in_or_app. auto.
  - split; [exact Hst|]. split; [lia|]. split; [lia|]. exists a, i, m.
    assert (Ed : num r0 (length (s_offered s)) (ri_rx_cnt (s_device s)) = length (s_offered s)).
    { rewrite (ir_device _ _ _ _ _ _ I1). apply num_cnt. lia. }
    split; [|split; [lia|split; [discriminate|split]]].
    + constructor; yfields.
      * destruct I1 as [G1 G2 G3 G4 G5 G6 G7 G8 G9]. constructor; auto. intros Hk.
        replace (Nat.ltb (s_cycles s) 2) with false by lia. auto.
      * unfold rchain in *. rewrite map_app. cbn [map]. rewrite (ir_device _ _ _ _ _ _ I1).
        apply (phases_snoc _ _ _) in I2. rewrite <- app_assoc in I2. exact I2.
      * apply Forall_app. split; [exact I3|]. constructor; [|constructor]. unfold shows. rewrite Ed. apply I1.
    + intros n k _ Hq. cbn [receives]. rewrite Nat.sub_0_r. unfold q1 in *. yfields.
      apply (behind_snoc _ (s_latch s :: qi)); [|exact Hq]. rewrite Ed.
      destruct Hq as (u & v & E & L & Hv & Hf). destruct v as [|z v]; [contradiction|]. inversion Hf; subst.
      pose proof (num_le r0 (length (s_offered s)) (ri_rx_cnt z)). lia.
    + intros _. unfold q1. yfields. apply (behind_last _ (s_latch s :: qi)). rewrite Ed. lia.
  - split; [exact Hst|]. split; [unfold with_lat; sfields; lia|]. split; [unfold with_lat; sfields; lia|].
    exists a, i, (num r0 (length (s_offered s)) (ri_rx_cnt x)).
    assert (Hx : shows r0 a (s_offered s) x) by (inversion I3; assumption).
    split; [|split; [lia|split; [discriminate|split; [|discriminate]]]].
    + constructor; unfold with_lat; sfields; yfields.
      * assert (J : inv_rx lost r0 (with_lat s x) a i (num r0 (length (s_offered s)) (ri_rx_cnt x))).
        { apply (inv_rx_latch _ _ _ _ _ m); [exact I1| |exact Hx]. eapply phases_sub; [|exact I2].
          unfold rchain. cbn [map app]. apply Sub_keep. change [ro_rx_cnt_ack (s_image s); ri_rx_cnt x]
            with ([] ++ [ro_rx_cnt_ack (s_image s); ri_rx_cnt x]). apply sub_app; [apply sub_nil|].
          apply Sub_keep, Sub_drop, Sub_keep, sub_nil. }
        unfold with_lat in J. destruct J as [G1 G2 G3 G4 G5 G6 G7 G8 G9]. constructor; auto. intros Hk. sfields.
        replace (Nat.ltb (s_cycles s) 2) with false by lia. auto.
      * eapply phases_sub; [|exact I2]. unfold rchain. sfields. cbn [map]. apply sub_app; [apply sub_refl|].
        apply Sub_keep, Sub_drop, sub_refl.
      * inversion I3; assumption.
    + intros n k _ Hq. unfold q1 in *. unfold with_lat. sfields. yfields. apply (behind_first (s_latch s)); [exact Hq|discriminate].
  - split; [exact Hst|]. split; [lia|]. split; [lia|]. exists a, i, m.
    split; [|split; [lia|split; [discriminate|split; [|discriminate]]]].
    + constructor; yfields; auto.
      * destruct I1 as [G1 G2 G3 G4 G5 G6 G7 G8 G9]. constructor; auto. intros Hk.
        replace (Nat.ltb (s_cycles s) 2) with false by lia. auto.
      * unfold rchain in *. rewrite map_app. cbn [map].
        replace ((ro_rx_cnt_ack (s_register s) :: map ro_rx_cnt_ack qo ++ [ro_rx_cnt_ack (s_image s)]) ++
            ro_rx_cnt_ack (s_image s) :: ri_rx_cnt (s_latch s) :: map ri_rx_cnt qi)
          with ((ro_rx_cnt_ack (s_register s) :: map ro_rx_cnt_ack qo) ++ ro_rx_cnt_ack (s_image s) ::
            ro_rx_cnt_ack (s_image s) :: ri_rx_cnt (s_latch s) :: map ri_rx_cnt qi)
          by (cbn [app]; rewrite <- app_assoc; reflexivity).
        apply phases_dup. exact I2.
    + intros n k _ Hq. cbn [receives]. rewrite Nat.sub_0_r. exact Hq.
  - split; [exact Hst|]. split; [unfold with_reg; sfields; lia|]. split; [unfold with_reg; sfields; lia|].
    assert (J : (a <= num r0 (length (s_offered s)) (ro_rx_cnt_ack x))%nat /\
              inv_rx lost r0 (with_reg s x) (num r0 (length (s_offered s)) (ro_rx_cnt_ack x)) i m).
    { apply inv_rx_register; [exact I1|]. eapply phases_sub; [|exact I2].
      unfold rchain. cbn [map app]. apply Sub_keep, Sub_keep. change [ro_rx_cnt_ack (s_image s)]
        with ([] ++ [ro_rx_cnt_ack (s_image s)]). apply sub_app; [apply sub_nil|]. apply Sub_keep, sub_nil. }
    destruct J as (Ja & J).
    exists (num r0 (length (s_offered s)) (ro_rx_cnt_ack x)), i, m.
    split; [|split; [lia|split; [discriminate|split; [|discriminate]]]].
    + constructor; unfold with_reg in *; sfields; yfields.
      * destruct J as [G1 G2 G3 G4 G5 G6 G7 G8 G9]. constructor; auto. intros Hk. sfields.
        replace (Nat.ltb (s_cycles s) 2) with false by lia. auto.
      * eapply phases_sub; [|exact I2]. unfold rchain. sfields. cbn [map]. apply sub_app; [|apply sub_refl].
        apply Sub_drop, sub_refl.
      * eapply Forall_impl; [|exact I3]. intros z Hz. eapply presents_mono; [exact Ja|exact Hz].
    + intros n k _ Hq. cbn [receives]. rewrite Nat.sub_0_r. exact Hq.
  - split; [exact Hst|]. split; [lia|]. split; [lia|]. exists a, i, m.
    split; [|split; [lia|split; [discriminate|split; [|discriminate]]]].
    + constructor; yfields; auto.
      * destruct I1 as [G1 G2 G3 G4 G5 G6 G7 G8 G9]. constructor; auto. intros Hk.
        replace (Nat.ltb (s_cycles s) 2) with false by lia. auto.
      * eapply phases_sub; [|exact I2]. unfold rchain. apply sub_app; [apply sub_refl|]. apply Sub_keep, Sub_keep, sub_map, sub_one.
      * eapply subsequence_forall; [apply sub_one|exact I3].
    + intros n k [->|Hn] Hq; [|discriminate]. cbn [receives Nat.sub]. unfold q1 in *. yfields.
      eapply behind_none; [apply sub_one|exact Hq].
  - split; [exact Hst|]. split; [lia|]. split; [lia|]. exists a, i, m.
    split; [|split; [lia|split; [discriminate|split; [|discriminate]]]].
    + constructor; yfields; auto.
      * destruct I1 as [G1 G2 G3 G4 G5 G6 G7 G8 G9]. constructor; auto. intros Hk.
        replace (Nat.ltb (s_cycles s) 2) with false by lia. auto.
      * eapply phases_sub; [|exact I2]. unfold rchain. apply sub_app; [|apply sub_refl]. apply Sub_keep, sub_map, sub_one.
    + intros n k _ Hq. cbn [receives]. rewrite Nat.sub_0_r. exact Hq.
Qed.

(** *** The coupler *)

Lemma local_simulates prof i l ioff ooff t e t' s : alike_plant i l ioff ooff t s -> local e ->
  plant_step prof i l ioff ooff t e t' ->
  exists evs s', schedule prof s evs = Ok s' /\ alike_plant i l ioff ooff t' s' /\
    Forall local_event evs /\ kind_of i e evs.
Proof.
  intros [Hok Hat Hp Hl Hi Hr Hd Hw Ht Ho Hde Hc] Hloc H. unfold kind_of.
  destruct H as [t a v Hv|t j n c r Er|t j b Hb|t input Hu Hin|t c' image Hcy|t|t o Eo|t seg o Eo|t o Eo|t full ready].
  - exists [], s. split; [reflexivity|]. split; [|split; [repeat constructor|exact I]].
    destruct (set_static (t_coupler t) a v) as (_ & _ & M1 & M2 & M3 & _).
    split; plain; auto.
    + apply set_ok; assumption.
    + eapply serial_at_static; [exact M1|exact M2|exact Hat].
    + unfold serial. rewrite M3. exact Hp.
  - pose proof (read_ok (t_coupler t) j n Hok) as Hok'. destruct (read_static (t_coupler t) j n) as (_ & _ & M1 & M2 & _).
    rewrite Er in Hok', M1, M2. cbn [fst] in Hok', M1, M2.
    unfold coupler_read in Er. destruct (Nat.eqb_spec j i) as [->|Ej].
    + unfold serial in Hp. rewrite Hp in Er. destruct (processor_read (s_proc s) n) as (p' & bytes) eqn:Ep.
      apply pair_inj in Er. destruct Er as [<- <-].
      eexists [UserRead n], _. split; [cbn [schedule happen bind]; rewrite Ep; reflexivity|]. split; [|split; [repeat constructor|exact I]].
      split; plain; auto; try (eapply serial_at_static; [exact M1|exact M2|exact Hat]); [|congruence].
      rewrite serial_with, Nat.eqb_refl. reflexivity.
    + exists [], s. split; [reflexivity|]. split; [|split; [repeat constructor|exact I]].
      assert (Hs : serial c i = serial (t_coupler t) i /\ match r with Some bytes => [] | None => [] end = @nil Z).
      { destruct (map_get Nat.eqb j (c_processors (t_coupler t))) as [q|].
        - destruct (processor_read q n) as (q' & bytes). apply pair_inj in Er. destruct Er as [<- <-].
          rewrite serial_with. replace (Nat.eqb j i) with false by lia. auto.
        - apply pair_inj in Er. destruct Er as [<- <-]. auto. }
      destruct Hs as [Hs ->]. rewrite app_nil_r.
      split; plain; auto; [eapply serial_at_static; [exact M1|exact M2|exact Hat]|congruence].
  - pose proof (write_ok (t_coupler t) j b Hok Hb) as Hok'. destruct (write_static (t_coupler t) j b) as (_ & _ & M1 & M2 & _).
    destruct (Nat.eqb_spec j i) as [->|Ej].
    + destruct (processor_write (s_proc s) b) as (p' & n) eqn:Ep.
      eexists [UserWrite b], _. split; [cbn [schedule happen]; rewrite Ep; reflexivity|]. split; [|split; [repeat constructor|exact I]].
      split; plain; auto; try (eapply serial_at_static; [exact M1|exact M2|exact Hat]); [|congruence].
      unfold coupler_write. unfold serial in Hp. rewrite Hp, Ep. cbn [fst]. rewrite serial_with, Nat.eqb_refl. reflexivity.
    + exists [], s. split; [reflexivity|]. split; [|split; [repeat constructor|exact I]]. rewrite app_nil_r.
      split; plain; auto; [eapply serial_at_static; [exact M1|exact M2|exact Hat]|].
      unfold coupler_write. destruct (map_get Nat.eqb j (c_processors (t_coupler t))) as [q|]; [|exact Hp].
      destruct (processor_write q b) as (q' & n). cbn [fst]. rewrite serial_with.
      replace (Nat.eqb j i) with false by lia. exact Hp.
  - destruct Hloc.
  - destruct (serial_cycle _ _ _ _ _ _ _ _ _ _ Hok Hcy Hat)
      as (p0 & p' & rin & rout & rs & S1 & S2 & S3 & _ & S4 & _ & S5 & _ & S6 & S6' & _ & S7 & S8).
    rewrite Hp in S1. apply Some_inj in S1. subst p0. rewrite Hl in S3. apply Ok_inj in S3. subst rin.
    rewrite Hi in S4. apply Ok_inj in S4. subst rout.
    pose proof (cycle_ok _ _ _ _ _ _ Hok Hcy) as Hok'. destruct (cycle_static _ _ _ _ _ _ Hcy) as (M1 & M2).
    assert (Hw' : exists w s1, Forall local_event w /\ schedule prof s w = Ok s1 /\ s_proc s1 = fed (s_proc s) (requested (t_coupler t) (mk_address i 0)) /\
       s1 = mk_system (s_proc s1) (s_latch s) (s_image s) (s_register s) (s_device s)
            (s_written s ++ pending (t_coupler t) i) (s_taken s) (s_offered s) (s_delivered s) (s_cycles s)).
    { unfold pending. destruct (bytes_or_not (requested (t_coupler t) (mk_address i 0))) as [(b & ->)|(N1 & N2)].
      - destruct (processor_write (s_proc s) b) as (p1 & n) eqn:Ew.
        eexists [UserWrite b], _. cbn [schedule happen bind fed]. rewrite Ew. plain. split; [repeat constructor|]. split; [reflexivity|]. split; reflexivity.
      - exists [], s. rewrite N1, N2, app_nil_r. clear. destruct s. auto 10. }
    destruct Hw' as (w & s1 & Hlw & Hs1 & Ep1 & Es1).
    eexists (w ++ [HostCycle]), _. split.
    { rewrite schedule_app, Hs1. cbn [bind schedule happen]. rewrite Ep1. rewrite Es1. plain. rewrite S5. cbn [bind]. reflexivity. }
    split; [|split; [apply Forall_app; split; [exact Hlw|repeat constructor]|exists w; reflexivity]].
    split; plain; auto; try congruence. eapply serial_at_static; [exact M1|exact M2|exact Hat].
  - destruct Hloc.
  - rewrite Hr in Eo. apply Ok_inj in Eo. subst o.
    exists [DevTake]. cbn [schedule happen]. rewrite Hd. destruct (ro_tx_cnt (s_register s) =? ri_tx_cnt_ack (s_device s)).
    + exists s. split; [reflexivity|]. split; [|split; [repeat constructor|reflexivity]]. split; auto.
    + eexists. split; [reflexivity|]. split; [|split; [repeat constructor|reflexivity]]. split; plain; auto; try congruence.
  - rewrite Hr in Eo. apply Ok_inj in Eo. subst o.
    exists [DevOffer seg]. cbn [schedule happen]. rewrite Hd. destruct (ro_rx_cnt_ack (s_register s) =? ri_rx_cnt (s_device s)).
    + eexists. split; [reflexivity|]. split; [|split; [repeat constructor|exact I]]. split; plain; auto; try congruence.
    + exists s. split; [reflexivity|]. split; [|split; [repeat constructor|exact I]]. split; auto.
  - rewrite Hr in Eo. apply Ok_inj in Eo. subst o.
    exists [DevClear]. cbn [schedule happen]. rewrite Hd. destruct (ro_rx_cnt_ack (s_register s) =? ri_rx_cnt (s_device s)).
    + eexists. split; [reflexivity|]. split; [|split; [repeat constructor|exact I]]. split; plain; auto; try congruence.
    + exists s. split; [reflexivity|]. split; [|split; [repeat constructor|exact I]]. split; auto.
  - exists [DevStatus full ready]. cbn [schedule happen]. rewrite Hd. eexists. split; [reflexivity|]. split; [|split; [repeat constructor|exact I]].
    split; plain; auto; try congruence.
Qed.

Record alike_delayed (i : nat) (l : process_data_length) (ioff ooff : Z) (d : delayed) (y : dsys) : Prop := {
  ad_plant : alike_plant i l ioff ooff (d_plant d) (y_sys y);
  ad_in : Forall2 (fun image x => rs_in_from_bytes (in_part l ioff image) = Ok x) (d_inputs d) (y_in y);
  ad_out : Forall2 (fun image x => rs_out_from_bytes (out_part l ooff image) = Ok x) (d_outputs d) (y_out y) }.

(** The events at the two ends for an event over the connection. *)
Definition dkind (e : delayed_event) (evs : list devent) : Prop :=
  match e with
  | DRequest _ => evs = [VRequest]
  | DReceive => evs = [VReceive]
  | DSubmit => evs = [VSubmit]
  | DApply => evs = [VApply]
  | DLoseInput => evs = [VLoseIn]
  | DLoseOutput => evs = [VLoseOut]
  | DEvent PCycle => exists w, evs = map VLocal (w ++ [HostCycle])
  | DEvent PTake => evs = map VLocal [DevTake]
  | DEvent _ => exists w, evs = map VLocal w
  end.

Lemma druns_local prof evs : forall s s' qi qo, Forall local_event evs -> schedule prof s evs = Ok s' ->
  druns prof (mk_dsys s qi qo) (map VLocal evs) (mk_dsys s' qi qo).
Proof.
  induction evs as [|e evs IH]; intros s s' qi qo Hl H; cbn [schedule map] in *.
  - apply Ok_inj in H. subst. constructor.
  - apply bind_ok in H. destruct H as (s1 & H1 & H2). inversion Hl; subst. econstructor; [constructor; eassumption|].
    apply IH; assumption.
Qed.

Lemma Forall2_snoc {A B} (R : A -> B -> Prop) l l' x x' : Forall2 R l l' -> R x x' -> Forall2 R (l ++ [x]) (l' ++ [x']).
Proof. intros H Hx. apply Forall2_app; auto. Qed.

Lemma delayed_simulates prof i l ioff ooff d e d' y : alike_delayed i l ioff ooff d y ->
  delayed_step prof i l ioff ooff d e d' ->
  exists evs y', druns prof y evs y' /\ alike_delayed i l ioff ooff d' y' /\ dkind e evs.
Proof.
  intros [Ha Hin Hout] H. destruct y as [s qi' qo'].
  destruct H as [t e t' qi qo He H|t input qi qo Hu Hd|t input qi qo|t qi qo|t image qi qo|t a input b qo|t qi a image b]; yfields;
    cbn [d_plant d_inputs d_outputs] in *.
  - destruct (local_simulates _ _ _ _ _ _ _ _ _ Ha He H) as (evs & s' & G & A & L & K).
    exists (map VLocal evs), (mk_dsys s' qi' qo'). split; [apply druns_local; assumption|].
    split; [constructor; assumption|]. unfold dkind. destruct e; cbn [kind_of] in K; try (exists evs; reflexivity).
    + destruct K as (w & ->). exists w. reflexivity.
    + subst evs. reflexivity.
  - exists [VRequest], (mk_dsys s (qi' ++ [s_device s]) qo'). split; [econstructor; [constructor|constructor]|]. split; [|reflexivity].
    constructor; cbn [d_plant d_inputs d_outputs]; yfields; auto. apply Forall2_snoc; [exact Hin|].
    destruct Ha as [_ _ _ _ _ _ Hdev _ _ _ _ _]. congruence.
  - inversion Hin as [|? x ? qi'' Hx Hq]; subst. exists [VReceive], (mk_dsys (with_lat s x) qi'' qo').
    split; [econstructor; [constructor|constructor]|]. split; [|reflexivity].
    constructor; cbn [d_plant d_inputs d_outputs]; yfields; auto.
    destruct Ha. constructor; unfold with_latch, with_lat; plain; assumption.
  - exists [VSubmit], (mk_dsys s qi' (qo' ++ [s_image s])). split; [econstructor; [constructor|constructor]|]. split; [|reflexivity].
    constructor; cbn [d_plant d_inputs d_outputs]; yfields; auto. apply Forall2_snoc; [exact Hout|]. apply Ha.
  - inversion Hout as [|? x ? qo'' Hx Hq]; subst. exists [VApply], (mk_dsys (with_reg s x) qi' qo'').
    split; [econstructor; [constructor|constructor]|]. split; [|reflexivity].
    constructor; cbn [d_plant d_inputs d_outputs]; yfields; auto.
    destruct Ha. constructor; unfold with_register, with_reg; plain; assumption.
  - apply Forall2_app_inv_l in Hin. destruct Hin as (a' & b' & Hx & Hb & ->). inversion Hb as [|? x ? b'' Hx' Hb']; subst.
    exists [VLoseIn], (mk_dsys s (a' ++ b'') qo'). split; [econstructor; [constructor|constructor]|]. split; [|reflexivity].
    constructor; cbn [d_plant d_inputs d_outputs]; yfields; auto. apply Forall2_app; assumption.
  - apply Forall2_app_inv_l in Hout. destruct Hout as (a' & b' & Hx & Hb & ->). inversion Hb as [|? x ? b'' Hx' Hb']; subst.
    exists [VLoseOut], (mk_dsys s qi' (a' ++ b'')). split; [econstructor; [constructor|constructor]|]. split; [|reflexivity].
    constructor; cbn [d_plant d_inputs d_outputs]; yfields; auto. apply Forall2_app; assumption.
Qed.

Lemma losses_local w : losses (map VLocal w) /\ total receives (map VLocal w) = 0%nat /\ total applies (map VLocal w) = 0%nat.
Proof.
  unfold losses, total. induction w as [|e w (H1 & H2 & H3)]; cbn [map list_sum fold_right receives applies]; [auto|].
  split; [constructor; [reflexivity|exact H1]|]. split; assumption.
Qed.

Lemma total_app f a b : total f (a ++ b) = (total f a + total f b)%nat.
Proof. unfold total. rewrite map_app, list_sum_app. reflexivity. Qed.

Lemma dkind_counts e evs : dkind e evs ->
  total receives evs = (match e with DReceive => 1 | _ => 0 end)%nat /\
  total applies evs = (match e with DApply => 1 | _ => 0 end)%nat /\
  (e <> DLoseInput -> e <> DLoseOutput -> losses evs).
Proof.
  intros H.
  assert (Hw : forall w, evs = map VLocal w -> total receives evs = 0%nat /\ total applies evs = 0%nat /\ losses evs).
  { intros w ->. destruct (losses_local w) as (H1 & H2 & H3). auto. }
  destruct e as [e| | | | | |]; cbn [dkind] in H; try (subst evs; cbn; split; [reflexivity|split; [reflexivity|]]; intros; try congruence; repeat constructor).
  assert (Hx : exists w, evs = map VLocal w) by (destruct e; try exact H; [destruct H as (w & ->); eauto|eauto]).
  destruct Hx as (w & Hx). destruct (Hw w Hx) as (H1 & H2 & H3). auto.
Qed.

Lemma delayed_run_simulates prof i l ioff ooff es : forall d d' y, alike_delayed i l ioff ooff d y ->
  delayed_runs prof i l ioff ooff d es d' ->
  exists evs y', druns prof y evs y' /\ alike_delayed i l ioff ooff d' y' /\
    total receives evs = receptions es /\ total applies evs = applications es /\ (nothing_lost es -> losses evs).
Proof.
  induction es as [|e es IH]; intros d d' y Ha H; inversion H; subst.
  - exists [], y. split; [constructor|]. split; [exact Ha|]. split; [reflexivity|]. split; [reflexivity|]. constructor.
  - match goal with A : delayed_step _ _ _ _ _ d e ?d1, B : delayed_runs _ _ _ _ _ ?d1 es d' |- _ =>
      destruct (delayed_simulates _ _ _ _ _ _ _ _ _ Ha A) as (ev1 & y1 & R1 & A1 & K1);
      destruct (IH d1 d' y1 A1 B) as (ev2 & y2 & R2 & A2 & C1 & C2 & C3) end.
    destruct (dkind_counts e ev1 K1) as (D1 & D2 & D3).
    exists (ev1 ++ ev2), y2. split; [eapply druns_app; eassumption|]. split; [exact A2|].
    rewrite !total_app, D1, D2, C1, C2. unfold receptions, applications. cbn [filter].
    split; [destruct e; reflexivity|]. split; [destruct e; reflexivity|].
    intros (N1 & N2). cbn [In] in N1, N2. apply Forall_app. split; [apply D3; intros ->; tauto|]. apply C3. split; tauto.
Qed.

Lemma delayed_starts i l ioff ooff t : plant_start i l ioff ooff t ->
  exists s, start l s /\ alike_delayed i l ioff ooff (mk_delayed t [] []) (mk_dsys s [] []).
Proof.
  intros H. destruct (plant_starts _ _ _ _ _ H) as (s & Hs & Ha). exists s. split; [exact Hs|].
  constructor; cbn [d_plant d_inputs d_outputs]; yfields; auto.
Qed.

Lemma C107_transmission_all : forall prof i l ioff ooff t0 es d, plant_start i l ioff ooff t0 ->
  delayed_runs prof i l ioff ooff (mk_delayed t0 [] []) es d ->
  t_written (d_plant d) = t_taken (d_plant d) ++ on_its_way l ooff (d_plant d) ++ waiting_in (t_coupler (d_plant d)) i.
Proof.
  intros prof i l ioff ooff t0 es d H0 H. destruct (delayed_starts _ _ _ _ _ H0) as (s0 & S0 & A0).
  destruct (delayed_run_simulates _ _ _ _ _ _ _ _ _ A0 H) as (evs & y & R & [A _ _] & _).
  destruct (run_dtx prof l evs _ y (start_inv_dtx l s0 S0) R) as (q & n & [[I _ _ _] _ _ _ _ _ _ _]).
  pose proof (it_written _ _ I) as E. unfold untaken in E. rewrite concat_app in E.
  destruct (alike_on_its_way _ _ _ _ _ _ A) as (-> & -> & _). unfold queued, waiting in *. destruct A. congruence.
Qed.

Lemma delayed_runs_app prof i l ioff ooff es1 : forall d es2 d', delayed_runs prof i l ioff ooff d (es1 ++ es2) d' ->
  exists d1, delayed_runs prof i l ioff ooff d es1 d1 /\ delayed_runs prof i l ioff ooff d1 es2 d'.
Proof.
  induction es1 as [|e es1 IH]; intros d es2 d' H; cbn [app] in H.
  - exists d. split; [constructor|exact H].
  - inversion H; subst. match goal with B : delayed_runs _ _ _ _ _ ?d1 (es1 ++ es2) d' |- _ => destruct (IH d1 es2 d' B) as (d2 & H1 & H2) end.
    exists d2. split; [econstructor; eassumption|exact H2].
Qed.

Lemma druns_one prof y e y' : druns prof y [e] y' -> dstep prof y e y'.
Proof. intros H. inversion H; subst. match goal with B : druns _ _ [] _ |- _ => inversion B; subst end. assumption. Qed.

Lemma druns_split prof a : forall y b y', druns prof y (a ++ b) y' -> exists y1, druns prof y a y1 /\ druns prof y1 b y'.
Proof.
  induction a as [|e a IH]; intros y b y' H; cbn [app] in H; [exists y; split; [constructor|exact H]|].
  inversion H; subst. match goal with B : druns _ ?y1 (a ++ b) y' |- _ => destruct (IH y1 b y' B) as (y2 & H1 & H2) end.
  exists y2. split; [econstructor; eassumption|exact H2].
Qed.

Lemma delayed_cycle prof i l ioff ooff d d' y : alike_delayed i l ioff ooff d y ->
  delayed_step prof i l ioff ooff d (DEvent PCycle) d' ->
  exists w y1 y', druns prof y (map VLocal w) y1 /\ dstep prof y1 (VLocal HostCycle) y' /\ alike_delayed i l ioff ooff d' y'.
Proof.
  intros Ha H. destruct (delayed_simulates _ _ _ _ _ _ _ _ _ Ha H) as (evs & y' & R & A & (w & ->)).
  rewrite map_app in R. apply druns_split in R. destruct R as (y1 & R1 & R2). apply druns_one in R2. eauto 10.
Qed.

Lemma delayed_round_simulates prof i l ioff ooff d d' y : alike_delayed i l ioff ooff d y ->
  delayed_round prof i l ioff ooff d d' -> exists y', dround prof y y' /\ alike_delayed i l ioff ooff d' y'.
Proof.
  intros Ha H. destruct H as [d a d1 input b d2 c d3 e d4 f d5 g d6 h d7 Ra Rb Lb Nb Rc Rcy Re Rf Lf Nf Rg].
  destruct (delayed_run_simulates _ _ _ _ _ _ _ _ _ Ha Ra) as (va & y1 & Va & A1 & _).
  inversion Rb as [|? ? d1' ? ? Rq Rb']; subst.
  destruct (delayed_simulates _ _ _ _ _ _ _ _ _ A1 Rq) as (vq & y0 & Vq & A0 & Kq). cbn [dkind] in Kq. subst vq. apply druns_one in Vq.
  destruct (delayed_run_simulates _ _ _ _ _ _ _ _ _ A0 Rb') as (vb & y2 & Vb & A2 & Tb & _ & Lb').
  destruct (delayed_run_simulates _ _ _ _ _ _ _ _ _ A2 Rc) as (vc & y3 & Vc & A3 & _).
  destruct (delayed_cycle _ _ _ _ _ _ _ _ A3 Rcy) as (w & y3' & y4 & Vw & Vcy & A4).
  destruct (delayed_run_simulates _ _ _ _ _ _ _ _ _ A4 Re) as (ve & y5 & Ve & A5 & _).
  inversion Rf as [|? ? d5' ? ? Rs Rf']; subst.
  destruct (delayed_simulates _ _ _ _ _ _ _ _ _ A5 Rs) as (vs & y5' & Vs & A5' & Ks). cbn [dkind] in Ks. subst vs. apply druns_one in Vs.
  destruct (delayed_run_simulates _ _ _ _ _ _ _ _ _ A5' Rf') as (vf & y6 & Vf & A6 & _ & Tf & Lf').
  apply delayed_runs_app in Rg. destruct Rg as (d6' & Rg & Rh). inversion Rh as [|? ? d6'' ? ? Rt Rh']; subst.
  destruct (delayed_run_simulates _ _ _ _ _ _ _ _ _ A6 Rg) as (vg & y7 & Vg & A7 & _).
  destruct (delayed_simulates _ _ _ _ _ _ _ _ _ A7 Rt) as (vt & y8 & Vt & A8 & Kt). cbn [dkind map] in Kt. subst vt. apply druns_one in Vt.
  destruct (delayed_run_simulates _ _ _ _ _ _ _ _ _ A8 Rh') as (vh & y9 & Vh & A9 & _).
  exists y9. split; [|exact A9].
  exists va, y1, vb, y2, (vc ++ map VLocal w), y3', y4, ve, y5, vf, y6, vg, y7, y8, vh, y0, y5'.
  assert (L1 : length (y_in y1) = length (d_inputs d1)) by (symmetry; eapply Forall2_length, ad_in; exact A1).
  assert (L2 : length (y_out y5) = length (d_outputs d5)) by (symmetry; eapply Forall2_length, ad_out; exact A5).
  rewrite Tb, Tf, L1, L2.
  do 5 (split; [auto; eassumption|]). split; [eapply druns_app; eassumption|].
  do 8 (split; [auto; eassumption|]). exact Vh.
Qed.

Lemma delayed_rounds_simulate prof i l ioff ooff n : forall d d' y, alike_delayed i l ioff ooff d y ->
  delayed_rounds prof i l ioff ooff n d d' -> exists y', drounds prof n y y' /\ alike_delayed i l ioff ooff d' y'.
Proof.
  induction n as [|n IH]; intros d d' y Ha H; inversion H; subst.
  - exists y. split; [constructor|exact Ha].
  - match goal with A : delayed_round _ _ _ _ _ d ?d1, B : delayed_rounds _ _ _ _ _ n ?d1 d' |- _ =>
      destruct (delayed_round_simulates _ _ _ _ _ _ _ _ Ha A) as (y1 & R1 & A1);
      destruct (IH d1 d' y1 A1 B) as (y2 & R2 & A2) end.
    exists y2. split; [econstructor; eassumption|exact A2].
Qed.

Lemma C107_progress_all : forall prof i l ioff ooff t0 es d n d', plant_start i l ioff ooff t0 ->
  delayed_runs prof i l ioff ooff (mk_delayed t0 [] []) es d -> (2 <= t_cycles (d_plant d))%nat ->
  delayed_rounds prof i l ioff ooff n d d' -> (outstanding i l ooff (d_plant d) <= n)%nat ->
  exists rest, t_taken (d_plant d') = t_written (d_plant d) ++ rest.
Proof.
  intros prof i l ioff ooff t0 es d n d' H0 H Hk Hr Hn. destruct (delayed_starts _ _ _ _ _ H0) as (s0 & S0 & A0).
  destruct (delayed_run_simulates _ _ _ _ _ _ _ _ _ A0 H) as (evs & y & R & A & _).
  destruct (run_dtx prof l evs _ y (start_inv_dtx l s0 S0) R) as (q & m & [I _ _ _ _ _ _ _]).
  destruct (delayed_rounds_simulate _ _ _ _ _ _ _ _ _ A Hr) as (y' & Rr & A').
  destruct (alike_on_its_way _ _ _ _ _ _ (ad_plant _ _ _ _ _ _ A)) as (_ & _ & _ & En). rewrite En in Hn.
  assert (Hc : (2 <= s_cycles (y_sys y))%nat) by (destruct A as [[] _ _]; congruence).
  destruct (run_drounds prof l n y y' I Hc Rr) as (p2 & n2 & I2 & U2 & K2 & L2).
  assert (HL : (length (untaken (y_sys y)) <= length p2)%nat).
  { unfold untaken in *. rewrite app_length in *. lia. }
  destruct (prefix_concat _ _ _ _ U2 HL) as (rest & ->). exists (concat rest).
  destruct I as [I _ _ _]. pose proof (it_written _ _ I) as E.
  destruct A as [[] _ _]. destruct A' as [[] _ _]. rewrite concat_app, app_assoc in K2. congruence.
Qed.

(** *** Reception through the coupler *)

Lemma run_drx_init prof r0 es : forall y y' lost a i m, p_init_state (s_proc (y_sys y)) = stage (s_cycles (y_sys y)) ->
  (lost <= length (s_offered (y_sys y)))%nat -> inv_drx lost r0 y a i m -> druns prof y es y' ->
  p_init_state (s_proc (y_sys y')) = stage (s_cycles (y_sys y')) /\
  exists lost' a' i' m', (lost' <= length (s_offered (y_sys y')))%nat /\ inv_drx lost' r0 y' a' i' m'.
Proof.
  induction es as [|e es IH]; intros y y' lost a i m Hst Hl Hi H; inversion H; subst.
  - split; [exact Hst|]. exists lost, a, i, m. auto.
  - match goal with A : dstep _ y e ?y1, B : druns _ ?y1 es y' |- _ =>
      destruct (dstep_rx prof lost r0 e y y1 a i m Hst Hi A) as (Hst1 & Mc & Mo & a1 & i1 & m1 & Hi1 & _);
      eapply IH; [exact Hst1| |exact Hi1|exact B] end. destruct (Nat.ltb _ _); lia.
Qed.

Lemma run_drx_done prof r0 es : forall y y' lost a i m, p_init_state (s_proc (y_sys y)) = stage (s_cycles (y_sys y)) ->
  (2 <= s_cycles (y_sys y))%nat -> inv_drx lost r0 y a i m -> druns prof y es y' ->
  p_init_state (s_proc (y_sys y')) = stage (s_cycles (y_sys y')) /\ (2 <= s_cycles (y_sys y'))%nat /\
  (length (s_offered (y_sys y)) <= length (s_offered (y_sys y')))%nat /\
  exists a' i' m', inv_drx lost r0 y' a' i' m' /\ (i <= i')%nat /\
    (forall n k, (n = 0%nat \/ losses es) -> q1 r0 n k y -> q1 r0 (n - total receives es) k y').
Proof.
  induction es as [|e es IH]; intros y y' lost a i m Hst Hk Hi H; inversion H; subst.
  - split; [exact Hst|]. split; [exact Hk|]. split; [lia|]. exists a, i, m. split; [exact Hi|]. split; [lia|].
    intros n k _ Hq. cbn [total map list_sum fold_right]. rewrite Nat.sub_0_r. exact Hq.
  - match goal with A : dstep _ y e ?y1, B : druns _ ?y1 es y' |- _ =>
      destruct (dstep_rx prof lost r0 e y y1 a i m Hst Hi A) as (Hst1 & Mc & Mo & a1 & i1 & m1 & Hi1 & J1 & _ & Q1 & _);
      replace (Nat.ltb (s_cycles (y_sys y)) 2) with false in Hi1 by lia;
      destruct (IH y1 y' lost a1 i1 m1 Hst1 ltac:(lia) Hi1 B) as (G1 & G2 & G3 & a2 & i2 & m2 & G4 & G5 & G6) end.
    split; [exact G1|]. split; [exact G2|]. split; [lia|]. exists a2, i2, m2. split; [exact G4|]. split; [lia|].
    intros n k Hl Hq.
    assert (L1 : n = 0%nat \/ is_loss e = false) by (destruct Hl as [Hl|Hl]; [auto|inversion Hl; auto]).
    assert (L2 : (n - receives e = 0)%nat \/ losses es) by (destruct Hl as [Hl|Hl]; [left; lia|inversion Hl; auto]).
    specialize (G6 _ k L2 (Q1 n k L1 Hq)). unfold total. cbn [map list_sum fold_right].
    replace (n - (receives e + fold_right Nat.add 0 (map receives es)))%nat with (n - receives e - total receives es)%nat
      by (unfold total, list_sum; lia). exact G6.
Qed.

Lemma start_inv_drx l s : start l s ->
  p_init_state (s_proc s) = stage (s_cycles s) /\ inv_drx 0 (ri_rx_cnt (s_device s)) (mk_dsys s [] []) 0 0 0.
Proof.
  intros Hs. split; [apply (start_inv_tx l s Hs)|]. pose proof (start_inv_rx l s Hs) as Hi.
  constructor; yfields; auto. pose proof Hi as [(_ & O) G1 G2 G3 _ _ _ _ _].
  assert (E : length (s_offered s) = 0%nat) by (destruct Hs as (_ & _ & _ & _ & _ & _ & _ & _ & _ & _ & -> & _); reflexivity).
  unfold rchain. rewrite E, G1, G2, G3. cbn [map app Nat.sub]. apply phases_new. repeat constructor.
Qed.

Lemma C108_reception_all : forall prof i l ioff ooff t0 es1 d1 es2 d2, plant_start i l ioff ooff t0 ->
  delayed_runs prof i l ioff ooff (mk_delayed t0 [] []) es1 d1 -> (2 <= t_cycles (d_plant d1))%nat ->
  delayed_runs prof i l ioff ooff d1 es2 d2 ->
  (exists lost fetched,
    (lost <= length (t_offered (d_plant d1)))%nat /\
    (lost + fetched <= length (t_offered (d_plant d2)) <= lost + fetched + 1)%nat /\
    t_delivered (d_plant d2) ++ readable_in (t_coupler (d_plant d2)) i
      = concat (firstn fetched (skipn lost (t_offered (d_plant d2))))) /\
  (t_offered (d_plant d1) = [] ->
   exists fetched, (fetched <= length (t_offered (d_plant d2)) <= fetched + 1)%nat /\
     t_delivered (d_plant d2) ++ readable_in (t_coupler (d_plant d2)) i
       = concat (firstn fetched (t_offered (d_plant d2)))).
Proof.
  intros prof i l ioff ooff t0 es1 d1 es2 d2 H0 H1 Hk H2. destruct (delayed_starts _ _ _ _ _ H0) as (s0 & S0 & A0).
  destruct (start_inv_drx l s0 S0) as (Hst0 & Hi0).
  destruct (delayed_run_simulates _ _ _ _ _ _ _ _ _ A0 H1) as (ev1 & y1 & R1 & A1 & _).
  destruct (delayed_run_simulates _ _ _ _ _ _ _ _ _ A1 H2) as (ev2 & y2 & R2 & A2 & _).
  destruct (run_drx_init prof _ ev1 (mk_dsys s0 [] []) y1 0 0 0 0 Hst0 ltac:(lia) Hi0 R1) as (Hst1 & lost & a & j & m & Hl & Hi1).
  assert (Hc : (2 <= s_cycles (y_sys y1))%nat) by (destruct A1 as [[] _ _]; congruence).
  destruct (run_drx_done prof _ ev2 y1 y2 lost a j m Hst1 Hc Hi1 R2) as (_ & Hk2 & _ & a' & j' & m' & [J _ _] & _).
  destruct J as [(O1 & O2) _ _ _ _ _ _ _ R].
  destruct A1 as [A1 _ _]. destruct A2 as [A2 _ _].
  destruct (alike_on_its_way _ _ _ _ _ _ A2) as (_ & _ & -> & _). unfold received in *.
  destruct A1 as [_ _ _ _ _ _ _ _ _ -> _ _]. destruct A2 as [_ _ _ _ _ _ _ _ _ -> -> _].
  assert (G : exists lost fetched, (lost <= length (s_offered (y_sys y1)))%nat /\
    (lost + fetched <= length (s_offered (y_sys y2)) <= lost + fetched + 1)%nat /\
    s_delivered (y_sys y2) ++ buffered (s_proc (y_sys y2)) = concat (firstn fetched (skipn lost (s_offered (y_sys y2))))).
  { destruct (R Hk2) as [(_ & Q1 & Q2)|(d & Q0 & Q1 & _ & Q3)].
    - exists j', 0%nat. cbn [firstn concat]. split; [lia|]. split; [lia|exact Q1].
    - exists d, (j' - d)%nat. split; [lia|]. split; [lia|exact Q3]. }
  split; [exact G|]. destruct G as (lost' & f & G1 & G2 & G3). intros E. rewrite E in G1. cbn [length] in G1.
  assert (lost' = 0)%nat by lia. subst lost'. exists f. split; [lia|exact G3].
Qed.

Lemma C108_fetch_all : forall prof i l ioff ooff t0 es di es1 d1 input b d2 c d3 d4 e d5, plant_start i l ioff ooff t0 ->
  delayed_runs prof i l ioff ooff (mk_delayed t0 [] []) es di -> (2 <= t_cycles (d_plant di))%nat ->
  delayed_runs prof i l ioff ooff di es1 d1 ->
  delayed_runs prof i l ioff ooff d1 (DRequest input :: b) d2 -> nothing_lost b ->
  (length (d_inputs d1) < receptions b)%nat ->
  delayed_runs prof i l ioff ooff d2 c d3 -> delayed_step prof i l ioff ooff d3 (DEvent PCycle) d4 ->
  delayed_runs prof i l ioff ooff d4 e d5 ->
  exists lost fetched,
    (lost <= length (t_offered (d_plant di)))%nat /\
    (length (t_offered (d_plant d1)) <= lost + fetched <= length (t_offered (d_plant d5)))%nat /\
    t_delivered (d_plant d5) ++ readable_in (t_coupler (d_plant d5)) i
      = concat (firstn fetched (skipn lost (t_offered (d_plant d5)))).
Proof.
  intros prof i l ioff ooff t0 es di es1 d1 input b d2 c d3 d4 e d5 H0 H Hk H1 Hb Lb Nb Hc Hcy He.
  destruct (delayed_starts _ _ _ _ _ H0) as (s0 & S0 & A0). destruct (start_inv_drx l s0 S0) as (Hst0 & Hi0).
  destruct (delayed_run_simulates _ _ _ _ _ _ _ _ _ A0 H) as (ev & yi & R & Ai & _).
  destruct (run_drx_init prof _ ev (mk_dsys s0 [] []) yi 0 0 0 0 Hst0 ltac:(lia) Hi0 R) as (Hsti & lost & ai & ji & mi & Hl & Hii).
  set (r0 := ri_rx_cnt (s_device s0)) in *.
  assert (Hci : (2 <= s_cycles (y_sys yi))%nat) by (destruct Ai as [[] _ _]; congruence).
  destruct (delayed_run_simulates _ _ _ _ _ _ _ _ _ Ai H1) as (ev1 & y1 & R1 & A1 & _).
  destruct (run_drx_done prof _ ev1 yi y1 lost ai ji mi Hsti Hci Hii R1) as (Hst1 & Hk1 & _ & a1 & j1 & m1 & I1 & _).
  inversion Hb as [|? ? d1' ? ? Hq Hb']; subst.
  destruct (delayed_simulates _ _ _ _ _ _ _ _ _ A1 Hq) as (vq & y0 & Vq & A0' & Kq). cbn [dkind] in Kq. subst vq. apply druns_one in Vq.
  destruct (dstep_rx prof lost r0 _ y1 y0 a1 j1 m1 Hst1 I1 Vq) as (Hst2 & M2 & _ & a2 & j2 & m2 & I2 & _ & _ & _ & Q).
  replace (Nat.ltb (s_cycles (y_sys y1)) 2) with false in I2 by lia. specialize (Q eq_refl).
  destruct (delayed_run_simulates _ _ _ _ _ _ _ _ _ A0' Hb') as (vb & y2 & Vb & A2 & Tb & _ & Lb').
  destruct (run_drx_done prof _ vb y0 y2 lost a2 j2 m2 Hst2 ltac:(lia) I2 Vb) as (Hst3 & Hk3 & _ & a3 & j3 & m3 & I3 & _ & Q3).
  specialize (Q3 _ _ (or_intror (Lb' Lb)) Q).
  assert (L1 : length (y_in y1) = length (d_inputs d1)) by (symmetry; eapply Forall2_length, ad_in; exact A1).
  replace (S (length (y_in y1)) - total receives vb)%nat with 0%nat in Q3 by lia.
  destruct (delayed_run_simulates _ _ _ _ _ _ _ _ _ A2 Hc) as (vc & y3 & Vc & A3 & _).
  destruct (delayed_cycle _ _ _ _ _ _ _ _ A3 Hcy) as (w & y3' & y4 & Vw & Vcy & A4).
  pose proof (druns_app _ _ _ _ _ _ Vc Vw) as Vcw.
  destruct (run_drx_done prof _ _ y2 y3' lost a3 j3 m3 Hst3 Hk3 I3 Vcw) as (Hst4 & Hk4 & _ & a4 & j4 & m4 & I4 & _ & Q4).
  specialize (Q4 _ _ (or_introl eq_refl) Q3). cbn [Nat.sub] in Q4.
  assert (Hm4 : (length (s_offered (y_sys y1)) <= m4)%nat).
  { destruct Q4 as (u & v & E & L & Hv & Hf). destruct u; cbn [length] in L; [|lia]. cbn [app] in E. subst v.
    inversion Hf as [|? ? Hx _]; subst. destruct I4 as [[(O1 & O2) _ _ Elt _ _ _ _ _] _ _].
    rewrite Elt in Hx. change ((r0 + Z.of_nat m4) mod 4) with (cnt r0 m4) in Hx. rewrite num_cnt in Hx by lia. exact Hx. }
  destruct (dstep_rx prof lost r0 _ y3' y4 a4 j4 m4 Hst4 I4 Vcy) as (Hst5 & M5 & _ & a5 & j5 & m5 & I5 & _ & E5 & _).
  replace (Nat.ltb (s_cycles (y_sys y3')) 2) with false in I5 by lia. specialize (E5 eq_refl).
  destruct (delayed_run_simulates _ _ _ _ _ _ _ _ _ A4 He) as (ve & y5 & Ve & A5 & _).
  destruct (run_drx_done prof _ ve y4 y5 lost a5 j5 m5 Hst5 ltac:(lia) I5 Ve) as (_ & Hk6 & _ & a6 & j6 & m6 & [J _ _] & J6 & _).
  destruct J as [(O1 & O2) _ _ _ _ _ _ _ Rr].
  destruct Ai as [Ai _ _]. destruct A1 as [A1 _ _]. destruct A5 as [A5 _ _].
  destruct (alike_on_its_way _ _ _ _ _ _ A5) as (_ & _ & -> & _). unfold received in *.
  destruct Ai as [_ _ _ _ _ _ _ _ _ -> _ _]. destruct A1 as [_ _ _ _ _ _ _ _ _ -> _ _].
  destruct A5 as [_ _ _ _ _ _ _ _ _ -> -> _].
  destruct (Rr Hk6) as [(_ & G1 & G2)|(d & G0 & G1 & _ & G3)].
  - exists j6, 0%nat. cbn [firstn concat]. split; [lia|]. split; [lia|exact G1].
  - exists d, (j6 - d)%nat. split; [lia|]. split; [lia|exact G3].
Qed.

(** *** Computing histories, for the examples *)

Definition is_local (e : plant_event) : bool := match e with PInput _ | POutput => false | _ => true end.

Definition delayed_exec (prof : profile) (i : nat) (l : process_data_length) (ioff ooff : Z) (d : delayed) (e : delayed_event)
  : option delayed :=
  match e with
  | DEvent e => if is_local e then match plant_exec prof i l ioff ooff (d_plant d) e with
                  | Some t => Some (mk_delayed t (d_inputs d) (d_outputs d)) | None => None end else None
  | DRequest input => match plant_exec prof i l ioff ooff (d_plant d) (PInput input) with
                  | Some _ => Some (mk_delayed (d_plant d) (d_inputs d ++ [input]) (d_outputs d)) | None => None end
  | DReceive => match d_inputs d with
                  | input :: qi => Some (mk_delayed (with_latch (d_plant d) input) qi (d_outputs d)) | [] => None end
  | DSubmit => Some (mk_delayed (d_plant d) (d_inputs d) (d_outputs d ++ [t_image (d_plant d)]))
  | DApply => match d_outputs d with
                  | image :: qo => Some (mk_delayed (with_register (d_plant d) image) (d_inputs d) qo) | [] => None end
  | DLoseInput => match d_inputs d with _ :: qi => Some (mk_delayed (d_plant d) qi (d_outputs d)) | [] => None end
  | DLoseOutput => match d_outputs d with _ :: qo => Some (mk_delayed (d_plant d) (d_inputs d) qo) | [] => None end
  end.

Fixpoint delayed_execs (prof : profile) (i : nat) (l : process_data_length) (ioff ooff : Z) (d : delayed) (es : list delayed_event)
  : option delayed :=
  match es with
  | [] => Some d
  | e :: es' => match delayed_exec prof i l ioff ooff d e with
                | Some d' => delayed_execs prof i l ioff ooff d' es' | None => None end
  end.

Lemma delayed_exec_step prof i l ioff ooff d e d' : delayed_exec prof i l ioff ooff d e = Some d' ->
  delayed_step prof i l ioff ooff d e d'.
Proof.
  destruct d as [t qi qo]. intros H. destruct e as [e|input| | | | |]; cbn [delayed_exec d_plant d_inputs d_outputs] in H.
  - destruct (is_local e) eqn:El; [|discriminate].
    destruct (plant_exec prof i l ioff ooff t e) as [t'|] eqn:E; [|discriminate]. apply Some_inj in H. subst d'.
    apply D_event; [destruct e; try discriminate; exact I|apply exec_step; exact E].
  - destruct (plant_exec prof i l ioff ooff t (PInput input)) as [t'|] eqn:E; [|discriminate]. apply Some_inj in H. subst d'.
    apply exec_step in E. inversion E; subst. apply D_request; assumption.
  - destruct qi as [|input qi]; [discriminate|]. apply Some_inj in H. subst d'. apply D_receive.
  - apply Some_inj in H. subst d'. apply D_submit.
  - destruct qo as [|image qo]; [discriminate|]. apply Some_inj in H. subst d'. apply D_apply.
  - destruct qi as [|input qi]; [discriminate|]. apply Some_inj in H. subst d'. apply (D_lose_input _ _ _ _ _ _ []).
  - destruct qo as [|image qo]; [discriminate|]. apply Some_inj in H. subst d'. apply (D_lose_output _ _ _ _ _ _ _ []).
Qed.

Lemma delayed_exec_runs prof i l ioff ooff es : forall d d', delayed_execs prof i l ioff ooff d es = Some d' ->
  delayed_runs prof i l ioff ooff d es d'.
Proof.
  induction es as [|e es IH]; intros d d' H; cbn [delayed_execs] in H.
  - apply Some_inj in H. subst d'. constructor.
  - destruct (delayed_exec prof i l ioff ooff d e) as [d1|] eqn:E; [|discriminate].
    econstructor; [apply delayed_exec_step; exact E|apply IH; exact H].
Qed.
