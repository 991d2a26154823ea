(** Proofs about calls whose order does not matter (C78). *)
From Coq Require Import ZArith List Bool Lia ZifyBool ZifyNat.
From Verif Require Import Base Facts F32 Types Lib Util Com Fbc SpecCodec SpecSerial SpecCoupler SpecShare
  ProofsAddr ProofsModule ProofsSerial ProofsLoop ProofsCycle ProofsCoupler ProofsNew ProofsOrder.
Import ListNotations.
Local Open Scope Z_scope.

(** A coupler that cannot be told apart gives the same answers. *)
Lemma follow_call prof c d x c' a : coupler_ok c -> same_coupler c d -> calls prof c x c' a ->
  exists d', calls prof d x d' a /\ same_coupler c' d'.
Proof.
  intros Hok Hs H. destruct H as [c b v Hv|c i n|c i b Hb|c input output c' r Hc Hp].
  - destruct (same_set c d b v Hs) as [E W]. rewrite E. eexists. split; [apply Calls_set; exact Hv|exact W].
  - destruct (same_read c d i n Hs) as [E W]. rewrite E. eexists. split; [apply Calls_read|exact W].
  - destruct (same_write c d i b Hs) as [E W]. rewrite E. eexists. split; [apply Calls_write; exact Hb|exact W].
  - destruct Hc as (Hi & Ho & oi & oo & P1 & P2 & Hn). destruct (next prof oi oo d input output) as [d' r'] eqn:En.
    assert (Hd : cycle prof d input output d' r') by (split; [exact Hi|]; split; [exact Ho|]; exists oi, oo; auto).
    assert (Hc : cycle prof c input output c' r) by (split; [exact Hi|]; split; [exact Ho|]; exists oi, oo; auto).
    destruct (same_next prof c d input output c' r d' r' Hok Hs Hc Hd) as [<- W]. exists d'. split; [|exact W].
    pose proof W as (-> & -> & _). apply Calls_next; assumption.
Qed.

Lemma follow_runs prof xs : forall c d c' a, coupler_ok c -> same_coupler c d -> runs prof c xs c' a ->
  exists d', runs prof d xs d' a /\ same_coupler c' d'.
Proof.
  induction xs as [|x xs IH]; intros c d c' a Hok Hs H; inversion H; subst; [exists d; split; [constructor|exact Hs]|].
  match goal with A : calls prof c x ?e ?b, B : runs prof ?e xs _ _ |- _ =>
    destruct (follow_call prof c d x e b Hok Hs A) as (d1 & K1 & W1);
    destruct (IH e d1 _ _ (calls_ok _ _ _ _ _ Hok A) W1 B) as (d' & K2 & W2) end.
  exists d'. split; [econstructor; eassumption|exact W2].
Qed.

(** The parts a call works on. *)
Lemma same_by c1 c2 : inputs c1 = inputs c2 -> outputs c1 = outputs c2 -> c_modules c1 = c_modules c2 ->
  c_offsets c1 = c_offsets c2 -> c_last_tx_cnt c1 = c_last_tx_cnt c2 ->
  (forall a, requested c1 a = requested c2 a) -> (forall i, serial c1 i = serial c2 i) -> same_coupler c1 c2.
Proof. unfold same_coupler. auto 10. Qed.

Lemma set_read c a v i n :
  coupler_read (fst (set_output c a v)) i n =
  (fst (set_output (fst (coupler_read c i n)) a v), snd (coupler_read c i n)) /\
  snd (set_output (fst (coupler_read c i n)) a v) = snd (set_output c a v).
Proof.
  destruct (valid_address_dec c a) as [V|V].
  - rewrite (set_output_valid c a v V). unfold coupler_read. cbn [fst snd c_processors].
    destruct (map_get Nat.eqb i (c_processors c)) as [p|]; cbn [fst snd].
    + destruct (processor_read p n) as [p' b]. cbn [fst snd].
      rewrite set_output_valid by exact V. split; reflexivity.
    + rewrite set_output_valid by exact V. split; reflexivity.
  - rewrite (set_output_invalid c a v V). unfold coupler_read. cbn [fst snd].
    destruct (map_get Nat.eqb i (c_processors c)) as [p|]; cbn [fst snd].
    + destruct (processor_read p n) as [p' b]. cbn [fst snd].
      rewrite set_output_invalid by exact V. split; reflexivity.
    + rewrite set_output_invalid by exact V. split; reflexivity.
Qed.
Lemma set_write c a v i b :
  coupler_write (fst (set_output c a v)) i b =
  (fst (set_output (fst (coupler_write c i b)) a v), snd (coupler_write c i b)) /\
  snd (set_output (fst (coupler_write c i b)) a v) = snd (set_output c a v).
Proof.
  destruct (valid_address_dec c a) as [V|V].
  - rewrite (set_output_valid c a v V). unfold coupler_write. cbn [fst snd c_processors].
    destruct (map_get Nat.eqb i (c_processors c)) as [p|]; cbn [fst snd].
    + destruct (processor_write p b) as [p' k]. cbn [fst snd].
      rewrite set_output_valid by exact V. split; reflexivity.
    + rewrite set_output_valid by exact V. split; reflexivity.
  - rewrite (set_output_invalid c a v V). unfold coupler_write. cbn [fst snd].
    destruct (map_get Nat.eqb i (c_processors c)) as [p|]; cbn [fst snd].
    + destruct (processor_write p b) as [p' k]. cbn [fst snd].
      rewrite set_output_invalid by exact V. split; reflexivity.
    + rewrite set_output_invalid by exact V. split; reflexivity.
Qed.

(** Reading and writing as a change of one processor. *)
Definition touch {A} (f : processor -> processor * A) (c : coupler) (i : nat) : coupler * option A :=
  match map_get Nat.eqb i (c_processors c) with
  | None => (c, None)
  | Some p => (with_processors c (map_insert Nat.eqb i (fst (f p)) (c_processors c)), Some (snd (f p)))
  end.
Lemma read_touch c i n : coupler_read c i n = touch (fun p => processor_read p n) c i.
Proof. unfold coupler_read, touch. destruct (map_get Nat.eqb i (c_processors c)) as [p|]; [|reflexivity]. destruct (processor_read p n). reflexivity. Qed.
Lemma write_touch c i b : coupler_write c i b = touch (fun p => processor_write p b) c i.
Proof. unfold coupler_write, touch. destruct (map_get Nat.eqb i (c_processors c)) as [p|]; [|reflexivity]. destruct (processor_write p b). reflexivity. Qed.

Lemma touch_serial {A} (f : processor -> processor * A) c i j :
  serial (fst (touch f c i)) j = if Nat.eqb i j then option_map (fun p => fst (f p)) (serial c i) else serial c j.
Proof.
  unfold touch, serial. destruct (map_get Nat.eqb i (c_processors c)) as [p|] eqn:E; cbn [fst option_map].
  - unfold with_processors. cbn [c_processors]. rewrite (map_get_insert Nat.eqb Nat.eqb_spec). destruct (Nat.eqb i j); reflexivity.
  - destruct (Nat.eqb_spec i j) as [->|]; [exact E|reflexivity].
Qed.
Lemma touch_answer {A} (f : processor -> processor * A) c i : snd (touch f c i) = option_map (fun p => snd (f p)) (serial c i).
Proof. unfold touch, serial. destruct (map_get Nat.eqb i (c_processors c)); reflexivity. Qed.
Lemma touch_static {A} (f : processor -> processor * A) c i :
  inputs (fst (touch f c i)) = inputs c /\ outputs (fst (touch f c i)) = outputs c /\ c_modules (fst (touch f c i)) = c_modules c /\
  c_offsets (fst (touch f c i)) = c_offsets c /\ c_last_tx_cnt (fst (touch f c i)) = c_last_tx_cnt c /\
  (forall a, requested (fst (touch f c i)) a = requested c a).
Proof. unfold touch. destruct (map_get Nat.eqb i (c_processors c)); cbn [fst]; auto 10. Qed.

Lemma touch_swap {A B} (f : processor -> processor * A) (g : processor -> processor * B) c i j :
  (i <> j \/ forall p, fst (g (fst (f p))) = fst (f (fst (g p))) /\ snd (g (fst (f p))) = snd (g p) /\ snd (f (fst (g p))) = snd (f p)) ->
  snd (touch g (fst (touch f c i)) j) = snd (touch g c j) /\
  snd (touch f (fst (touch g c j)) i) = snd (touch f c i) /\
  same_coupler (fst (touch g (fst (touch f c i)) j)) (fst (touch f (fst (touch g c j)) i)).
Proof.
  intros H.
  destruct (touch_static f c i) as (F1 & F2 & F3 & F4 & F5 & F6). destruct (touch_static g c j) as (G1 & G2 & G3 & G4 & G5 & G6).
  destruct (touch_static g (fst (touch f c i)) j) as (P1 & P2 & P3 & P4 & P5 & P6).
  destruct (touch_static f (fst (touch g c j)) i) as (Q1 & Q2 & Q3 & Q4 & Q5 & Q6).
  split; [|split].
  - rewrite !touch_answer, touch_serial. destruct (Nat.eqb_spec i j) as [E|E]; [|reflexivity].
    subst j. destruct (serial c i) as [p|]; [|reflexivity]. cbn [option_map]. destruct H as [H|H]; [congruence|]. f_equal. apply (H p).
  - rewrite !touch_answer, touch_serial. destruct (Nat.eqb_spec j i) as [E|E]; [|reflexivity].
    subst j. destruct (serial c i) as [p|]; [|reflexivity]. cbn [option_map]. destruct H as [H|H]; [congruence|]. f_equal. apply (H p).
  - apply same_by; try congruence. intros k. rewrite !touch_serial.
    destruct (Nat.eqb_spec i j) as [E|E].
    + subst j. rewrite Nat.eqb_refl. destruct H as [H|H]; [congruence|].
      destruct (Nat.eqb_spec i k); [|reflexivity].
      destruct (serial c i) as [p|]; [|reflexivity]. cbn [option_map]. f_equal. apply (H p).
    + destruct (Nat.eqb_spec j i) as [E'|_]; [congruence|].
      destruct (Nat.eqb_spec j k), (Nat.eqb_spec i k); subst; try congruence; reflexivity.
Qed.

Lemma read_write_swap n b p :
  fst (processor_write (fst (processor_read p n)) b) = fst (processor_read (fst (processor_write p b)) n) /\
  snd (processor_write (fst (processor_read p n)) b) = snd (processor_write p b) /\
  snd (processor_read (fst (processor_write p b)) n) = snd (processor_read p n).
Proof.
  unfold processor_read, processor_write. cbn [p_in_data fst snd]. destruct (p_in_data p) eqn:E; cbn [fst snd p_in_data p_init_state p_last_rx_cnt p_out_data p_process_data_len].
  - rewrite E. auto.
  - auto.
Qed.

Ltac untouch H := repeat (rewrite <- read_touch in H || rewrite <- write_touch in H).

(** Two independent calls in the other order. *)
Lemma swap_calls prof c x y c1 c2 a b : independent x y -> calls prof c x c1 a -> calls prof c1 y c2 b ->
  exists d1 d2, calls prof c y d1 b /\ calls prof d1 x d2 a /\ same_coupler c2 d2.
Proof.
  intros Hi Hx Hy. destruct Hx as [c a v Hv|c i n|c i u Hu|c input output c' r Hc Hp].
  - inversion Hy; subst; cbn [independent] in Hi; try contradiction.
    + match goal with |- context[SetOutput ?b ?w] => match b with a => fail 1 | _ => rename b into a2; rename w into v2 end end.
      exists (fst (set_output c a2 v2)), (fst (set_output (fst (set_output c a2 v2)) a v)).
      assert (K : forall a v a2 v2, snd (set_output (fst (set_output c a v)) a2 v2) = snd (set_output c a2 v2)).
      { intros. destruct (set_static c a0 v0) as (_ & _ & S & _). destruct (valid_address_dec c a1) as [V|V].
        - rewrite (set_output_valid c a1) by exact V. rewrite set_output_valid; [reflexivity|]. unfold valid_address. rewrite S. exact V.
        - rewrite (set_output_invalid c a1) by exact V. rewrite set_output_invalid; [reflexivity|]. unfold valid_address. rewrite S. exact V. }
      rewrite (K a v a2 v2), <- (K a2 v2 a v). split; [apply Calls_set; assumption|]. split; [apply Calls_set; assumption|].
      apply C37_same_all. exact Hi.
    + destruct (set_read c a v i size) as [E1 E2]. rewrite E1. cbn [fst snd].
      do 2 eexists. split; [apply Calls_read|]. rewrite <- E2. split; [apply Calls_set; assumption|apply same_coupler_refl].
    + destruct (set_write c a v i buf) as [E1 E2]. rewrite E1. cbn [fst snd].
      do 2 eexists. split; [apply Calls_write; assumption|]. rewrite <- E2. split; [apply Calls_set; assumption|apply same_coupler_refl].
  - inversion Hy; subst; cbn [independent] in Hi; try contradiction.
    + destruct (set_read c a v i n) as [E1 E2]. rewrite E2. do 2 eexists. split; [apply Calls_set; assumption|].
      replace (snd (coupler_read c i n)) with (snd (coupler_read (fst (set_output c a v)) i n)) by (rewrite E1; reflexivity).
      split; [apply Calls_read|]. rewrite E1. apply same_coupler_refl.
    + pose proof (touch_swap (fun p => processor_read p n) (fun p => processor_read p size) c i i0 (or_introl Hi)) as (T1 & T2 & T3).
      untouch T1; untouch T2; untouch T3. rewrite T1, <- T2. do 2 eexists. split; [apply Calls_read|]. split; [apply Calls_read|exact T3].
    + pose proof (touch_swap (fun p => processor_read p n) (fun p => processor_write p buf) c i i0
        (or_intror (read_write_swap n buf))) as (T1 & T2 & T3).
      untouch T1; untouch T2; untouch T3.
      rewrite T1, <- T2. do 2 eexists. split; [apply Calls_write; assumption|]. split; [apply Calls_read|exact T3].
  - inversion Hy; subst; cbn [independent] in Hi; try contradiction.
    + destruct (set_write c a v i u) as [E1 E2]. rewrite E2. do 2 eexists. split; [apply Calls_set; assumption|].
      replace (snd (coupler_write c i u)) with (snd (coupler_write (fst (set_output c a v)) i u)) by (rewrite E1; reflexivity).
      split; [apply Calls_write; assumption|]. rewrite E1. apply same_coupler_refl.
    + pose proof (touch_swap (fun p => processor_write p u) (fun p => processor_read p size) c i i0) as T.
      destruct T as (T1 & T2 & T3).
      { right. intros p. destruct (read_write_swap size u p) as (E1 & E2 & E3). auto. }
      untouch T1; untouch T2; untouch T3.
      rewrite T1, <- T2. do 2 eexists. split; [apply Calls_read|]. split; [apply Calls_write; assumption|exact T3].
    + pose proof (touch_swap (fun p => processor_write p u) (fun p => processor_write p buf) c i i0 (or_introl Hi)) as (T1 & T2 & T3).
      untouch T1; untouch T2; untouch T3. rewrite T1, <- T2. do 2 eexists.
      split; [apply Calls_write; assumption|]. split; [apply Calls_write; assumption|exact T3].
  - contradiction.
Qed.

Lemma runs_app prof xs ys : forall c c' a, runs prof c (xs ++ ys) c' a ->
  exists d b e, a = b ++ e /\ runs prof c xs d b /\ runs prof d ys c' e.
Proof.
  induction xs as [|x xs IH]; intros c c' a H; [exists c, [], a; split; [reflexivity|]; split; [constructor|exact H]|].
  cbn [app] in H. inversion H; subst. match goal with A : runs _ ?d (xs ++ ys) _ _ |- _ => destruct (IH _ _ _ A) as (d' & b & e & -> & K1 & K2) end.
  eexists d', (_ :: b), e. split; [reflexivity|]. split; [econstructor; eassumption|exact K2].
Qed.
Lemma runs_join prof xs : forall c d b ys c' e, runs prof c xs d b -> runs prof d ys c' e -> runs prof c (xs ++ ys) c' (b ++ e).
Proof.
  induction xs as [|x xs IH]; intros c d b ys c' e H K; inversion H; subst; [exact K|]. cbn [app]. econstructor; [eassumption|]. eapply IH; eassumption.
Qed.
Lemma runs_length prof xs : forall c c' a, runs prof c xs c' a -> length a = length xs.
Proof. induction xs as [|x xs IH]; intros c c' a H; inversion H; subst; [reflexivity|]. cbn. f_equal. eapply IH. eassumption. Qed.
Lemma app_parts {A} (a c : list A) : forall b d, a ++ b = c ++ d -> length a = length c -> a = c /\ b = d.
Proof.
  revert c. induction a as [|x a IH]; intros [|y c] b d E L; cbn in L; try discriminate; [split; [reflexivity|exact E]|].
  cbn [app] in E. injection E as -> E. injection L as L. destruct (IH c b d E L) as [-> ->]. split; reflexivity.
Qed.
Lemma runs_ok prof xs : forall c c' a, coupler_ok c -> runs prof c xs c' a -> coupler_ok c'.
Proof.
  induction xs as [|x xs IH]; intros c c' a Hok H; inversion H; subst; [exact Hok|].
  eapply IH; [|eassumption]. exact (calls_ok _ _ _ _ _ Hok ltac:(eassumption)).
Qed.

Lemma reorder_ok : forall prof c h c' h', coupler_ok c -> history prof c h c' -> reordered h h' ->
  exists d', history prof c h' d' /\ same_coupler c' d'.
Proof.
  intros prof c h c' h' Hok H R. revert c c' Hok H. induction R as [h|h1 x y h2 Hi|h h' h'' R1 IH1 R2 IH2]; intros c c' Hok H.
  - exists c'. split; [exact H|apply same_coupler_refl].
  - unfold history in *. rewrite map_app in H. cbn [map] in H. destruct (runs_app _ _ _ _ _ _ H) as (d & b & e & E & K1 & K2).
    rewrite map_app in E. apply runs_length in K1 as L. rewrite map_length in L.
    assert (Eb : b = map snd h1 /\ e = snd x :: snd y :: map snd h2).
    { apply app_parts in E; [|rewrite map_length; lia]. destruct E as [E1 E2]. cbn [map] in E2. auto. }
    destruct Eb as [-> ->]. pose proof (runs_ok _ _ _ _ _ Hok K1) as Okd.
    inversion K2 as [|? ? d1 ? ? ? ? Hx K3]; subst. inversion K3 as [|? ? d2 ? ? ? ? Hy K4]; subst.
    destruct (swap_calls _ _ _ _ _ _ _ _ Hi Hx Hy) as (e1 & e2 & J1 & J2 & J3).
    pose proof (calls_ok _ _ _ _ _ (calls_ok _ _ _ _ _ Okd Hx) Hy) as Ok2.
    destruct (follow_runs _ _ _ _ _ _ Ok2 J3 K4) as (d' & J4 & J5). exists d'. split; [|exact J5].
    rewrite !map_app. eapply runs_join; [exact K1|]. cbn [map]. econstructor; [exact J1|]. econstructor; [exact J2|exact J4].
  - destruct (IH1 c c' Hok H) as (d & K1 & W1). destruct (IH2 c d Hok K1) as (d' & K2 & W2).
    exists d'. split; [exact K2|exact (same_coupler_trans _ _ _ W1 W2)].
Qed.

Lemma C78_reorder_all : forall prof c h c' h', reachable prof c -> history prof c h c' -> reordered h h' ->
  (exists d, history prof c h' d) /\
  forall d answers, runs prof c (map fst h') d answers -> answers = map snd h' /\ same_coupler c' d.
Proof.
  intros prof c h c' h' Hr H R. apply reachable_ok in Hr as Hok. destruct (reorder_ok prof c h c' h' Hok H R) as (d0 & K & W).
  split; [exists d0; exact K|]. intros d answers Hd.
  destruct (same_runs prof _ c c d0 d _ _ Hok (same_coupler_refl c) K Hd) as [<- W']. split; [reflexivity|exact (same_coupler_trans _ _ _ W W')].
Qed.

(** ** Tasks *)

Lemma split_first k x : forall s t, called_by k s = x :: t ->
  exists pre post, s = pre ++ (k, x) :: post /\ called_by k pre = [] /\ called_by k post = t.
Proof.
  induction s as [|[j y] s IH]; intros t H; [discriminate|]. unfold called_by in H. cbn [filter fst] in H.
  destruct (Nat.eqb_spec j k) as [->|N].
  - cbn [map snd] in H. injection H as -> H. exists [], s. split; [reflexivity|]. split; [reflexivity|exact H].
  - destruct (IH t H) as (pre & post & -> & E1 & E2). exists ((j, y) :: pre), post. split; [reflexivity|]. split; [|exact E2].
    unfold called_by. cbn [filter fst]. destruct (Nat.eqb_spec j k); [congruence|exact E1].
Qed.
Lemma called_app k s t : called_by k (s ++ t) = called_by k s ++ called_by k t.
Proof. unfold called_by. rewrite filter_app, map_app. reflexivity. Qed.
Lemma called_none k s : called_by k s = [] -> Forall (fun e => fst e <> k) s.
Proof.
  induction s as [|[j y] s IH]; intros H; [constructor|]. unfold called_by in H. cbn [filter fst] in H.
  destruct (Nat.eqb_spec j k); [discriminate|]. constructor; [assumption|apply IH; exact H].
Qed.
Lemma called_nil s : (forall k, called_by k s = []) -> s = [].
Proof.
  destruct s as [|[j y] s]; intros H; [reflexivity|]. specialize (H j). unfold called_by in H. cbn [filter fst] in H.
  rewrite Nat.eqb_refl in H. discriminate.
Qed.
Lemma answers_app k s t a b : length a = length s -> answers_to k (s ++ t) (a ++ b) = answers_to k s a ++ answers_to k t b.
Proof.
  intros L. unfold answers_to. revert a L. induction s as [|e s IH]; intros [|y a] L; cbn in L; try discriminate; [reflexivity|].
  cbn [app combine filter]. injection L as L. specialize (IH a L). destruct (Nat.eqb (fst (fst (e, y))) k); cbn [map app]; rewrite IH; reflexivity.
Qed.
Lemma answers_none k s a : called_by k s = [] -> answers_to k s a = [].
Proof.
  intros H. apply called_none in H. unfold answers_to. revert a. induction H as [|e s N H IH]; intros [|y a]; try reflexivity.
  cbn [combine filter fst]. destruct (Nat.eqb_spec (fst e) k); [contradiction|apply IH].
Qed.
Lemma answers_cons k j x s y a : answers_to k ((j, x) :: s) (y :: a) = (if Nat.eqb j k then [y] else []) ++ answers_to k s a.
Proof. unfold answers_to. cbn [combine filter fst]. destruct (Nat.eqb j k); reflexivity. Qed.

(** A call moved before calls it is independent of. *)
Lemma move_first prof x : forall ys c c' a y, Forall (fun z => independent z x) ys -> coupler_ok c -> length a = length ys ->
  forall zs b, runs prof c (ys ++ x :: zs) c' (a ++ y :: b) ->
  exists d', runs prof c (x :: ys ++ zs) d' (y :: a ++ b) /\ same_coupler c' d'.
Proof.
  induction ys as [|z ys IH]; intros c c' a y Hf Hok L zs b H; destruct a as [|w a]; cbn in L; try discriminate.
  - exists c'. split; [exact H|apply same_coupler_refl].
  - cbn [app] in H. inversion H as [|? ? c1 ? ? ? ? Hz Hrest]; subst. inversion Hf as [|? ? Hzx Hf']; subst.
    injection L as L. destruct (IH c1 c' a y Hf' (calls_ok _ _ _ _ _ Hok Hz) L zs b Hrest) as (d & K & W).
    cbn [app]. inversion K as [|? ? c2 ? ? ? ? Hx K']; subst.
    destruct (swap_calls _ _ _ _ _ _ _ _ Hzx Hz Hx) as (e1 & e2 & J1 & J2 & J3).
    destruct (follow_runs _ _ _ _ _ _ (calls_ok _ _ _ _ _ (calls_ok _ _ _ _ _ Hok Hz) Hx) J3 K') as (d' & J4 & J5).
    exists d'. split; [|exact (same_coupler_trans _ _ _ W J5)]. econstructor; [exact J1|]. econstructor; [exact J2|exact J4].
Qed.

Lemma tasks_ok prof s1 : forall s2 c d c1 c2 a1 a2, tasks_independent s1 -> (forall k, called_by k s1 = called_by k s2) ->
  coupler_ok c -> same_coupler c d ->
  runs prof c (map snd s1) c1 a1 -> runs prof d (map snd s2) c2 a2 ->
  (forall k, answers_to k s1 a1 = answers_to k s2 a2) /\ same_coupler c1 c2.
Proof.
  induction s1 as [|[j x] s1 IH]; intros s2 c d c1 c2 a1 a2 Hind Hc Hok Hs H1 H2.
  - rewrite (called_nil s2) in * by (intros k; rewrite <- Hc; reflexivity). inversion H1; subst. inversion H2; subst.
    split; [reflexivity|exact Hs].
  - assert (Ej : called_by j s2 = x :: called_by j s1).
    { rewrite <- Hc. unfold called_by. cbn [filter fst]. rewrite Nat.eqb_refl. reflexivity. }
    destruct (split_first j x s2 _ Ej) as (pre & post & -> & E1 & E2).
    rewrite map_app in H2. cbn [map snd] in H2. destruct (runs_app _ _ _ _ _ _ H2) as (d1 & b & e & -> & K1 & K2).
    inversion K2 as [|? ? d2 y ? ? e' Hx K3]; subst. apply runs_length in K1 as L. rewrite map_length in L.
    assert (Okd : coupler_ok d) by exact (same_ok _ _ Hs Hok).
    assert (Hpre : Forall (fun z => independent z x) (map snd pre)).
    { apply Forall_forall. intros z Hz. apply in_map_iff in Hz. destruct Hz as ([k z'] & <- & Hin). cbn [snd].
      pose proof (called_none _ _ E1) as N. rewrite Forall_forall in N. specialize (N _ Hin). cbn [fst] in N.
      assert (In z' (called_by k ((j, x) :: s1))).
      { rewrite Hc, called_app. apply in_or_app. left. unfold called_by. apply in_map_iff. exists (k, z'). split; [reflexivity|].
        apply filter_In. split; [exact Hin|]. apply Nat.eqb_refl. }
      unfold called_by in H. apply in_map_iff in H. destruct H as ([k' z''] & E & Hin'). cbn [snd] in E. subst z''.
      apply filter_In in Hin'. destruct Hin' as [Hin' Ek]. apply Nat.eqb_eq in Ek. cbn [fst] in Ek. subst k'.
      exact (Hind (k, z') (j, x) Hin' (or_introl eq_refl) N). }
    destruct (move_first prof x (map snd pre) d c2 b y Hpre Okd ltac:(rewrite map_length; exact L) (map snd post) e'
                ltac:(exact H2)) as (d' & K & W).
    cbn [map snd] in H1. inversion H1 as [|? ? c3 y' ? ? a1' Hx1 H1']; subst. inversion K as [|? ? d3 ? ? ? ? Hx2 K']; subst.
    destruct (same_calls prof c d x c3 d3 y' y Hok Hs Hx1 Hx2) as [-> Hs'].
    rewrite <- map_app in K'.
    destruct (IH (pre ++ post) c3 d3 c1 d' a1' (b ++ e')) as [A V]; auto.
    + intros e1 e2 I1 I2. apply Hind; right; assumption.
    + intros k. specialize (Hc k). rewrite called_app in Hc |- *. unfold called_by in Hc at 1 3. cbn [filter fst] in Hc.
      destruct (Nat.eqb_spec j k) as [->|Nk].
      * cbn [map snd] in Hc. fold (called_by k s1) in Hc. fold (called_by k post) in Hc. rewrite E1 in Hc |- *. cbn [app] in Hc |- *.
        injection Hc as Hc. exact Hc.
      * exact Hc.
    + exact (calls_ok _ _ _ _ _ Hok Hx1).
    + split; [|exact (same_coupler_trans _ _ _ V (same_coupler_sym _ _ W))]. intros k.
      rewrite answers_cons, A, !answers_app by (symmetry in L; auto; lia). rewrite answers_cons.
      destruct (Nat.eqb_spec j k) as [->|Nk]; [|reflexivity]. rewrite (answers_none k pre b E1). reflexivity.
Qed.

Lemma C78_tasks_all : forall prof c s1 s2 c1 c2 a1 a2, reachable prof c -> tasks_independent s1 ->
  (forall k, called_by k s1 = called_by k s2) ->
  runs prof c (map snd s1) c1 a1 -> runs prof c (map snd s2) c2 a2 ->
  (forall k, answers_to k s1 a1 = answers_to k s2 a2) /\ same_coupler c1 c2.
Proof.
  intros prof c s1 s2 c1 c2 a1 a2 Hr Hi Hc H1 H2. apply reachable_ok in Hr.
  exact (tasks_ok prof s1 s2 c c c1 c2 a1 a2 Hi Hc Hr (same_coupler_refl c) H1 H2).
Qed.
