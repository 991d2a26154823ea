(** Proofs about the two ways to hand over bytes to a serial module (C113). *)
From Coq Require Import ZArith List Bool Lia ZifyBool ZifyNat Permutation.
From Verif Require Import Base Facts F32 Types Lib Util Com Fbc SpecCodec SpecSerial SpecCoupler SpecHandover
  ProofsLayout ProofsModule ProofsSerial ProofsLoop ProofsCycle ProofsCoupler ProofsOrder ProofsEffect.
Import ListNotations.
Local Open Scope Z_scope.

Section Handover.
Variables (i : nat) (b : list Z).
Notation a := (mk_address i 0).
Notation add p := (fst (processor_write p b)).

(** The bytes wait in a request, or in the queue already. *)
Definition ahead_writes (w w' : list (address * channel_value)) : Prop :=
  map_get address_eqb a w = Some (Bytes b) /\ map_get address_eqb a w' = None /\
  forall x, x <> a -> map_get address_eqb x w = map_get address_eqb x w'.
Definition ahead_map (ps ps' : list (nat * processor)) : Prop :=
  (exists p, map_get Nat.eqb i ps = Some p /\ map_get Nat.eqb i ps' = Some (add p)) /\
  forall j, j <> i -> map_get Nat.eqb j ps = map_get Nat.eqb j ps'.

Record ahead_loop (s s' : loop_state) : Prop := {
  al_write : ahead_writes (l_write s) (l_write s');
  al_proc : ahead_map (l_processors s) (l_processors s');
  al_last : l_last_tx_cnt s = l_last_tx_cnt s';
  al_next : l_next_out s = l_next_out s';
  al_in : same_map (l_in_bytes s) (l_in_bytes s');
  al_out : same_map (l_out_bytes s) (l_out_bytes s') }.

Lemma ahead_remove w w' x : x <> a -> ahead_writes w w' -> ahead_writes (map_remove address_eqb x w) (map_remove address_eqb x w').
Proof.
  intros N (H1 & H2 & H3). split; [|split]; [| |intros y Hy]; rewrite !(map_get_remove address_eqb address_eqb_spec).
  - destruct (address_eqb_spec x a); [congruence|exact H1].
  - destruct (address_eqb_spec x a); [congruence|exact H2].
  - destruct (address_eqb x y); [reflexivity|apply H3; exact Hy].
Qed.
Lemma ahead_insert w w' x v : x <> a -> ahead_writes w w' -> ahead_writes (map_insert address_eqb x v w) (map_insert address_eqb x v w').
Proof.
  intros N (H1 & H2 & H3). split; [|split]; [| |intros y Hy]; rewrite !(map_get_insert address_eqb address_eqb_spec).
  - destruct (address_eqb_spec x a); [congruence|exact H1].
  - destruct (address_eqb_spec x a); [congruence|exact H2].
  - destruct (address_eqb x y); [reflexivity|apply H3; exact Hy].
Qed.
Lemma settled_writes w w' : ahead_writes w w' -> same_writes (map_remove address_eqb a w) (map_remove address_eqb a w').
Proof.
  intros (H1 & H2 & H3) y. rewrite !(map_get_remove address_eqb address_eqb_spec).
  destruct (address_eqb_spec a y) as [E|E]; [reflexivity|]. apply H3. congruence.
Qed.
Lemma ahead_map_insert ps ps' j p : j <> i -> ahead_map ps ps' -> ahead_map (map_insert Nat.eqb j p ps) (map_insert Nat.eqb j p ps').
Proof.
  intros N ((q & H1 & H2) & H3). split; [exists q; split|intros k Hk]; rewrite ?(map_get_insert Nat.eqb Nat.eqb_spec).
  - destruct (Nat.eqb_spec j i); [congruence|exact H1].
  - destruct (Nat.eqb_spec j i); [congruence|exact H2].
  - destruct (Nat.eqb j k); [reflexivity|apply H3; exact Hk].
Qed.
Lemma ahead_map_own ps ps' q : ahead_map ps ps' -> ahead_map (map_insert Nat.eqb i q ps) (map_insert Nat.eqb i (add q) ps').
Proof.
  intros (_ & H3). split; [exists q; split|intros k Hk]; rewrite !(map_get_insert Nat.eqb Nat.eqb_spec).
  - rewrite Nat.eqb_refl. reflexivity.
  - rewrite Nat.eqb_refl. reflexivity.
  - destruct (Nat.eqb_spec i k); [congruence|apply H3; exact Hk].
Qed.
Lemma settled_map ps ps' q : ahead_map ps ps' -> same_map (map_insert Nat.eqb i q ps) (map_insert Nat.eqb i q ps').
Proof.
  intros (_ & H3) k. rewrite !(map_get_insert Nat.eqb Nat.eqb_spec). destruct (Nat.eqb_spec i k); [reflexivity|]. apply H3. congruence.
Qed.

Lemma apply_ahead m chs : m <> i -> forall w w' n, ahead_writes w w' ->
  alike (fun x y => ahead_writes (fst x) (fst y) /\ snd x = snd y) (apply_writes m chs w n) (apply_writes m chs w' n).
Proof.
  intros N. induction chs as [|c chs IH]; intros w w' n H; cbn [apply_writes].
  - cbn [alike fst snd]. auto.
  - assert (Na : mk_address m c <> a) by congruence. rewrite <- (proj2 (proj2 H) _ Na).
    destruct (map_get address_eqb (mk_address m c) w) as [v|]; [|apply IH; exact H].
    destruct (store2 n m c v) as [n1|e|p]; cbn [bind alike]; try reflexivity. apply IH. apply ahead_remove; assumption.
Qed.

Lemma ahead_step prof m iv ov s s' : ahead_loop s s' ->
  alike (fun t t' => same_loop t t' \/ ahead_loop t t') (next_step prof m iv ov s) (next_step prof m iv ov s').
Proof.
  intros A. pose proof A as [Hw Hp Hl Hn Hi Ho]. unfold next_step. rewrite <- Hl, <- Hn.
  destruct (Nat.eq_dec m i) as [->|N].
  - destruct Hp as ((p & P1 & P2) & P3). rewrite P1, P2. pose proof Hw as (W1 & W2 & W3).
    destruct (index iv 0) as [i0|e|x]; cbn [bind alike]; try reflexivity.
    destruct i0; try (cbn [alike]; right; exact A).
    destruct (index ov 0) as [o0|e|x]; cbn [bind alike]; try reflexivity.
    destruct o0; try (cbn [alike]; right; exact A).
    cbv zeta. rewrite W1, W2.
    match goal with |- alike _ (bind ?x _) _ => destruct x as [(p1 & rs)|e|x0] end; cbn [bind alike]; try reflexivity.
    destruct (store2 (l_next_out s) i 0 (ComRsOut rs)) as [n1|e|x1]; cbn [bind alike]; try reflexivity.
    left. split; cbn [l_write l_processors l_last_tx_cnt l_next_out l_in_bytes l_out_bytes]; try reflexivity.
    + apply settled_writes. exact Hw.
    + apply settled_map. split; [exists p; auto|exact P3].
    + destruct (ri_data_available i0 && negb (Nat.eqb (length (ri_data i0)) 0)); repeat apply same_map_insert; exact Hi.
    + destruct (negb (Nat.eqb (length (ro_data o)) 0) && negb (ro_tx_cnt o =? l_last_tx_cnt s));
        repeat apply same_map_insert; exact Ho.
  - rewrite <- (proj2 Hp m N). assert (Na : mk_address m 0 <> a) by congruence.
    destruct (map_get Nat.eqb m (l_processors s)) as [p|].
    + destruct (index iv 0) as [i0|e|x]; cbn [bind alike]; try reflexivity.
      destruct i0; try (cbn [alike]; right; exact A).
      destruct (index ov 0) as [o0|e|x]; cbn [bind alike]; try reflexivity.
      destruct o0; try (cbn [alike]; right; exact A).
      cbv zeta. rewrite <- (proj2 (proj2 Hw) _ Na).
      match goal with |- alike _ (bind ?x _) _ => destruct x as [(p1 & rs)|e|x0] end; cbn [bind alike]; try reflexivity.
      destruct (store2 (l_next_out s) m 0 (ComRsOut rs)) as [n1|e|x1]; cbn [bind alike]; try reflexivity.
      right. split; cbn [l_write l_processors l_last_tx_cnt l_next_out l_in_bytes l_out_bytes]; try reflexivity.
      * apply ahead_remove; assumption.
      * apply ahead_map_insert; assumption.
      * destruct (ri_data_available i0 && negb (Nat.eqb (length (ri_data i0)) 0)); repeat apply same_map_insert; exact Hi.
      * destruct (negb (Nat.eqb (length (ro_data o)) 0) && negb (ro_tx_cnt o =? l_last_tx_cnt s));
          repeat apply same_map_insert; exact Ho.
    + pose proof (apply_ahead m (seq 0 (length ov)) N _ _ (l_next_out s) Hw) as H.
      destruct (apply_writes m (seq 0 (length ov)) (l_write s) (l_next_out s)) as [(w1 & n1)|e|x],
        (apply_writes m (seq 0 (length ov)) (l_write s') (l_next_out s)) as [(w2 & n2)|e'|x']; cbn [alike bind fst snd] in *; try contradiction; try exact H.
      destruct H as [H1 ->]. right. split; cbn [l_write l_processors l_last_tx_cnt l_next_out l_in_bytes l_out_bytes]; auto.
Qed.

Lemma ahead_run prof l : forall s s', same_loop s s' \/ ahead_loop s s' ->
  alike (fun t t' => same_loop t t' \/ ahead_loop t t') (next_loop prof l s) (next_loop prof l s').
Proof.
  induction l as [|(m & (iv & ov)) l IH]; intros s s' H; cbn [next_loop]; [exact H|]. destruct H as [H|H].
  - pose proof (next_step_alike prof m iv ov s s' H) as H1.
    destruct (next_step prof m iv ov s), (next_step prof m iv ov s'); cbn [alike bind] in *; try contradiction; auto.
  - pose proof (ahead_step prof m iv ov s s' H) as H1.
    destruct (next_step prof m iv ov s), (next_step prof m iv ov s'); cbn [alike bind] in *; try contradiction; auto.
Qed.

(** Two couplers, the bytes still waiting in a request of the first one and in the queue of the second one. *)
Definition ahead (c c' : coupler) : Prop :=
  inputs c = inputs c' /\ outputs c = outputs c' /\ c_modules c = c_modules c' /\
  c_offsets c = c_offsets c' /\ c_last_tx_cnt c = c_last_tx_cnt c' /\
  ahead_writes (c_write c) (c_write c') /\ ahead_map (c_processors c) (c_processors c').

Lemma ahead_next prof c1 c2 input output c1' r1 c2' r2 : coupler_ok c1 -> coupler_ok c2 -> ahead c1 c2 ->
  cycle prof c1 input output c1' r1 -> cycle prof c2 input output c2' r2 ->
  r1 = r2 /\ inputs c1' = inputs c2' /\ outputs c1' = outputs c2' /\ (same_coupler c1' c2' \/ ahead c1' c2').
Proof.
  intros Hok Hok2 Hs (Hui & Huo & oi & oo & Hi & Ho & N1) (_ & _ & oi' & oo' & Hi' & Ho' & N2).
  pose proof Hs as (H1 & H2 & H3 & H4 & H5 & H6 & H7). assert (Einf : infos c1 = infos c2) by (unfold infos; congruence).
  destruct (process_input_data prof (infos c1) input) as [ins|e|p] eqn:Ei.
  2,3: pose proof Ei as Ei2; rewrite Einf in Ei2; unfold next in N1, N2; rewrite Ei in N1; rewrite Ei2 in N2;
    apply pair_inj in N1, N2; destruct N1 as [<- <-], N2 as [<- <-]; auto.
  destruct (process_output_data prof (infos c1) output) as [outs|e|p] eqn:Eo.
  2,3: pose proof Ei as Ei2; rewrite Einf in Ei2; pose proof Eo as Eo2; rewrite Einf in Eo2;
    unfold next in N1, N2; rewrite Ei, Eo in N1; rewrite Ei2, Eo2 in N2;
    apply pair_inj in N1, N2; destruct N1 as [<- <-], N2 as [<- <-]; unfold ahead; cbn; auto 12.
  pose proof Ei as Ei2. rewrite Einf in Ei2. pose proof Eo as Eo2. rewrite Einf in Eo2.
  destruct (cycle_spec prof oi oo c1 input output ins outs Hok Hi Ho Hui Huo Ei Eo)
    as (d1 & sent1 & M1 & (s1 & in1 & out1 & L1 & [K1 K1'] & P1 & Q1 & -> & ->) & _).
  destruct (cycle_spec prof oi' oo' c2 input output ins outs Hok2 Hi' Ho' Hui Huo Ei2 Eo2)
    as (d2 & sent2 & M2 & (s2 & in2 & out2 & L2 & [K2 K2'] & P2 & Q2 & -> & ->) & _).
  rewrite N1 in M1. rewrite N2 in M2. apply pair_inj in M1, M2. destruct M1 as [-> ->], M2 as [-> ->].
  pose proof (ahead_run prof (enumerate (combine ins outs))
                (mk_loop (c_write c1) (c_processors c1) (c_last_tx_cnt c1) outs [] [])
                (mk_loop (c_write c2) (c_processors c2) (c_last_tx_cnt c2) outs [] [])) as Hl.
  rewrite L1, L2 in Hl. cbn [alike] in Hl.
  assert (Start : ahead_loop (mk_loop (c_write c1) (c_processors c1) (c_last_tx_cnt c1) outs [] [])
                (mk_loop (c_write c2) (c_processors c2) (c_last_tx_cnt c2) outs [] [])).
  { split; cbn [l_write l_processors l_last_tx_cnt l_next_out l_in_bytes l_out_bytes]; auto; intros x; reflexivity. }
  specialize (Hl (or_intror Start)).
  assert (Com : l_last_tx_cnt s1 = l_last_tx_cnt s2 /\ l_next_out s1 = l_next_out s2 /\ same_map (l_in_bytes s1) (l_in_bytes s2) /\
            same_map (l_out_bytes s1) (l_out_bytes s2)) by (destruct Hl as [[]|[]]; auto).
  destruct Com as (L & N & I & O).
  rewrite Einf, N. split; [reflexivity|].
  destruct (get_permutation _ _ K1 (Hi (l_in_bytes s1))) as [X1 Y1]. destruct (get_permutation _ _ K1' (Ho (l_out_bytes s1))) as [X1' Y1'].
  destruct (get_permutation _ _ K2 (Hi' (l_in_bytes s2))) as [X2 Y2]. destruct (get_permutation _ _ K2' (Ho' (l_out_bytes s2))) as [X2' Y2'].
  assert (in1 = in2). { eapply patch_alike; [exact X1|exact X2| |exact P1|exact P2]. intros x. rewrite Y1, Y2. apply I. }
  assert (out1 = out2). { eapply patch_alike; [exact X1'|exact X2'| |exact Q1|exact Q2]. intros x. rewrite Y1', Y2'. apply O. }
  subst in2 out2. unfold inputs, outputs. cbn [c_in_values c_out_values]. split; [reflexivity|]. split; [reflexivity|].
  destruct Hl as [[W P _ _ _ _]|[W P _ _ _ _]]; [left|right].
  - unfold same_coupler, inputs, outputs, requested, serial.
    cbn [c_in_values c_out_values c_write c_modules c_offsets c_processors c_last_tx_cnt]. auto 10.
  - unfold ahead, inputs, outputs. cbn [c_in_values c_out_values c_write c_modules c_offsets c_processors c_last_tx_cnt]. auto 10.
Qed.

Lemma read_adds p n : processor_read (add p) n = (add (fst (processor_read p n)), snd (processor_read p n)).
Proof. unfold processor_read, processor_write. cbn [fst p_in_data]. destruct (p_in_data p) eqn:E; cbn; rewrite ?E; reflexivity. Qed.

Definition kept (c1 c2 : coupler) : Prop := same_coupler c1 c2 \/ ahead c1 c2.

Lemma kept_calls prof c1 c2 x c1' c2' a1 a2 : coupler_ok c1 -> coupler_ok c2 -> kept c1 c2 -> hands_over_nothing i x ->
  calls prof c1 x c1' a1 -> calls prof c2 x c2' a2 -> a1 = a2 /\ kept c1' c2'.
Proof.
  intros Ok1 Ok2 [S|A] Hx C1 C2.
  { destruct (same_calls _ _ _ _ _ _ _ _ Ok1 S C1 C2) as [-> S']. split; [reflexivity|left; exact S']. }
  pose proof A as (H1 & H2 & H3 & H4 & H5 & H6 & H7).
  destruct C1 as [c1 e v Hv|c1 j n|c1 j buf Hb|c1 input output c1' r1 Hc Hp].
  - inversion C2; subst. cbn [hands_over_nothing] in Hx.
    assert (V : valid_address c1 e <-> valid_address c2 e) by (unfold valid_address; rewrite H3; reflexivity).
    destruct (valid_address_dec c1 e) as [Va|Va].
    + rewrite (set_output_valid c1 e v Va), (set_output_valid c2 e v (proj1 V Va)). cbn [fst snd]. split; [reflexivity|]. right.
      unfold ahead, inputs, outputs. cbn [c_in_values c_out_values c_write c_modules c_offsets c_processors c_last_tx_cnt].
      repeat match goal with |- _ /\ _ => split end; try assumption; apply ahead_insert; assumption.
    + rewrite (set_output_invalid c1 e v Va), (set_output_invalid c2 e v (fun H => Va (proj2 V H))). split; [reflexivity|right; exact A].
  - inversion C2; subst. unfold coupler_read. destruct (Nat.eq_dec j i) as [->|N].
    + pose proof H7 as ((p & P1 & P2) & P3). rewrite P1, P2, read_adds. destruct (processor_read p n) as [p' bs]. cbn [fst snd].
      split; [reflexivity|]. right. unfold ahead, inputs, outputs, with_processors.
      cbn [c_in_values c_out_values c_write c_modules c_offsets c_processors c_last_tx_cnt].
      refine (conj H1 (conj H2 (conj H3 (conj H4 (conj H5 (conj H6 _)))))). exact (ahead_map_own _ _ p' H7).
    + rewrite <- (proj2 H7 j N). destruct (map_get Nat.eqb j (c_processors c1)) as [p|]; [|split; [reflexivity|right; exact A]].
      destruct (processor_read p n) as [p' bs]. cbn [fst snd]. split; [reflexivity|]. right. unfold ahead, inputs, outputs, with_processors.
      cbn [c_in_values c_out_values c_write c_modules c_offsets c_processors c_last_tx_cnt].
      refine (conj H1 (conj H2 (conj H3 (conj H4 (conj H5 (conj H6 _)))))). apply ahead_map_insert; assumption.
  - inversion C2; subst. cbn [hands_over_nothing] in Hx. unfold coupler_write. rewrite <- (proj2 H7 j Hx).
    destruct (map_get Nat.eqb j (c_processors c1)) as [p|]; [|split; [reflexivity|right; exact A]].
    destruct (processor_write p buf) as [p' bs]. cbn [fst snd]. split; [reflexivity|]. right. unfold ahead, inputs, outputs, with_processors.
    cbn [c_in_values c_out_values c_write c_modules c_offsets c_processors c_last_tx_cnt].
    refine (conj H1 (conj H2 (conj H3 (conj H4 (conj H5 (conj H6 _)))))). apply ahead_map_insert; assumption.
  - inversion C2 as [| | |? ? ? c3 r2 Hc2 Hp2]; subst.
    destruct (ahead_next _ _ _ _ _ _ _ _ _ Ok1 Ok2 A Hc Hc2) as (-> & -> & -> & K). split; [reflexivity|exact K].
Qed.

Lemma kept_runs prof xs : forall c1 c2 c1' c2' a1 a2, coupler_ok c1 -> coupler_ok c2 -> kept c1 c2 -> Forall (hands_over_nothing i) xs ->
  runs prof c1 xs c1' a1 -> runs prof c2 xs c2' a2 -> a1 = a2 /\ kept c1' c2'.
Proof.
  induction xs as [|x xs IH]; intros c1 c2 c1' c2' a1 a2 Ok1 Ok2 K Hx R1 R2; inversion R1; inversion R2; subst; [auto|].
  inversion Hx as [|? ? X1 X2]; subst. 
  match goal with A : calls prof c1 x ?d1 _, B : calls prof c2 x ?d2 _ |- _ =>
    destruct (kept_calls prof c1 c2 x d1 d2 _ _ Ok1 Ok2 K X1 A B) as [-> K']; pose proof (calls_ok _ _ _ _ _ Ok1 A); pose proof (calls_ok _ _ _ _ _ Ok2 B) end.
  match goal with A : runs prof ?d1 xs c1' _, B : runs prof ?d2 xs c2' _ |- _ => destruct (IH d1 d2 c1' c2' _ _ ltac:(assumption) ltac:(assumption) K' X2 A B) as [-> K''] end.
  auto.
Qed.

(** After a successful cycle no request for the module is left. *)
Lemma used_up prof m o xs : forall c c' answers, coupler_ok c -> module_at c i m o -> mo_input o <> None -> mo_output o <> None ->
  Forall (hands_over_nothing i) xs -> runs prof c xs c' answers -> requested c a = None \/ cycle_succeeded answers -> requested c' a = None.
Proof.
  induction xs as [|x xs IH]; intros c c' answers Hok Hat Oi Oo Hx R D; inversion R; subst.
  { destruct D as [D|(image & ins & outs & [])]. exact D. }
  inversion Hx as [|? ? X1 X2]; subst.
  match goal with A : calls prof c x ?d ?an, B : runs prof ?d xs c' ?ans |- _ => rename A into C; rename B into R'; rename d into d'; rename ans into rest end.
  assert (Hat' : module_at d' i m o).
  { destruct (calls_kept _ _ _ _ _ C) as [E1 E2]. unfold module_at in *. rewrite E1, E2. exact Hat. }
  refine (IH d' c' rest (calls_ok _ _ _ _ _ Hok C) Hat' Oi Oo X2 R' _).
  clear IH R R'. destruct C as [c e v Hv|c j n|c j buf Hb|c input output c1' r Hc Hp].
  - destruct D as [D|(image & ins & outs & [E|D])]; [|discriminate E|right; exists image, ins, outs; exact D]. left.
    destruct (valid_address_dec c e) as [V|V].
    + rewrite (set_requested c e v a V). cbn [hands_over_nothing] in X1. destruct (address_eqb_spec e a); [contradiction|exact D].
    + rewrite (set_output_invalid c e v V). exact D.
  - destruct D as [D|(image & ins & outs & [E|D])]; [|discriminate E|right; exists image, ins, outs; exact D]. left.
    destruct (read_static c j n) as (_ & _ & _ & _ & W & _). unfold requested. rewrite W. exact D.
  - destruct D as [D|(image & ins & outs & [E|D])]; [|discriminate E|right; exists image, ins, outs; exact D]. left.
    destruct (write_static c j buf) as (_ & _ & _ & _ & W & _). unfold requested. rewrite W. exact D.
  - destruct D as [D|(image & ins & outs & [E|D])]; [left| |right; exists image, ins, outs; exact D].
    + exact (request_stays_none _ _ _ _ _ _ _ Hok Hc D).
    + left. injection E as Er _ _. subst r.
      destruct (cycle_inv _ _ _ _ _ _ Hok Hc) as [(_ & _ & _ & _ & Q)|[(x & _ & _ & _ & _ & _ & Q)|(ins0 & outs0 & sent & F1 & F2 & _)]].
      * exfalso. exact (Q _ eq_refl).
      * exfalso. exact (Q _ eq_refl).
      * exact (requests_after_live _ _ _ _ _ _ _ _ _ _ _ Hok Hc F1 F2 Hat (or_intror (conj Oi Oo)) 0%nat).
Qed.
End Handover.

Lemma C113_accepted_all : forall prof c i m o b, reachable prof c -> module_at c i m o -> is_serial m = true ->
  snd (set_output c (mk_address i 0) (Bytes b)) = Ok tt /\ snd (coupler_write c i b) = Some (length b).
Proof.
  intros prof c i m o b Hr [Hm _] Hs. apply reachable_ok in Hr. destruct m; try discriminate Hs. split.
  - rewrite set_output_valid; [reflexivity|]. eexists. split; [exact Hm|]. cbn. lia.
  - destruct (ok_com c Hr _ _ _ Hm) as (p & Hp). unfold serial in Hp. unfold coupler_write. rewrite Hp. reflexivity.
Qed.

Lemma C113_all : forall prof c i m o b xs c1 a1 c2 a2, reachable prof c -> module_at c i m o -> is_serial m = true -> Forall is_u8 b ->
  requested c (mk_address i 0) = None -> Forall (hands_over_nothing i) xs ->
  runs prof (fst (set_output c (mk_address i 0) (Bytes b))) xs c1 a1 -> runs prof (fst (coupler_write c i b)) xs c2 a2 ->
  a1 = a2 /\
  (mo_input o <> None -> mo_output o <> None -> cycle_succeeded a1 ->
   forall ys d1 e1 d2 e2, runs prof c1 ys d1 e1 -> runs prof c2 ys d2 e2 -> e1 = e2).
Proof.
  intros prof c i m o b xs c1 a1 c2 a2 Hr Hat Hs Hb Hn Hx R1 R2. pose proof (reachable_ok _ _ Hr) as Hok.
  assert (V : valid_address c (mk_address i 0)).
  { destruct Hat as [Hm _]. destruct m; try discriminate Hs. eexists. split; [exact Hm|]. cbn. lia. }
  assert (Hp : exists p, serial c i = Some p).
  { destruct Hat as [Hm _]. destruct m; try discriminate Hs. exact (ok_com c Hok _ _ _ Hm). }
  destruct Hp as (p & Hp).
  assert (K1 : coupler_ok (fst (set_output c (mk_address i 0) (Bytes b)))) by (apply set_ok; assumption).
  assert (K2 : coupler_ok (fst (coupler_write c i b))) by (apply write_ok; assumption).
  assert (A : ahead i b (fst (set_output c (mk_address i 0) (Bytes b))) (fst (coupler_write c i b))).
  { rewrite (set_output_valid c _ _ V). unfold coupler_write. unfold serial in Hp. rewrite Hp. unfold ahead, inputs, outputs, with_processors, ahead_map.
    destruct (processor_write p b) as [p' n'] eqn:Ew. cbn [fst c_in_values c_out_values c_write c_modules c_offsets c_processors c_last_tx_cnt].
    split; [reflexivity|]. split; [reflexivity|]. split; [reflexivity|]. split; [reflexivity|]. split; [reflexivity|]. split.
    - unfold requested in Hn. split; [|split]; [| |intros x Nx]; rewrite ?(map_get_insert address_eqb address_eqb_spec).
      + destruct (address_eqb_spec (mk_address i 0) (mk_address i 0)); [reflexivity|congruence].
      + exact Hn.
      + destruct (address_eqb_spec (mk_address i 0) x); [congruence|reflexivity].
    - split; [exists p; split; [exact Hp|]|intros k Hk]; rewrite (map_get_insert Nat.eqb Nat.eqb_spec).
      + rewrite Nat.eqb_refl, Ew. reflexivity.
      + destruct (Nat.eqb_spec i k); [congruence|reflexivity]. }
  destruct (kept_runs i b prof xs _ _ _ _ _ _ K1 K2 (or_intror A) Hx R1 R2) as [E K]. split; [exact E|].
  intros Oi Oo Done ys d1 e1 d2 e2 Y1 Y2.
  assert (S : same_coupler c1 c2).
  { destruct K as [S|F]; [exact S|exfalso].
    assert (Hat1 : module_at (fst (set_output c (mk_address i 0) (Bytes b))) i m o).
    { destruct (set_static c (mk_address i 0) (Bytes b)) as (_ & _ & E1 & E2 & _). unfold module_at in *. rewrite E1, E2. exact Hat. }
    pose proof (used_up i prof m o xs _ _ _ K1 Hat1 Oi Oo Hx R1 (or_intror Done)) as U.
    destruct F as (_ & _ & _ & _ & _ & (F & _) & _). unfold requested in U. congruence. }
  refine (proj1 (same_runs prof ys c1 c2 d1 d2 e1 e2 _ S Y1 Y2)).
  clear - K1 R1. revert K1 R1. generalize (fst (set_output c (mk_address i 0) (Bytes b))). revert c1 a1.
  induction xs as [|x xs IH]; intros c1 a1 c0 K1 R1; inversion R1; subst; [exact K1|].
  match goal with A : calls prof c0 x ?d _, B : runs prof ?d xs c1 _ |- _ => exact (IH _ _ _ (calls_ok _ _ _ _ _ K1 A) B) end.
Qed.
