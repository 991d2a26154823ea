(** Proofs for C105: slow reads of serial messages. *)
From Coq Require Import ZArith List Bool Lia ZifyBool ZifyNat.
From Verif Require Import Base Facts F32 Types Lib Util Com Fbc SpecCodec ProofsSerialCodec SpecSerial SpecCoupler SpecImage SpecOutcome
  SpecSystem SpecGlitch SpecFault SpecOrdered SpecSlow ProofsSerial ProofsModule ProofsImage ProofsLayout ProofsLoop ProofsCycle ProofsCoupler ProofsNew ProofsOrder
  ProofsOutcome ProofsGlitch ProofsSerialSystem ProofsSystem ProofsFault ProofsOrdered.
From Verif Require ProofsTorn.
Import ListNotations.
Local Open Scope Z_scope.
Ltac Zify.zify_post_hook ::= Z.div_mod_to_equations.

(** *** Bytes of a message read slowly *)

Definition in_data (d : rs_in) (x : list Z) : rs_in :=
  mk_rs_in (ri_data_available d) (ri_buffer_nearly_full d) (ri_rx_cnt d) (ri_tx_cnt_ack d) (ri_ready d) x.
Lemma in_data_same d : in_data d (ri_data d) = d.
Proof. destruct d; reflexivity. Qed.

Lemma in_decode st n rest : rs_in_from_bytes (st :: n :: rest) =
  if Nat.ltb (length rest) (Z.to_nat n) then Err BufferLength
  else Ok (mk_rs_in (test_bit st 0) (test_bit st 1) (cnt_from_status_byte st) (cnt_ack_from_status_byte st)
             (test_bit st 7) (firstn (Z.to_nat n) rest)).
Proof.
  unfold rs_in_from_bytes. replace (Nat.ltb (length (st :: n :: rest)) 2) with false by (cbn [length]; lia).
  cbn [index nth_error bind].
  destruct (Nat.ltb_spec (length rest) (Z.to_nat n)) as [H|H].
  - replace (Nat.ltb (length (st :: n :: rest)) (Z.to_nat n + 2)) with true by (cbn [length]; lia). reflexivity.
  - replace (Nat.ltb (length (st :: n :: rest)) (Z.to_nat n + 2)) with false by (cbn [length]; lia).
    unfold slice. replace (Nat.leb 2 (Z.to_nat n + 2) && Nat.leb (Z.to_nat n + 2) (length (st :: n :: rest))) with true by (cbn [length]; lia).
    replace (Z.to_nat n + 2 - 2)%nat with (Z.to_nat n) by lia. reflexivity.
Qed.
Lemma in_two bytes d : rs_in_from_bytes bytes = Ok d -> exists st n rest, bytes = st :: n :: rest.
Proof. destruct bytes as [|st [|n rest]]; intros H; [discriminate..|eauto]. Qed.

Lemma in_part_nth l ioff image k : ioff mod 16 = 0 -> nth_error (in_part l ioff image) k =
  if Nat.ltb k (message_size l) then
    match nth_error image (in_header ioff + k / 2) with
    | Some w => Some (if Nat.even k then w mod 256 else w / 256) | None => None end
  else None.
Proof.
  intros H. unfold in_part, image_bytes. rewrite nth_error_firstn. destruct (Nat.ltb k (message_size l)); [|reflexivity].
  rewrite nth_error_skipn, ProofsTorn.bytes_nth.
  assert (E : first_byte 0 ioff = (2 * in_header ioff)%nat) by (unfold first_byte, in_header; rewrite H; cbn [Z.div]; lia).
  rewrite E.
  replace ((2 * in_header ioff + k) / 2)%nat with (in_header ioff + k / 2)%nat by lia.
  rewrite Nat.even_add, Nat.even_mul. cbn [Nat.even orb]. destruct (Nat.even k); reflexivity.
Qed.

Lemma words_length w : length (bytes_of_words w) = (2 * length w)%nat.
Proof. induction w as [|z w IH]; [reflexivity|]. change (bytes_of_words (z :: w)) with (z mod 256 :: z / 256 :: bytes_of_words w). cbn [length]. lia. Qed.

Lemma in_part_length l ioff x y : length x = length y -> length (in_part l ioff x) = length (in_part l ioff y).
Proof. intros H. unfold in_part, image_bytes. rewrite !firstn_length, !skipn_length, !words_length, H. reflexivity. Qed.

Lemma slow_decode l ioff snapshots input s0 d0 : ioff mod 16 = 0 -> In s0 snapshots ->
  (forall s, In s snapshots -> length s = length input) ->
  (forall k, (k < message_registers l)%nat ->
     exists s, In s snapshots /\ nth_error input (in_header ioff + k) = nth_error s (in_header ioff + k)) ->
  nth_error input (in_header ioff) = nth_error s0 (in_header ioff) -> rs_in_from_bytes (in_part l ioff s0) = Ok d0 ->
  exists x, rs_in_from_bytes (in_part l ioff input) = Ok (in_data d0 x) /\
    ((forall s, In s snapshots -> exists d, rs_in_from_bytes (in_part l ioff s) = Ok d /\ ri_data d = ri_data d0) -> x = ri_data d0).
Proof.
  intros H I0 Hl Hm Hh D0.
  pose proof (in_part_length l ioff _ _ (Hl _ I0)) as L.
  destruct (in_two _ _ D0) as (st & n & rest & E0). rewrite E0 in D0, L.
  assert (N0 : nth_error (in_part l ioff input) 0 = Some st).
  { rewrite in_part_nth by exact H. change (0 / 2)%nat with 0%nat. rewrite Nat.add_0_r, Hh.
    pose proof (in_part_nth l ioff s0 0 H) as Q. change (0 / 2)%nat with 0%nat in Q. rewrite Nat.add_0_r, E0 in Q. symmetry. exact Q. }
  assert (N1 : nth_error (in_part l ioff input) 1 = Some n).
  { rewrite in_part_nth by exact H. change (1 / 2)%nat with 0%nat. rewrite Nat.add_0_r, Hh.
    pose proof (in_part_nth l ioff s0 1 H) as Q. change (1 / 2)%nat with 0%nat in Q. rewrite Nat.add_0_r, E0 in Q. symmetry. exact Q. }
  destruct (in_part l ioff input) as [|st' [|n' rest']] eqn:Ei; [discriminate..|].
  apply Some_inj in N0. apply Some_inj in N1. subst st' n'. cbn [length] in L.
  rewrite in_decode in D0. destruct (Nat.ltb_spec (length rest) (Z.to_nat n)) as [G|G]; [discriminate|]. apply Ok_inj in D0. subst d0.
  exists (firstn (Z.to_nat n) rest'). split.
  - rewrite in_decode. replace (Nat.ltb (length rest') (Z.to_nat n)) with false by lia. reflexivity.
  - intros Hs. apply nth_error_eq. intros k. cbn [ri_data].
    assert (Ln : length (firstn (Z.to_nat n) rest) = Z.to_nat n) by (rewrite firstn_length; lia).
    rewrite nth_error_firstn. destruct (Nat.ltb_spec k (Z.to_nat n)) as [K|K]; [|symmetry; apply nth_error_None; lia].
    assert (Q : nth_error (in_part l ioff input) (S (S k)) = nth_error rest' k) by (rewrite Ei; reflexivity).
    rewrite <- Q.
    assert (B : (S (S k) < message_size l)%nat).
    { assert (nth_error (in_part l ioff input) (S (S k)) <> None).
      { rewrite Q. apply nth_error_Some. lia. }
      rewrite in_part_nth in H0 by exact H. destruct (Nat.ltb_spec (S (S k)) (message_size l)); [assumption|congruence]. }
    destruct (Hm (S (S k) / 2)%nat (message_half _ _ B)) as (s & Is & Es).
    destruct (Hs _ Is) as (d & Dd & Ed). cbn [ri_data] in Ed.
    transitivity (nth_error (in_part l ioff s) (S (S k))).
    { rewrite !in_part_nth by exact H. rewrite Es. reflexivity. }
    destruct (in_two _ _ Dd) as (st2 & n2 & rest2 & E2). rewrite E2 in *. rewrite in_decode in Dd.
    destruct (Nat.ltb_spec (length rest2) (Z.to_nat n2)) as [G2|G2]; [discriminate|]. apply Ok_inj in Dd. subst d. cbn [ri_data nth_error] in *.
    rewrite <- Ed, nth_error_firstn.
    assert (Z.to_nat n2 = Z.to_nat n).
    { apply (f_equal (@length Z)) in Ed. rewrite !firstn_length in Ed. lia. }
    replace (Nat.ltb k (Z.to_nat n2)) with true by lia. reflexivity.
Qed.

(** *** The message processor *)

(** Other data in the input image that was read. *)
Definition blotted (s : system) (x : list Z) : system :=
  mk_system (s_proc s) (in_data (s_latch s) x) (s_image s) (s_register s) (s_device s)
    (s_written s) (s_taken s) (s_offered s) (s_delivered s) (s_cycles s).
Lemma blotted_same s : blotted s (ri_data (s_latch s)) = s.
Proof. unfold blotted. rewrite in_data_same. destruct s; reflexivity. Qed.
Lemma blotted_twice s x y : blotted (blotted s x) y = blotted s y.
Proof. reflexivity. Qed.

Lemma blotted_fault l n s x : inv_fault l n s -> inv_fault l n (blotted s x).
Proof.
  intros [(w & [I1 I2 I3 I4 I5 I6 I7 I8] & Hs & Hn) Q Im Rg]. constructor; auto. exists w. split; [|split; assumption].
  constructor; auto.
Qed.

(** The data of the image are of no importance: they have been fetched or there are none. *)
Definition unneeded (s : system) : Prop :=
  ri_data_available (s_latch s) = false \/
  (p_init_state (s_proc s) = Done /\ p_last_rx_cnt (s_proc s) = ri_rx_cnt (s_latch s)).
Definition harmless (s : system) (x : list Z) : Prop := x = ri_data (s_latch s) \/ unneeded s.

Lemma blotted_next prof p i o x : ri_data_available i = false \/ (p_init_state p = Done /\ p_last_rx_cnt p = ri_rx_cnt i) ->
  processor_next prof p (in_data i x) o = processor_next prof p i o.
Proof.
  unfold processor_next, in_data. cbn [ri_data_available ri_rx_cnt ri_tx_cnt_ack ri_data].
  intros [->|(-> & ->)].
  - destruct (p_init_state p); reflexivity.
  - rewrite Z.eqb_refl. cbn [negb]. rewrite andb_false_r. reflexivity.
Qed.
Lemma next_last prof p i o p' o' : ri_data_available i = false \/ (p_init_state p = Done /\ p_last_rx_cnt p = ri_rx_cnt i) ->
  processor_next prof p i o = Ok (p', o') ->
  ri_data_available i = false \/ (p_init_state p' = Done /\ p_last_rx_cnt p' = ri_rx_cnt i).
Proof.
  intros [N|(H1 & H2)] H; [left; exact N|right]. unfold processor_next in H. rewrite H1, H2, Z.eqb_refl in H. cbn [negb] in H.
  rewrite andb_false_r in H. apply bind_ok in H. destruct H as (((q & u) & v) & _ & H). apply Ok_inj in H. apply pair_inj in H.
  destruct H as (<- & _). auto.
Qed.

Lemma blotted_happen prof s x e s' : harmless s x -> happen prof (blotted s x) e = Ok s' ->
  exists s1 y, happen prof s e = Ok s1 /\ s' = blotted s1 y /\ harmless s1 y.
Proof.
  intros [->|Hu] H.
  { rewrite blotted_same in H. exists s', (ri_data (s_latch s')). split; [exact H|]. split; [symmetry; apply blotted_same|left; reflexivity]. }
  unfold unneeded in Hu. destruct e as [buf|size| | | | |seg| |full ready]; cbn [happen] in *; unfold blotted in H; sfields.
  - apply Ok_inj in H. subst s'. eexists _, x. split; [reflexivity|]. split; [reflexivity|]. right. exact Hu.
  - destruct (read_spec (s_proc s) size) as (_ & _ & _ & R4 & R5 & _). destruct (processor_read (s_proc s) size) as (q & b) eqn:E.
    cbn [fst] in R4, R5. apply Ok_inj in H. subst s'.
    eexists _, x. split; [reflexivity|]. split; [reflexivity|]. right. unfold unneeded. sfields. rewrite R4, R5. exact Hu.
  - apply Ok_inj in H. subst s'. eexists _, (ri_data (s_device s)). split; [reflexivity|]. split; [unfold blotted; sfields; rewrite in_data_same; reflexivity|].
    left. reflexivity.
  - rewrite blotted_next in H by exact Hu. destruct (processor_next prof (s_proc s) (s_latch s) (s_image s)) as [[p o]|e|e] eqn:E; [|discriminate..].
    cbn [bind] in H. apply Ok_inj in H. subst s'. eexists _, x. split; [reflexivity|]. split; [reflexivity|]. right. unfold unneeded. sfields.
    exact (next_last _ _ _ _ _ _ Hu E).
  - apply Ok_inj in H. subst s'. eexists _, x. split; [reflexivity|]. split; [reflexivity|]. right. exact Hu.
  - destruct (_ =? _); apply Ok_inj in H; subst s'; eexists _, x; (split; [reflexivity|]; split; [reflexivity|]; right; exact Hu).
  - destruct (_ =? _); apply Ok_inj in H; subst s'; eexists _, x; (split; [reflexivity|]; split; [reflexivity|]; right; exact Hu).
  - destruct (_ =? _); apply Ok_inj in H; subst s'; eexists _, x; (split; [reflexivity|]; split; [reflexivity|]; right; exact Hu).
  - apply Ok_inj in H. subst s'. eexists _, x. split; [reflexivity|]. split; [reflexivity|]. right. exact Hu.
Qed.

Lemma blotted_schedule prof es : forall s x s', harmless s x -> schedule prof (blotted s x) es = Ok s' ->
  exists s1 y, schedule prof s es = Ok s1 /\ s' = blotted s1 y /\ harmless s1 y.
Proof.
  induction es as [|e es IH]; intros s x s' Hx H; cbn [schedule] in *.
  - apply Ok_inj in H. subst s'. eauto.
  - apply bind_ok in H. destruct H as (s1 & H1 & H2). destruct (blotted_happen _ _ _ _ _ Hx H1) as (s2 & y & -> & -> & Hy). cbn [bind].
    exact (IH _ _ _ Hy H2).
Qed.

(** *** The plant *)

Lemma module_latch prof i l ioff ooff t e t' input : module_event e = true -> plant_step prof i l ioff ooff t e t' ->
  plant_step prof i l ioff ooff (with_latch t input) e (with_latch t' input).
Proof.
  intros Hm H. destruct H as [t a v Hv|t j n c r Er|t j b Hb|t y Hu Hin|t c' image Hcy|t|t o Eo|t seg o Eo|t o Eo|t full ready]; try discriminate.
  - refine (eq_ind _ (plant_step prof i l ioff ooff _ _) (P_take prof i l ioff ooff (with_latch t input) o Eo) _ _).
    unfold with_latch, with_device. plain. destruct (_ =? _); reflexivity.
  - refine (eq_ind _ (plant_step prof i l ioff ooff _ _) (P_offer prof i l ioff ooff (with_latch t input) seg o Eo) _ _).
    unfold with_latch, with_device. plain. destruct (_ =? _); reflexivity.
  - refine (eq_ind _ (plant_step prof i l ioff ooff _ _) (P_clear prof i l ioff ooff (with_latch t input) o Eo) _ _).
    unfold with_latch, with_device. plain. destruct (_ =? _); reflexivity.
  - exact (P_status prof i l ioff ooff (with_latch t input) full ready).
Qed.

Lemma module_frame prof i l ioff ooff t e t' : module_event e = true -> plant_step prof i l ioff ooff t e t' ->
  t_coupler t' = t_coupler t /\ t_latch t' = t_latch t /\ t_image t' = t_image t /\ t_register t' = t_register t /\
  (forall o, rs_out_from_bytes (out_part l ooff (t_register t)) = Ok o -> ro_rx_cnt_ack o <> ri_rx_cnt (t_device t) ->
     ri_rx_cnt (t_device t') = ri_rx_cnt (t_device t) /\ ri_data (t_device t') = ri_data (t_device t)).
Proof.
  intros Hm H. destruct H as [t a v Hv|t j n c r Er|t j b Hb|t y Hu Hin|t c' image Hcy|t|t o Eo|t seg o Eo|t o Eo|t full ready]; try discriminate.
  - destruct (_ =? _); unfold with_device; plain; cbn [ri_rx_cnt ri_data]; auto 8.
  - destruct (Z.eqb_spec (ro_rx_cnt_ack o) (ri_rx_cnt (t_device t))) as [E|E]; unfold with_device; plain; auto 8.
    do 4 (split; [reflexivity|]). intros o' Eo' N; exfalso; rewrite Eo in Eo'; apply Ok_inj in Eo'; subst o'; auto.
  - destruct (Z.eqb_spec (ro_rx_cnt_ack o) (ri_rx_cnt (t_device t))) as [E|E]; unfold with_device; plain; auto 8.
    do 4 (split; [reflexivity|]). intros o' Eo' N; exfalso; rewrite Eo in Eo'; apply Ok_inj in Eo'; subst o'; auto.
  - unfold with_device; plain; cbn [ri_rx_cnt ri_data]; auto 8.
Qed.

Lemma watched_frame prof i l ioff ooff t es snapshots t' : watched prof i l ioff ooff t es snapshots t' ->
  t_coupler t' = t_coupler t /\ t_latch t' = t_latch t /\ t_image t' = t_image t /\ t_register t' = t_register t /\
  (forall o, rs_out_from_bytes (out_part l ooff (t_register t)) = Ok o -> ro_rx_cnt_ack o <> ri_rx_cnt (t_device t) ->
     forall s, In s snapshots -> exists d, rs_in_from_bytes (in_part l ioff s) = Ok d /\ ri_data d = ri_data (t_device t)).
Proof.
  induction 1 as [t s (_ & P)|t s e t1 es ss t' (_ & P) Hm H1 H2 (I1 & I2 & I3 & I4 & I5)].
  - do 4 (split; [reflexivity|]). intros o _ _ s' [<-|[]]. eauto.
  - destruct (module_frame _ _ _ _ _ _ _ _ Hm H1) as (J1 & J2 & J3 & J4 & J5).
    do 4 (split; [congruence|]). intros o Eo N s' [<-|Hs]; [eauto|].
    destruct (J5 o Eo N) as (K1 & K2). destruct (I5 o) with (s := s') as (d & D1 & D2); [congruence..|exact Hs|].
    exists d. split; [exact D1|congruence].
Qed.

Lemma watched_latch prof i l ioff ooff t es snapshots t' input : watched prof i l ioff ooff t es snapshots t' ->
  watched prof i l ioff ooff (with_latch t input) es snapshots (with_latch t' input).
Proof.
  induction 1 as [t s P|t s e t1 es ss t' P Hm H1 H2 IH]; [constructor; exact P|].
  econstructor; [exact P|exact Hm|exact (module_latch _ _ _ _ _ _ _ _ _ Hm H1)|exact IH].
Qed.

Lemma watched_runs prof i l ioff ooff t es snapshots t' : watched prof i l ioff ooff t es snapshots t' -> forall s,
  alike_plant i l ioff ooff t s -> exists evs s', schedule prof s evs = Ok s' /\ alike_plant i l ioff ooff t' s'.
Proof.
  induction 1 as [t sn P|t sn e t1 es ss t' P Hm H1 H2 IH]; intros s A; [exists [], s; auto|].
  destruct (plant_simulates _ _ _ _ _ _ _ _ _ A H1) as (e1 & s1 & G1 & A1 & _).
  destruct (IH s1 A1) as (e2 & s2 & G2 & A2). exists (e1 ++ e2), s2. rewrite schedule_app, G1. auto.
Qed.

Lemma watched_snapshot prof i l ioff ooff t es snapshots t' : watched prof i l ioff ooff t es snapshots t' -> forall s snapshot,
  alike_plant i l ioff ooff t s -> In snapshot snapshots ->
  exists evs s', schedule prof s evs = Ok s' /\ alike_plant i l ioff ooff (with_latch t' snapshot) s'.
Proof.
  induction 1 as [t sn P|t sn e t1 es ss t' P Hm H1 H2 IH]; intros s snapshot A Hin.
  - destruct Hin as [<-|[]]. destruct P as (P1 & P2).
    destruct (plant_simulates _ _ _ _ _ _ _ _ _ A (P_input prof i l ioff ooff t sn P1 P2)) as (evs & s' & G & A' & _). exists evs, s'. auto.
  - destruct Hin as [<-|Hin].
    + destruct P as (P1 & P2).
      destruct (plant_simulates _ _ _ _ _ _ _ _ _ A (P_input prof i l ioff ooff t sn P1 P2)) as (e1 & s1 & G1 & A1 & _).
      pose proof (watched_latch _ _ _ _ _ _ _ _ _ sn (W_later prof i l ioff ooff t sn e t1 es ss t' (conj P1 P2) Hm H1 H2)) as Wl.
      destruct (watched_runs _ _ _ _ _ _ _ _ _ Wl s1 A1) as (e2 & s2 & G2 & A2).
      exists (e1 ++ e2), s2. rewrite schedule_app, G1. auto.
    + destruct (plant_simulates _ _ _ _ _ _ _ _ _ A H1) as (e1 & s1 & G1 & A1 & _).
      destruct (IH s1 snapshot A1 Hin) as (e2 & s2 & G2 & A2). exists (e1 ++ e2), s2. rewrite schedule_app, G1. auto.
Qed.

(** The first register is read first: as if the whole image had been read first, but for the data. *)
Lemma watched_first prof i l ioff ooff t es sn ss t' s : watched prof i l ioff ooff t es (sn :: ss) t' ->
  alike_plant i l ioff ooff t s ->
  exists evs s', schedule prof s (HostRead :: evs) = Ok s' /\ alike_plant i l ioff ooff (with_latch t' sn) s' /\
    s_latch s' = s_device s /\ s_proc s' = s_proc s.
Proof.
  intros H A. assert (P : presented l ioff t sn) by (inversion H; assumption). destruct P as (P1 & P2).
  destruct (plant_simulates _ _ _ _ _ _ _ _ _ A (P_input prof i l ioff ooff t sn P1 P2)) as (e1 & s1 & G1 & A1 & ->).
  pose proof (watched_latch _ _ _ _ _ _ _ _ _ sn H) as Wl.
  destruct (watched_runs _ _ _ _ _ _ _ _ _ Wl s1 A1) as (e2 & s2 & G2 & A2).
  exists e2, s2. split; [change (HostRead :: e2) with ([HostRead] ++ e2); rewrite schedule_app, G1; exact G2|]. split; [exact A2|].
  destruct (watched_frame _ _ _ _ _ _ _ _ _ Wl) as (F1 & F2 & _). unfold with_latch in F1, F2. plain. split.
  - apply Ok_inj. rewrite <- (ap_latch _ _ _ _ _ _ A2). unfold with_latch. plain. rewrite P2. f_equal. exact (ap_device _ _ _ _ _ _ A).
  - apply Some_inj. rewrite <- (ap_proc _ _ _ _ _ _ A2), <- (ap_proc _ _ _ _ _ _ A). unfold with_latch. plain. rewrite F1. reflexivity.
Qed.

Lemma alike_latch i l ioff ooff t s sn input x : alike_plant i l ioff ooff (with_latch t sn) s ->
  rs_in_from_bytes (in_part l ioff input) = Ok (in_data (s_latch s) x) ->
  alike_plant i l ioff ooff (with_latch t input) (blotted s x).
Proof. intros [] D. split; unfold with_latch, blotted in *; plain; auto. Qed.

Lemma whole_slow prof i l ioff ooff t e t' s : alike_plant i l ioff ooff t s -> whole l ooff t ->
  slow_step prof i l ioff ooff t e t' -> whole l ooff t'.
Proof.
  intros Ha Hw H. destruct H as [t e t' H|t es ss t' input H _ _ _]; [exact (whole_step _ _ _ _ _ _ _ _ _ Ha Hw H)|].
  destruct (watched_frame _ _ _ _ _ _ _ _ _ H) as (_ & _ & E1 & E2 & _). unfold whole, with_latch in *. plain. rewrite E1, E2. exact Hw.
Qed.

Definition slow_count (l : process_data_length) (ooff : Z) (t : plant) (e : slow_event) : nat :=
  match e with Prompt (Disturbed e') => forgotten l ooff t e' | _ => 0%nat end.

Lemma at_ioff i l ioff ooff t s : alike_plant i l ioff ooff t s -> ioff mod 16 = 0.
Proof. intros A. destruct (ap_at _ _ _ _ _ _ A) as (_ & H & _). exact H. Qed.

Lemma slow_simulates prof i l ioff ooff t es ss t' input s : alike_plant i l ioff ooff t s ->
  watched prof i l ioff ooff t es ss t' -> (forall sn, In sn ss -> length sn = length input) ->
  (forall k, (k < message_registers l)%nat ->
     exists sn, In sn ss /\ nth_error input (in_header ioff + k) = nth_error sn (in_header ioff + k)) ->
  exists evs s1 x, schedule prof s evs = Ok s1 /\ alike_plant i l ioff ooff (with_latch t' input) (blotted s1 x).
Proof.
  intros A H Hl Hm. destruct (Hm 0%nat) as (sn & I0 & E0); [destruct l; cbn; lia|]. rewrite Nat.add_0_r in E0.
  destruct (watched_snapshot _ _ _ _ _ _ _ _ _ H s sn A I0) as (evs & s1 & G & A1).
  pose proof (ap_latch _ _ _ _ _ _ A1) as D. unfold with_latch in D. plain.
  destruct (slow_decode l ioff ss input sn (s_latch s1) (at_ioff _ _ _ _ _ _ A) I0 Hl Hm E0 D) as (x & X & _).
  exists evs, s1, x. split; [exact G|]. exact (alike_latch _ _ _ _ _ _ _ _ _ A1 X).
Qed.

(** *** Transmission *)

Lemma slow_tx prof i l ioff ooff t es t' n : slow_runs prof i l ioff ooff t es t' n -> Forall (writes_in_order l ooff) es -> forall s k,
  alike_plant i l ioff ooff t s -> whole l ooff t -> inv_fault l k s ->
  exists s', alike_plant i l ioff ooff t' s' /\ whole l ooff t' /\ inv_fault l (n + k) s'.
Proof.
  induction 1 as [t|t e t1 es t2 n H1 H2 IH]; intros Hf s k Ha Hw Hi.
  - exists s. auto.
  - inversion Hf as [|? ? Hh Hf']; subst. fold (slow_count l ooff t e).
    pose proof (whole_slow _ _ _ _ _ _ _ _ _ Ha Hw H1) as Hw1. destruct H1 as [t e t1 H1|t es' ss t1 input H1 _ Hl Hm]; cbn [slow_count writes_in_order] in *.
    + fold (count l ooff t e).
      destruct (torn_simulates _ _ _ _ _ _ _ _ _ Ha Hw Hh H1) as (s1 & A1 & [(E & evs & G)|[(-> & Hk)|(E & d & -> & Ld & Hd)]]).
      * destruct (IH Hf' s1 k A1 Hw1 (fault_schedule _ _ _ _ _ _ Hi G)) as (s2 & A2 & W2 & I2). exists s2. rewrite E. auto.
      * destruct (IH Hf' (back s) (count l ooff t e + k)%nat A1 Hw1 (fault_back _ _ _ _ Hi Hk)) as (s2 & A2 & W2 & I2).
        exists s2. split; [exact A2|]. split; [exact W2|].
        replace (count l ooff t e + n + k)%nat with (n + (count l ooff t e + k))%nat by lia. exact I2.
      * destruct (IH Hf' (smudged s d) k A1 Hw1 (smudged_fault _ _ _ _ Hi Ld Hd)) as (s2 & A2 & W2 & I2). exists s2. rewrite E. auto.
    + destruct (slow_simulates _ _ _ _ _ _ _ _ _ _ _ Ha H1 Hl Hm) as (evs & s1 & x & G & A1).
      exact (IH Hf' _ k A1 Hw1 (blotted_fault _ _ _ x (fault_schedule _ _ _ _ _ _ Hi G))).
Qed.

Lemma C105_transmission_all : forall prof i l ioff ooff t0 es t n, plant_start i l ioff ooff t0 ->
  slow_runs prof i l ioff ooff t0 es t n -> Forall (writes_in_order l ooff) es ->
  subsequence (t_taken t ++ on_its_way l ooff t ++ waiting_in (t_coupler t) i) (t_written t) /\
  (length (t_written t) <=
     length (t_taken t ++ on_its_way l ooff t ++ waiting_in (t_coupler t) i) + n * payload_size l)%nat /\
  (n = 0%nat -> t_written t = t_taken t ++ on_its_way l ooff t ++ waiting_in (t_coupler t) i).
Proof.
  intros prof i l ioff ooff t0 es t n H0 H Hf. destruct (plant_starts _ _ _ _ _ H0) as (s0 & S0 & A0).
  destruct (slow_tx _ _ _ _ _ _ _ _ _ H Hf s0 0%nat A0 (whole_start _ _ _ _ _ H0) (fault_start _ _ S0)) as (s & A & _ & Hi). rewrite Nat.add_0_r in Hi.
  destruct (fault_accounted _ _ _ Hi) as (F1 & F2).
  destruct (alike_on_its_way _ _ _ _ _ _ A) as (-> & -> & _).
  destruct A as [_ _ _ _ _ _ _ -> -> _ _ _].
  split; [exact F1|]. split; [exact F2|]. intros ->. symmetry. apply sub_equal; [exact F1|]. cbn [Nat.mul] in F2. lia.
Qed.

Lemma C105_progress_all : forall prof i l ioff ooff t0 es t n rounds t', plant_start i l ioff ooff t0 ->
  slow_runs prof i l ioff ooff t0 es t n -> Forall (writes_in_order l ooff) es -> (2 <= t_cycles t)%nat ->
  Forall plant_round rounds -> (outstanding i l ooff t <= length rounds)%nat ->
  plant_runs prof i l ioff ooff t (concat rounds) t' ->
  exists rest, t_taken t' = (t_taken t ++ on_its_way l ooff t ++ waiting_in (t_coupler t) i) ++ rest.
Proof.
  intros prof i l ioff ooff t0 es t n rounds t' H0 H Hh Hc Hf Hn H2. destruct (plant_starts _ _ _ _ _ H0) as (s0 & S0 & A0).
  destruct (slow_tx _ _ _ _ _ _ _ _ _ H Hh s0 0%nat A0 (whole_start _ _ _ _ _ H0) (fault_start _ _ S0)) as (s & A & _ & Hi).
  eapply progress_from; eassumption.
Qed.

(** *** Reception *)

Lemma schedule_mono prof es : forall s s', schedule prof s es = Ok s' ->
  (s_cycles s <= s_cycles s')%nat /\ (length (s_offered s) <= length (s_offered s'))%nat.
Proof.
  induction es as [|e es IH]; intros s s' H; cbn [schedule] in H; [apply Ok_inj in H; subst; lia|].
  apply bind_ok in H. destruct H as (s1 & H1 & H2). apply happen_mono in H1. apply IH in H2. lia.
Qed.

Lemma run_frx_none prof r0 es : forall s s' a g i m, p_init_state (s_proc s) = stage (s_cycles s) ->
  inv_frx 0 r0 s a g i m -> schedule prof s es = Ok s' -> ((s_cycles s < 2)%nat -> s_offered s' = []) ->
  p_init_state (s_proc s') = stage (s_cycles s') /\ (s_cycles s <= s_cycles s')%nat /\ (length (s_offered s) <= length (s_offered s'))%nat /\
  exists a' g' i' m', inv_frx 0 r0 s' a' g' i' m' /\ (i <= i')%nat /\ (m <= m')%nat.
Proof.
  induction es as [|e es IH]; intros s s' a g i m Hst Hi H Ho; cbn [schedule] in H.
  - apply Ok_inj in H. subst s'. split; [exact Hst|]. split; [lia|]. split; [lia|]. exists a, g, i, m. split; [exact Hi|lia].
  - apply bind_ok in H. destruct H as (s1 & H1 & H2).
    destruct (step_frx prof 0 r0 e s s1 a g i m Hst Hi H1) as (Hst1 & a1 & g1 & i1 & m1 & Hi1 & Ho1 & Ho2 & _).
    destruct (happen_mono prof s e s1 H1) as (M1 & M2). pose proof (schedule_mono _ _ _ _ H2) as (M3 & M4).
    assert (E : (if Nat.ltb (s_cycles s) 2 then length (s_offered s1) else 0%nat) = 0%nat).
    { destruct (Nat.ltb_spec (s_cycles s) 2) as [L|L]; [|reflexivity]. rewrite (Ho L) in M4. cbn [length] in M4. lia. }
    rewrite E in Hi1. destruct (IH s1 s' _ _ _ _ Hst1 Hi1 H2) as (St & C & L & a2 & g2 & i2 & m2 & I2 & J1 & J2); [intros; apply Ho; lia|].
    split; [exact St|]. split; [lia|]. split; [lia|]. exists a2, g2, i2, m2. split; [exact I2|lia].
Qed.

(** What is acknowledged has been fetched. *)
Lemma acknowledged_unneeded r0 s s1 a g k m : inv_frx 0 r0 s a g k m -> p_init_state (s_proc s) = stage (s_cycles s) ->
  ((s_cycles s < 2)%nat -> s_offered s = []) -> ro_rx_cnt_ack (s_register s) = ri_rx_cnt (s_device s) ->
  s_latch s1 = s_device s -> s_proc s1 = s_proc s -> unneeded s1.
Proof.
  intros [(O0 & O1 & O2) Erg Eim Elt Edv Plt Pdv Rin Rrc] Hst Ho E L P. unfold unneeded. rewrite L, P.
  assert (Ea : length (s_offered s) = a) by (rewrite Erg, Edv in E; lia).
  assert (Ek : k = a) by lia. subst k.
  destruct (ri_data_available (s_device s)) eqn:Ev; [|left; reflexivity]. right. unfold presents in Pdv. rewrite ?Ev in Pdv. destruct Pdv as (Q & _).
  destruct (Nat.lt_ge_cases (s_cycles s) 2) as [C|C]; [rewrite (Ho C) in Q; cbn [length] in Q; lia|].
  split; [rewrite Hst; destruct (s_cycles s) as [|[|c]]; [lia..|reflexivity]|].
  destruct (Rrc C) as [(_ & _ & R)|(d & _ & _ & R & _)]; [lia|]. rewrite R, Edv, Ea. reflexivity.
Qed.

Record rx_state (i : nat) (l : process_data_length) (ioff ooff r0 : Z) (t : plant) (k m : nat) : Prop := {
  rx_whole : whole l ooff t;
  rx_system : exists s x a g, alike_plant i l ioff ooff t (blotted s x) /\ harmless s x /\
    p_init_state (s_proc s) = stage (s_cycles s) /\ inv_frx 0 r0 s a g k m }.

Definition in_order (l : process_data_length) (ioff ooff : Z) (e : slow_event) : Prop := writes_in_order l ooff e /\ header_first ioff e.

Lemma slow_mono prof i l ioff ooff t es t' n : slow_runs prof i l ioff ooff t es t' n ->
  (t_cycles t <= t_cycles t')%nat /\ (length (t_offered t) <= length (t_offered t'))%nat.
Proof.
  assert (P : forall t e t', plant_step prof i l ioff ooff t e t' -> (t_cycles t <= t_cycles t')%nat /\ (length (t_offered t) <= length (t_offered t'))%nat).
  { clear. intros t e t' H. destruct H; cbn; try lia; destruct (_ =? _); cbn; rewrite ?app_length; lia. }
  induction 1 as [t|t e t1 es t2 n H1 H2 IH]; [lia|].
  assert (Q : (t_cycles t <= t_cycles t1)%nat /\ (length (t_offered t) <= length (t_offered t1))%nat); [|lia]. clear - H1 P.
  destruct H1 as [t e t' H|t es ss t' input H _ _ _].
  - destruct H as [t e t' H|t w r M]; [|cbn; lia]. destruct H as [t e t' H|t input output c' H|t]; [|cbn; lia..]. exact (P _ _ _ H).
  - cbn [with_latch t_cycles t_offered]. induction H as [t s _|t s e t1 es ss t' _ _ H1 _ IH]; [lia|]. specialize (P _ _ _ H1). lia.
Qed.

Lemma rx_schedule prof i l ioff ooff r0 t' s x s' evs a g k m : whole l ooff t' -> alike_plant i l ioff ooff t' s' -> harmless s x ->
  p_init_state (s_proc s) = stage (s_cycles s) -> inv_frx 0 r0 s a g k m -> schedule prof (blotted s x) evs = Ok s' ->
  ((s_cycles s < 2)%nat -> t_offered t' = []) ->
  (s_cycles s <= t_cycles t')%nat /\ (length (s_offered s) <= length (t_offered t'))%nat /\
  exists k' m', rx_state i l ioff ooff r0 t' k' m' /\ (k <= k')%nat /\ (m <= m')%nat.
Proof.
  intros Hw A Hx Hst Hi G Hn. destruct (blotted_schedule _ _ _ _ _ Hx G) as (s1 & y & G1 & -> & Hy).
  rewrite (ap_offered _ _ _ _ _ _ A), (ap_cycles _ _ _ _ _ _ A) in *. change (s_offered (blotted s1 y)) with (s_offered s1) in *. change (s_cycles (blotted s1 y)) with (s_cycles s1) in *.
  destruct (run_frx_none _ _ _ _ _ _ _ _ _ Hst Hi G1 Hn) as (St & C & L & a1 & g1 & k1 & m1 & I1 & J1 & J2).
  split; [exact C|]. split; [exact L|]. exists k1, m1. split; [|lia]. split; [exact Hw|]. exists s1, y, a1, g1. auto.
Qed.

Lemma slow_rx_step prof i l ioff ooff r0 t e t' k m : rx_state i l ioff ooff r0 t k m -> in_order l ioff ooff e ->
  slow_step prof i l ioff ooff t e t' -> ((t_cycles t < 2)%nat -> t_offered t' = []) ->
  (t_cycles t <= t_cycles t')%nat /\ (length (t_offered t) <= length (t_offered t'))%nat /\
  exists k' m', rx_state i l ioff ooff r0 t' k' m' /\ (k <= k')%nat /\ (m <= m')%nat /\
    (reads_input e -> (length (t_offered t) <= m')%nat) /\
    (e = Prompt (Disturbed (Undisturbed PCycle)) -> (2 <= t_cycles t)%nat -> (m <= k')%nat).
Proof.
  intros [Hw (s & x & a & g & A & Hx & Hst & Hi)] (Ho & Hh) H Hn.
  pose proof (whole_slow _ _ _ _ _ _ _ _ _ A Hw H) as Hw1.
  assert (Ec : t_cycles t = s_cycles s) by exact (ap_cycles _ _ _ _ _ _ A).
  assert (Eo : t_offered t = s_offered s) by exact (ap_offered _ _ _ _ _ _ A).
  rewrite Ec, Eo in *.
  destruct H as [t e t' H|t es ss t' input H _ Hl Hm]; cbn [writes_in_order header_first] in *.
  - assert (Hcase : (exists y, e = Disturbed (Undisturbed (PInput y))) \/ e = Disturbed (Undisturbed PCycle) \/
              (~ reads_input (Prompt e) /\ e <> Disturbed (Undisturbed PCycle))).
    { destruct e as [[[ | | |y| | | | | | ]| |]|]; try (right; right; split; [exact (fun z => z)|discriminate]); eauto. }
    destruct Hcase as [(y & ->)|[->|(N1 & N2)]].
    + apply torn_plain in H. destruct (plant_simulates _ _ _ _ _ _ _ _ _ A H) as (evs & s1 & G & A1 & ->).
      assert (G' : schedule prof s [HostRead] = Ok s1) by exact G. clear G.
      cbn [schedule] in G'. apply bind_ok in G'. destruct G' as (s2 & G & G2). apply Ok_inj in G2. subst s2.
      destruct (step_frx _ _ _ _ _ _ _ _ _ _ Hst Hi G) as (St & a1 & g1 & k1 & m1 & I1 & J1 & J2 & J3 & _). specialize (J3 eq_refl).
      destruct (happen_mono _ _ _ _ G) as (M1 & M2).
      rewrite (ap_offered _ _ _ _ _ _ A1), (ap_cycles _ _ _ _ _ _ A1) in *. split; [exact M1|]. split; [exact M2|].
      exists k1, m1. split; [|repeat split; try lia; discriminate]. split; [exact Hw1|]. exists s1, (ri_data (s_latch s1)), a1, g1.
      rewrite blotted_same. split; [exact A1|]. split; [left; reflexivity|]. split; [exact St|].
      replace (if Nat.ltb (s_cycles s) 2 then length (s_offered s1) else 0%nat) with 0%nat in I1; [exact I1|].
      destruct (Nat.ltb_spec (s_cycles s) 2) as [C|C]; [rewrite (Hn C)|]; reflexivity.
    + apply torn_plain in H. destruct (plant_simulates _ _ _ _ _ _ _ _ _ A H) as (evs & s1 & G & A1 & (w & ->)).
      destruct (blotted_schedule _ _ _ _ _ Hx G) as (s2 & z & G1 & -> & Hz). clear G.
      rewrite (ap_offered _ _ _ _ _ _ A1), (ap_cycles _ _ _ _ _ _ A1) in *. change (s_offered (blotted s2 z)) with (s_offered s2) in *. change (s_cycles (blotted s2 z)) with (s_cycles s2) in *.
      rewrite schedule_app in G1. apply bind_ok in G1. destruct G1 as (s3 & G1 & G2).
      cbn [schedule] in G2. apply bind_ok in G2. destruct G2 as (s4 & G2 & G3). apply Ok_inj in G3. subst s4.
      destruct (happen_mono _ _ _ _ G2) as (M1 & M2).
      assert (Hn3 : (s_cycles s < 2)%nat -> s_offered s3 = []).
      { intros C. rewrite (Hn C) in M2. destruct (s_offered s3); [reflexivity|cbn [length] in M2; lia]. }
      destruct (run_frx_none _ _ _ _ _ _ _ _ _ Hst Hi G1 Hn3) as (St & C & L & a1 & g1 & k1 & m1 & I1 & J1 & J2).
      destruct (step_frx _ _ _ _ _ _ _ _ _ _ St I1 G2) as (St2 & a2 & g2 & k2 & m2 & I2 & K1 & K2 & _ & K4). specialize (K4 eq_refl).
      split; [lia|]. split; [lia|]. exists k2, m2. split; [|repeat split; try lia; intros []]. split; [exact Hw1|]. exists s2, z, a2, g2.
      split; [exact A1|]. split; [exact Hz|]. split; [exact St2|].
      replace (if Nat.ltb (s_cycles s3) 2 then length (s_offered s2) else 0%nat) with 0%nat in I2; [exact I2|].
      destruct (Nat.ltb_spec (s_cycles s3) 2) as [C'|C']; [rewrite Hn by lia|]; reflexivity.
    + assert (Goal : (s_cycles s <= t_cycles t')%nat /\ (length (s_offered s) <= length (t_offered t'))%nat /\
         exists k' m', rx_state i l ioff ooff r0 t' k' m' /\ (k <= k')%nat /\ (m <= m')%nat).
      { destruct (torn_simulates _ _ _ _ _ _ _ _ _ A Hw Ho H) as (s1 & A1 & [(E & evs & G)|[(-> & Hk)|(E & d & -> & Ld & Hd)]]).
        - exact (rx_schedule _ _ _ _ _ _ _ _ _ _ _ _ _ _ _ Hw1 A1 Hx Hst Hi G Hn).
        - change (back (blotted s x)) with (blotted (back s) x) in A1.
          rewrite (ap_offered _ _ _ _ _ _ A1), (ap_cycles _ _ _ _ _ _ A1). unfold blotted, back. plain.
          split; [lia|]. split; [lia|]. exists k, m. split; [|lia]. split; [exact Hw1|]. exists (back s), x, a, a.
          split; [exact A1|]. split; [exact Hx|]. split; [exact Hst|]. eapply back_frx. exact Hi.
        - change (smudged (blotted s x) d) with (blotted (smudged s d) x) in A1.
          rewrite (ap_offered _ _ _ _ _ _ A1), (ap_cycles _ _ _ _ _ _ A1). unfold blotted, smudged. plain.
          split; [lia|]. split; [lia|]. exists k, m. split; [|lia]. split; [exact Hw1|]. exists (smudged s d), x, a, g.
          split; [exact A1|]. split; [exact Hx|]. split; [exact Hst|]. apply smudged_frx. exact Hi. }
      destruct Goal as (Q1 & Q2 & k' & m' & Q3 & Q4 & Q5). split; [exact Q1|]. split; [exact Q2|]. exists k', m'. split; [exact Q3|]. split; [exact Q4|]. split; [exact Q5|].
      split; [intros F; destruct (N1 F)|]. intros F. exfalso. apply N2. injection F. auto.
  - destruct Hh as (sn & rest & -> & E0).
    destruct (watched_first _ _ _ _ _ _ _ _ _ _ _ H A) as (evs & s1 & G & A1 & L1 & P1).
    assert (G' : schedule prof s (HostRead :: evs) = Ok s1) by exact G. clear G.
    assert (P1' : s_proc s1 = s_proc s) by exact P1. assert (L1' : s_latch s1 = s_device s) by exact L1. clear P1 L1.
    pose proof (ap_latch _ _ _ _ _ _ A1) as D. unfold with_latch in D. plain.
    destruct (slow_decode l ioff (sn :: rest) input sn (s_latch s1) (at_ioff _ _ _ _ _ _ A) (or_introl eq_refl) Hl Hm E0 D) as (y & Y & Hy).
    pose proof (alike_latch _ _ _ _ _ _ _ _ _ A1 Y) as A2.
    assert (Eo2 : t_offered (with_latch t' input) = s_offered s1) by exact (ap_offered _ _ _ _ _ _ A1).
    assert (Ec2 : t_cycles (with_latch t' input) = s_cycles s1) by exact (ap_cycles _ _ _ _ _ _ A1). rewrite Eo2, Ec2 in *.
    assert (Hz : harmless s1 y).
    { destruct (Z.eq_dec (ro_rx_cnt_ack (s_register s)) (ri_rx_cnt (s_device s))) as [Ea|Ea].
      - right. refine (acknowledged_unneeded _ _ _ _ _ _ _ Hi Hst _ Ea L1' P1').
        intros C. pose proof (schedule_mono _ _ _ _ G') as (_ & M). rewrite (Hn C) in M. destruct (s_offered s); [reflexivity|cbn [length] in M; lia].
      - left. apply Hy. intros sn' Hs. destruct (watched_frame _ _ _ _ _ _ _ _ _ H) as (_ & _ & _ & _ & F).
        assert (Ed : t_device t = s_device s) by exact (ap_device _ _ _ _ _ _ A). rewrite Ed, L1' in *.
        exact (F (s_register s) (ap_register _ _ _ _ _ _ A) Ea sn' Hs). }
    cbn [schedule] in G'. apply bind_ok in G'. destruct G' as (s2 & G1 & G2).
    destruct (step_frx _ _ _ _ _ _ _ _ _ _ Hst Hi G1) as (St & a1 & g1 & k1 & m1 & I1 & J1 & J2 & J3 & _). specialize (J3 eq_refl).
    destruct (happen_mono _ _ _ _ G1) as (M1 & M2). destruct (schedule_mono _ _ _ _ G2) as (M3 & M4).
    replace (if Nat.ltb (s_cycles s) 2 then length (s_offered s2) else 0%nat) with 0%nat in I1.
    2:{ destruct (Nat.ltb_spec (s_cycles s) 2) as [C|C]; [rewrite (Hn C) in M4; cbn [length] in M4; lia|reflexivity]. }
    destruct (run_frx_none _ _ _ _ _ _ _ _ _ St I1 G2) as (St2 & C2 & L2 & a2 & g2 & k2 & m2 & I2 & K1 & K2); [intros; apply Hn; lia|].
    split; [lia|]. split; [lia|]. exists k2, m2. split; [|repeat split; try lia; discriminate]. split; [exact Hw1|].
    exists s1, y, a2, g2. split; [exact A2|]. split; [exact Hz|]. split; [exact St2|exact I2].
Qed.

Lemma slow_rx prof i l ioff ooff r0 t es t' n : slow_runs prof i l ioff ooff t es t' n -> Forall (in_order l ioff ooff) es ->
  ((t_cycles t < 2)%nat -> t_offered t' = []) -> forall k m, rx_state i l ioff ooff r0 t k m ->
  (t_cycles t <= t_cycles t')%nat /\ (length (t_offered t) <= length (t_offered t'))%nat /\
  exists k' m', rx_state i l ioff ooff r0 t' k' m' /\ (k <= k')%nat /\ (m <= m')%nat.
Proof.
  induction 1 as [t|t e t1 es t2 n H1 H2 IH]; intros Hf Ho k m Hr.
  - split; [lia|]. split; [lia|]. exists k, m. split; [exact Hr|lia].
  - inversion Hf as [|? ? Hh Hf']; subst.
    assert (M : (t_cycles t1 <= t_cycles t2)%nat /\ (length (t_offered t1) <= length (t_offered t2))%nat) by (clear - H2; exact (slow_mono _ _ _ _ _ _ _ _ _ H2)).
    destruct (slow_rx_step _ _ _ _ _ _ _ _ _ _ _ Hr Hh H1) as (Q1 & Q2 & k1 & m1 & R1 & K1 & K2 & _).
    { intros C. rewrite (Ho C) in M. cbn [length] in M. destruct (t_offered t1); [reflexivity|cbn [length] in M; lia]. }
    destruct (IH Hf') with (k := k1) (m := m1) as (Q3 & Q4 & k2 & m2 & R2 & K3 & K4); [intros; apply Ho; lia|exact R1|].
    split; [lia|]. split; [lia|]. exists k2, m2. split; [exact R2|lia].
Qed.

Lemma rx_start i l ioff ooff t : plant_start i l ioff ooff t -> exists r0, rx_state i l ioff ooff r0 t 0 0.
Proof.
  intros H0. destruct (plant_starts _ _ _ _ _ H0) as (s & S & A). exists (ri_rx_cnt (s_device s)). split; [exact (whole_start _ _ _ _ _ H0)|].
  exists s, (ri_data (s_latch s)), 0%nat, 0%nat. rewrite blotted_same. split; [exact A|]. split; [left; reflexivity|].
  split; [exact (it_stage _ _ (start_inv_tx _ _ S))|exact (start_frx _ _ S)].
Qed.

Lemma rx_accounted i l ioff ooff r0 t k m : rx_state i l ioff ooff r0 t k m -> (2 <= t_cycles t)%nat ->
  (k <= length (t_offered t) <= k + 1)%nat /\ t_delivered t ++ readable_in (t_coupler t) i = concat (firstn k (t_offered t)).
Proof.
  intros [_ (s & x & a & g & A & _ & _ & I)] C. rewrite (ap_cycles _ _ _ _ _ _ A) in C. unfold blotted in C. plain.
  destruct (frx_accounted _ _ _ _ _ _ _ I C) as (lost & f & F1 & F2 & F3 & F4). assert (lost = 0%nat) by lia. subst lost. cbn [skipn Nat.add] in *. subst f.
  destruct (alike_on_its_way _ _ _ _ _ _ A) as (_ & _ & E & _). rewrite E, (ap_offered _ _ _ _ _ _ A), (ap_delivered _ _ _ _ _ _ A).
  split; [exact F3|exact F4].
Qed.

Lemma C105_reception_all : forall prof i l ioff ooff t0 es1 t1 n1 es2 t2 n2, plant_start i l ioff ooff t0 ->
  slow_runs prof i l ioff ooff t0 es1 t1 n1 -> Forall (fun e => writes_in_order l ooff e /\ header_first ioff e) es1 ->
  (2 <= t_cycles t1)%nat -> t_offered t1 = [] ->
  slow_runs prof i l ioff ooff t1 es2 t2 n2 -> Forall (fun e => writes_in_order l ooff e /\ header_first ioff e) es2 ->
  exists fetched, (fetched <= length (t_offered t2) <= fetched + 1)%nat /\
    t_delivered t2 ++ readable_in (t_coupler t2) i = concat (firstn fetched (t_offered t2)).
Proof.
  intros prof i l ioff ooff t0 es1 t1 n1 es2 t2 n2 H0 H1 Hf1 Hc Ho H2 Hf2. destruct (rx_start _ _ _ _ _ H0) as (r0 & R0).
  destruct (slow_rx _ _ _ _ _ _ _ _ _ _ H1 Hf1 (fun _ => Ho) _ _ R0) as (_ & _ & k1 & m1 & R1 & _).
  destruct (slow_rx _ _ _ _ _ _ _ _ _ _ H2 Hf2 ltac:(lia) _ _ R1) as (C & _ & k2 & m2 & R2 & _).
  exists k2. eapply rx_accounted; [exact R2|lia].
Qed.

Lemma slow_runs_app prof i l ioff ooff es1 : forall t es2 t' n, slow_runs prof i l ioff ooff t (es1 ++ es2) t' n ->
  exists t1 n1 n2, slow_runs prof i l ioff ooff t es1 t1 n1 /\ slow_runs prof i l ioff ooff t1 es2 t' n2.
Proof.
  induction es1 as [|e es1 IH]; intros t es2 t' n H; cbn [app] in H.
  - exists t, 0%nat, n. split; [constructor|exact H].
  - inversion H; subst. match goal with B : slow_runs _ _ _ _ _ ?t1 (es1 ++ es2) t' _ |- _ => destruct (IH t1 es2 t' _ B) as (t2 & n1 & n2 & H1 & H2) end.
    eexists t2, _, n2. split; [econstructor; eassumption|exact H2].
Qed.

Lemma C105_reception_progress_all : forall prof i l ioff ooff t0 es1 t1 n1 es2 t2 n2 a e b c t3 n3, plant_start i l ioff ooff t0 ->
  slow_runs prof i l ioff ooff t0 es1 t1 n1 -> Forall (fun e => writes_in_order l ooff e /\ header_first ioff e) es1 ->
  (2 <= t_cycles t1)%nat -> t_offered t1 = [] ->
  slow_runs prof i l ioff ooff t1 es2 t2 n2 -> Forall (fun e => writes_in_order l ooff e /\ header_first ioff e) es2 ->
  slow_runs prof i l ioff ooff t2 (a ++ [e] ++ b ++ [Prompt (Disturbed (Undisturbed PCycle))] ++ c) t3 n3 ->
  Forall (fun e => writes_in_order l ooff e /\ header_first ioff e) (a ++ [e] ++ b ++ c) ->
  reads_input e ->
  exists fetched, (length (t_offered t2) <= fetched <= length (t_offered t3))%nat /\
    t_delivered t3 ++ readable_in (t_coupler t3) i = concat (firstn fetched (t_offered t3)).
Proof.
  intros prof i l ioff ooff t0 es1 t1 n1 es2 t2 n2 a e b c t3 n3 H0 H1 Hf1 Hc Ho H2 Hf2 H3 Hf3 He. destruct (rx_start _ _ _ _ _ H0) as (r0 & R0).
  apply Forall_app in Hf3. destruct Hf3 as (Hfa & Hf3). apply Forall_app in Hf3. destruct Hf3 as (Hfe & Hf3). apply Forall_app in Hf3. destruct Hf3 as (Hfb & Hfc).
  destruct (slow_rx _ _ _ _ _ _ _ _ _ _ H1 Hf1 (fun _ => Ho) _ _ R0) as (_ & _ & k1 & m1 & R1 & _).
  destruct (slow_rx _ _ _ _ _ _ _ _ _ _ H2 Hf2 ltac:(lia) _ _ R1) as (C2 & _ & k2 & m2 & R2 & _).
  apply slow_runs_app in H3. destruct H3 as (u1 & x1 & y1 & U1 & H3).
  destruct (slow_rx _ _ _ _ _ _ _ _ _ _ U1 Hfa ltac:(lia) _ _ R2) as (C3 & L3 & k3 & m3 & R3 & _).
  apply slow_runs_app in H3. destruct H3 as (u2 & x2 & y2 & U2 & H3).
  inversion U2 as [|? ? u2' ? ? ? S2 N2]; subst. inversion N2; subst. clear U2 N2. inversion Hfe as [|? ? Hfe' _]; subst.
  destruct (slow_rx_step _ _ _ _ _ _ _ _ _ _ _ R3 Hfe' S2 ltac:(lia)) as (C4 & L4 & k4 & m4 & R4 & _ & _ & M4 & _). specialize (M4 He).
  apply slow_runs_app in H3. destruct H3 as (u3 & x3 & y3 & U3 & H3).
  destruct (slow_rx _ _ _ _ _ _ _ _ _ _ U3 Hfb ltac:(lia) _ _ R4) as (C5 & L5 & k5 & m5 & R5 & _ & M5).
  cbn [app] in H3. inversion H3 as [|? ? u4 ? ? ? S4 H4]; subst. clear H3.
  destruct (slow_rx_step _ _ _ _ _ _ _ (Prompt (Disturbed (Undisturbed PCycle))) _ _ _ R5 (conj I I) S4 ltac:(lia)) as (C6 & L6 & k6 & m6 & R6 & _ & _ & _ & K6). specialize (K6 eq_refl ltac:(lia)).
  destruct (slow_rx _ _ _ _ _ _ _ _ _ _ H4 Hfc ltac:(lia) _ _ R6) as (C7 & L7 & k7 & m7 & R7 & K7 & _).
  exists k7. destruct (rx_accounted _ _ _ _ _ _ _ _ R7 ltac:(lia)) as (F1 & F2). split; [lia|exact F2].
Qed.
