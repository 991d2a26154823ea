(** Proofs about networks of digital control programs (C123). *)
From Coq Require Import ZArith List Bool Lia ZifyBool ZifyNat.
From Verif Require Import Base F32 Types Lib Util Digital Analog Fcnt Com Fbc Facts SpecCodec SpecSerial SpecCoupler SpecImage SpecFeedback SpecKeep SpecIdle SpecOutcome SpecLossless SpecTerminal SpecMachine SpecNetwork
  ProofsWitness ProofsCoupler ProofsLayout ProofsDigital ProofsKeep ProofsTerminal ProofsWire ProofsMachine ProofsOutage.
Import ListNotations.
Local Open Scope Z_scope.

(** Machines with the same parts run alike. *)
Lemma machines_ext {state} wire (P : nat -> program state) ms events outs : machines wire P ms events outs ->
  forall ms', (forall p, ms' p = ms p) -> machines wire P ms' events outs.
Proof.
  intros H. induction H as [ms|ms p x events outs L W H IH]; intros ms' E; [constructor|].
  rewrite <- (E p). apply Machines_S; [exact L| |].
  - intros n q k Hn Hw. rewrite E. exact (W n q k Hn Hw).
  - apply IH. intros q. unfold at_index. rewrite !E. reflexivity.
Qed.

Lemma C123_all : forall state prof wire (P : nat -> program state) in_offs out_offs ts events images, ends wire P ->
  (forall p, ready prof (P p) (in_offs p) (out_offs p) (ts p)) ->
  stations prof wire P in_offs out_offs ts events images ->
  machines wire P (fun p => as_machine (P p) (out_offs p) (ts p))
    (map (fun e => (fst e, bits_at input_bit (snd e) (sensors (P (fst e))) (in_offs (fst e)))) events)
    (map (fun ei => bits_at output_bit (snd ei) (actors (P (fst (fst ei)))) (out_offs (fst (fst ei)))) (combine events images)).
Proof.
  intros state prof wire P in_offs out_offs ts events images He Hr H. revert Hr.
  induction H as [ts|ts p aside input c1 image1 bits events images HL Hb Hn Hw Hi H IH]; intros Hr; [constructor|].
  destruct (Hr p) as (R1 & R2 & R3 & R4 & R5).
  destruct (round_ready prof (P p) (t_coupler (ts p)) (in_offs p) (out_offs p) R2 R3 R4 R5 (t_coupler (ts p)) (t_image (ts p)) _ _ _ _ _ _
    R1 (conj eq_refl eq_refl) R5 HL Hn Hi) as (Q1 & Q2 & Q3 & Q4 & Q5).
  pose proof R2 as Ls. apply Forall2_length in Ls. symmetry in Ls.
  cbn [map combine fst snd].
  set (m := as_machine (P p) (out_offs p) (ts p)).
  assert (Eo : bits_at output_bit image1 (actors (P p)) (out_offs p) = m_outs (machine_round (P p) m bits)) by exact Q5.
  rewrite Eo, <- Q4. unfold m. apply (Machines_S wire P (fun q => as_machine (P q) (out_offs q) (ts q)) p bits).
  - rewrite Q4. apply bits_length. exact Ls.
  - intros n q k Hnl Hq. destruct (Hr q) as (_ & _ & R3q & _). pose proof R3q as La. apply Forall2_length in La. symmetry in La.
    pose proof (He _ _ _ _ Hq) as Hk. rewrite Q4 in Hnl |- *. rewrite bits_length in Hnl by exact Ls.
    cbn [as_machine m_outs]. rewrite !bits_nth by assumption.
    destruct (nth_error (sensors (P p)) n) as [a|] eqn:Ea; [|apply nth_error_None in Ea; lia].
    destruct (nth_error (in_offs p) n) as [off|] eqn:Eoff; [|apply nth_error_None in Eoff; lia].
    destruct (nth_error (actors (P q)) k) as [a'|] eqn:Ea'; [|apply nth_error_None in Ea'; lia].
    destruct (nth_error (out_offs q) k) as [off'|] eqn:Eoff'; [|apply nth_error_None in Eoff'; lia].
    f_equal. exact (Hw n q k a off a' off' Hq Ea Eoff Ea' Eoff').
  - eapply machines_ext; [apply IH|].
    + intros q. unfold at_index. destruct (Nat.eqb_spec q p) as [->|N]; [|exact (Hr q)].
      split; [exact Q1|]. split; [eapply Forall2_weaken; [|exact R2]; intros a off; exact (sensor_static _ _ _ _ Q2)|].
      split; [eapply Forall2_weaken; [|exact R3]; intros a off; exact (actor_static _ _ _ _ Q2)|]. split; [exact R4|exact Q3].
    + intros q. unfold at_index. destruct (Nat.eqb_spec q p) as [->|N]; [|reflexivity].
      unfold machine_round, as_machine. cbn [t_state t_image t_commands m_state m_outs m_commands]. rewrite Q5. reflexivity.
Qed.

(** ** There is a next round *)
Lemma C123_goes_on_all : forall state prof wire (P : nat -> program state) in_offs out_offs ts,
  (forall p, ready prof (P p) (in_offs p) (out_offs p) (ts p)) -> (forall p, started prof (ts p)) ->
  can_be_wired wire P in_offs out_offs ts ->
  forall order, exists events images, map fst events = order /\ stations prof wire P in_offs out_offs ts events images.
Proof.
  intros state prof wire P in_offs out_offs ts Hr Hst Hw order. revert ts Hr Hst Hw.
  induction order as [|p order IH]; intros ts Hr Hst Hw; [exists [], []; split; [reflexivity|constructor]|].
  destruct (Hw ts p) as (input & Hu & Hir & Hc). destruct (Hst p) as (c0 & input0 & output0 & Hr0 & Hbw & Hc0).
  destruct (Hr p) as (R1 & R2 & R3 & R4 & R5).
  destruct (C120_goes_on_all _ _ (P p) _ _ _ _ _ _ _ Hr0 Hbw Hc0 R2 R3 [input] (t_state (ts p)) (t_commands (ts p))
    (Forall_cons _ (conj Hu Hir) (Forall_nil _))) as [images HR].
  inversion HR as [|? ? ? ? aside ? c1 image1 bits ? ? HL Hb Hn Hi HR']; subst. clear HR HR'.
  destruct (round_ready prof (P p) (t_coupler (ts p)) (in_offs p) (out_offs p) R2 R3 R4 R5 (t_coupler (ts p)) (t_image (ts p)) _ _ _ _ _ _
    R1 (conj eq_refl eq_refl) R5 HL Hn Hi) as (Q1 & Q2 & Q3 & Q4 & Q5).
  pose proof HL as HL'. rewrite app_assoc in HL'. destruct (last_tick _ _ _ _ _ _ _ R1 HL') as (c2 & image2 & Hr2 & S2 & Hc2).
  destruct (IH (at_index ts p (mk_station (fst (step (P p) (t_state (ts p)) bits)) (snd (step (P p) (t_state (ts p)) bits)) c1 image1)))
    as (events & images' & Eo & HS).
  - intros q. unfold at_index. destruct (Nat.eqb_spec q p) as [->|N]; [|exact (Hr q)].
    split; [exact Q1|]. split; [eapply Forall2_weaken; [|exact R2]; intros a off; exact (sensor_static _ _ _ _ Q2)|].
    split; [eapply Forall2_weaken; [|exact R3]; intros a off; exact (actor_static _ _ _ _ Q2)|]. split; [exact R4|exact Q3].
  - intros q. unfold at_index. destruct (Nat.eqb_spec q p) as [->|N]; [|exact (Hst q)].
    exists c2, input, image2. split; [exact Hr2|]. split; [|exact Hc2].
    pose proof (cycle_static _ _ _ _ _ _ Hc0) as S0. destruct S0 as [S01 S02]. destruct S2 as [S21 S22].
    unfold byte_wide, module_at in *. rewrite S21, S22, S01, S02. exact Hbw.
  - intros now q. unfold at_index. destruct (Nat.eqb_spec q p) as [->|N]; [|exact (Hw now q)].
    destruct (Hw now p) as (x & X1 & X2 & X3). exists x. split; [exact X1|]. split; [|exact X3].
    cbn [t_coupler]. destruct Q2 as [Q21 Q22]. unfold inputs_readable, module_at in *. rewrite Q21, Q22. exact X2.
  - exists ((p, input) :: events), (image1 :: images'). split; [cbn [map fst]; rewrite Eo; reflexivity|].
    exact (Stations_S _ _ _ _ _ _ _ _ _ _ _ _ _ _ HL Hb Hn Hc Hi HS).
Qed.
