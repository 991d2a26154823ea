(** Proofs about networks of disturbed control programs (C124). *)
From Coq Require Import ZArith List Bool Lia ZifyBool ZifyNat.
From Verif Require Import Base F32 Types Lib Util Digital Analog Fcnt Com Fbc Facts SpecCodec SpecSerial SpecCoupler SpecImage SpecFeedback SpecKeep SpecIdle SpecOutcome SpecLossless SpecTerminal SpecMachine
  SpecOutage SpecNetwork SpecFaults
  ProofsWitness ProofsCoupler ProofsLayout ProofsDigital ProofsKeep ProofsTerminal ProofsWire ProofsMemory ProofsMachine ProofsOutage ProofsNetwork.
Import ListNotations.
Local Open Scope Z_scope.

Lemma troubled_ext {state} wire (P : nat -> program state) ms events outs : troubled wire P ms events outs ->
  forall ms', (forall p, ms' p = ms p) -> troubled wire P ms' events outs.
Proof.
  intros H. induction H as [ms|ms p x events outs L W H IH|ms p x some events outs L W Hs H IH|ms p s events outs H IH]; intros ms' E; [constructor|..].
  - rewrite <- (E p). apply Troubled_whole; [exact L| |].
    + intros n q k Hn Hw. rewrite E. exact (W n q k Hn Hw).
    + apply IH. intros q. unfold at_index. rewrite !E. reflexivity.
  - apply Troubled_broken; [exact L| |rewrite E; exact Hs|].
    + intros n q k Hn Hw. rewrite E. exact (W n q k Hn Hw).
    + apply IH. intros q. unfold at_index. rewrite !E. reflexivity.
  - rewrite <- (E p). apply Troubled_restart. apply IH. intros q. unfold at_index. rewrite !E. reflexivity.
Qed.

Lemma connected_wired {state} prof wire (P : nat -> program state) in_offs out_offs ts p input : ends wire P ->
  (forall q, ready prof (P q) (in_offs q) (out_offs q) (ts q)) -> connected wire P in_offs out_offs p input ts ->
  wired wire p (bits_at input_bit input (sensors (P p)) (in_offs p)) (fun q => as_machine (P q) (out_offs q) (ts q)).
Proof.
  intros He Hr Hw n q k Hnl Hq. destruct (Hr p) as (_ & R2 & _). pose proof R2 as Ls. apply Forall2_length in Ls. symmetry in Ls.
  destruct (Hr q) as (_ & _ & R3q & _). pose proof R3q as La. apply Forall2_length in La. symmetry in La.
  pose proof (He _ _ _ _ Hq) as Hk. rewrite bits_length in Hnl by exact Ls.
  cbn [as_machine m_outs]. rewrite !bits_nth by assumption.
  destruct (nth_error (sensors (P p)) n) as [a|] eqn:Ea; [|apply nth_error_None in Ea; lia].
  destruct (nth_error (in_offs p) n) as [off|] eqn:Eoff; [|apply nth_error_None in Eoff; lia].
  destruct (nth_error (actors (P q)) k) as [a'|] eqn:Ea'; [|apply nth_error_None in Ea'; lia].
  destruct (nth_error (out_offs q) k) as [off'|] eqn:Eoff'; [|apply nth_error_None in Eoff'; lia].
  f_equal. exact (Hw n q k a off a' off' Hq Ea Eoff Ea' Eoff').
Qed.

Lemma faulty_troubled state prof wire (P : nat -> program state) in_offs out_offs new ts events images : ends wire P ->
  (forall p s image, ready prof (P p) (in_offs p) (out_offs p) (mk_station s [] (new p) image)) ->
  faulty prof wire P in_offs out_offs new ts events images ->
  (forall p, ready prof (P p) (in_offs p) (out_offs p) (ts p)) ->
  troubled wire P (fun p => as_machine (P p) (out_offs p) (ts p))
    (map (fun e => (fst e, with_input (fun x => bits_at input_bit x (sensors (P (fst e))) (in_offs (fst e))) (snd e))) events)
    (map (fun ei => bits_at output_bit (snd ei) (actors (P (fst (fst ei)))) (out_offs (fst (fst ei)))) (combine events images)).
Proof.
  intros He Hnew H.
  induction H as [ts|ts p aside input c1 image1 bits events images HL Hb Hn Hw Hi H IH
    |ts p aside input c1 image1 bits image' events images HL Hb Hn Hw Hi Hp H IH|ts p s events images H IH]; intros Hr; [constructor|..];
    cbn [map combine fst snd with_input].
  - destruct (Hr p) as (R1 & R2 & R3 & R4 & R5).
    destruct (round_ready prof (P p) (t_coupler (ts p)) (in_offs p) (out_offs p) R2 R3 R4 R5 (t_coupler (ts p)) (t_image (ts p)) _ _ _ _ _ _
      R1 (conj eq_refl eq_refl) R5 HL Hn Hi) as (Q1 & Q2 & Q3 & Q4 & Q5).
    pose proof R2 as Ls. apply Forall2_length in Ls. symmetry in Ls.
    set (m := as_machine (P p) (out_offs p) (ts p)).
    assert (Eo : bits_at output_bit image1 (actors (P p)) (out_offs p) = m_outs (machine_round (P p) m bits)) by exact Q5.
    rewrite Eo, <- Q4. unfold m. apply (Troubled_whole wire P (fun q => as_machine (P q) (out_offs q) (ts q)) p bits).
    + rewrite Q4. apply bits_length. exact Ls.
    + rewrite Q4. exact (connected_wired _ _ _ _ _ _ _ _ He Hr Hw).
    + eapply troubled_ext; [apply IH|].
      * intros q. unfold at_index. destruct (Nat.eqb_spec q p) as [->|N]; [|exact (Hr q)].
        split; [exact Q1|]. split; [eapply Forall2_weaken; [|exact R2]; intros a off; exact (sensor_static _ _ _ _ Q2)|].
        split; [eapply Forall2_weaken; [|exact R3]; intros a off; exact (actor_static _ _ _ _ Q2)|]. split; [exact R4|exact Q3].
      * intros q. unfold at_index. destruct (Nat.eqb_spec q p) as [->|N]; [|reflexivity].
        unfold machine_round, as_machine. cbn [t_state t_image t_commands m_state m_outs m_commands]. rewrite Q5. reflexivity.
  - destruct (Hr p) as (R1 & R2 & R3 & R4 & R5).
    destruct (round_ready prof (P p) (t_coupler (ts p)) (in_offs p) (out_offs p) R2 R3 R4 R5 (t_coupler (ts p)) (t_image (ts p)) _ _ _ _ _ _
      R1 (conj eq_refl eq_refl) R5 HL Hn Hi) as (Q1 & Q2 & Q3 & Q4 & Q5).
    pose proof R2 as Ls. apply Forall2_length in Ls. symmetry in Ls. pose proof R3 as La. apply Forall2_length in La. symmetry in La.
    rewrite <- Q4. apply (Troubled_broken wire P (fun q => as_machine (P q) (out_offs q) (ts q)) p bits).
    + rewrite Q4. apply bits_length. exact Ls.
    + rewrite Q4. exact (connected_wired _ _ _ _ _ _ _ _ He Hr Hw).
    + unfold machine_round, as_machine. cbn [m_outs m_commands]. rewrite <- Q5. apply partly_bits; [exact La|exact Hp].
    + eapply troubled_ext; [apply IH|].
      * intros q. unfold at_index. destruct (Nat.eqb_spec q p) as [->|N]; [|exact (Hr q)].
        split; [exact Q1|]. split; [eapply Forall2_weaken; [|exact R2]; intros a off; exact (sensor_static _ _ _ _ Q2)|].
        split; [eapply Forall2_weaken; [|exact R3]; intros a off; exact (actor_static _ _ _ _ Q2)|]. split; [exact R4|exact Q3].
      * intros q. unfold at_index. destruct (Nat.eqb_spec q p) as [->|N]; reflexivity.
  - apply (Troubled_restart wire P (fun q => as_machine (P q) (out_offs q) (ts q)) p s). eapply troubled_ext; [apply IH|].
    + intros q. unfold at_index. destruct (Nat.eqb_spec q p) as [->|N]; [apply Hnew|exact (Hr q)].
    + intros q. unfold at_index. destruct (Nat.eqb_spec q p) as [->|N]; reflexivity.
Qed.

Lemma C124_all : forall state prof wire (P : nat -> program state) in_offs out_offs new s image events images, ends wire P ->
  (forall p, set_up (P p) (in_offs p) (out_offs p) (new p)) ->
  faulty prof wire P in_offs out_offs new (fun p => mk_station (s p) [] (new p) (image p)) events images ->
  troubled wire P (fun p => mk_machine (s p) (bits_at output_bit (image p) (actors (P p)) (out_offs p)) [])
    (map (fun e => (fst e, with_input (fun x => bits_at input_bit x (sensors (P (fst e))) (in_offs (fst e))) (snd e))) events)
    (map (fun ei => bits_at output_bit (snd ei) (actors (P (fst (fst ei)))) (out_offs (fst (fst ei)))) (combine events images)).
Proof.
  intros state prof wire P in_offs out_offs new s image events images He Hs H.
  assert (Hnew : forall p s image, ready prof (P p) (in_offs p) (out_offs p) (mk_station s [] (new p) image)).
  { intros p s' image'. destruct (Hs p) as ((cfg & Hc & Hn) & S1 & S2 & S3). split; [exact (R_new prof cfg _ Hc Hn)|].
    split; [exact S1|]. split; [exact S2|]. split; [exact S3|]. intros a _. exact (new_requests _ _ Hn a). }
  exact (faulty_troubled _ _ _ _ _ _ _ _ _ _ He Hnew H (fun p => Hnew p _ _)).
Qed.

(** ** There is always a next round *)
Lemma comes_situation {state} prof (P : nat -> program state) new s image ts :
  comes_to prof P new (fun p => mk_station (s p) [] (new p) (image p)) ts ->
  forall p, situation prof (P p) (new p) (image p) (t_coupler (ts p)) (t_image (ts p)).
Proof.
  intros H. induction H as [|ts p aside input c1 image1 bits H IH HL Hb Hi|ts p aside input c1 image1 bits image' H IH HL Hb Hi Hp Hl Hu|ts p s' H IH]; intros q.
  - constructor.
  - unfold at_index. destruct (Nat.eqb_spec q p) as [->|N]; [|exact (IH q)]. exact (Situation_whole _ _ _ _ _ _ _ _ _ _ _ (IH p) HL Hb).
  - unfold at_index. destruct (Nat.eqb_spec q p) as [->|N]; [|exact (IH q)]. exact (Situation_broken _ _ _ _ _ _ _ _ _ _ _ _ (IH p) HL Hb Hp Hl Hu).
  - unfold at_index. destruct (Nat.eqb_spec q p) as [->|N]; [|exact (IH q)]. exact (Situation_restart _ _ _ _ _ _ (IH p)).
Qed.
Lemma C124_goes_on_all : forall state prof (P : nat -> program state) in_offs out_offs new s image ts,
  (forall p, set_up (P p) (in_offs p) (out_offs p) (new p)) -> (forall p, can_start (new p) (image p)) ->
  comes_to prof P new (fun p => mk_station (s p) [] (new p) (image p)) ts ->
  forall p input, Forall is_u16 input -> inputs_readable (new p) input ->
  exists c1 image1 bits, loops prof (t_coupler (ts p)) (t_image (ts p)) (requested_by (actors (P p)) (t_commands (ts p)) ++ [Tick input]) c1 image1 /\
    Forall2 (sees c1) (sensors (P p)) bits.
Proof.
  intros state prof P in_offs out_offs new s image ts Hs Hc H p input Hu Hi.
  destruct (Hs p) as ((cfg & H1 & H2) & H3 & H4 & _). destruct (Hc p) as (B1 & B2 & B3 & B4 & B5).
  exact (C122_goes_on_all _ _ _ _ _ _ _ _ _ _ H1 H2 H3 H4 B1 B2 B3 B4 B5 (comes_situation _ _ _ _ _ _ H p) _ _ Hu Hi).
Qed.
