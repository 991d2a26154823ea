(** Proofs about the provided methods of readers and writers (C89). *)
From Coq Require Import ZArith List Bool Lia.
From Verif Require Import Base Types Com Fbc Facts SpecSerial SpecCoupler SpecStdio ProofsSerial ProofsSystem.
Import ListNotations.
Local Open Scope Z_scope.

Lemma same_refl c : same_coupler c c.
Proof. repeat split. Qed.
Lemma same_sym c d : same_coupler c d -> same_coupler d c.
Proof.
  intros (A1 & A2 & A3 & A4 & A5 & A6 & A7). split; [congruence|]. split; [congruence|]. split; [congruence|]. split; [congruence|].
  split; [congruence|]. split; [intros a; symmetry; apply A6|intros i; symmetry; apply A7].
Qed.
Lemma same_trans c d e : same_coupler c d -> same_coupler d e -> same_coupler c e.
Proof.
  intros (A1 & A2 & A3 & A4 & A5 & A6 & A7) (B1 & B2 & B3 & B4 & B5 & B6 & B7).
  split; [congruence|]. split; [congruence|]. split; [congruence|]. split; [congruence|]. split; [congruence|].
  split; [intros a; rewrite A6; apply B6|intros i; rewrite A7; apply B7].
Qed.

(** A coupler with another processor for module [i]. *)
Definition put (c : coupler) (i : nat) (p : processor) : coupler := with_processors c (map_insert Nat.eqb i p (c_processors c)).
Lemma serial_put c i p j : serial (put c i p) j = if Nat.eqb i j then Some p else serial c j.
Proof. unfold serial, put, with_processors. cbn [c_processors]. apply map_get_insert. exact Nat.eqb_spec. Qed.
Lemma put_put c i p q : same_coupler (put (put c i p) i q) (put c i q).
Proof.
  split; [reflexivity|]. split; [reflexivity|]. split; [reflexivity|]. split; [reflexivity|]. split; [reflexivity|].
  split; [reflexivity|]. intros j. rewrite !serial_put. destruct (Nat.eqb i j); reflexivity.
Qed.
Lemma put_same c i p : serial c i = Some p -> same_coupler (put c i p) c.
Proof.
  intros H. split; [reflexivity|]. split; [reflexivity|]. split; [reflexivity|]. split; [reflexivity|]. split; [reflexivity|].
  split; [reflexivity|]. intros j. rewrite !serial_put. destruct (Nat.eqb_spec i j) as [<-|]; [symmetry; exact H|reflexivity].
Qed.
Lemma put_over c d i p : same_coupler c d -> same_coupler (put c i p) (put d i p).
Proof.
  intros (A1 & A2 & A3 & A4 & A5 & A6 & A7). split; [exact A1|]. split; [exact A2|]. split; [exact A3|]. split; [exact A4|]. split; [exact A5|].
  split; [exact A6|]. intros j. rewrite !serial_put. destruct (Nat.eqb i j); [reflexivity|apply A7].
Qed.

(** A processor after reading. *)
Definition less (p : processor) (n : nat) : processor :=
  mk_processor (p_init_state p) (p_last_rx_cnt p) (skipn n (p_in_data p)) (p_out_data p) (p_process_data_len p).
Lemma read_is c i p n : serial c i = Some p -> coupler_read c i n = (put c i (less p n), Some (firstn n (buffered p))).
Proof.
  intros H. unfold coupler_read. unfold serial in H. rewrite H. unfold processor_read, less, buffered.
  destruct (p_in_data p) as [|x l] eqn:E.
  - rewrite skipn_nil, firstn_nil. unfold put. do 3 f_equal. destruct p. cbn in *. rewrite E. reflexivity.
  - rewrite <- E. unfold put. destruct (Nat.le_gt_cases n (length (p_in_data p))).
    + rewrite Nat.min_l by lia. reflexivity.
    + rewrite Nat.min_r by lia. rewrite !skipn_all2 by lia. rewrite !firstn_all2 by lia. reflexivity.
Qed.
Lemma less_less p n m : less (less p n) m = less p (n + m).
Proof. unfold less. cbn [p_in_data p_init_state p_last_rx_cnt p_out_data p_process_data_len]. rewrite skipn_skipn_add. reflexivity. Qed.
Lemma less_0 p : less p 0 = p.
Proof. destruct p; reflexivity. Qed.
Lemma less_all p n : (length (buffered p) <= n)%nat -> less p n = less p (length (buffered p)).
Proof. intros H. unfold less, buffered in *. rewrite (skipn_all2 (p_in_data p)) by lia. rewrite skipn_all. reflexivity. Qed.


Lemma write_is c i p buf : serial c i = Some p -> coupler_write c i buf = (put c i (fst (processor_write p buf)), Some (length buf)).
Proof. intros H. unfold coupler_write. unfold serial in H. rewrite H. reflexivity. Qed.
Lemma write_nothing p : fst (processor_write p []) = p.
Proof. unfold processor_write. cbn [fst]. unfold chunks. cbn [length chunks_fuel]. rewrite app_nil_r. destruct p; reflexivity. Qed.

Lemma write_all_is i c buf c' r : write_all i c buf c' r -> forall p, serial c i = Some p ->
  r = true /\ same_coupler c' (put c i (fst (processor_write p buf))).
Proof.
  intros H p Hp. destruct H as [c|c buf c' Hb H|c buf c1 n c' r Hb H Hn H'].
  - split; [reflexivity|]. rewrite write_nothing. apply same_sym, put_same, Hp.
  - rewrite (write_is _ _ _ _ Hp) in H. apply pair_inj in H as [_ H]. apply Some_inj in H. destruct buf; [contradiction|discriminate].
  - rewrite (write_is _ _ _ _ Hp) in H. apply pair_inj in H as [<- H]. apply Some_inj in H. subst n. rewrite skipn_all in H'.
    inversion H'; subst; [|congruence|congruence]. split; [reflexivity|apply same_refl].
Qed.

Lemma C89_write_all_all : forall c i p buf, serial c i = Some p ->
  (exists c' r, write_all i c buf c' r) /\
  forall c' r, write_all i c buf c' r -> r = true /\ same_coupler c' (fst (coupler_write c i buf)) /\
    exists p', serial c' i = Some p' /\ queued p' = queued p ++ buf /\ buffered p' = buffered p.
Proof.
  intros c i p buf Hp. split.
  - destruct buf as [|b buf]; [exists c, true; constructor|].
    exists (put c i (fst (processor_write p (b :: buf)))), true.
    apply (WA_more i c (b :: buf) (put c i (fst (processor_write p (b :: buf)))) (length (b :: buf)));
      [discriminate|apply write_is, Hp|discriminate|]. rewrite skipn_all. constructor.
  - intros c' r H. destruct (write_all_is _ _ _ _ _ H p Hp) as [E S]. split; [exact E|].
    rewrite (write_is _ _ _ _ Hp). cbn [fst]. split; [exact S|]. exists (fst (processor_write p buf)).
    split; [|split; [apply write_queued|reflexivity]]. destruct S as (_ & _ & _ & _ & _ & _ & S). rewrite S, serial_put, Nat.eqb_refl. reflexivity.
Qed.

Lemma read_exact_is i c size c' r : read_exact i c size c' r -> forall p, serial c i = Some p ->
  r = (if Nat.leb size (length (buffered p)) then Some (firstn size (buffered p)) else None) /\ same_coupler c' (put c i (less p size)).
Proof.
  induction 1 as [c|c size c' Hs H|c size c1 bytes c' r Hs H Hb H' IH]; intros p Hp.
  - split; [reflexivity|]. rewrite less_0. apply same_sym, put_same, Hp.
  - rewrite (read_is _ _ _ _ Hp) in H. apply pair_inj in H as [<- H]. apply Some_inj in H.
    destruct size as [|size]; [contradiction|]. destruct (buffered p) as [|x l]; [|discriminate]. split; [reflexivity|apply same_refl].
  - rewrite (read_is _ _ _ _ Hp) in H. apply pair_inj in H as [<- H]. apply Some_inj in H.
    destruct (IH (less p size)) as [E S]; [rewrite serial_put, Nat.eqb_refl; reflexivity|].
    assert (B : buffered (less p size) = skipn size (buffered p)) by reflexivity. rewrite B in E. rewrite less_less in S.
    pose proof (firstn_length size (buffered p)) as L. rewrite H in L. rewrite skipn_length in E.
    destruct (Nat.leb_spec size (length (buffered p))) as [G|G].
    + rewrite Nat.min_l in L by lia. replace (size - length bytes)%nat with 0%nat in E, S by lia. rewrite E. cbn [Nat.leb firstn option_map].
      rewrite app_nil_r. split; [congruence|]. rewrite Nat.add_0_r in S. apply same_trans with (1 := S). apply put_put.
    + rewrite Nat.min_r in L by lia. replace (Nat.leb (size - length bytes) (length (buffered p) - size)) with false in E by (symmetry; apply Nat.leb_gt; lia).
      rewrite E. split; [reflexivity|]. apply same_trans with (1 := S). rewrite (less_all p (size + (size - length bytes))) by lia.
      rewrite (less_all p size) by lia. apply put_put.
Qed.

Lemma C89_read_exact_all : forall c i p size, serial c i = Some p ->
  (exists c' r, read_exact i c size c' r) /\
  forall c' r, read_exact i c size c' r ->
    r = (if Nat.leb size (length (buffered p)) then Some (firstn size (buffered p)) else None) /\
    same_coupler c' (fst (coupler_read c i size)) /\
    exists p', serial c' i = Some p' /\ buffered p' = skipn size (buffered p) /\ queued p' = queued p.
Proof.
  intros c i p size Hp. split.
  - destruct size as [|size]; [exists c, (Some []); constructor|].
    assert (N : S size <> 0%nat) by discriminate. pose proof (read_is c i p (S size) Hp) as R.
    destruct (firstn (S size) (buffered p)) as [|x l] eqn:E; [exists (put c i (less p (S size))), None; exact (RE_eof i _ _ _ N R)|].
    assert (X : x :: l <> []) by discriminate.
    destruct (Nat.eq_dec (S size - length (x :: l)) 0) as [D|D].
    + exists (put c i (less p (S size))), (option_map (app (x :: l)) (Some [])). apply (RE_more i _ _ _ _ _ _ N R X). rewrite D. constructor.
    + assert (H1 : serial (put c i (less p (S size))) i = Some (less p (S size))) by (rewrite serial_put, Nat.eqb_refl; reflexivity).
      pose proof (read_is _ _ _ (S size - length (x :: l)) H1) as R1.
      assert (B : buffered (less p (S size)) = []).
      { unfold buffered, less. cbn [p_in_data]. apply skipn_all2. pose proof (firstn_length (S size) (buffered p)) as L. rewrite E in L. unfold buffered in L. lia. }
      rewrite B, firstn_nil in R1. do 2 eexists. exact (RE_more i _ _ _ _ _ _ N R X (RE_eof i _ _ _ D R1)).
  - intros c' r H. destruct (read_exact_is _ _ _ _ _ H p Hp) as [E S]. split; [exact E|].
    rewrite (read_is _ _ _ _ Hp). cbn [fst]. split; [exact S|]. exists (less p size).
    split; [|split; reflexivity]. destruct S as (_ & _ & _ & _ & _ & _ & S). rewrite S, serial_put, Nat.eqb_refl. reflexivity.
Qed.

Lemma read_to_end_is i size c c' bytes : read_to_end i size c c' bytes -> (forall k, size k <> 0%nat) -> forall p, serial c i = Some p ->
  bytes = buffered p /\ same_coupler c' (put c i (less p (length (buffered p)))).
Proof.
  induction 1 as [size c c' H|size c c1 bytes c' rest H Hb H' IH]; intros Hs p Hp; rewrite (read_is _ _ _ _ Hp) in H; apply pair_inj in H as [<- H]; apply Some_inj in H.
  - specialize (Hs 0%nat). destruct (size 0%nat); [contradiction|]. destruct (buffered p) as [|x l] eqn:E; [|discriminate].
    split; [reflexivity|]. rewrite less_all by (rewrite E; cbn; lia). rewrite E. apply same_refl.
  - destruct (IH (fun k => Hs (S k)) (less p (size 0%nat))) as [E S]; [rewrite serial_put, Nat.eqb_refl; reflexivity|].
    assert (B : buffered (less p (size 0%nat)) = skipn (size 0%nat) (buffered p)) by reflexivity. rewrite B in E, S. subst bytes rest.
    split; [apply firstn_skipn|]. apply same_trans with (1 := S). rewrite less_less, skipn_length.
    rewrite (less_all p (size 0%nat + (length (buffered p) - size 0%nat))) by lia. apply put_put.
Qed.

Lemma read_to_end_exists i : forall n size c p, serial c i = Some p -> (length (buffered p) <= n)%nat -> (forall k, size k <> 0%nat) ->
  exists c' bytes, read_to_end i size c c' bytes.
Proof.
  induction n as [|n IH]; intros size c p Hp Hl Hs; pose proof (read_is c i p (size 0%nat) Hp) as R;
    destruct (firstn (size 0%nat) (buffered p)) as [|x l] eqn:E; try (do 2 eexists; exact (RT_done i _ _ _ R)).
  - destruct (buffered p); [rewrite firstn_nil in E; discriminate|cbn in Hl; lia].
  - destruct (IH (fun k => size (S k)) (put c i (less p (size 0%nat))) (less p (size 0%nat))) as (c' & rest & H).
    + rewrite serial_put, Nat.eqb_refl. reflexivity.
    + change (buffered (less p (size 0%nat))) with (skipn (size 0%nat) (buffered p)). rewrite skipn_length. specialize (Hs 0%nat). lia.
    + intros k. apply Hs.
    + do 2 eexists. refine (RT_more i _ _ _ _ _ _ R _ H). discriminate.
Qed.

Lemma C89_read_to_end_all : forall c i p size, serial c i = Some p -> (forall k, size k <> 0%nat) ->
  (exists c' bytes, read_to_end i size c c' bytes) /\
  forall c' bytes, read_to_end i size c c' bytes ->
    bytes = buffered p /\ same_coupler c' (fst (coupler_read c i (length (buffered p)))) /\
    exists p', serial c' i = Some p' /\ buffered p' = [] /\ queued p' = queued p.
Proof.
  intros c i p size Hp Hs. split; [exact (read_to_end_exists i _ _ _ _ Hp (le_n _) Hs)|].
  intros c' bytes H. destruct (read_to_end_is _ _ _ _ _ H Hs p Hp) as [E S]. split; [exact E|].
  rewrite (read_is _ _ _ _ Hp). cbn [fst]. split; [exact S|]. exists (less p (length (buffered p))).
  split; [|split; [|reflexivity]].
  - destruct S as (_ & _ & _ & _ & _ & _ & S). rewrite S, serial_put, Nat.eqb_refl. reflexivity.
  - unfold buffered, less. cbn [p_in_data]. apply skipn_all.
Qed.
