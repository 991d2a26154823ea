(** Property theorems C102: serial dialogues when writing the output image is interrupted. *)
From Coq Require Import ZArith List Bool Lia.
From Verif Require Import Base Facts F32 Types Lib Com Fbc SpecCodec SpecSerial SpecCoupler SpecImage SpecSystem SpecFault SpecOrdered
  ProofsCoupler ProofsWitness ProofsSystem ProofsPlant ProofsFault ProofsOrdered PropsCoupler PropsSystem PropsFault.
Import ListNotations.
Local Open Scope Z_scope.

(** The plant of PropsSystem.v.  After two cycles the program writes eight bytes and makes a cycle, but only the
    registers after the first of the serial message are written; the module looks in vain.  A second attempt writes the
    serial message only, and the module takes the first six bytes. *)
Definition mixed (written : nat -> bool) (new old : list Z) : list Z :=
  map (fun a => nth a (if written a then new else old) 0) (seq 0 (length new)).
Lemma mixed_mixture written new old : length new = length old ->
  forall a, nth_error (mixed written new old) a = nth_error (if written a then new else old) a.
Proof.
  intros H a. unfold mixed. destruct (Nat.ltb_spec a (length new)) as [Ha|Ha].
  - rewrite nth_error_map, (nth_error_nth' (seq 0 (length new)) 0%nat) by (rewrite seq_length; lia).
    rewrite seq_nth by lia. cbn [option_map Nat.add]. symmetry. apply nth_error_nth'. destruct (written a); lia.
  - rewrite (proj2 (nth_error_None _ _)) by (rewrite map_length, seq_length; lia).
    symmetry. apply nth_error_None. destruct (written a); lia.
Qed.
Definition tear (written : nat -> bool) (t : plant) : plant :=
  mk_plant (t_coupler t) (t_latch t) (t_image t) (mixed written (t_image t) (t_register t)) (t_device t)
    (t_written t) (t_taken t) (t_offered t) (t_delivered t) (t_cycles t).
Lemma tear_step prof i l ioff ooff written t : length (t_image t) = length (t_register t) ->
  torn_step prof i l ioff ooff t (PartlyWritten written) (tear written t).
Proof. intros H. apply T_partly_written. apply mixed_mixture. exact H. Qed.
Lemma torn_undisturbed prof i l ioff ooff es : forall t t1 es' t2 n, plant_runs prof i l ioff ooff t es t1 ->
  torn_runs prof i l ioff ooff t1 es' t2 n -> torn_runs prof i l ioff ooff t (map (fun e => Disturbed (Undisturbed e)) es ++ es') t2 n.
Proof.
  intros t t1 es' t2 n H H'. induction H as [t|t e t1 es t2' H1 H2 IH]; cbn [map app]; [exact H'|].
  exact (TR_cons _ _ _ _ _ _ _ _ _ _ _ (T_disturbed _ _ _ _ _ _ _ _ (F_undisturbed _ _ _ _ _ _ _ _ H1)) (IH H')).
Qed.

Definition ordered_sending : list plant_event :=
  [PSet (mk_address 2 0) (Bytes [1; 2; 3; 4; 5; 6; 7; 8]); PCycle].
Definition ordered_computed : plant := example_exec example_initialised ordered_sending.
Definition without_header (a : nat) : bool := Nat.leb 2 a.
Definition message_only (a : nat) : bool := Nat.leb 1 a.
Definition header_first (a : nat) : bool := Nat.leb a 1.
Definition ordered_waiting : plant := example_exec (tear without_header ordered_computed) [PTake; POffer [40; 41]].
Definition ordered_taken : plant := example_exec (tear message_only ordered_waiting) [PTake].
Definition ordered_events : list torn_event :=
  map (fun e => Disturbed (Undisturbed e)) (example_history ++ ordered_sending) ++ [PartlyWritten without_header] ++
  map (fun e => Disturbed (Undisturbed e)) [PTake; POffer [40; 41]] ++ [PartlyWritten message_only] ++
  map (fun e => Disturbed (Undisturbed e)) [PTake].
Definition plain (e : plant_event) : torn_event := Disturbed (Undisturbed e).

Lemma ordered_runs : torn_runs Debug 2 EightBytes 0x10 0x8010 example_start ordered_events ordered_taken 0.
Proof.
  unfold ordered_events. rewrite map_app, <- app_assoc. eapply torn_undisturbed; [exact example_runs_1|].
  apply torn_undisturbed with (t1 := ordered_computed); [apply exec_runs; vm_compute; reflexivity|].
  refine (TR_cons _ _ _ _ _ _ _ _ _ _ 0 (tear_step _ _ _ _ _ _ _ _) _); [vm_compute; reflexivity|]. change ([] ++ ?x) with x.
  apply torn_undisturbed with (t1 := ordered_waiting); [apply exec_runs; vm_compute; reflexivity|].
  refine (TR_cons _ _ _ _ _ _ _ _ _ _ 0 (tear_step _ _ _ _ _ _ _ _) _); [vm_compute; reflexivity|]. change ([] ++ ?x) with x.
  rewrite <- (app_nil_r (map _ _)).
  apply torn_undisturbed with (t1 := ordered_taken); [apply exec_runs; vm_compute; reflexivity|]. constructor.
Qed.
Lemma ordered_last : Forall (header_last EightBytes 0x8010) ordered_events.
Proof.
  repeat constructor; cbn; try (intros H; discriminate H); intros _ k Hk; destruct k as [|[|[|[|k]]]]; try reflexivity; lia.
Qed.

(** C102, transmission: what the module took over is a subsequence of what was handed over, and everything unless a
    segment was forgotten (as in C69), whichever registers were written, if the first register of the serial message is
    never written before its others. *)
Theorem C102_torn_transmission : forall prof i l ioff ooff t0 es t n, plant_start i l ioff ooff t0 ->
  torn_runs prof i l ioff ooff t0 es t n -> Forall (header_last l ooff) es ->
  subsequence (t_taken t ++ on_its_way l ooff t ++ waiting_in (t_coupler t) i) (t_written t) /\
  (length (t_written t) <=
     length (t_taken t ++ on_its_way l ooff t ++ waiting_in (t_coupler t) i) + n * payload_size l)%nat /\
  (n = 0%nat -> t_written t = t_taken t ++ on_its_way l ooff t ++ waiting_in (t_coupler t) i).
Proof. exact C102_transmission_all. Qed.
Print Assumptions C102_torn_transmission.

Example C102_torn_transmission_nontrivial :
  torn_runs Debug 2 EightBytes 0x10 0x8010 example_start ordered_events ordered_taken 0 /\
  Forall (header_last EightBytes 0x8010) ordered_events /\
  (* after the interrupted write the registers are neither the image nor what they were *)
  t_image ordered_computed = [12; 0x0688; 0x0201; 0x0403; 0x0605] /\
  t_register ordered_computed = [12; 0x0080; 0; 0; 0] /\
  t_register ordered_waiting = [12; 0x0080; 0x0201; 0x0403; 0x0605] /\
  t_taken ordered_waiting = [] /\ t_taken ordered_taken = [1; 2; 3; 4; 5; 6] /\
  t_written ordered_taken = [1; 2; 3; 4; 5; 6; 7; 8] /\ waiting_in (t_coupler ordered_taken) 2 = [7; 8].
Proof. split; [exact ordered_runs|]. split; [exact ordered_last|]. vm_compute. auto 10. Qed.

(** The order matters: if the first register of the message is written and the others are not, the module takes six
    bytes that were never handed over. *)
Theorem C102_order_needed : exists prof i l ioff ooff t0 es t n, plant_start i l ioff ooff t0 /\
  torn_runs prof i l ioff ooff t0 es t n /\
  t_written t = [1; 2; 3; 4; 5; 6; 7; 8] /\ t_taken t = [0; 0; 0; 0; 0; 0].
Proof.
  exists Debug, 2%nat, EightBytes, 0x10, 0x8010, example_start,
    (map plain (example_history ++ ordered_sending) ++ PartlyWritten header_first :: map plain [PTake]),
    (example_exec (tear header_first ordered_computed) [PTake]), 0%nat.
  split; [exact example_starts|]. split; [|vm_compute; auto].
  unfold plain. rewrite map_app, <- app_assoc. eapply torn_undisturbed; [exact example_runs_1|].
  apply torn_undisturbed with (t1 := ordered_computed); [apply exec_runs; vm_compute; reflexivity|].
  refine (TR_cons _ _ _ _ _ _ _ _ _ _ 0 (tear_step _ _ _ _ _ _ _ _) _); [vm_compute; reflexivity|].
  rewrite <- (app_nil_r (map _ _)).
  eapply torn_undisturbed; [apply exec_runs; vm_compute; reflexivity|]. constructor.
Qed.
Print Assumptions C102_order_needed.

(** C102, progress: once two cycles have been made, everything that was not forgotten is taken over after as many
    undisturbed rounds as segments are outstanding. *)
Theorem C102_torn_progress : forall prof i l ioff ooff t0 es t n rounds t', plant_start i l ioff ooff t0 ->
  torn_runs prof i l ioff ooff t0 es t n -> Forall (header_last l ooff) es -> (2 <= t_cycles t)%nat ->
  Forall plant_round rounds -> (outstanding i l ooff t <= length rounds)%nat ->
  plant_runs prof i l ioff ooff t (concat rounds) t' ->
  exists rest, t_taken t' = (t_taken t ++ on_its_way l ooff t ++ waiting_in (t_coupler t) i) ++ rest.
Proof. exact C102_progress_all. Qed.
Print Assumptions C102_torn_progress.

Example C102_torn_progress_nontrivial : (2 <= t_cycles ordered_taken)%nat /\ outstanding 2 EightBytes 0x8010 ordered_taken = 1%nat /\
  Forall plant_round [example_round 7 0x0229 0x2928] /\
  plant_runs Debug 2 EightBytes 0x10 0x8010 ordered_taken (concat [example_round 7 0x0229 0x2928])
    (example_exec ordered_taken (example_round 7 0x0229 0x2928)) /\
  t_taken (example_exec ordered_taken (example_round 7 0x0229 0x2928)) = [1; 2; 3; 4; 5; 6; 7; 8].
Proof.
  split; [vm_compute; auto|]. split; [vm_compute; reflexivity|]. split; [|split; [apply exec_runs|]; vm_compute; reflexivity].
  constructor; [|constructor]. exists [], [7; 0x0229; 0x2928; 0; 0], [], [], [], []. reflexivity.
Qed.

(** C102, reception: after two cycles the program reads the segments the module has offered, in order, each once,
    except those offered before; and a cycle with a fresh input image fetches everything offered. *)
Theorem C102_torn_reception :
  (forall prof i l ioff ooff t0 es1 t1 n1 es2 t2 n2, plant_start i l ioff ooff t0 ->
    torn_runs prof i l ioff ooff t0 es1 t1 n1 -> Forall (header_last l ooff) es1 -> (2 <= t_cycles t1)%nat ->
    torn_runs prof i l ioff ooff t1 es2 t2 n2 -> Forall (header_last l ooff) es2 ->
    exists lost fetched,
      (lost <= length (t_offered t1))%nat /\
      (lost + fetched <= length (t_offered t2) <= lost + fetched + 1)%nat /\
      t_delivered t2 ++ readable_in (t_coupler t2) i = concat (firstn fetched (skipn lost (t_offered t2)))) /\
  (forall prof i l ioff ooff t0 es ti n es1 t1 n1 a input b c t2 n2, plant_start i l ioff ooff t0 ->
    torn_runs prof i l ioff ooff t0 es ti n -> Forall (header_last l ooff) es -> (2 <= t_cycles ti)%nat ->
    torn_runs prof i l ioff ooff ti es1 t1 n1 -> Forall (header_last l ooff) es1 ->
    torn_runs prof i l ioff ooff t1
      (a ++ [Disturbed (Undisturbed (PInput input))] ++ b ++ [Disturbed (Undisturbed PCycle)] ++ c) t2 n2 ->
    Forall (header_last l ooff) (a ++ b ++ c) ->
    exists lost fetched,
      (lost <= length (t_offered ti))%nat /\
      (length (t_offered t1) <= lost + fetched <= length (t_offered t2))%nat /\
      t_delivered t2 ++ readable_in (t_coupler t2) i = concat (firstn fetched (skipn lost (t_offered t2)))).
Proof. split; [exact C102_reception_all|exact C102_reception_progress_all]. Qed.
Print Assumptions C102_torn_reception.

Example C102_torn_reception_nontrivial : (2 <= t_cycles example_initialised)%nat /\
  torn_runs Debug 2 EightBytes 0x10 0x8010 example_initialised
    (map plain ordered_sending ++ PartlyWritten without_header :: map plain [PTake; POffer [40; 41]]) ordered_waiting 0 /\
  t_offered ordered_waiting = [[40; 41]] /\ readable_in (t_coupler ordered_waiting) 2 = [] /\
  torn_runs Debug 2 EightBytes 0x10 0x8010 ordered_waiting (map plain [PInput [7; 0x0209; 0x2928; 0; 0]; PCycle])
    (example_exec ordered_waiting [PInput [7; 0x0209; 0x2928; 0; 0]; PCycle]) 0 /\
  readable_in (t_coupler (example_exec ordered_waiting [PInput [7; 0x0209; 0x2928; 0; 0]; PCycle])) 2 = [40; 41].
Proof.
  split; [vm_compute; auto|]. split.
  - unfold plain. apply torn_undisturbed with (t1 := ordered_computed); [apply exec_runs; vm_compute; reflexivity|].
    refine (TR_cons _ _ _ _ _ _ _ _ _ _ 0 (tear_step _ _ _ _ _ _ _ _) _); [vm_compute; reflexivity|].
    rewrite <- (app_nil_r (map _ _)).
    apply torn_undisturbed with (t1 := ordered_waiting); [apply exec_runs; vm_compute; reflexivity|]. constructor.
  - split; [vm_compute; reflexivity|]. split; [vm_compute; reflexivity|]. split; [|vm_compute; reflexivity].
    unfold plain. rewrite <- (app_nil_r (map _ _)).
    eapply torn_undisturbed; [apply exec_runs; vm_compute; reflexivity|]. constructor.
Qed.
