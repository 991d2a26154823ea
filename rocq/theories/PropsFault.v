(** Property theorems C69 and C70: serial dialogues over a disturbed communication. *)
From Coq Require Import ZArith List Bool Lia.
From Verif Require Import Base Facts F32 Types Lib Com Fbc SpecCodec SpecSerial SpecCoupler SpecImage SpecSystem SpecFault
  ProofsCoupler ProofsWitness ProofsSystem ProofsPlant ProofsFault PropsCoupler PropsSystem.
Import ListNotations.
Local Open Scope Z_scope.

(** The plant of PropsSystem.v.  After two cycles the program writes eight bytes and makes a cycle whose output image
    is not written; it then gets an empty image, reads the output image back and goes on. *)
Definition forget (t : plant) : plant :=
  mk_plant (t_coupler t) (t_latch t) (t_register t) (t_register t) (t_device t)
    (t_written t) (t_taken t) (t_offered t) (t_delivered t) (t_cycles t).
Definition garbled (t : plant) : plant := with_coupler t (example_run (t_coupler t) [] []).
Definition fault_before : list plant_event := [PWrite 2 [1; 2; 3; 4; 5; 6; 7; 8]; PCycle; POffer [40; 41]].
Definition fault_computed : plant := example_exec example_initialised fault_before.
Definition fault_forgot : plant := forget (garbled fault_computed).
Definition fault_after : list plant_event := [PInput [7; 0x0209; 0x2928; 0; 0]; PCycle; POutput; PTake].
Definition fault_end : plant := example_exec fault_forgot fault_after.
Definition fault_history : list fault_event :=
  map Undisturbed (example_history ++ fault_before) ++ [Garbled [] []; ReadBack] ++ map Undisturbed fault_after.

Lemma undisturbed_runs prof i l ioff ooff es : forall t t1 es' t2 n, plant_runs prof i l ioff ooff t es t1 ->
  faulty_runs prof i l ioff ooff t1 es' t2 n -> faulty_runs prof i l ioff ooff t (map Undisturbed es ++ es') t2 n.
Proof.
  intros t t1 es' t2 n H H'. induction H as [t|t e t1 es t2' H1 H2 IH]; cbn [map app]; [exact H'|].
  exact (FR_cons _ _ _ _ _ _ _ _ _ _ _ (F_undisturbed _ _ _ _ _ _ _ _ H1) (IH H')).
Qed.
Lemma example_faults : faulty_runs Debug 2 EightBytes 0x10 0x8010 example_start fault_history fault_end 1.
Proof.
  unfold fault_history. rewrite map_app, <- app_assoc. eapply undisturbed_runs; [exact example_runs_1|].
  apply undisturbed_runs with (t1 := fault_computed); [apply exec_runs; vm_compute; reflexivity|].
  refine (FR_cons _ _ _ _ _ fault_computed (Garbled [] []) (garbled fault_computed) _ _ 1 _ _).
  { apply F_garbled. apply step_cycle; vm_compute; reflexivity. }
  assert (E : forgotten EightBytes 0x8010 (garbled fault_computed) ReadBack = 1%nat) by (vm_compute; reflexivity).
  change 1%nat with (1 + 0)%nat. rewrite <- E at 1.
  refine (FR_cons _ _ _ _ _ (garbled fault_computed) ReadBack fault_forgot _ _ 0 (F_read_back _ _ _ _ _ _) _).
  rewrite <- (app_nil_r (map _ _)).
  apply undisturbed_runs with (t1 := fault_end); [apply exec_runs; vm_compute; reflexivity|]. constructor.
Qed.

(** C69 does not hold as stated: the first six of eight bytes never reach the module. *)
Theorem C69_refuted : exists prof i l ioff ooff t0 es t n, plant_start i l ioff ooff t0 /\
  faulty_runs prof i l ioff ooff t0 es t n /\
  t_written t = [1; 2; 3; 4; 5; 6; 7; 8] /\ t_taken t = [7; 8] /\
  on_its_way l ooff t = [] /\ waiting_in (t_coupler t) i = [].
Proof.
  exists Debug, 2%nat, EightBytes, 0x10, 0x8010, example_start, fault_history, fault_end, 1%nat.
  split; [exact example_starts|]. split; [exact example_faults|]. vm_compute. auto.
Qed.
Print Assumptions C69_refuted.

(** C69, as far as it holds: what the module has taken over, what is on its way and what is waiting are, in this order,
    bytes handed over for transmission: none twice, none out of order.  Missing are at most as many as fit into one
    process image for each time the program has forgotten an image it had not written; if it never did, none. *)
Theorem C69_disturbed_transmission_partial : forall prof i l ioff ooff t0 es t n, plant_start i l ioff ooff t0 ->
  faulty_runs prof i l ioff ooff t0 es t n ->
  subsequence (t_taken t ++ on_its_way l ooff t ++ waiting_in (t_coupler t) i) (t_written t) /\
  (length (t_written t) <=
     length (t_taken t ++ on_its_way l ooff t ++ waiting_in (t_coupler t) i) + n * payload_size l)%nat /\
  (n = 0%nat -> t_written t = t_taken t ++ on_its_way l ooff t ++ waiting_in (t_coupler t) i).
Proof. exact C69_partial_all. Qed.
Print Assumptions C69_disturbed_transmission_partial.
(** The hypotheses are met by [example_starts] and [example_faults]. *)
Example C69_partial_example :
  t_written fault_end = [1; 2; 3; 4; 5; 6; 7; 8] /\
  t_taken fault_end ++ on_its_way EightBytes 0x8010 fault_end ++ waiting_in (t_coupler fault_end) 2 = [7; 8] /\
  payload_size EightBytes = 6%nat.
Proof. vm_compute. auto. Qed.

(** Afterwards the dialogue goes on: everything not forgotten is taken over. *)
Theorem C69_disturbed_progress : forall prof i l ioff ooff t0 es t n rounds t', plant_start i l ioff ooff t0 ->
  faulty_runs prof i l ioff ooff t0 es t n -> (2 <= t_cycles t)%nat ->
  Forall plant_round rounds -> (outstanding i l ooff t <= length rounds)%nat ->
  plant_runs prof i l ioff ooff t (concat rounds) t' ->
  exists rest, t_taken t' = (t_taken t ++ on_its_way l ooff t ++ waiting_in (t_coupler t) i) ++ rest.
Proof. exact C69_progress_all. Qed.
Print Assumptions C69_disturbed_progress.
Example C69_progress_example :
  faulty_runs Debug 2 EightBytes 0x10 0x8010 example_start
    (map Undisturbed (example_history ++ fault_before) ++ [Garbled [] []; ReadBack]) fault_forgot 1 /\
  (2 <= t_cycles fault_forgot)%nat /\ Forall plant_round [fault_after] /\
  outstanding 2 EightBytes 0x8010 fault_forgot = 1%nat /\
  plant_runs Debug 2 EightBytes 0x10 0x8010 fault_forgot (concat [fault_after]) fault_end.
Proof.
  split.
  { rewrite map_app, <- app_assoc. eapply undisturbed_runs; [exact example_runs_1|].
    apply undisturbed_runs with (t1 := fault_computed); [apply exec_runs; vm_compute; reflexivity|].
    refine (FR_cons _ _ _ _ _ fault_computed (Garbled [] []) (garbled fault_computed) _ _ 1 _ _).
    { apply F_garbled. apply step_cycle; vm_compute; reflexivity. }
    assert (E : forgotten EightBytes 0x8010 (garbled fault_computed) ReadBack = 1%nat) by (vm_compute; reflexivity).
    change 1%nat with (1 + 0)%nat. rewrite <- E at 1.
    exact (FR_cons _ _ _ _ _ (garbled fault_computed) ReadBack fault_forgot _ _ 0 (F_read_back _ _ _ _ _ _) (FR_nil _ _ _ _ _ _)). }
  split; [vm_compute; auto|]. split; [|split; [vm_compute; reflexivity|apply exec_runs; vm_compute; reflexivity]].
  constructor; [|constructor]. exists [], [7; 0x0209; 0x2928; 0; 0], [], [], [], []. reflexivity.
Qed.

(** C70: reception does not suffer: after two cycles the program reads the segments the module has offered, in order,
    each once, except those offered before; and a cycle with a fresh input image fetches everything offered. *)
Theorem C70_disturbed_reception :
  (forall prof i l ioff ooff t0 es1 t1 n1 es2 t2 n2, plant_start i l ioff ooff t0 ->
     faulty_runs prof i l ioff ooff t0 es1 t1 n1 -> (2 <= t_cycles t1)%nat ->
     faulty_runs prof i l ioff ooff t1 es2 t2 n2 ->
     exists lost fetched,
       (lost <= length (t_offered t1))%nat /\
       (lost + fetched <= length (t_offered t2) <= lost + fetched + 1)%nat /\
       t_delivered t2 ++ readable_in (t_coupler t2) i = concat (firstn fetched (skipn lost (t_offered t2)))) /\
  (forall prof i l ioff ooff t0 es ti n es1 t1 n1 a input b c t2 n2, plant_start i l ioff ooff t0 ->
     faulty_runs prof i l ioff ooff t0 es ti n -> (2 <= t_cycles ti)%nat ->
     faulty_runs prof i l ioff ooff ti es1 t1 n1 ->
     faulty_runs prof i l ioff ooff t1 (a ++ [Undisturbed (PInput input)] ++ b ++ [Undisturbed PCycle] ++ c) t2 n2 ->
     exists lost fetched,
       (lost <= length (t_offered ti))%nat /\
       (length (t_offered t1) <= lost + fetched <= length (t_offered t2))%nat /\
       t_delivered t2 ++ readable_in (t_coupler t2) i = concat (firstn fetched (skipn lost (t_offered t2)))).
Proof. exact (conj C70_all C70_progress_all). Qed.
Print Assumptions C70_disturbed_reception.
(** The state after the first two cycles, and the end of the history above. *)
Example C70_example :
  t_cycles example_initialised = 2%nat /\ t_offered example_initialised = [] /\ t_offered fault_end = [[40; 41]] /\
  readable_in (t_coupler fault_computed) 2 = [] /\ readable_in (t_coupler fault_end) 2 = [40; 41].
Proof. vm_compute. auto. Qed.
