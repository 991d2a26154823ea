(** Property theorems C103: a serial module and its programs through restarts, disturbances and interrupted writes. *)
From Coq Require Import ZArith List Bool Lia.
From Verif Require Import Base Facts F32 Types Lib Com Fbc SpecCodec SpecSerial SpecCoupler SpecImage SpecSystem SpecRestart SpecPlantRestart
  SpecFault SpecOrdered SpecEndure ProofsCoupler ProofsWitness ProofsSystem ProofsPlant ProofsPlantRestart ProofsFault ProofsOrdered ProofsEndure
  PropsCoupler PropsSystem PropsPlantRestart PropsFault PropsOrdered.
Import ListNotations.
Local Open Scope Z_scope.

(** The plant of PropsSystem.v.  The first program hands over eight bytes; writing the first six is interrupted before the
    serial message is reached, and the program reads the output image back and forgets them.  It writes the other two and
    is stopped.  The module takes them over when the second program has started, which hands over two bytes; its first
    write reaches only the serial message. *)
Definition other_only (a : nat) : bool := Nat.eqb a 0.
Definition one_begin : list plant_event := example_history ++ ordered_sending.
Definition one_sent : plant := example_exec first_program one_begin.
Definition one_end : list plant_event := [PCycle; POutput].
Definition one_stopped : plant := example_exec (forget (tear other_only one_sent)) one_end.
Definition one_events : list torn_event :=
  map plain one_begin ++ [PartlyWritten other_only; Disturbed ReadBack] ++ map plain one_end.
Definition two_begin : list plant_event := [PWrite 2 [20; 21]; PTake; PCycle; PCycle; POutput; PInput [7; 0x0020; 0; 0; 0]; PCycle].
Definition two_program : plant := restarted [7; 0; 0; 0; 0] one_stopped.
Definition two_computed : plant := example_exec two_program two_begin.
Definition two_end : list plant_event := [PTake; POffer [50]].
Definition two_running : plant := example_exec (tear message_only two_computed) two_end.
Definition two_events : list torn_event := map plain two_begin ++ [PartlyWritten message_only] ++ map plain two_end.

Lemma one_life : plant_restart 2 EightBytes 0x10 0x8010 example_start first_program /\
  torn_runs Debug 2 EightBytes 0x10 0x8010 first_program one_events one_stopped 1 /\ Forall (unsplit EightBytes 0x8010) one_events.
Proof.
  split; [apply example_first|]. split.
  - unfold one_events, plain. apply torn_undisturbed with (t1 := one_sent); [apply exec_runs; vm_compute; reflexivity|].
    refine (TR_cons _ _ _ _ _ _ _ _ _ _ 1 (tear_step _ _ _ _ _ _ _ _) _); [vm_compute; reflexivity|]. change ([] ++ ?x) with x.
    assert (E : forgotten EightBytes 0x8010 (tear other_only one_sent) ReadBack = 1%nat) by (vm_compute; reflexivity).
    change 1%nat with (1 + 0)%nat. rewrite <- E at 1.
    refine (TR_cons _ _ _ _ _ _ (Disturbed ReadBack) (forget (tear other_only one_sent)) _ _ 0
      (T_disturbed _ _ _ _ _ _ _ _ (F_read_back _ _ _ _ _ _)) _).
    rewrite <- (app_nil_r (map _ _)).
    apply torn_undisturbed with (t1 := one_stopped); [apply exec_runs; vm_compute; reflexivity|]. constructor.
  - repeat constructor.
Qed.
Lemma two_life : plant_restart 2 EightBytes 0x10 0x8010 one_stopped two_program /\
  torn_runs Debug 2 EightBytes 0x10 0x8010 two_program two_events two_running 0 /\ Forall (unsplit EightBytes 0x8010) two_events.
Proof.
  split; [apply example_restart; [apply fits_u16; reflexivity|vm_compute; reflexivity]|]. split.
  - unfold two_events, plain. apply torn_undisturbed with (t1 := two_computed); [apply exec_runs; vm_compute; reflexivity|].
    refine (TR_cons _ _ _ _ _ _ _ _ _ _ 0 (tear_step _ _ _ _ _ _ _ _) _); [vm_compute; reflexivity|]. change ([] ++ ?x) with x.
    rewrite <- (app_nil_r (map _ _)).
    apply torn_undisturbed with (t1 := two_running); [apply exec_runs; vm_compute; reflexivity|]. constructor.
  - repeat constructor.
Qed.

(** C103, transmission: the module takes over a part of what each program handed over, in order: some of the bytes in
    their order, and a beginning if that program forgot nothing. *)
Theorem C103_endure_transmission : forall prof i l ioff ooff t0 ws t, plant_start i l ioff ooff t0 ->
  torn_lives prof i l ioff ooff t0 ws t ->
  exists parts, Forall2 part_of parts ws /\ t_taken t = concat parts.
Proof. exact C103_transmission_all. Qed.
Print Assumptions C103_endure_transmission.

Example C103_transmission_nontrivial :
  torn_lives Debug 2 EightBytes 0x10 0x8010 example_start [([1; 2; 3; 4; 5; 6; 7; 8], 1%nat); ([20; 21], 0%nat)] two_running /\
  t_taken two_program = [] /\ t_taken two_running = [7; 8] ++ [20; 21].
Proof.
  split; [|vm_compute; auto]. destruct one_life as (R1 & H1 & F1). destruct two_life as (R2 & H2 & F2).
  change [1; 2; 3; 4; 5; 6; 7; 8] with (t_written one_stopped). change [20; 21] with (t_written two_running).
  exact (TL_cons _ _ _ _ _ _ _ _ _ _ _ _ R1 H1 F1 (TL_cons _ _ _ _ _ _ _ _ _ _ _ _ R2 H2 F2 (TL_nil _ _ _ _ _ _))).
Qed.

(** C103, progress: the last program gets everything across that it did not forget. *)
Theorem C103_endure_progress : forall prof i l ioff ooff t0 ws t t' es t1 n rounds t2, plant_start i l ioff ooff t0 ->
  torn_lives prof i l ioff ooff t0 ws t -> plant_restart i l ioff ooff t t' ->
  torn_runs prof i l ioff ooff t' es t1 n -> Forall (unsplit l ooff) es -> (2 <= t_cycles t1)%nat ->
  Forall plant_round rounds -> (outstanding i l ooff t1 + 2 <= length rounds)%nat ->
  plant_runs prof i l ioff ooff t1 (concat rounds) t2 ->
  exists parts kept rest, Forall2 part_of parts ws /\ t_taken t2 = concat parts ++ kept ++ rest /\
    subsequence kept (t_written t1) /\ (length (t_written t1) <= length kept + n * payload_size l)%nat /\
    (n = 0%nat -> kept = t_written t1).
Proof. exact C103_progress_all. Qed.
Print Assumptions C103_endure_progress.

(** The second program has not yet written its message when the rounds begin. *)
Definition two_rounds : list (list plant_event) :=
  [example_round 7 0x0020 0; example_round 7 0x0040 0; example_round 7 0x0040 0].
Example C103_progress_nontrivial : t_cycles two_computed = 3%nat /\ outstanding 2 EightBytes 0x8010 two_computed = 1%nat /\
  torn_runs Debug 2 EightBytes 0x10 0x8010 two_program (map plain two_begin) two_computed 0 /\
  Forall plant_round two_rounds /\ length two_rounds = 3%nat /\
  plant_runs Debug 2 EightBytes 0x10 0x8010 two_computed (concat two_rounds) (example_exec two_computed (concat two_rounds)) /\
  t_taken two_computed = [7; 8] /\ t_taken (example_exec two_computed (concat two_rounds)) = [7; 8; 20; 21].
Proof.
  split; [vm_compute; reflexivity|]. split; [vm_compute; reflexivity|]. split.
  { unfold plain. rewrite <- (app_nil_r (map _ _)).
    apply torn_undisturbed with (t1 := two_computed); [apply exec_runs; vm_compute; reflexivity|constructor]. }
  split.
  { repeat constructor; [exists [], [7; 0x0020; 0; 0; 0]|exists [], [7; 0x0040; 0; 0; 0]|exists [], [7; 0x0040; 0; 0; 0]];
      exists [], [], [], []; reflexivity. }
  split; [reflexivity|]. split; [apply exec_runs|]; vm_compute; auto.
Qed.

(** C103, reception: the last program reads the segments offered to it, in order, each once, except some offered before
    its first two cycles; and a cycle with a fresh input image fetches everything that had been offered. *)
Theorem C103_endure_reception :
  (forall prof i l ioff ooff t0 ws t t' es1 t1 n1 es2 t2 n2, plant_start i l ioff ooff t0 ->
    torn_lives prof i l ioff ooff t0 ws t -> plant_restart i l ioff ooff t t' ->
    torn_runs prof i l ioff ooff t' es1 t1 n1 -> (2 <= t_cycles t1)%nat -> torn_runs prof i l ioff ooff t1 es2 t2 n2 ->
    Forall (unsplit l ooff) (es1 ++ es2) ->
    exists lost fetched,
      (lost <= length (t_offered t1))%nat /\
      (lost + fetched <= length (t_offered t2) <= lost + fetched + 1)%nat /\
      t_delivered t2 ++ readable_in (t_coupler t2) i = concat (firstn fetched (skipn lost (t_offered t2)))) /\
  (forall prof i l ioff ooff t0 ws t t' es0 ti n es1 t1 n1 a input b c t2 n2,
    plant_start i l ioff ooff t0 -> torn_lives prof i l ioff ooff t0 ws t -> plant_restart i l ioff ooff t t' ->
    torn_runs prof i l ioff ooff t' es0 ti n -> (2 <= t_cycles ti)%nat -> torn_runs prof i l ioff ooff ti es1 t1 n1 ->
    torn_runs prof i l ioff ooff t1
      (a ++ [Disturbed (Undisturbed (PInput input))] ++ b ++ [Disturbed (Undisturbed PCycle)] ++ c) t2 n2 ->
    Forall (unsplit l ooff) (es0 ++ es1 ++ a ++ b ++ c) ->
    exists lost fetched,
      (lost <= length (t_offered ti))%nat /\
      (length (t_offered t1) <= lost + fetched <= length (t_offered t2))%nat /\
      t_delivered t2 ++ readable_in (t_coupler t2) i = concat (firstn fetched (skipn lost (t_offered t2)))).
Proof. split; [exact C103_reception_all|exact C103_reception_progress_all]. Qed.
Print Assumptions C103_endure_reception.

Example C103_reception_nontrivial :
  t_cycles two_computed = 3%nat /\
  torn_runs Debug 2 EightBytes 0x10 0x8010 two_computed (PartlyWritten message_only :: map plain two_end) two_running 0 /\
  t_offered two_running = [[50]] /\ readable_in (t_coupler two_running) 2 = [] /\
  torn_runs Debug 2 EightBytes 0x10 0x8010 two_running (map plain [PInput [7; 0x0149; 50; 0; 0]; PCycle])
    (example_exec two_running [PInput [7; 0x0149; 50; 0; 0]; PCycle]) 0 /\
  readable_in (t_coupler (example_exec two_running [PInput [7; 0x0149; 50; 0; 0]; PCycle])) 2 = [50].
Proof.
  split; [vm_compute; reflexivity|]. split.
  { refine (TR_cons _ _ _ _ _ _ _ _ _ _ 0 (tear_step _ _ _ _ _ _ _ _) _); [vm_compute; reflexivity|].
    unfold plain. rewrite <- (app_nil_r (map _ _)).
    apply torn_undisturbed with (t1 := two_running); [apply exec_runs; vm_compute; reflexivity|constructor]. }
  split; [vm_compute; reflexivity|]. split; [vm_compute; reflexivity|]. split; [|vm_compute; reflexivity].
  unfold plain. rewrite <- (app_nil_r (map _ _)).
  eapply torn_undisturbed; [apply exec_runs; vm_compute; reflexivity|constructor].
Qed.

(** Writing the first register of the message last (C102) is not enough if programs are restarted: the first cycle of the
    second program clears the data of a message that the module has not looked at yet.  If its write is interrupted before the
    first register, the module takes six bytes that no program handed over. *)
Theorem C103_whole_needed : exists prof i l ioff ooff t0 t1 es1 t2 t3 es2 t4, plant_start i l ioff ooff t0 /\
  plant_restart i l ioff ooff t0 t1 /\ torn_runs prof i l ioff ooff t1 es1 t2 0 /\ Forall (header_last l ooff) es1 /\
  plant_restart i l ioff ooff t2 t3 /\ torn_runs prof i l ioff ooff t3 es2 t4 0 /\ Forall (header_last l ooff) es2 /\
  t_written t2 = [1; 2; 3; 4; 5; 6; 7; 8] /\ t_written t4 = [] /\ t_taken t4 = [0; 0; 0; 0; 0; 0].
Proof.
  pose (stopped := example_exec first_program (one_begin ++ [POutput])).
  pose (next := restarted [7; 0; 0; 0; 0] stopped). pose (cleared := example_exec next [PCycle]).
  exists Debug, 2%nat, EightBytes, 0x10, 0x8010, example_start, first_program, (map plain (one_begin ++ [POutput])), stopped,
    next, (map plain [PCycle] ++ PartlyWritten without_header :: map plain [PTake]),
    (example_exec (tear without_header cleared) [PTake]).
  split; [exact example_starts|]. split; [apply example_first|]. split.
  { unfold plain. rewrite <- (app_nil_r (map _ _)). eapply torn_undisturbed; [apply exec_runs; vm_compute; reflexivity|constructor]. }
  split; [repeat constructor|].
  split; [apply example_restart; [apply fits_u16; reflexivity|vm_compute; reflexivity]|]. split.
  { unfold plain. apply torn_undisturbed with (t1 := cleared); [apply exec_runs; vm_compute; reflexivity|].
    refine (TR_cons _ _ _ _ _ _ _ _ _ _ 0 (tear_step _ _ _ _ _ _ _ _) _); [vm_compute; reflexivity|].
    rewrite <- (app_nil_r (map _ _)). eapply torn_undisturbed; [apply exec_runs; vm_compute; reflexivity|constructor]. }
  split; [repeat constructor; cbn; discriminate|]. vm_compute. auto.
Qed.
Print Assumptions C103_whole_needed.
