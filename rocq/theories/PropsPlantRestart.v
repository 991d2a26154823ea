(** Property theorem C67: a program that drives a coupler is stopped and started again. *)
From Coq Require Import ZArith List Bool Lia.
From Verif Require Import Base Facts F32 Types Lib Com Fbc SpecCodec SpecSerial SpecCoupler SpecImage SpecSystem
  SpecRestart SpecPlantRestart ProofsCoupler ProofsWitness ProofsSystem ProofsPlant ProofsPlantRestart PropsCoupler
  PropsSystem.
Import ListNotations.
Local Open Scope Z_scope.

(** A first program writes nine bytes; it is stopped when the module has taken over the first of them and a segment
    of six has been written to it.  The module takes these over when the second program, which writes two bytes, has
    started already; meanwhile it still presents the two bytes that the first program has fetched but not read. *)
Definition restarted (latch : list Z) (t : plant) : plant :=
  mk_plant example_new latch (t_register t) (t_register t) (t_device t) [] (t_taken t) (presented (t_device t)) [] 0.
Definition first_program : plant := restarted [5; 0; 0; 0; 0] example_start.
Definition first_events : list plant_event :=
  example_history ++ example_sending ++ [PInput [7; 0x0229; 0x2928; 0; 0]; PCycle; POutput].
Definition first_stopped : plant := example_exec first_program first_events.
Definition second_program : plant := restarted [7; 0x0229; 0x2928; 0; 0] first_stopped.
Definition second_events : list plant_event := [PWrite 2 [20; 21]; PTake; PCycle; PCycle; POutput].
Definition second_running : plant := example_exec second_program second_events.
Definition second_rounds : list (list plant_event) :=
  [example_round 7 0x0249 0x2928; example_round 7 0x0269 0x2928; POffer [50] :: example_round 7 0x0171 50].
Definition second_end : plant := example_exec second_running (concat second_rounds).

Lemma example_restart latch t : Forall is_u16 latch ->
  rs_in_from_bytes (in_part EightBytes 0x10 latch) = Ok (t_device t) ->
  plant_restart 2 EightBytes 0x10 0x8010 t (restarted latch t).
Proof.
  intros Hu Hl. split; [exists example_config; split; [apply fits_config; reflexivity|vm_compute; reflexivity]|].
  split; [exact example_module|]. split; [exact Hu|]. split; [exact Hl|]. repeat split.
Qed.
Lemma example_first : plant_restart 2 EightBytes 0x10 0x8010 example_start first_program /\
  plant_runs Debug 2 EightBytes 0x10 0x8010 first_program first_events first_stopped /\
  t_written first_stopped = [9; 1; 2; 3; 4; 5; 6; 7; 8].
Proof.
  split; [apply example_restart; [apply fits_u16; reflexivity|vm_compute; reflexivity]|].
  split; [apply exec_runs; vm_compute; reflexivity|vm_compute; reflexivity].
Qed.
Lemma example_lives : plant_lives Debug 2 EightBytes 0x10 0x8010 example_start [[9; 1; 2; 3; 4; 5; 6; 7; 8]] first_stopped.
Proof.
  destruct example_first as (G1 & G2 & E). rewrite <- E.
  exact (PL_cons _ _ _ _ _ _ first_program first_events first_stopped [] first_stopped G1 G2 (PL_nil _ _ _ _ _ _)).
Qed.
Lemma example_second : plant_restart 2 EightBytes 0x10 0x8010 first_stopped second_program /\
  plant_runs Debug 2 EightBytes 0x10 0x8010 second_program second_events second_running /\
  plant_runs Debug 2 EightBytes 0x10 0x8010 second_running (concat second_rounds) second_end.
Proof.
  split; [apply example_restart; [apply fits_u16; reflexivity|vm_compute; reflexivity]|].
  split; apply exec_runs; vm_compute; reflexivity.
Qed.

(** C67: However often the program is stopped, a serial module takes over a beginning of what the first program
    handed over for it (by writing or by requesting a value), then a beginning of what the second handed over, and so on. *)
Theorem C67_restart_transmission : forall prof i l ioff ooff t0 ws t, plant_start i l ioff ooff t0 ->
  plant_lives prof i l ioff ooff t0 ws t ->
  exists parts, Forall2 prefix parts ws /\ t_taken t = concat parts.
Proof. exact C67_transmission_all. Qed.
Print Assumptions C67_restart_transmission.
Example C67_transmission_example :
  plant_start 2 EightBytes 0x10 0x8010 example_start /\
  plant_lives Debug 2 EightBytes 0x10 0x8010 example_start [[9; 1; 2; 3; 4; 5; 6; 7; 8]; [20; 21]] second_end /\
  t_taken second_end = concat [[9; 1; 2; 3; 4; 5; 6]; [20; 21]].
Proof.
  split; [exact example_starts|]. split; [|vm_compute; reflexivity].
  destruct example_first as (G1 & G2 & E1). destruct example_second as (H1 & H2).
  assert (E2 : t_written second_end = [20; 21]) by (vm_compute; reflexivity). rewrite <- E1, <- E2.
  refine (PL_cons _ _ _ _ _ _ first_program first_events first_stopped [t_written second_end] second_end G1 G2 _).
  refine (PL_cons _ _ _ _ _ _ second_program (second_events ++ concat second_rounds) second_end [] second_end H1 _
            (PL_nil _ _ _ _ _ _)).
  apply exec_runs. vm_compute. reflexivity.
Qed.

(** The last program gets everything across. *)
Theorem C67_restart_progress : forall prof i l ioff ooff t0 ws t t' es t1 rounds t2, plant_start i l ioff ooff t0 ->
  plant_lives prof i l ioff ooff t0 ws t -> plant_restart i l ioff ooff t t' ->
  plant_runs prof i l ioff ooff t' es t1 -> (2 <= t_cycles t1)%nat ->
  Forall plant_round rounds -> (outstanding i l ooff t1 + 2 <= length rounds)%nat ->
  plant_runs prof i l ioff ooff t1 (concat rounds) t2 ->
  exists parts rest, Forall2 prefix parts ws /\ t_taken t2 = concat parts ++ t_written t1 ++ rest.
Proof. exact C67_progress_all. Qed.
Print Assumptions C67_restart_progress.
Example C67_progress_example :
  t_cycles second_running = 2%nat /\ Forall plant_round second_rounds /\
  outstanding 2 EightBytes 0x8010 second_running = 1%nat /\ length second_rounds = 3%nat /\
  t_written second_running = [20; 21] /\ t_taken second_running = [9; 1; 2; 3; 4; 5; 6].
Proof.
  split; [vm_compute; reflexivity|]. split; [|vm_compute; auto].
  repeat constructor; [exists [], [7; 0x0249; 0x2928; 0; 0]|exists [], [7; 0x0269; 0x2928; 0; 0]|exists [POffer [50]], [7; 0x0171; 50; 0; 0]];
    exists [], [], [], []; reflexivity.
Qed.

(** A restarted program reads the segments offered to it, in order and each once, except some offered before its
    first two cycles; and a cycle with a fresh input image fetches everything that had been offered. *)
Theorem C67_restart_reception : forall prof i l ioff ooff t0 ws t t' es1 t1 es2 t2, plant_start i l ioff ooff t0 ->
  plant_lives prof i l ioff ooff t0 ws t -> plant_restart i l ioff ooff t t' ->
  plant_runs prof i l ioff ooff t' es1 t1 -> (2 <= t_cycles t1)%nat -> plant_runs prof i l ioff ooff t1 es2 t2 ->
  exists lost fetched,
    (lost <= length (t_offered t1))%nat /\
    (lost + fetched <= length (t_offered t2) <= lost + fetched + 1)%nat /\
    t_delivered t2 ++ readable_in (t_coupler t2) i = concat (firstn fetched (skipn lost (t_offered t2))).
Proof. exact C67_reception_all. Qed.
Print Assumptions C67_restart_reception.

Theorem C67_restart_reception_progress : forall prof i l ioff ooff t0 ws t t' es0 ti es1 t1 a input b c t2,
  plant_start i l ioff ooff t0 -> plant_lives prof i l ioff ooff t0 ws t -> plant_restart i l ioff ooff t t' ->
  plant_runs prof i l ioff ooff t' es0 ti -> (2 <= t_cycles ti)%nat -> plant_runs prof i l ioff ooff ti es1 t1 ->
  plant_runs prof i l ioff ooff t1 (a ++ [PInput input] ++ b ++ [PCycle] ++ c) t2 ->
  exists lost fetched,
    (lost <= length (t_offered ti))%nat /\
    (length (t_offered t1) <= lost + fetched <= length (t_offered t2))%nat /\
    t_delivered t2 ++ readable_in (t_coupler t2) i = concat (firstn fetched (skipn lost (t_offered t2))).
Proof. exact C67_reception_progress_all. Qed.
Print Assumptions C67_restart_reception_progress.
(** The hypotheses are met by the states of [example_second]; both programs have received [40; 41]. *)
Example C67_reception_example :
  readable_in (t_coupler first_stopped) 2 = [40; 41] /\ t_delivered first_stopped = [] /\
  t_offered second_program = [[40; 41]] /\ t_offered second_end = [[40; 41]; [50]] /\
  readable_in (t_coupler second_end) 2 = [40; 41; 50].
Proof. vm_compute. auto 10. Qed.
