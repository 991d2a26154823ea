(** Property theorems C110: the flow control of serial reception. *)
From Coq Require Import ZArith List Bool Lia.
From Verif Require Import Base Facts Types Com Fbc SpecCodec SpecSerial SpecCoupler SpecSystem SpecThroughput SpecFlow
  ProofsPlant ProofsFlow PropsSystem.
Import ListNotations.
Local Open Scope Z_scope.

(** C110: a serial module that keeps having something to offer gets rid of a segment in every round
    (none is refused for lack of an acknowledgement), whatever else happens meanwhile ... *)
Theorem C110_served : forall prof i l ioff ooff t0 es t rounds t', plant_start i l ioff ooff t0 ->
  plant_runs prof i l ioff ooff t0 es t -> Forall reception_round rounds ->
  plant_runs prof i l ioff ooff t (concat rounds) t' ->
  (length (t_offered t) + length rounds <= length (t_offered t'))%nat.
Proof. exact C110_served_all. Qed.
Print Assumptions C110_served.

(** ... and of no more than one for every cycle of the program, and one in advance: a program that
    makes no cycle stops the module. *)
Theorem C110_throttled : forall prof i l ioff ooff t0 es t es' t', plant_start i l ioff ooff t0 ->
  plant_runs prof i l ioff ooff t0 es t -> plant_runs prof i l ioff ooff t es' t' ->
  (length (t_offered t') <= length (t_offered t) + cycles_in es' + 1)%nat.
Proof. exact C110_throttled_all. Qed.
Print Assumptions C110_throttled.

(** C110: a cycle makes at most one segment readable, completely, and none during the initialisation. *)
Theorem C110_fetched : forall prof i l ioff ooff t0 es t t', plant_start i l ioff ooff t0 ->
  plant_runs prof i l ioff ooff t0 es t -> plant_step prof i l ioff ooff t PCycle t' ->
  exists new, readable_in (t_coupler t') i = readable_in (t_coupler t) i ++ new /\
    (new = [] \/ In new (t_offered t) /\ (2 <= t_cycles t)%nat).
Proof. exact C110_fetched_all. Qed.
Print Assumptions C110_fetched.

(** Two rounds, in each of which the module tries to offer two segments. *)
Definition offering_rounds : list (list plant_event) :=
  [[PInput [5; 0; 0; 0; 0]; PCycle; POutput; POffer [40; 41]; POffer [42]];
   [PInput [5; 0x0209; 0x2928; 0; 0]; PCycle; POutput; POffer [43]; POffer [44]]].
Definition offering_end : plant := example_exec example_initialised (concat offering_rounds).
Example C110_example :
  plant_start 2 EightBytes 0x10 0x8010 example_start /\
  plant_runs Debug 2 EightBytes 0x10 0x8010 example_start example_history example_initialised /\
  Forall reception_round offering_rounds /\
  plant_runs Debug 2 EightBytes 0x10 0x8010 example_initialised (concat offering_rounds) offering_end /\
  t_offered example_initialised = [] /\ t_offered offering_end = [[40; 41]; [43]] /\
  readable_in (t_coupler offering_end) 2 = [40; 41] /\
  cycles_in (concat offering_rounds) = 2%nat.
Proof.
  split; [exact example_starts|]. split; [exact example_runs_1|].
  split; [|split; [apply exec_runs; vm_compute; reflexivity|vm_compute; auto]].
  repeat constructor; exists []; eexists; exists [], [], []; eexists _, _; reflexivity.
Qed.
