(** Property theorems C115: the readers and writers of a coupler. *)
From Coq Require Import ZArith List Bool Lia.
From Verif Require Import Base Facts F32 Types Lib Com Fbc SpecCodec SpecSerial SpecCoupler SpecImage SpecSystem SpecHandles
  ProofsCoupler ProofsWitness ProofsPlant ProofsHandles PropsCoupler.
Import ListNotations.
Local Open Scope Z_scope.

(** C115: after any history, exactly the serial modules of the configuration have a reader and a writer. *)
Theorem C115_exactly : forall prof cfg c0 xs c answers i, rust_config cfg -> coupler_new cfg = Ok c0 -> runs prof c0 xs c answers ->
  (forall size, (exists bytes, snd (coupler_read c i size) = Some bytes) <-> serial_module cfg i) /\
  (forall buf, (exists n, snd (coupler_write c i buf) = Some n) <-> serial_module cfg i).
Proof. exact C115_exist_all. Qed.
Print Assumptions C115_exactly.

(** C115: a reader gives the oldest bytes, as many as fit, removes just these, and changes nothing else. *)
Theorem C115_reader : forall c i size,
  else_unchanged c (fst (coupler_read c i size)) (Some i) None /\
  match snd (coupler_read c i size) with
  | Some bytes => bytes = firstn size (readable_in c i) /\ readable_in (fst (coupler_read c i size)) i = skipn size (readable_in c i)
  | None => fst (coupler_read c i size) = c
  end.
Proof. exact C115_read_all. Qed.
Print Assumptions C115_reader.

(** C115: a writer takes all bytes, appends them to those waiting, and changes nothing else. *)
Theorem C115_writer : forall c i buf,
  else_unchanged c (fst (coupler_write c i buf)) None (Some i) /\
  match snd (coupler_write c i buf) with
  | Some n => n = length buf /\ waiting_in (fst (coupler_write c i buf)) i = waiting_in c i ++ buf
  | None => fst (coupler_write c i buf) = c
  end.
Proof. exact C115_write_all. Qed.
Print Assumptions C115_writer.

(** The coupler of PropsCoupler.v, with a serial module at place 2: two cycles, a segment received, a write. *)
Definition handles_run (c : coupler) (input : list Z) : coupler := fst (next Debug as_is as_is c input [12; 0; 0; 0; 0]).
Definition handles_received : coupler :=
  handles_run (handles_run (handles_run example_new [5; 0; 0; 0; 0]) [5; 0; 0; 0; 0]) [5; 0x0209; 0x2928; 0; 0].
Example C115_example_history : exists answers,
  runs Debug example_new
    [NextCycle [5; 0; 0; 0; 0] [12; 0; 0; 0; 0]; NextCycle [5; 0; 0; 0; 0] [12; 0; 0; 0; 0];
     NextCycle [5; 0x0209; 0x2928; 0; 0] [12; 0; 0; 0; 0]] handles_received answers.
Proof.
  eexists. do 3 (eapply Runs_cons; [apply Calls_next; [apply step_cycle; [reflexivity|reflexivity|]; vm_compute; reflexivity|discriminate]|]).
  apply Runs_nil.
Qed.
Example C115_example :
  serial_module example_config 2 /\ ~ serial_module example_config 1 /\ ~ serial_module example_config 3 /\
  readable_in handles_received 2 = [40; 41] /\
  snd (coupler_read handles_received 2 1) = Some [40] /\ readable_in (fst (coupler_read handles_received 2 1)) 2 = [41] /\
  snd (coupler_read handles_received 1 1) = None /\ snd (coupler_write handles_received 3 [7]) = None /\
  snd (coupler_write handles_received 2 [7; 8; 9; 10; 11; 12; 13]) = Some 7%nat /\
  waiting_in (fst (coupler_write handles_received 2 [7; 8; 9; 10; 11; 12; 13])) 2 = [7; 8; 9; 10; 11; 12; 13].
Proof.
  split; [reflexivity|]. split; [discriminate|]. split; [discriminate|].
  vm_compute. repeat match goal with |- _ /\ _ => split end; reflexivity.
Qed.
