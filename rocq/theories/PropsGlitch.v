(** Property theorems C65: disturbed communication. *)
From Coq Require Import ZArith List Bool.
From Verif Require Import Base Facts F32 Types Lib Com Fbc SpecCodec SpecSerial SpecCoupler SpecImage SpecOutcome SpecGlitch
  ProofsWitness ProofsGlitch.
Import ListNotations.
Local Open Scope Z_scope.

(** C65: cycles whose images could not be read leave no trace.  Whatever is called, leaving out the cycles that
    answered [BufferLength] gives the same answers to all other calls (but for the [inputs] shown after other failed
    cycles), and leads to a coupler with the same outputs, requests and serial data. *)
Theorem C65_no_trace : forall prof c xs c1 answers, reachable prof c -> runs prof c xs c1 answers ->
  exists c2 answers2, runs prof c (map fst (undisturbed xs answers)) c2 answers2 /\
    Forall2 alike_answer (map snd (undisturbed xs answers)) answers2 /\
    outputs c1 = outputs c2 /\ (forall a, requested c1 a = requested c2 a) /\ (forall i, serial c1 i = serial c2 i).
Proof. exact C65_all. Qed.
Print Assumptions C65_no_trace.

(** With the offsets of a real coupler this is the answer exactly for images that cannot be read. *)
Theorem C65_unreadable : forall prof c input output c' r, reachable prof c -> well_placed c -> cycle prof c input output c' r ->
  (r = Err BufferLength <-> ~ (inputs_readable c input /\ outputs_readable c output)).
Proof. exact C65_when_all. Qed.
Print Assumptions C65_unreadable.

(** Inputs and outputs; a request, a truncated output image, a truncated input image, and then a good cycle. *)
Definition disturbed_config : config :=
  mk_config [UR20_4DI_P; UR20_4DO_P] [0xFFFF; 0x0000; 0x8000; 0xFFFF] [repeat 0 4; repeat 0 4].
Definition disturbed0 : coupler := after no_coupler (coupler_new disturbed_config).
Definition request1 : call := SetOutput (mk_address 1 1) (Bit true).
Definition disturbed1 : coupler := fst (set_output disturbed0 (mk_address 1 1) (Bit true)).
Definition cycled (c : coupler) (input output : list Z) : coupler := fst (next Debug as_is as_is c input output).
Definition disturbed2 : coupler := cycled disturbed1 [3] [].
Definition disturbed3 : coupler := cycled disturbed2 [] [0].
Definition disturbed4 : coupler := cycled disturbed3 [5] [0].
Definition disturbed_calls : list call := [request1; NextCycle [3] []; NextCycle [] [0]; NextCycle [5] [0]].
Definition disturbed_answers : list answer :=
  [SetResult (Ok tt); CycleResult (Err BufferLength) (inputs disturbed2) (outputs disturbed2);
   CycleResult (Err BufferLength) (inputs disturbed3) (outputs disturbed3);
   CycleResult (Ok [2]) (inputs disturbed4) (outputs disturbed4)].
Example C65_example : reachable Debug disturbed0 /\ well_placed disturbed0 /\
  runs Debug disturbed0 disturbed_calls disturbed4 disturbed_answers /\
  map fst (undisturbed disturbed_calls disturbed_answers) = [request1; NextCycle [5] [0]] /\
  inputs disturbed2 <> inputs disturbed1.
Proof.
  split; [apply (start_reachable _ disturbed_config); vm_compute; reflexivity|].
  split.
  { split; [vm_compute; left; split; reflexivity|].
    intros [|[|[|i]]] m o off [_ Ho] E; vm_compute in Ho; try discriminate; apply Some_inj in Ho; subst o; cbn in E;
      destruct E as [E|E]; try discriminate; apply Some_inj in E; subst off; left; reflexivity. }
  split.
  { apply (Runs_cons Debug disturbed0 _ disturbed1); [exact (Calls_set Debug disturbed0 (mk_address 1 1) (Bit true) I)|].
    apply (Runs_cons Debug disturbed1 _ disturbed2); [apply Calls_next; [apply step_cycle; vm_compute; reflexivity|discriminate]|].
    apply (Runs_cons Debug disturbed2 _ disturbed3); [apply Calls_next; [apply step_cycle; vm_compute; reflexivity|discriminate]|].
    apply (Runs_cons Debug disturbed3 _ disturbed4); [apply Calls_next; [apply step_cycle; vm_compute; reflexivity|discriminate]|].
    apply Runs_nil. }
  split; [reflexivity|vm_compute; discriminate].
Qed.
