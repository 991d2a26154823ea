(** Property theorems C64: what a coupler remembers from cycle to cycle. *)
From Coq Require Import ZArith List Bool.
From Verif Require Import Base F32 Types Lib Com Fbc SpecCodec SpecSerial SpecCoupler SpecMemory
  ProofsWitness ProofsMemory.
Import ListNotations.
Local Open Scope Z_scope.

(** C64: Besides its configuration a coupler remembers only the pending requests and the state of its serial
    modules: two couplers that agree in these give the same answers to every sequence of calls, whatever happened
    to them before. *)
Theorem C64_memory : forall prof c1 c2 xs c1' c2' a1 a2, reachable prof c1 -> reachable prof c2 -> same_work c1 c2 ->
  runs prof c1 xs c1' a1 -> runs prof c2 xs c2' a2 -> Forall2 (same_answer (c_modules c1)) a1 a2 /\ same_work c1' c2'.
Proof. exact C64_all. Qed.
Print Assumptions C64_memory.

(** A coupler without serial modules and without pending requests behaves like a new one. *)
Theorem C64_like_new : forall prof cfg c0 xs c a ys c1 a1 c2 a2, rust_config cfg -> coupler_new cfg = Ok c0 -> no_serial c0 ->
  runs prof c0 xs c a -> (forall b, requested c b = None) ->
  runs prof c ys c1 a1 -> runs prof c0 ys c2 a2 -> Forall2 (same_answer (c_modules c0)) a1 a2.
Proof. exact C64_fresh_all. Qed.
Print Assumptions C64_like_new.

(** A digital output and a serial module; the two couplers have seen different outputs. *)
Definition memo_config : config :=
  mk_config [UR20_4DO_P; UR20_1COM_232_485_422] [0x8000; 0xFFFF; 0x8010; 0x0000]
    [repeat 0 4; [0; 1; 0; 0; 0; 0; 0; 0; 0; 0]].
Definition memo_new : coupler := after no_coupler (coupler_new memo_config).
Definition memo_run (output : list Z) : coupler := fst (next Debug as_is as_is memo_new (repeat 0 4) output).
Definition memo_1 : coupler := memo_run [5; 0; 0; 0; 0].
Definition memo_2 : coupler := memo_run [8; 0; 0; 0; 0].
Example C64_example : reachable Debug memo_1 /\ reachable Debug memo_2 /\ same_work memo_1 memo_2 /\
  outputs memo_1 <> outputs memo_2 /\
  exists c1' c2' a1 a2, runs Debug memo_1 [NextCycle (repeat 0 4) (repeat 0 5)] c1' a1 /\
    runs Debug memo_2 [NextCycle (repeat 0 4) (repeat 0 5)] c2' a2.
Proof.
  assert (S : forall output, forallb fits output = true ->
    (forall p, snd (next Debug as_is as_is memo_new (repeat 0 4) output) <> Panic p) -> reachable Debug (memo_run output)).
  { intros output Ho Hp. apply (cycle_reachable _ memo_new (repeat 0 4) output _ (snd (next Debug as_is as_is memo_new (repeat 0 4) output))).
    - apply (start_reachable _ memo_config); vm_compute; reflexivity.
    - apply step_cycle; [reflexivity|exact Ho|apply surjective_pairing].
    - exact Hp. }
  split; [apply S; [reflexivity|intros p; vm_compute; discriminate]|].
  split; [apply S; [reflexivity|intros p; vm_compute; discriminate]|].
  split; [repeat split|]. split; [vm_compute; discriminate|].
  do 4 eexists. split; (eapply Runs_cons; [apply Calls_next; [apply step_cycle; [reflexivity..|apply surjective_pairing]|]|apply Runs_nil]);
    intros p; vm_compute; discriminate.
Qed.

(** Digital outputs only: after an answered request. *)
Definition plain_config : config := mk_config [UR20_4DO_P] [0x8000; 0xFFFF] [repeat 0 4].
Definition plain_new : coupler := after no_coupler (coupler_new plain_config).
Definition plain_set : coupler := fst (set_output plain_new (mk_address 0 1) (Bit true)).
Definition plain_run : coupler := fst (next Debug as_is as_is plain_set [] [0]).
Example C64_like_new_example : rust_config plain_config /\ coupler_new plain_config = Ok plain_new /\ no_serial plain_new /\
  (exists a, runs Debug plain_new [SetOutput (mk_address 0 1) (Bit true); NextCycle [] [0]] plain_run a) /\
  (forall b, requested plain_run b = None) /\ outputs plain_run <> outputs plain_new.
Proof.
  split; [repeat constructor; discriminate|]. split; [vm_compute; reflexivity|]. split; [repeat constructor|].
  split.
  { eexists. eapply (Runs_cons Debug plain_new _ plain_set); [exact (Calls_set Debug plain_new (mk_address 0 1) (Bit true) I)|].
    eapply Runs_cons; [|apply Runs_nil].
    apply Calls_next; [apply step_cycle; [reflexivity..|apply surjective_pairing]|]. intros p; vm_compute; discriminate. }
  split; [intros b; reflexivity|vm_compute; discriminate].
Qed.
