(** Property theorems about what requests do and do not change: C44 (failing cycles), C46 (useless requests). *)
From Coq Require Import ZArith List Bool.
From Verif Require Import Base Facts F32 Types Lib Com Fbc SpecCodec SpecSerial SpecCoupler SpecEffect
  ProofsEffect ProofsWitness PropsCoupler.
Import ListNotations.
Local Open Scope Z_scope.

(** C44, the remaining case: a cycle that decodes both images and then fails because of a request leaves the
    coupler exactly as it would be had other values been requested and the cycle succeeded. *)
Theorem C44_failed_cycle_effect : forall prof c1 c2 input output c1' r1 c2' r2 ins outs,
  reachable prof c1 -> reachable prof c2 -> same_but_requests c1 c2 ->
  cycle prof c1 input output c1' r1 -> cycle prof c2 input output c2' r2 ->
  process_input_data prof (infos c1) input = Ok ins -> process_output_data prof (infos c1) output = Ok outs ->
  same_coupler c1' c2'.
Proof. exact C44_effect_all. Qed.
Print Assumptions C44_failed_cycle_effect.

(** The example coupler of PropsCoupler.v with an acceptable request (channel 1) and with one that is
    not a digital value. *)
Definition bad_request : coupler := fst (set_output example_coupler (mk_address 1 0) VNone).
Example C44_effect_example : reachable Debug bad_request /\ reachable Debug example_request /\
  same_but_requests bad_request example_request /\
  cycle Debug bad_request example_input example_output (example_run bad_request example_input example_output) (Err ChannelValueError) /\
  (exists image, cycle Debug example_request example_input example_output (example_run example_request example_input example_output) (Ok image)) /\
  (exists ins, process_input_data Debug (infos bad_request) example_input = Ok ins) /\
  (exists outs, process_output_data Debug (infos bad_request) example_output = Ok outs) /\
  serial (example_run bad_request example_input example_output) 2 <> serial bad_request 2.
Proof.
  split; [apply R_set; [exact example_reachable|exact I]|]. split; [exact example_request_reachable|]. split.
  { split; [reflexivity|]. split; [reflexivity|]. split; [reflexivity|]. split; [reflexivity|].
    intros [i j] m Hm Hs. cbn [a_module] in Hm. destruct i as [|[|[|i]]]; vm_compute in Hm;
      [injection Hm as <-; discriminate|injection Hm as <-; discriminate|reflexivity|destruct i; discriminate]. }
  split; [apply step_cycle; vm_compute; reflexivity|]. split; [eexists; apply step_cycle; vm_compute; reflexivity|].
  split; [eexists; vm_compute; reflexivity|]. split; [eexists; vm_compute; reflexivity|]. vm_compute. discriminate.
Qed.

(** C46, exactly which requests are accepted and ignored: those for modules without output data, and for serial
    modules all but byte strings (with their input or output data missing, even these).  The cycle that follows
    does what it does without the request, which afterwards is dropped or still pending. *)
Theorem C46_ignored_request : forall prof c a v c1 m o input output c2 r c3 r', reachable prof c -> rust_value v ->
  module_at c (a_module a) m o -> useless m o v -> requested c a = None -> set_output c a v = (c1, Ok tt) ->
  cycle prof c1 input output c2 r -> cycle prof c input output c3 r' ->
  r = r' /\ (same_coupler c2 c3 \/ same_coupler c2 (fst (set_output c3 a v))).
Proof. exact C46_useless_all. Qed.
Print Assumptions C46_ignored_request.

(** Such a request is never noticed: whatever the program does afterwards, all answers are those it would
    get without it. *)
Theorem C46_ignored_forever : forall prof c a v c1 m o xs c2 answers c3 answers', reachable prof c -> rust_value v ->
  module_at c (a_module a) m o -> useless m o v -> requested c a = None -> set_output c a v = (c1, Ok tt) ->
  runs prof c1 xs c2 answers -> runs prof c xs c3 answers' -> answers = answers'.
Proof. exact C46_forever_all. Qed.
Print Assumptions C46_ignored_forever.

(** A request for a digital input, and a switch position for a serial module. *)
Definition ignored1 : coupler := fst (set_output example_coupler (mk_address 0 2) (Bit true)).
Definition ignored2 : coupler := fst (set_output example_coupler (mk_address 2 0) (Bit true)).
Example C46_ignored_example :
  (exists m o, module_at example_coupler 0 m o /\ useless m o (Bit true)) /\
  (exists m o, module_at example_coupler 2 m o /\ useless m o (Bit true)) /\
  (forall a, requested example_coupler a = None) /\
  set_output example_coupler (mk_address 0 2) (Bit true) = (ignored1, Ok tt) /\
  set_output example_coupler (mk_address 2 0) (Bit true) = (ignored2, Ok tt) /\
  (exists image, cycle Debug ignored1 example_input example_output (example_run ignored1 example_input example_output) (Ok image)) /\
  (exists image, runs Debug ignored2 [NextCycle example_input example_output] (example_run ignored2 example_input example_output)
     [CycleResult (Ok image) (inputs (example_run ignored2 example_input example_output)) (outputs (example_run ignored2 example_input example_output))]).
Proof.
  split; [do 2 eexists; split; [split; vm_compute; reflexivity|left; split; reflexivity]|].
  split; [do 2 eexists; split; [split; vm_compute; reflexivity|right; split; [reflexivity|right; right; discriminate]]|].
  split; [intros a; reflexivity|]. split; [vm_compute; reflexivity|]. split; [vm_compute; reflexivity|].
  split; [eexists; apply step_cycle; vm_compute; reflexivity|].
  exists (after [] (snd (next Debug as_is as_is ignored2 example_input example_output))).
  apply (Runs_cons Debug ignored2 _ (example_run ignored2 example_input example_output)); [|apply Runs_nil].
  apply Calls_next; [apply step_cycle; vm_compute; reflexivity|discriminate].
Qed.
