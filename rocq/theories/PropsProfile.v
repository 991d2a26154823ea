(** Property theorems C68: a release build of a program does what its debug build does. *)
From Coq Require Import ZArith List Bool.
From Verif Require Import Base Facts Types Lib Com Fbc SpecCoupler SpecStartup SpecProfile
  ProofsProfile ProofsWitness PropsCoupler PropsStartup.
Import ListNotations.
Local Open Scope Z_scope.

(** C68: Every history that a debug build completes without panicking is one of the release build, with
    the same results of all calls; and a debug build that panics for another reason than an
    overflow panics in the same way as a release build. *)
Theorem C68_release_follows_debug :
  (forall c xs c' answers, runs Debug c xs c' answers -> runs Release c xs c' answers) /\
  (forall c input output c' r, cycle Debug c input output c' r -> r <> Panic ArithmeticOverflow ->
     cycle Release c input output c' r) /\
  (forall c, reachable Debug c -> reachable Release c).
Proof. exact (conj C68_runs (conj C68_follows C68_reachable)). Qed.
Print Assumptions C68_release_follows_debug.

(** Where no output address lies below the process image of the outputs the builds do not differ at all. *)
Theorem C68_same_builds : forall c, outputs_in_area c ->
  (reachable Debug c <-> reachable Release c) /\
  (reachable Debug c ->
     (forall xs c' answers, runs Debug c xs c' answers <-> runs Release c xs c' answers) /\
     (forall input output c' r, cycle Debug c input output c' r <-> cycle Release c input output c' r)).
Proof.
  exact (fun c Ha => conj (C68_reachable_same c Ha) (fun Hr => conj (fun xs c' answers => C68_same_runs c xs c' answers Hr Ha)
           (fun input output c' r => C68_same c input output c' r Hr Ha))).
Qed.
Print Assumptions C68_same_builds.

(** Whatever the addresses are, a cycle that succeeds in one build succeeds in the other, with the same
    image and the same coupler. *)
Theorem C68_same_success : forall prof prof' c input output c' image, reachable prof c ->
  cycle prof c input output c' (Ok image) -> reachable prof' c /\ cycle prof' c input output c' (Ok image).
Proof. exact C68_success_all. Qed.
Print Assumptions C68_same_success.

(** Start-up: the release build starts as the debug build does. *)
Theorem C68_same_start : forall register, start_up Debug register <> Panic ArithmeticOverflow ->
  start_up Release register = start_up Debug register.
Proof. exact C68_start. Qed.
Print Assumptions C68_same_start.

(** A history of the example coupler with a request, serial bytes, a cycle that fails and one that succeeds. *)
Definition profile_calls : list call :=
  [SetOutput (mk_address 1 1) (Bit true); WriteTo 2 [1; 2]; NextCycle [1] []; NextCycle example_input example_output].
Definition profile1 : coupler := example_request.
Definition profile2 : coupler := fst (coupler_write profile1 2 [1; 2]).
Definition profile4 : coupler := example_run profile2 example_input example_output.
Example C68_example : reachable Debug example_coupler /\ outputs_in_area example_coupler /\
  exists image, image <> [] /\ runs Debug example_coupler profile_calls profile4
    [SetResult (Ok tt); BytesWritten (Some 2%nat); CycleResult (Err BufferLength) (inputs profile2) (outputs profile2);
     CycleResult (Ok image) (inputs profile4) (outputs profile4)].
Proof.
  split; [exact example_reachable|]. split.
  - intros i m o off [_ Ho] E. destruct i as [|[|[|i]]]; vm_compute in Ho.
    1-3: apply Some_inj in Ho; subst o; cbn in E; try discriminate; apply Some_inj in E; subst off; discriminate.
    destruct i; discriminate.
  - exists (after [] (snd (next Debug as_is as_is profile2 example_input example_output))).
    split; [vm_compute; discriminate|].
    apply (Runs_cons Debug example_coupler _ profile1); [exact (Calls_set Debug example_coupler (mk_address 1 1) (Bit true) I)|].
    apply (Runs_cons Debug profile1 _ profile2).
    { refine (Calls_write Debug profile1 2 [1; 2] _). repeat constructor; discriminate. }
    apply (Runs_cons Debug profile2 _ profile2); [apply Calls_next; [apply step_cycle; vm_compute; reflexivity|discriminate]|].
    apply (Runs_cons Debug profile2 _ profile4); [apply Calls_next; [apply step_cycle; vm_compute; reflexivity|vm_compute; discriminate]|].
    apply Runs_nil.
Qed.
(** With an address below the area, the debug build panics and the release build reports an error. *)
Example C68_difference : reachable Debug w43 /\ ~ outputs_in_area w43 /\
  (exists c', cycle Debug w43 [] [0] c' (Panic ArithmeticOverflow)) /\
  (exists c', cycle Release w43 [] [0] c' (Err BufferLength)).
Proof.
  split; [apply (start_reachable _ cfg43); vm_compute; reflexivity|]. split.
  - intros H. exact (H 0%nat (MDO V_4DO_P (repeat false 4)) (mk_offset None (Some 0)) 0 (conj eq_refl eq_refl) eq_refl eq_refl).
  - split; eexists; apply step_cycle; vm_compute; reflexivity.
Qed.
(** The rack of C60 starts in a debug build. *)
Example C68_start_example : start_up Debug its_registers <> Panic ArithmeticOverflow.
Proof. vm_compute. discriminate. Qed.
