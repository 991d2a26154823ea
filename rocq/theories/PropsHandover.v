(** Property theorems C113: the two ways to hand over bytes to a serial module. *)
From Coq Require Import ZArith List Bool.
From Verif Require Import Base F32 Types Lib Com Fbc SpecCodec SpecSerial SpecCoupler SpecHandover
  ProofsWitness ProofsHandover PropsCoupler.
Import ListNotations.
Local Open Scope Z_scope.

(** C113: a byte string of any length is accepted for a serial module both as a request and through its writer. *)
Theorem C113_accepted : forall prof c i m o b, reachable prof c -> module_at c i m o -> is_serial m = true ->
  snd (set_output c (mk_address i 0) (Bytes b)) = Ok tt /\ snd (coupler_write c i b) = Some (length b).
Proof. exact C113_accepted_all. Qed.
Print Assumptions C113_accepted.

(** C113: if no request is waiting for the module, it makes no difference which way is taken: as long as no further bytes are handed
    over, all calls, cycles that fail among them, are answered alike; and after a successful cycle everything is answered alike for
    ever, whatever is called. *)
Theorem C113_interchangeable :
  forall prof c i m o b xs c1 a1 c2 a2, reachable prof c -> module_at c i m o -> is_serial m = true -> Forall is_u8 b ->
  requested c (mk_address i 0) = None -> Forall (hands_over_nothing i) xs ->
  runs prof (fst (set_output c (mk_address i 0) (Bytes b))) xs c1 a1 -> runs prof (fst (coupler_write c i b)) xs c2 a2 ->
  a1 = a2 /\
  (mo_input o <> None -> mo_output o <> None -> cycle_succeeded a1 ->
   forall ys d1 e1 d2 e2, runs prof c1 ys d1 e1 -> runs prof c2 ys d2 e2 -> e1 = e2).
Proof. exact C113_all. Qed.
Print Assumptions C113_interchangeable.

(** Seven bytes for the serial module of the example, a failing and a successful cycle: six of them leave in the first segment. *)
Definition seven : list Z := [1; 2; 3; 4; 5; 6; 7].
Definition acknowledged : list Z := [5; 0x0041; 0; 0; 0].
Definition handover_calls : list call :=
  [ReadFrom 2 1; NextCycle [] example_output; SetOutput (mk_address 1 0) (Bit true); NextCycle acknowledged example_output].
Ltac handover_run := eapply Runs_cons; [apply Calls_read|];
  eapply Runs_cons; [apply Calls_next; [apply step_cycle; [reflexivity..|vm_compute; reflexivity]|intros p; discriminate]|];
  eapply Runs_cons; [apply Calls_set; exact I|];
  eapply Runs_cons; [apply Calls_next; [apply step_cycle; [reflexivity..|vm_compute; reflexivity]|intros p; discriminate]|]; apply Runs_nil.
Example C113_example : reachable Debug example_coupler /\
  (exists m, module_at example_coupler 2 m (mk_offset (Some 16) (Some 32784)) /\ is_serial m = true) /\
  requested example_coupler (mk_address 2 0) = None /\ Forall (hands_over_nothing 2) handover_calls /\
  exists c1 c2 a1 a2 failed image ins outs,
    runs Debug (fst (set_output example_coupler (mk_address 2 0) (Bytes seven))) handover_calls c1 a1 /\
    runs Debug (fst (coupler_write example_coupler 2 seven)) handover_calls c2 a2 /\ a1 = a2 /\
    a1 = failed ++ [CycleResult (Ok image) ins outs] /\ nth_error image 2 = Some 0x0201 /\ cycle_succeeded a1.
Proof.
  split; [exact example_reachable|]. split; [eexists; split; [split; vm_compute; reflexivity|reflexivity]|]. split; [reflexivity|].
  split; [repeat constructor; discriminate|].
  do 4 eexists. exists [BytesRead (Some []); CycleResult (Err BufferLength) (inputs example_coupler) (outputs example_coupler); SetResult (Ok tt)].
  do 3 eexists. split; [handover_run|]. split; [handover_run|]. split; [vm_compute; reflexivity|]. split; [vm_compute; reflexivity|].
  split; [vm_compute; reflexivity|]. do 3 eexists. right. right. right. left. vm_compute. reflexivity.
Qed.

(** The condition on the calls is needed: of two byte strings handed over before a cycle, the one handed over by a request is sent
    last. *)
Example C113_order_case : exists c1 a1 c2 a2,
  runs Debug (fst (set_output example_coupler (mk_address 2 0) (Bytes [1; 2]))) [WriteTo 2 [3; 4]; NextCycle acknowledged example_output] c1 a1 /\
  runs Debug (fst (coupler_write example_coupler 2 [1; 2])) [WriteTo 2 [3; 4]; NextCycle acknowledged example_output] c2 a2 /\
  (exists image ins outs, nth_error a1 1 = Some (CycleResult (Ok image) ins outs) /\ nth_error image 2 = Some 0x0403) /\
  (exists image ins outs, nth_error a2 1 = Some (CycleResult (Ok image) ins outs) /\ nth_error image 2 = Some 0x0201).
Proof.
  do 4 eexists. split; [|split; [|split]].
  - eapply Runs_cons; [apply Calls_write; repeat constructor; discriminate|].
    eapply Runs_cons; [apply Calls_next; [apply step_cycle; [reflexivity..|vm_compute; reflexivity]|intros p; discriminate]|]. apply Runs_nil.
  - eapply Runs_cons; [apply Calls_write; repeat constructor; discriminate|].
    eapply Runs_cons; [apply Calls_next; [apply step_cycle; [reflexivity..|vm_compute; reflexivity]|intros p; discriminate]|]. apply Runs_nil.
  - do 3 eexists. split; reflexivity.
  - do 3 eexists. split; reflexivity.
Qed.
