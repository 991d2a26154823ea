(** Property theorems C96: a cycle reports the first problem. *)
From Coq Require Import ZArith List Bool.
From Verif Require Import Base Facts F32 Types Lib Com Fbc SpecCodec SpecSerial SpecCoupler SpecImage SpecOutcome SpecDiagnosis
  ProofsWitness ProofsDiagnosis.
Import ListNotations.
Local Open Scope Z_scope.

(** C96: after any history a cycle fails with an error exactly if this is the first problem: the first module whose inputs
    cannot be read decides; if there is none, the first module whose outputs cannot be read back; if there is none, the first module
    whose output values cannot be sent or that does not continue the output image. *)
Theorem C96_first_problem : forall prof c input output c' r, reachable prof c -> outputs_high c ->
  cycle prof c input output c' r -> forall e, r = Err e <-> reported c input output e.
Proof. exact C96_all. Qed.
Print Assumptions C96_first_problem.

(** Without a problem it succeeds, and only then. *)
Theorem C96_no_problem : forall prof c input output c' r, reachable prof c -> outputs_high c ->
  cycle prof c input output c' r ->
  ((exists image, r = Ok image) <->
   none (input_problem c input) /\ none (output_problem c output) /\ none (sending_problem c output)).
Proof. exact C96_success_all. Qed.
Print Assumptions C96_no_problem.

(** Four inputs, sixteen outputs and four analogue outputs one register too far; a bit is requested from the analogue outputs, or a
    byte from the digital ones. *)
Definition far_config : config :=
  mk_config [UR20_4DI_P; UR20_16DO_P; UR20_4AO_UI_16] [0xFFFF; 0x0000; 0x8000; 0xFFFF; 0x8020; 0xFFFF] [repeat 0 4; []; repeat 0 12].
Definition far0 : coupler := after no_coupler (coupler_new far_config).
Definition far1 : coupler := fst (set_output far0 (mk_address 2 0) (Bit true)).
Definition far2 : coupler := fst (set_output far0 (mk_address 1 3) (Bytes [1])).
(** The same, mapped between two bytes. *)
Definition odd_config : config :=
  mk_config [UR20_4DI_P; UR20_16DO_P; UR20_4AO_UI_16] [0xFFFF; 0x0000; 0x8004; 0xFFFF; 0x8010; 0xFFFF] [repeat 0 4; []; repeat 0 12].
Definition odd0 : coupler := after no_coupler (coupler_new odd_config).
Definition step (c : coupler) (input output : list Z) : coupler := fst (next Debug as_is as_is c input output).

Ltac high_by_cases := intros i m o off [_ H] Eo; repeat (destruct i as [|i]; [vm_compute in H; apply Some_inj in H; subst o;
  vm_compute in Eo; first [discriminate|apply Some_inj in Eo; subst off; discriminate]|]); destruct i; discriminate.

Example C96_example :
  reachable Debug far0 /\ outputs_high far0 /\ reachable Debug far1 /\ reachable Debug far2 /\ reachable Debug odd0 /\ outputs_high odd0 /\
  (* neither the inputs nor the outputs are there: the inputs are reported *)
  cycle Debug odd0 [] [0] (step odd0 [] [0]) (Err BufferLength) /\
  (* two problems with the outputs that were read: the first module is reported *)
  cycle Debug odd0 [5] [0] (step odd0 [5] [0]) (Err ModuleOffsetError) /\
  cycle Debug odd0 [5] [] (step odd0 [5] []) (Err BufferLength) /\
  (* the place of a module and the value sent to it: the value is reported *)
  cycle Debug far0 [5] (repeat 0 6) (step far0 [5] (repeat 0 6)) (Err ModuleOffsetError) /\
  cycle Debug far1 [5] (repeat 0 6) (step far1 [5] (repeat 0 6)) (Err ChannelValueError) /\
  cycle Debug far2 [5] (repeat 0 6) (step far2 [5] (repeat 0 6)) (Err ChannelValueError).
Proof.
  split; [apply (start_reachable _ far_config); vm_compute; reflexivity|]. split; [high_by_cases|].
  split; [apply R_set; [apply (start_reachable _ far_config); vm_compute; reflexivity|exact I]|].
  split; [apply R_set; [apply (start_reachable _ far_config); vm_compute; reflexivity|repeat constructor; vm_compute; discriminate]|].
  split; [apply (start_reachable _ odd_config); vm_compute; reflexivity|]. split; [high_by_cases|].
  repeat split; try (repeat constructor; vm_compute; discriminate).
  all: exists as_is, as_is; repeat split; try (intros l; apply Permutation.Permutation_refl); vm_compute; reflexivity.
Qed.
