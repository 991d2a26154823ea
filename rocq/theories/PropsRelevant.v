(** Property theorems C79: the part of the process images that matters. *)
From Coq Require Import ZArith List Bool.
From Verif Require Import Base Facts F32 Types Lib Com Fbc SpecCodec SpecSerial SpecCoupler SpecImage SpecOutcome SpecRelevant
  ProofsWitness ProofsCycle ProofsCoupler ProofsOutcome ProofsRelevant PropsCoupler.
Import ListNotations.
Local Open Scope Z_scope.

(** C79: A cycle depends on the bytes at the places of the modules only: two pairs of images that have the same bytes
    there give the same result, and couplers that cannot be told apart. *)
Theorem C79_cycle : forall prof c in1 out1 in2 out2 c1 r1 c2 r2, reachable prof c ->
  inputs_readable c in1 -> inputs_readable c in2 -> same_inputs c in1 in2 ->
  outputs_readable c out1 -> outputs_readable c out2 -> same_outputs c out1 out2 ->
  cycle prof c in1 out1 c1 r1 -> cycle prof c in2 out2 c2 r2 -> r1 = r2 /\ same_coupler c1 c2.
Proof. exact C79_cycle_all. Qed.
Print Assumptions C79_cycle.

(** Also over any number of calls. *)
Theorem C79_runs : forall prof c xs ys c1 c2 a1 a2, reachable prof c -> Forall2 (same_call_for c) xs ys ->
  runs prof c xs c1 a1 -> runs prof c ys c2 a2 -> a1 = a2 /\ same_coupler c1 c2.
Proof. exact C79_runs_all. Qed.
Print Assumptions C79_runs.

(** Registers behind the last one needed change nothing. *)
Theorem C79_longer_images : forall prof c input output x y c1 r1 c2 r2, reachable prof c ->
  inputs_readable c input -> outputs_readable c output ->
  cycle prof c input output c1 r1 -> cycle prof c (input ++ x) (output ++ y) c2 r2 -> r1 = r2 /\ same_coupler c1 c2.
Proof. exact C79_more_all. Qed.
Print Assumptions C79_longer_images.

(** Four digital inputs in the first byte, four digital outputs and a serial module: the second byte of the first
    registers belongs to no module. *)
Definition noisy_input : list Z := [0xAB05; 1265; 0; 43981; 0; 7; 8].
Definition noisy_output : list Z := [0xCD0C; 0; 0; 0; 0; 9].
Lemma example_modules i m o : module_at example_coupler i m o ->
  (exists ch, m = MDI V_4DI_P ch /\ o = mk_offset (Some 0) None) \/ (exists ch, m = MDO V_4DO_P ch /\ o = mk_offset None (Some 32768)) \/
  (exists ch, m = MCOM EightBytes ch /\ o = mk_offset (Some 16) (Some 32784)).
Proof.
  intros [H1 H2]. destruct i as [|[|[|i]]].
  - left. vm_compute in H1, H2. injection H1 as <-. injection H2 as <-. eauto.
  - right; left. vm_compute in H1, H2. injection H1 as <-. injection H2 as <-. eauto.
  - right; right. vm_compute in H1, H2. injection H1 as <-. injection H2 as <-. eauto.
  - vm_compute in H1. destruct i; discriminate.
Qed.
Lemma example_read : inputs_readable example_coupler example_input /\ inputs_readable example_coupler noisy_input /\
  same_inputs example_coupler example_input noisy_input /\
  outputs_readable example_coupler example_output /\ outputs_readable example_coupler noisy_output /\
  same_outputs example_coupler example_output noisy_output.
Proof.
  assert (K : coupler_ok example_coupler) by (apply (reachable_ok Debug); exact example_reachable).
  assert (H : forall input, forallb fits input = true ->
    (exists ins, process_input_data Debug (infos example_coupler) input = Ok ins) -> inputs_readable example_coupler input).
  { intros input U E. apply (inputs_iff Debug); [exact K|apply fits_u16; exact U|exact E]. }
  assert (HO : forall i m o off, module_at example_coupler i m o -> mo_output o = Some off -> 0x8000 <= off).
  { intros i m o off Hat E. destruct (example_modules i m o Hat) as [(? & _ & ->)|[(? & _ & ->)|(? & _ & ->)]]; cbn in E; [discriminate| |];
      apply Some_inj in E; subst off; discriminate. }
  assert (H' : forall output, forallb fits output = true ->
    (exists outs, process_output_data Debug (infos example_coupler) output = Ok outs) -> outputs_readable example_coupler output).
  { intros output U E. apply (outputs_iff Debug); [exact K|apply fits_u16; exact U|exact HO|exact E]. }
  split; [apply H; [reflexivity|vm_compute; eauto]|]. split; [apply H; [reflexivity|vm_compute; eauto]|].
  split.
  { intros i m o off Hat E. destruct (example_modules i m o Hat) as [(? & -> & ->)|[(? & -> & ->)|(? & -> & ->)]]; cbn in E; [| discriminate |];
      apply Some_inj in E; subst off; reflexivity. }
  split; [apply H'; [reflexivity|vm_compute; eauto]|]. split; [apply H'; [reflexivity|vm_compute; eauto]|].
  intros i m o off Hat E. destruct (example_modules i m o Hat) as [(? & -> & ->)|[(? & -> & ->)|(? & -> & ->)]]; cbn in E; [discriminate| |];
    apply Some_inj in E; subst off; reflexivity.
Qed.
Example C79_example : reachable Debug example_coupler /\
  Forall2 (same_call_for example_coupler) [ReadFrom 2 1; NextCycle example_input example_output] [ReadFrom 2 1; NextCycle noisy_input noisy_output] /\
  noisy_input <> example_input /\ noisy_output <> example_output /\
  exists c1 c2 a1 a2, runs Debug example_coupler [ReadFrom 2 1; NextCycle example_input example_output] c1 a1 /\
    runs Debug example_coupler [ReadFrom 2 1; NextCycle noisy_input noisy_output] c2 a2.
Proof.
  split; [exact example_reachable|]. split; [constructor; [reflexivity|constructor; [exact example_read|constructor]]|].
  split; [discriminate|]. split; [discriminate|].
  do 4 eexists. split; (eapply Runs_cons; [apply Calls_read|]; eapply Runs_cons;
    [apply Calls_next; [apply step_cycle; [reflexivity..|apply surjective_pairing]|]|apply Runs_nil]); intros p; vm_compute; discriminate.
Qed.
Example C79_longer_example : inputs_readable example_coupler example_input /\ outputs_readable example_coupler example_output /\
  exists c1 r1 c2 r2, cycle Debug example_coupler example_input example_output c1 r1 /\
    cycle Debug example_coupler (example_input ++ [1; 2; 3]) (example_output ++ [4]) c2 r2 /\ r1 = Ok [12; 64; 0; 0; 0].
Proof.
  split; [apply example_read|]. split; [apply example_read|].
  do 4 eexists. split; [apply step_cycle; [reflexivity..|apply surjective_pairing]|].
  split; [apply step_cycle; [reflexivity..|apply surjective_pairing]|]. vm_compute. reflexivity.
Qed.
