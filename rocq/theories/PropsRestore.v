(** Property theorems C91: saving and restoring outputs. *)
From Coq Require Import ZArith List Bool Lia.
From Verif Require Import Base Facts F32 Types Lib Com Fbc SpecCodec SpecSerial SpecCoupler SpecImage SpecOutcome SpecAnalog SpecFeedback SpecKeep SpecRestore
  ProofsWitness ProofsRestore PropsFeedback PropsWire.
Import ListNotations.
Local Open Scope Z_scope.

(** C91: what [outputs()] shows after a cycle without requests is complete: requesting these values from any coupler with the same
    modules, later or after a restart, whatever was requested of it before, succeeds with every two images that can be read, and the
    image returned equals the one of that cycle, whatever the outputs were meanwhile; only the bytes of serial modules are not part of it. *)
Theorem C91_restore : forall prof c1 in1 out1 c1' image1 c2 reqs in2 out2 c2' r, reachable prof c1 -> nothing_requested c1 ->
  cycle prof c1 in1 out1 c1' (Ok image1) ->
  reachable prof c2 -> c_modules c2 = c_modules c1 -> c_offsets c2 = c_offsets c1 -> saves c1' reqs ->
  cycle prof (set_all c2 reqs) in2 out2 c2' r ->
  ((exists image2, r = Ok image2) <-> inputs_readable c2 in2 /\ outputs_readable c2 out2) /\
  forall image2, r = Ok image2 -> length image2 = length image1 /\
    forall b, ~ in_serial_part c1 b -> nth_error (bytes_of_words image2) b = nth_error (bytes_of_words image1) b.
Proof. exact C91_restore_all. Qed.
Print Assumptions C91_restore.

(** C91: the cycle after that shows the saved values again (analog outputs with format S7 as closely as C63 says). *)
Theorem C91_shown_again : forall prof c1 in1 out1 c1' image1 c2 reqs in2 out2 c2' image2 in3 c3 image3, reachable prof c1 -> nothing_requested c1 ->
  cycle prof c1 in1 out1 c1' (Ok image1) ->
  reachable prof c2 -> c_modules c2 = c_modules c1 -> c_offsets c2 = c_offsets c1 -> saves c1' reqs ->
  cycle prof (set_all c2 reqs) in2 out2 c2' (Ok image2) -> cycle prof c2' in3 image2 c3 (Ok image3) ->
  forall i m o off, alone c1 i m o off -> forall k, (k < channels m)%nat -> exists old w,
    cell (outputs c1') i k = Some old /\ cell (outputs c3) i k = Some w /\ shown_for m k old w /\ (exact_channel m k -> w = old).
Proof. exact C91_shown_all. Qed.
Print Assumptions C91_shown_again.

(** The coupler of C63 after its outputs were set; a new one with all outputs off, and a request that the restored values replace. *)
Definition restore_new : coupler := fst (set_output feed_new (mk_address 0 1) (Bit true)).
Definition restored : coupler := feed_run (set_all restore_new (save_all feed_2)) z11.
Definition restored_shown : coupler := feed_run restored feed_image.
Example C91_example : reachable Debug feed_1 /\ nothing_requested feed_1 /\
  cycle Debug feed_1 feed_input feed_image feed_2 (Ok feed_image) /\
  reachable Debug restore_new /\ c_modules restore_new = c_modules feed_1 /\ c_offsets restore_new = c_offsets feed_1 /\
  saves feed_2 (save_all feed_2) /\ length (save_all feed_2) = 10%nat /\
  cycle Debug (set_all restore_new (save_all feed_2)) feed_input z11 restored (Ok feed_image) /\
  cycle Debug restored feed_input feed_image restored_shown (Ok feed_image) /\
  alone feed_1 2 (feed_module 2) (mk_offset None (Some 0x8070)) 0x8070 /\ exact_channel (feed_module 2) 3 /\
  cell (outputs restored_shown) 2 3 = cell (outputs feed_2) 2 3.
Proof.
  pose proof C63_example as (R & C & C' & _). pose proof C85_example as (_ & _ & _ & _ & A & _).
  split; [apply (cycle_reachable _ feed_start feed_input z11 _ (Ok feed_image) R C); discriminate|].
  split; [intros i m o k _ _ _; vm_compute; reflexivity|]. split; [exact C'|].
  split; [apply R_set; [apply (start_reachable _ feed_config); vm_compute; reflexivity|exact I]|].
  split; [vm_compute; reflexivity|]. split; [vm_compute; reflexivity|]. split; [apply save_all_saves|]. split; [vm_compute; reflexivity|].
  split; [apply step_cycle; vm_compute; reflexivity|]. split; [apply step_cycle; vm_compute; reflexivity|].
  split.
  { assert (M : c_modules feed_1 = c_modules feed_start) by (vm_compute; reflexivity).
    assert (N : c_offsets feed_1 = c_offsets feed_start) by (vm_compute; reflexivity).
    unfold alone, module_at in *. rewrite M, N. exact A. }
  split; [|vm_compute; reflexivity]. intros r f E. left. vm_compute in E. injection E as _ <-. reflexivity.
Qed.
