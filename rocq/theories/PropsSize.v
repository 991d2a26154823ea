(** Property theorems C90: the size of the output image. *)
From Coq Require Import ZArith List Bool Lia.
From Verif Require Import Base Facts F32 Types Lib Com Fbc SpecCodec SpecSerial SpecCoupler SpecImage SpecOutcome SpecSize
  ProofsCoupler ProofsWitness ProofsSize PropsOutcome.
Import ListNotations.
Local Open Scope Z_scope.

(** C90: all images that a coupler ever returns have the same number of registers, which its modules and offsets determine, and
    contain nothing but 16 bit numbers. *)
Theorem C90_image_size : forall prof c xs c' answers image ins outs, reachable prof c -> runs prof c xs c' answers ->
  In (CycleResult (Ok image) ins outs) answers -> length image = output_registers c /\ Forall is_u16 image.
Proof. exact C90_size_all. Qed.
Print Assumptions C90_image_size.

(** C90: an image is never longer than the one that was read back. *)
Theorem C90_read_back : forall prof c input output c' image, reachable prof c -> cycle prof c input output c' (Ok image) ->
  (length image <= length output)%nat.
Proof. exact C90_read_back_all. Qed.
Print Assumptions C90_read_back.

(** Two outputs of a byte share a register; the counters add six registers.  A cycle with a long image, a failing cycle and a
    cycle with the shortest image. *)
Definition size_long : list Z := [0; 0x7F; 0xFFFF; 0; 0; 0; 0; 8; 9].
Definition size1 : coupler := step counters1 counters_in size_long.
Definition size2 : coupler := step size1 counters_in (repeat 0 6).
Definition size3 : coupler := step size2 counters_in (repeat 0 7).
Example C90_example : reachable Debug counters1 /\ output_registers counters1 = 7%nat /\
  cycle Debug counters1 counters_in size_long size1 (Ok [0x0200; 0x7F; 0xFFFF; 0; 0; 0; 0]) /\
  runs Debug counters1 [NextCycle counters_in size_long; NextCycle counters_in (repeat 0 6); NextCycle counters_in (repeat 0 7)] size3
    [CycleResult (Ok [0x0200; 0x7F; 0xFFFF; 0; 0; 0; 0]) (inputs size1) (outputs size1);
     CycleResult (Err BufferLength) (inputs size2) (outputs size2);
     CycleResult (Ok (repeat 0 7)) (inputs size3) (outputs size3)].
Proof.
  split; [apply R_set; [exact counters_reachable|exact I]|]. split; [vm_compute; reflexivity|].
  assert (C1 : cycle Debug counters1 counters_in size_long size1 (Ok [0x0200; 0x7F; 0xFFFF; 0; 0; 0; 0])) by (apply step_cycle; vm_compute; reflexivity).
  assert (C2 : cycle Debug size1 counters_in (repeat 0 6) size2 (Err BufferLength)) by (apply step_cycle; vm_compute; reflexivity).
  assert (C3 : cycle Debug size2 counters_in (repeat 0 7) size3 (Ok (repeat 0 7))) by (apply step_cycle; vm_compute; reflexivity).
  split; [exact C1|].
  apply (Runs_cons Debug _ _ size1); [apply (Calls_next Debug _ _ _ _ _ C1); discriminate|].
  apply (Runs_cons Debug _ _ size2); [apply (Calls_next Debug _ _ _ _ _ C2); discriminate|].
  apply (Runs_cons Debug _ _ size3); [apply (Calls_next Debug _ _ _ _ _ C3); discriminate|constructor].
Qed.
