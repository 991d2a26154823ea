(** Property theorem about digital outputs in the middle of a register (C39). *)
From Coq Require Import ZArith List Bool Lia.
From Verif Require Import Base Facts F32 Types Lib Com Fbc SpecCodec SpecSerial SpecCoupler SpecImage
  ProofsWitness ProofsMid.
Import ListNotations.
Local Open Scope Z_scope.

(** C39, the remaining position: the first eight channels of a module with 16 digital outputs in the middle
    of a register are transmitted as claimed, unless a later module has the same byte; the others read
    back as off, whatever was requested. *)
Theorem C39_mid_register_partial : forall prof c input output c' image, reachable prof c ->
  cycle prof c input output c' (Ok image) ->
  forall i m o off, module_at c i m o -> digital_outputs m = Some 16%nat -> mo_output o = Some off -> off mod 16 = 8 ->
  (forall j m' o' off', (i < j)%nat -> module_at c j m' o' -> mo_output o' = Some off' ->
     first_byte 0x0800 off' <> first_byte 0x0800 off) ->
  (forall k, (k < 8)%nat ->
    (forall v, requested c (mk_address i k) = Some v -> switches v = Some (output_bit image off k)) /\
    (requested c (mk_address i k) = None -> output_bit image off k = output_bit output off k)) /\
  (forall k, (8 <= k < 16)%nat -> cell (outputs c') i k = Some (Bit false)).
Proof. exact C39_mid_all. Qed.
Print Assumptions C39_mid_register_partial.

(** A module with 4 channels and one with 16 channels after it; channel 3 of the latter is requested,
    channel 5 is on. *)
Definition mid_request : coupler := fst (set_output w39 (mk_address 1 3) (Bit true)).
Example C39_mid_example : reachable Release mid_request /\
  cycle Release mid_request [] [0x2000; 0] (fst (next Release as_is as_is mid_request [] [0x2000; 0])) (Ok [0x2800]) /\
  module_at mid_request 1 M16DO (mk_offset None (Some 0x8008)) /\ digital_outputs M16DO = Some 16%nat /\
  0x8008 mod 16 = 8 /\
  (forall j m' o' off', (1 < j)%nat -> module_at mid_request j m' o' -> mo_output o' = Some off' ->
     first_byte 0x0800 off' <> first_byte 0x0800 0x8008) /\
  requested mid_request (mk_address 1 3) = Some (Bit true) /\
  output_bit [0x2800] 0x8008 3 = true /\ output_bit [0x2800] 0x8008 5 = true.
Proof.
  split; [apply R_set; [apply (start_reachable _ cfg39); vm_compute; reflexivity|exact I]|].
  split; [apply step_cycle; vm_compute; reflexivity|]. split; [split; vm_compute; reflexivity|].
  split; [reflexivity|]. split; [reflexivity|]. split.
  { intros j m' o' off' Hj [Hm _]. assert (E : nth_error (c_modules mid_request) j = None).
    { apply nth_error_None. change (length (c_modules mid_request)) with 2%nat. lia. }
    rewrite E in Hm. discriminate. }
  split; [vm_compute; reflexivity|]. split; reflexivity.
Qed.
