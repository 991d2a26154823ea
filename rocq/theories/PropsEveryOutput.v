(** Property theorems C112: every state of the outputs can be requested. *)
From Coq Require Import ZArith List Bool Lia.
From Verif Require Import Base Facts F32 Types Lib Util Digital Analog Fcnt Com Fbc SpecCodec SpecSerial SpecCoupler SpecImage SpecOutcome SpecAnalog SpecLossless SpecKeep SpecEveryOutput
  ProofsWitness ProofsEveryOutput PropsFeedback PropsWire.
Import ListNotations.
Local Open Scope Z_scope.

(** C112: whatever registers are wanted for the modules, there are requests that a coupler in any state accepts and after which the
    next cycle succeeds whenever the images can be read and the offsets are in order, and the registers of all output modules that
    have their part of the image for themselves then say what was wanted; serial modules excepted.  The requests depend neither on the
    images of that cycle nor on what was requested before. *)
Theorem C112_every_output : forall prof c target, reachable prof c ->
  (forall i m, nth_error (c_modules c) i = Some m -> settable m (target i)) ->
  exists reqs, Forall (fun av => valid_address c (fst av) /\ rust_value (snd av)) reqs /\
    forall input output c' r, cycle prof (set_all c reqs) input output c' r ->
      ((exists image, r = Ok image) <-> inputs_readable c input /\ outputs_readable c output /\ outputs_packed c) /\
      forall image, r = Ok image -> forall i m o off, alone c i m o off -> same_output m (registers_at 0x0800 image off) (target i).
Proof. exact C112_all. Qed.
Print Assumptions C112_every_output.

(** C112: no cycle returns another preset of a counter than the ones that can be wanted. *)
Theorem C112_presets : forall prof c input output c' image i ch o off k, reachable prof c -> cycle prof c input output c' (Ok image) ->
  alone c i (MFCNT ch) o off -> (k < 2)%nat ->
  word32 (reg (registers_at 0x0800 image off) (2 * k)) (reg (registers_at 0x0800 image off) (2 * k + 1)) <= 8388607.
Proof. exact C112_only_all. Qed.
Print Assumptions C112_presets.

(** The digital output, the counter and the analog output of C63, which have other requests already.  The commands to start and to stop
    at once are taken as the one to start. *)
Definition every_target (i : nat) : list Z :=
  match i with
  | 0%nat => [0x000B]
  | 1%nat => [0x007F; 0xFFFF; 0; 1; 0x0300; 0x0200]
  | _ => [1; 0xFFFF; 0x8000; 0x7FFF]
  end.
Definition every_reqs : list (address * channel_value) := all_wanted feed_start every_target.
Definition every_image : list Z := [0x000B; 0x007F; 0xFFFF; 0; 1; 0x0100; 0x0200; 1; 0xFFFF; 0x8000; 0x7FFF].
Example C112_example : reachable Debug feed_start /\
  (forall i m, nth_error (c_modules feed_start) i = Some m -> settable m (every_target i)) /\
  requested feed_start (mk_address 0 2) = Some (Bit true) /\ requested (set_all feed_start every_reqs) (mk_address 0 2) = Some (Bit false) /\
  cycle Debug (set_all feed_start every_reqs) feed_input z11 (feed_run (set_all feed_start every_reqs) z11) (Ok every_image) /\
  alone feed_start 1 (feed_module 1) (mk_offset (Some 0) (Some 0x8010)) 0x8010 /\
  same_output (feed_module 1) (registers_at 0x0800 every_image 0x8010) (every_target 1).
Proof.
  split; [exact feed_reachable|].
  split. { intros i m H. vm_compute in H. destruct i as [|[|[|i]]].
    1-3: apply Some_inj in H; subst m; split; [cbn; lia|split; [apply fits_u16; reflexivity|intros ch k E Hk; try discriminate E]].
    - destruct k as [|[|k]]; [vm_compute; discriminate..|lia].
    - destruct i; discriminate. }
  split; [vm_compute; reflexivity|]. split; [vm_compute; reflexivity|].
  split; [apply step_cycle; vm_compute; reflexivity|]. split; [apply C85_example|].
  intros k Hk. destruct k as [|[|k]]; [| |lia]; vm_compute; repeat split; intros; try reflexivity; discriminate.
Qed.
