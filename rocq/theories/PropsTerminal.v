(** Property theorems C83: the values a coupler shows are the values at the terminals. *)
From Coq Require Import ZArith Reals List Bool Lia.
From Verif Require Import Base F32 Types Lib Util Digital Analog Fcnt Com Fbc SpecCodec SpecCoupler SpecAnalog SpecImage SpecLossless SpecTerminal
  ProofsWitness ProofsTerminal ProofsOffsets.
Import ListNotations.
Local Open Scope Z_scope.

(** C83: after a successful cycle, the inputs shown for a module are the physical values of its registers in the input image. *)
Theorem C83_inputs : forall prof c input output c' image i m o off, reachable prof c -> cycle prof c input output c' (Ok image) ->
  module_at c i m o -> is_serial m = false -> mo_input o = Some off -> placed off (input_bytes m) ->
  exists row, nth_error (inputs c') i = Some row /\ length row = shown_inputs m /\
    forall k v, nth_error row k = Some v -> physical_input m k (registers_at 0 input off) v.
Proof. exact C83_inputs_all. Qed.
Print Assumptions C83_inputs.

(** C83: the outputs shown for a module are the physical values of its registers in the output image that was read. *)
Theorem C83_outputs : forall prof c input output c' image i m o off, reachable prof c -> cycle prof c input output c' (Ok image) ->
  module_at c i m o -> is_serial m = false -> mo_output o = Some off -> placed off (output_bytes m) ->
  exists row, nth_error (outputs c') i = Some row /\ length row = channels m /\
    forall k v, nth_error row k = Some v -> physical_output m k (registers_at 0x0800 output off) v.
Proof. exact C83_outputs_any. Qed.
Print Assumptions C83_outputs.

(** Two digital inputs that share a register, a counter and a digital output. *)
Definition yard_config : config := mk_config [UR20_4DI_P; UR20_4DI_P; UR20_2FCNT_100; UR20_4DO_P]
  [0xFFFF; 0; 0xFFFF; 8; 0x8000; 16; 0x8060; 0xFFFF] [repeat 0 4; repeat 0 4; repeat 0 2; repeat 0 4].
Definition yard0 : coupler := after no_coupler (coupler_new yard_config).
Definition yard_in : list Z := [0x0405; 0; 8000; 0; 77; 0x0800; 0; 1; 2; 0x0100; 0].
Definition yard_out : list Z := [15; 16961; 0; 0; 0x0300; 0x0200; 2].
Definition yard1 : coupler := fst (next Debug as_is as_is yard0 yard_in yard_out).
Definition yard_module (i : nat) : module := nth i (c_modules yard0) MSIL.
Example C83_example : reachable Debug yard0 /\ cycle Debug yard0 yard_in yard_out yard1 (Ok [15; 16961; 0; 0; 256; 512; 2]) /\
  module_at yard0 1 (yard_module 1) (mk_offset (Some 8) None) /\ module_at yard0 2 (yard_module 2) (mk_offset (Some 16) (Some 0x8000)) /\
  is_serial (yard_module 1) = false /\ is_serial (yard_module 2) = false /\
  placed 8 (input_bytes (yard_module 1)) /\ placed 16 (input_bytes (yard_module 2)) /\ placed 0x8000 (output_bytes (yard_module 2)) /\
  registers_at 0 yard_in 8 = [4] /\ nth_error (inputs yard1) 1 = Some [Bit false; Bit false; Bit true; Bit false] /\
  (** 8000 periods of 125 ns, 77 counted, active; the second counter is out of range *)
  nth_error (inputs yard1) 2 = Some [FcntIn (mk_fcnt_in (Some (mk_duration 0 1000000)) 77 true); FcntIn (mk_fcnt_in None 65538 false)] /\
  (** 15 * 65536 + 16961 microseconds *)
  nth_error (outputs yard1) 2 = Some [FcntOut (mk_fcnt_out (mk_duration 1 1000) (Some Start)); FcntOut (mk_fcnt_out (mk_duration 0 0) (Some Stop))].
Proof.
  assert (R0 : reachable Debug yard0) by (apply (start_reachable _ yard_config); vm_compute; reflexivity).
  assert (C1 : cycle Debug yard0 yard_in yard_out yard1 (Ok [15; 16961; 0; 0; 256; 512; 2])) by (apply step_cycle; vm_compute; reflexivity).
  split; [exact R0|]. split; [exact C1|]. split; [split; vm_compute; reflexivity|]. split; [split; vm_compute; reflexivity|].
  split; [reflexivity|]. split; [reflexivity|]. split; [right; split; reflexivity|]. split; [left; reflexivity|]. split; [left; reflexivity|].
  split; [reflexivity|]. split; [vm_compute; reflexivity|]. split; vm_compute; reflexivity.
Qed.
