(** Property theorems C92: the kinds of values a channel shows. *)
From Coq Require Import ZArith List Bool.
From Verif Require Import Base F32 Types Lib Com Fbc SpecCodec SpecCoupler SpecAnalog SpecResolution SpecSerial SpecKinds ProofsWitness ProofsKinds.
Import ListNotations.
Local Open Scope Z_scope.

(** C92: whatever happened before, also after failed cycles, [inputs()] holds for a channel only values of the kind that belongs to its
    module and its settings. *)
Theorem C92_inputs : forall prof c i m o k v, reachable prof c -> module_at c i m o -> cell (inputs c) i k = Some v -> input_kind m o k v.
Proof. exact C92_inputs_all. Qed.
Print Assumptions C92_inputs.

(** C92: and so does [outputs()]. *)
Theorem C92_outputs : forall prof c i m o k v, reachable prof c -> module_at c i m o -> cell (outputs c) i k = Some v -> output_kind m o k v.
Proof. exact C92_outputs_all. Qed.
Print Assumptions C92_outputs.

(** C92: after a successful cycle a serial module with inputs and outputs shows nothing or the bytes of a segment, never its raw
    process data. *)
Theorem C92_serial : forall prof c input output c' image i l ch o, reachable prof c -> cycle prof c input output c' (Ok image) ->
  module_at c i (MCOM l ch) o -> mo_input o <> None -> mo_output o <> None -> forall k v,
  (cell (inputs c') i k = Some v -> v = VNone \/ segment l v) /\ (cell (outputs c') i k = Some v -> v = VNone \/ segment l v).
Proof. exact cycle_serial. Qed.
Print Assumptions C92_serial.

(** Four thermocouple channels, the second of them disabled, the third without a sensor, and a serial module. *)
Definition kinds_config : config := mk_config [UR20_4AI_TC_DIAG; UR20_1COM_232_485_422] [0xFFFF; 0; 0x8000; 64]
  [0 :: repeat 0 7 ++ [19; 0; 0; 0; 0; 0; 0] ++ repeat 0 7 ++ [17; 0; 0; 0; 0; 0; 0]; [0; 1; 0; 0; 0; 0; 0; 0; 0; 0]].
Definition kinds_0 : coupler := after no_coupler (coupler_new kinds_config).
Definition kinds_input : list Z := [215; 77; 0x7FFF; 32767; 0x0201; 0x4241; 0; 0; 0; 0; 0; 0].
Definition kinds_1 : coupler := fst (next Debug as_is as_is kinds_0 kinds_input (repeat 0 8)).
(** The same input image with an output image that is too short. *)
Definition kinds_2 : coupler := fst (next Debug as_is as_is kinds_0 kinds_input []).
Example C92_example : reachable Debug kinds_1 /\ reachable Debug kinds_2 /\
  (exists image, cycle Debug kinds_0 kinds_input (repeat 0 8) kinds_1 (Ok image)) /\
  (exists m, module_at kinds_1 0 m (mk_offset (Some 0) None)) /\
  (exists l ch, module_at kinds_1 1 (MCOM l ch) (mk_offset (Some 64) (Some 0x8000)) /\ module_at kinds_2 1 (MCOM l ch) (mk_offset (Some 64) (Some 0x8000))) /\
  (exists x, cell (inputs kinds_1) 0 0 = Some (Decimal32 x)) /\ cell (inputs kinds_1) 0 1 = Some Disabled /\
  cell (inputs kinds_1) 0 2 = Some VNone /\ cell (inputs kinds_1) 0 3 = Some (Decimal32 (f32_of_Z 1)) /\
  cell (inputs kinds_1) 1 0 = Some (Bytes [0x41; 0x42]) /\ cell (outputs kinds_1) 0 3 = Some VNone /\ cell (outputs kinds_1) 1 0 = Some VNone /\
  cell (inputs kinds_2) 1 0 = Some (ComRsIn (mk_rs_in true false 0 0 false [0x41; 0x42])).
Proof.
  assert (R0 : reachable Debug kinds_0) by (apply (start_reachable _ kinds_config); vm_compute; reflexivity).
  assert (C1 : cycle Debug kinds_0 kinds_input (repeat 0 8) kinds_1 (snd (next Debug as_is as_is kinds_0 kinds_input (repeat 0 8))))
    by (apply step_cycle; vm_compute; reflexivity).
  assert (C2 : cycle Debug kinds_0 kinds_input [] kinds_2 (Err BufferLength)) by (apply step_cycle; vm_compute; reflexivity).
  set (image := match snd (next Debug as_is as_is kinds_0 kinds_input (repeat 0 8)) with Ok w => w | _ => [] end).
  assert (E : snd (next Debug as_is as_is kinds_0 kinds_input (repeat 0 8)) = Ok image) by (vm_compute; reflexivity). rewrite E in C1.
  split; [apply (cycle_reachable _ kinds_0 kinds_input (repeat 0 8) _ (Ok image) R0 C1); discriminate|].
  split; [apply (cycle_reachable _ kinds_0 kinds_input [] _ (Err BufferLength) R0 C2); discriminate|].
  split; [exists image; exact C1|].
  split; [eexists; split; vm_compute; reflexivity|].
  split; [eexists; eexists; split; split; vm_compute; reflexivity|].
  split; [eexists; vm_compute; reflexivity|].
  repeat match goal with |- _ /\ _ => split; [vm_compute; reflexivity|] end. vm_compute; reflexivity.
Qed.
