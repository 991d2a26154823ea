(** Specification of the part of the process images that matters (C79). *)
From Coq Require Import ZArith List Bool.
From Verif Require Import Base F32 Types Lib Com Fbc SpecCodec SpecSerial SpecCoupler SpecImage SpecOutcome.
Import ListNotations.
Local Open Scope Z_scope.

(** Two input images have the same bytes at the places of the modules of the coupler; likewise for output images. *)
Definition same_inputs (c : coupler) (image1 image2 : list Z) : Prop :=
  forall i m o off, module_at c i m o -> mo_input o = Some off ->
    image_bytes image1 (first_byte 0 off) (input_bytes m) = image_bytes image2 (first_byte 0 off) (input_bytes m).
Definition same_outputs (c : coupler) (image1 image2 : list Z) : Prop :=
  forall i m o off, module_at c i m o -> mo_output o = Some off ->
    image_bytes image1 (first_byte 0x0800 off) (output_bytes m) = image_bytes image2 (first_byte 0x0800 off) (output_bytes m).

(** The same calls, but the images given to a cycle need only be the same at the places of the modules, where both
    can be read. *)
Definition same_call_for (c : coupler) (x y : call) : Prop :=
  match x, y with
  | NextCycle in1 out1, NextCycle in2 out2 =>
      inputs_readable c in1 /\ inputs_readable c in2 /\ same_inputs c in1 in2 /\
      outputs_readable c out1 /\ outputs_readable c out2 /\ same_outputs c out1 out2
  | _, _ => x = y
  end.
