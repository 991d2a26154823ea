(** Specification of outputs that drift in idle cycles (C48). *)
From Coq Require Import ZArith List Bool.
From Verif Require Import Base F32 Types Lib Com Fbc SpecCodec SpecSerial SpecCoupler SpecImage SpecAnalog SpecIdle.
Import ListNotations.
Local Open Scope Z_scope.

(** Channel [k] of the module is an analog output of format S7 in use. *)
Definition in_S7 (m : module) (k : nat) : Prop := exists r, analog_output m k = Some (r, S7) /\ r <> UI_Disabled.

(** Modules with such channels start on a register, and no later module has its output inside their bytes. *)
Definition separate (c : coupler) : Prop :=
  forall i m o off k, module_at c i m o -> mo_output o = Some off -> in_S7 m k ->
    off mod 16 = 0 /\ forall j m' o' off', (i < j)%nat -> module_at c j m' o' -> mo_output o' = Some off' ->
       ~ (first_byte 0x0800 off <= first_byte 0x0800 off' < first_byte 0x0800 off + output_bytes m)%nat.

(** Register [b] of the output image is such a channel. *)
Definition register_in_S7 (c : coupler) (b : nat) : Prop :=
  exists i m o off k, module_at c i m o /\ mo_output o = Some off /\ in_S7 m k /\ b = (first_byte 0x0800 off / 2 + k)%nat.
