(** Specification of which cycles of a running control loop succeed (C72). *)
From Coq Require Import ZArith List Bool.
From Verif Require Import Base F32 Types Lib Com Fbc SpecCodec SpecSerial SpecCoupler SpecImage SpecOutcome.
Import ListNotations.
Local Open Scope Z_scope.

(** Every request is one the module can send; requests for serial modules, for modules without output data and
    for channels that do not exist may be anything. *)
Definition acceptable (c : coupler) (reqs : list (address * channel_value)) : Prop :=
  forall a v m o, In (a, v) reqs -> module_at c (a_module a) m o -> mo_output o <> None -> is_serial m = false ->
    can_output m v.

(** The output image of [n] registers that a program uses if it knows nothing: all zero. *)
Definition blank (n : nat) : list Z := repeat 0 n.

(** The outputs of all modules lie in the first [n] registers of the output image. *)
Definition outputs_within (c : coupler) (n : nat) : Prop :=
  forall i m o off, module_at c i m o -> mo_output o = Some off ->
    output_bytes m <> 0%nat /\ off / 16 - 0x0800 + Z.of_nat (registers (output_bytes m)) <= Z.of_nat n.
