(** Specification for C96: which error a cycle reports. *)
From Coq Require Import ZArith List Bool.
From Verif Require Import Base F32 Types Lib Com Fbc SpecCodec SpecSerial SpecCoupler SpecImage SpecOutcome.
Import ListNotations.
Local Open Scope Z_scope.

(** What can be wrong with the [n] bytes of a module at bit offset [off] of an image: they are not there, they
    do not start at a byte, the module has no such data, or a serial message announces more than there is room for. *)
Inductive data_problem (base : Z) (image : list Z) (off : Z) (n : nat) (m : module) : error -> Prop :=
| P_missing :
    Z.of_nat (length image) < off / 16 - base + Z.of_nat (registers n) ->
    data_problem base image off n m BufferLength
| P_misplaced :
    off / 16 - base + Z.of_nat (registers n) <= Z.of_nat (length image) ->
    off mod 16 <> 0 -> off mod 16 <> 8 ->
    data_problem base image off n m ModuleOffsetError
| P_foreign :
    off / 16 - base + Z.of_nat (registers n) <= Z.of_nat (length image) ->
    off mod 16 = 0 \/ off mod 16 = 8 -> n = 0%nat ->
    data_problem base image off n m BufferLength
| P_announced :
    off / 16 - base + Z.of_nat (registers n) <= Z.of_nat (length image) ->
    off mod 16 = 0 \/ off mod 16 = 8 -> n <> 0%nat -> ~ announces_fitting base image off m ->
    data_problem base image off n m BufferLength.

(** The problems of module [i] of a coupler: with its inputs, with its outputs, ... *)
Definition input_problem (c : coupler) (input : list Z) (i : nat) (e : error) : Prop :=
  exists m o off, module_at c i m o /\ mo_input o = Some off /\ data_problem 0 input off (input_bytes m) m e.
Definition output_problem (c : coupler) (output : list Z) (i : nat) (e : error) : Prop :=
  exists m o off, module_at c i m o /\ mo_output o = Some off /\ data_problem 0x0800 output off (output_bytes m) m e.

(** ... and with what is sent: a value that it cannot send, or a place that does not continue the image. *)
Definition sendable (c : coupler) (output : list Z) (i : nat) (m : module) (off : Z) : Prop :=
  (is_serial m = false -> forall k v, requested c (mk_address i k) = Some v -> can_output m v) /\
  (forall ch, m = MFCNT ch -> forall k, (k < 2)%nat -> requested c (mk_address i k) = None ->
     preset_micros output off k <= 8388607).
Definition sending_problem (c : coupler) (output : list Z) (i : nat) (e : error) : Prop :=
  exists m o off, module_at c i m o /\ mo_output o = Some off /\
    ((e = ChannelValueError /\ ~ sendable c output i m off) \/
     (e = ModuleOffsetError /\ sendable c output i m off /\
      ~ packed 0 (firstn (S i) (combine (c_modules c) (c_offsets c))))).

(** The output offsets are those of the output image, which starts at register 0x0800 (otherwise see C43). *)
Definition outputs_high (c : coupler) : Prop :=
  forall i m o off, module_at c i m o -> mo_output o = Some off -> 0x8000 <= off.

(** The first problem in the order of the modules; no problem. *)
Definition first (problem : nat -> error -> Prop) (e : error) : Prop :=
  exists i, problem i e /\ forall j e', (j < i)%nat -> ~ problem j e'.
Definition none (problem : nat -> error -> Prop) : Prop := forall i e, ~ problem i e.

(** Inputs are looked at first, then the outputs that were read, then the outputs to be sent. *)
Definition reported (c : coupler) (input output : list Z) (e : error) : Prop :=
  first (input_problem c input) e \/
  (none (input_problem c input) /\ first (output_problem c output) e) \/
  (none (input_problem c input) /\ none (output_problem c output) /\ first (sending_problem c output) e).
