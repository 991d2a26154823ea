(** Specification of saving and restoring outputs (C91). *)
From Coq Require Import ZArith List Bool.
From Verif Require Import Base F32 Types Lib Com Fbc SpecCodec SpecCoupler SpecImage.
Import ListNotations.
Local Open Scope Z_scope.

(** Nothing is requested for the outputs of a coupler other than those of serial modules. *)
Definition nothing_requested (c : coupler) : Prop :=
  forall i m o k, module_at c i m o -> is_serial m = false -> mo_output o <> None -> requested c (mk_address i k) = None.

(** The requests [reqs] are made from what [outputs()] shows: they contain the value of every channel of every output module, serial
    modules excepted, in any order.  (They may also contain the values shown for modules without output data.) *)
Definition saves (c : coupler) (reqs : list (address * channel_value)) : Prop :=
  (forall a v, In (a, v) reqs -> cell (outputs c) (a_module a) (a_channel a) = Some v /\
     exists m, nth_error (c_modules c) (a_module a) = Some m /\ is_serial m = false) /\
  (forall i m o k v, module_at c i m o -> is_serial m = false -> mo_output o <> None ->
     cell (outputs c) i k = Some v -> In (mk_address i k, v) reqs).

(** Byte [b] of the output image is one of a serial module. *)
Definition in_serial_part (c : coupler) (b : nat) : Prop :=
  exists i m o off, module_at c i m o /\ is_serial m = true /\ mo_output o = Some off /\
    (first_byte 0x0800 off <= b < first_byte 0x0800 off + output_bytes m)%nat.
