(** Specification of what requests do and do not change (C44, C46). *)
From Coq Require Import ZArith List Bool.
From Verif Require Import Base F32 Types Lib Com Fbc SpecCodec SpecSerial SpecCoupler.
Import ListNotations.
Local Open Scope Z_scope.

(** Two couplers that differ in nothing but the requests for channels of other modules than serial
    ones, and in the values they showed before. *)
Definition same_but_requests (c c' : coupler) : Prop :=
  c_modules c = c_modules c' /\ c_offsets c = c_offsets c' /\ c_last_tx_cnt c = c_last_tx_cnt c' /\
  (forall i, serial c i = serial c' i) /\
  (forall a m, nth_error (c_modules c) (a_module a) = Some m -> is_serial m = true -> requested c a = requested c' a).

(** A request that a coupler accepts but has no use for: the module has no output data, or it is a
    serial module with its input or output data missing, or one that is given another value
    than a byte string. *)
Definition useless (m : module) (o : module_offset) (v : channel_value) : Prop :=
  (is_serial m = false /\ mo_output o = None) \/
  (is_serial m = true /\ (mo_input o = None \/ mo_output o = None \/ forall b, v <> Bytes b)).
