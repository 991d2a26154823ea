(** Specification of the readers and writers of a coupler (C115). *)
From Coq Require Import ZArith List.
From Verif Require Import Base Types Lib Com Fbc SpecSerial SpecCoupler SpecSystem.
Import ListNotations.

(** The serial modules of a configuration. *)
Definition serial_module (cfg : config) (i : nat) : Prop := nth_error (cfg_modules cfg) i = Some UR20_1COM_232_485_422.

(** A call answers the same to all other questions as before: values shown, requests, and the bytes
    of serial modules except those received by [r] and those to be sent by [w]. *)
Definition else_unchanged (c c' : coupler) (r w : option nat) : Prop :=
  inputs c' = inputs c /\ outputs c' = outputs c /\ (forall a, requested c' a = requested c a) /\
  (forall j, r <> Some j -> readable_in c' j = readable_in c j) /\
  (forall j, w <> Some j -> waiting_in c' j = waiting_in c j).
