(** Specification for C102: writing an output image that contains a serial message is interrupted. *)
From Coq Require Import ZArith List Bool.
From Verif Require Import Base F32 Types Lib Com Fbc SpecCodec SpecSerial SpecCoupler SpecImage SpecSystem SpecFault.
Import ListNotations.
Local Open Scope Z_scope.

(** The first register of a serial message, which has its counters and its length, and the number of its registers. *)
Definition header (ooff : Z) : nat := Z.to_nat (ooff / 16 - 0x0800).
Definition message_registers (l : process_data_length) : nat := match l with EightBytes => 4 | SixteenBytes => 8 end.

(** Besides the events of C69, only some registers of the image may be written: those with [written a = true]. *)
Inductive torn_event : Set :=
| Disturbed (e : fault_event)
| PartlyWritten (written : nat -> bool).

Inductive torn_step (prof : profile) (i : nat) (l : process_data_length) (ioff ooff : Z)
  : plant -> torn_event -> plant -> Prop :=
| T_disturbed t e t' : faulty_step prof i l ioff ooff t e t' -> torn_step prof i l ioff ooff t (Disturbed e) t'
| T_partly_written t (written : nat -> bool) (register : list Z) :
    (forall a, nth_error register a = nth_error (if written a then t_image t else t_register t) a) ->
    torn_step prof i l ioff ooff t (PartlyWritten written)
      (mk_plant (t_coupler t) (t_latch t) (t_image t) register (t_device t)
         (t_written t) (t_taken t) (t_offered t) (t_delivered t) (t_cycles t)).

(** The order in which the registers of the serial message are written: its first register not before the others. *)
Definition header_last (l : process_data_length) (ooff : Z) (e : torn_event) : Prop :=
  match e with
  | Disturbed _ => True
  | PartlyWritten written => written (header ooff) = true ->
      forall k, (k < message_registers l)%nat -> written (header ooff + k)%nat = true
  end.

(** Histories, with the number of times something was forgotten (as in C69). *)
Inductive torn_runs (prof : profile) (i : nat) (l : process_data_length) (ioff ooff : Z)
  : plant -> list torn_event -> plant -> nat -> Prop :=
| TR_nil t : torn_runs prof i l ioff ooff t [] t 0
| TR_cons t e t1 es t2 n : torn_step prof i l ioff ooff t e t1 -> torn_runs prof i l ioff ooff t1 es t2 n ->
    torn_runs prof i l ioff ooff t (e :: es) t2
      (match e with Disturbed e' => forgotten l ooff t e' | PartlyWritten _ => 0 end + n).
