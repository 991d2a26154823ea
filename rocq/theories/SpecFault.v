(** Specification of serial dialogues over a disturbed communication (C69, C70). *)
From Coq Require Import ZArith List Bool.
From Verif Require Import Base F32 Types Lib Com Fbc SpecCodec SpecSerial SpecCoupler SpecImage SpecSystem.
Import ListNotations.
Local Open Scope Z_scope.

(** Besides the events of an undisturbed plant (in which reading an input image and writing an output image may
    fail already: then [PInput] and [POutput] just do not happen), the program may get hold of an incomplete or
    damaged image, with which [next] fails, and may read the output image back from the coupler, forgetting the
    one it has computed. *)
Inductive fault_event : Set :=
| Undisturbed (e : plant_event)
| Garbled (input output : list Z)
| ReadBack.

Inductive faulty_step (prof : profile) (i : nat) (l : process_data_length) (ioff ooff : Z)
  : plant -> fault_event -> plant -> Prop :=
| F_undisturbed t e t' : plant_step prof i l ioff ooff t e t' ->
    faulty_step prof i l ioff ooff t (Undisturbed e) t'
| F_garbled t input output c' : cycle prof (t_coupler t) input output c' (Err BufferLength) ->
    faulty_step prof i l ioff ooff t (Garbled input output) (with_coupler t c')
| F_read_back t :
    faulty_step prof i l ioff ooff t ReadBack
      (mk_plant (t_coupler t) (t_latch t) (t_register t) (t_register t) (t_device t)
         (t_written t) (t_taken t) (t_offered t) (t_delivered t) (t_cycles t)).

(** Does the program forget something it has computed for the module but not written to the coupler? *)
Definition forgotten (l : process_data_length) (ooff : Z) (t : plant) (e : fault_event) : nat :=
  match e with
  | ReadBack =>
      if list_eq_dec Z.eq_dec (out_part l ooff (t_image t)) (out_part l ooff (t_register t)) then 0 else 1
  | _ => 0
  end%nat.

(** Histories, with the number of times something was forgotten. *)
Inductive faulty_runs (prof : profile) (i : nat) (l : process_data_length) (ioff ooff : Z)
  : plant -> list fault_event -> plant -> nat -> Prop :=
| FR_nil t : faulty_runs prof i l ioff ooff t [] t 0
| FR_cons t e t1 es t2 n : faulty_step prof i l ioff ooff t e t1 -> faulty_runs prof i l ioff ooff t1 es t2 n ->
    faulty_runs prof i l ioff ooff t (e :: es) t2 (forgotten l ooff t e + n).

(** [a] is left of [b] when some of its elements are deleted. *)
Inductive subsequence {A} : list A -> list A -> Prop :=
| Sub_nil : subsequence [] []
| Sub_keep x a b : subsequence a b -> subsequence (x :: a) (x :: b)
| Sub_drop x a b : subsequence a b -> subsequence a (x :: b).
