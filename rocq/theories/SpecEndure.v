(** Specification for C103: restarts, disturbances and interrupted writes together. *)
From Coq Require Import ZArith List Bool.
From Verif Require Import Base F32 Types Lib Com Fbc SpecCodec SpecSerial SpecCoupler SpecImage SpecSystem SpecRestart SpecPlantRestart
  SpecFault SpecOrdered.
Import ListNotations.
Local Open Scope Z_scope.

(** The registers of the serial message are all written or none of them. *)
Definition unsplit (l : process_data_length) (ooff : Z) (e : torn_event) : Prop :=
  match e with
  | Disturbed _ => True
  | PartlyWritten written => forall k, (k < message_registers l)%nat -> written (header ooff + k)%nat = written (header ooff)
  end.

(** Any number of programs one after the other (as in C67), each with the disturbances of C69 and interrupted writes (as
    in C102); for each of them the bytes it handed over and how often something it had computed was forgotten. *)
Inductive torn_lives (prof : profile) (i : nat) (l : process_data_length) (ioff ooff : Z)
  : plant -> list (list Z * nat) -> plant -> Prop :=
| TL_nil t : torn_lives prof i l ioff ooff t [] t
| TL_cons t t1 es t2 n ws t3 : plant_restart i l ioff ooff t t1 ->
    torn_runs prof i l ioff ooff t1 es t2 n -> Forall (unsplit l ooff) es ->
    torn_lives prof i l ioff ooff t2 ws t3 -> torn_lives prof i l ioff ooff t ((t_written t2, n) :: ws) t3.

(** What the module took of one program: some of the bytes in order, a beginning if nothing was forgotten. *)
Definition part_of (part : list Z) (w : list Z * nat) : Prop :=
  subsequence part (fst w) /\ (snd w = 0%nat -> prefix part (fst w)).
