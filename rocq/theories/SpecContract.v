(** Specification for C97: which calls of the methods of a single module succeed. *)
From Coq Require Import ZArith List Bool.
From Verif Require Import Base F32 Types Lib Com Fbc SpecCodec SpecCoupler SpecImage.
Import ListNotations.
Local Open Scope Z_scope.

(** The number of registers of process data that a module takes and gives, from the data sheets; serial modules exchange
    messages, see below. *)
Definition registers_in (m : module) : nat :=
  match m with
  | MDI _ _ => 1
  | MRTD _ _ | MUI16DIAG _ _ | MAIUI _ _ _ | MTC _ _ => 4
  | M8AI _ _ => 8
  | MFCNT _ => 10
  | MCOM l _ => Nat.div (message_size l) 2
  | MSIL => 2
  | MDO _ _ | M16DO | M4RO _ | M4AO _ | M4AODIAG _ => 0
  end.
Definition registers_out (m : module) : nat :=
  match m with
  | MDO _ _ | M16DO | M4RO _ => 1
  | M4AO _ | M4AODIAG _ => 4
  | MFCNT _ => 6
  | MCOM l _ => Nat.div (message_size l) 2
  | MDI _ _ | MRTD _ _ | MUI16DIAG _ _ | MAIUI _ _ _ | M8AI _ _ | MTC _ _ | MSIL => 0
  end.

(** A module that was put together by hand may have any number of channel settings.  Those of the thermocouple module are
    an array of four, so that it always has all of them. *)
Definition buildable (m : module) : Prop :=
  match m with MTC _ ch => length ch = 4%nat | _ => True end.

(** There is one setting for every channel, as far as settings are needed to read the inputs, to read the outputs or to write. *)
Definition settings_to_read (m : module) : Prop :=
  match m with
  | MRTD _ ch => length ch = 4%nat
  | MUI16DIAG _ ch => length ch = 4%nat
  | MAIUI _ _ ch => length ch = 4%nat
  | M8AI _ ch => length ch = 8%nat
  | MFCNT ch => length ch = 2%nat
  | _ => True
  end.
Definition settings_to_read_back (m : module) : Prop :=
  match m with
  | M4AO ch => length ch = 4%nat
  | M4AODIAG ch => length ch = 4%nat
  | _ => True
  end.
Definition settings_to_write (m : module) : Prop :=
  match m with
  | M4AO ch => length ch = 4%nat
  | M4AODIAG ch => length ch = 4%nat
  | MFCNT ch => length ch = 2%nat
  | _ => True
  end.

(** The values of a module without process data of a direction. *)
Definition nothing (m : module) : list channel_value := repeat VNone (channels m).
