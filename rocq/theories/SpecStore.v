(** Specification of how much a coupler stores (C74). *)
From Coq Require Import ZArith List Bool.
From Verif Require Import Base Types Lib Com Fbc SpecCodec SpecSerial SpecCoupler.
Import ListNotations.

(** The number of channels and of serial modules of a coupler. *)
Definition total_channels (c : coupler) : nat := list_sum (map channels (c_modules c)).
Definition serial_modules (c : coupler) : nat := length (filter is_serial (c_modules c)).

(** The number of cycles in a list of calls. *)
Fixpoint cycles (xs : list call) : nat :=
  match xs with
  | [] => 0
  | NextCycle _ _ :: t => S (cycles t)
  | _ :: t => cycles t
  end.

(** The bytes that a list of calls hands over for module [i], and those it fetches from it. *)
Fixpoint offered (i : nat) (xs : list call) : nat :=
  match xs with
  | [] => 0
  | WriteTo j buf :: t => (if Nat.eqb j i then length buf else 0) + offered i t
  | SetOutput a (Bytes b) :: t => (if address_eqb a (mk_address i 0) then length b else 0) + offered i t
  | _ :: t => offered i t
  end.
Fixpoint fetched (i : nat) (xs : list call) (answers : list answer) : nat :=
  match xs, answers with
  | ReadFrom j _ :: t, BytesRead (Some b) :: ta => (if Nat.eqb j i then length b else 0) + fetched i t ta
  | _ :: t, _ :: ta => fetched i t ta
  | _, _ => 0
  end.

(** The bytes in a pending request for module [i]. *)
Definition pending_bytes (c : coupler) (i : nat) : nat :=
  match requested c (mk_address i 0) with Some (Bytes b) => length b | _ => 0 end.
