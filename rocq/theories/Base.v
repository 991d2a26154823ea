(** Conventions shared by all model files: results, panics, build profiles,
    machine integers, vectors.  Definitions only. *)
From Coq Require Import ZArith List Bool String.
Import ListNotations.
Local Open Scope Z_scope.

(** src/error.rs 5-17: [enum Error]. *)
Inductive error : Type :=
| UnknownModule
| UnknownCategory
| BufferLength
| SequenceNumber
| DataLength
| RegisterCount
| ChannelParameter
| ChannelValueError   (* [Error::ChannelValue] *)
| ModuleOffsetError   (* [Error::ModuleOffset] *)
| AddressError        (* [Error::Address] *)
| Io (msg : string).

(** src/error.rs 19-36: [impl Display for Error]. *)
Definition error_display (e : error) : string :=
  match e with
  | UnknownModule => "unknown module type"
  | UnknownCategory => "unknown module category"
  | BufferLength => "invalid buffer length"
  | SequenceNumber => "invalid sequence number"
  | DataLength => "invalid data length"
  | RegisterCount => "invalid number of registers"
  | ChannelParameter => "invalid channel paramater(s)"
  | ChannelValueError => "invalid channel value(s)"
  | ModuleOffsetError => "invalid module offset"
  | AddressError => "invalid module address"
  | Io err => String.append "I/O error: " err
  end.

(** src/error.rs 39-54: [Error::description]. *)
Definition error_description (e : error) : string :=
  match e with
  | UnknownModule => "unknown module type"
  | UnknownCategory => "unknown module category"
  | BufferLength => "invalid buffer length"
  | SequenceNumber => "invalid sequence number"
  | DataLength => "invalid data length"
  | RegisterCount => "invalid number of registers"
  | ChannelParameter => "invalid channel paramater(s)"
  | ChannelValueError => "invalid channel value(s)"
  | ModuleOffsetError => "invalid module offset"
  | AddressError => "invalid module address"
  | Io err => err
  end.

(** Ways in which a Rust call can unwind instead of returning. *)
Inductive panic : Type :=
| Unsupported        (* explicit [panic!("... is not supported")] *)
| IndexOutOfBounds   (* slice or vector indexing *)
| ArithmeticOverflow (* debug builds only *)
| ExpectFailed       (* [expect] on an [Err] *)
| UnreachableCode.   (* [unreachable!()] *)

(** Outcome of a call returning [Result<A, Error>]: a value, an error, or a panic.
    For functions not returning [Result] only [Ok] and [Panic] are used. *)
Inductive outcome (A : Type) : Type :=
| Ok (a : A)
| Err (e : error)
| Panic (p : panic).
Arguments Ok {A} a.
Arguments Err {A} e.
Arguments Panic {A} p.

(** The [?] operator (and plain sequencing of possibly panicking code). *)
Definition bind {A B} (x : outcome A) (f : A -> outcome B) : outcome B :=
  match x with
  | Ok a => f a
  | Err e => Err e
  | Panic p => Panic p
  end.
Notation "'let?' x ':=' e 'in' k" := (bind e (fun x => k))
  (at level 200, x pattern, e at level 100, k at level 200, right associativity).

(** [opt.ok_or(e)]. *)
Definition ok_or {A} (o : option A) (e : error) : outcome A :=
  match o with Some a => Ok a | None => Err e end.

(** [iter.map(f).collect::<Result<Vec<_>>>()]: left to right, stops at the first
    error (or panic). *)
Fixpoint traverse {A B} (f : A -> outcome B) (l : list A) : outcome (list B) :=
  match l with
  | [] => Ok []
  | a :: t => let? b := f a in let? bs := traverse f t in Ok (b :: bs)
  end.

(** [v[i]] (read). *)
Definition index {A} (l : list A) (i : nat) : outcome A :=
  match nth_error l i with Some a => Ok a | None => Panic IndexOutOfBounds end.

(** [v[i] = a] (write). *)
Fixpoint store {A} (l : list A) (i : nat) (a : A) : outcome (list A) :=
  match l, i with
  | [], _ => Panic IndexOutOfBounds
  | _ :: t, O => Ok (a :: t)
  | x :: t, S j => let? t' := store t j a in Ok (x :: t')
  end.

(** [iter().enumerate()] starting at [i]. *)
Fixpoint enumerate_from {A} (i : nat) (l : list A) : list (nat * A) :=
  match l with
  | [] => []
  | a :: t => (i, a) :: enumerate_from (S i) t
  end.
Definition enumerate {A} (l : list A) : list (nat * A) := enumerate_from 0 l.

(** Build profiles: arithmetic overflow panics with debug assertions and wraps
    around without them. *)
Inductive profile : Type := Debug | Release.

Definition is_u8 (z : Z) : Prop := 0 <= z < 256.
Definition is_u16 (z : Z) : Prop := 0 <= z < 65536.
Definition is_u32 (z : Z) : Prop := 0 <= z < 4294967296.
Definition is_u64 (z : Z) : Prop := 0 <= z < 18446744073709551616.
(** [usize] on a 64 bit target. *)
Definition is_usize (z : Z) : Prop := 0 <= z < 18446744073709551616.
Definition is_i16 (z : Z) : Prop := -32768 <= z < 32768.

(** [x as u8], [x as u16], [x as u32] of a non-negative wider integer. *)
Definition as_u8 (z : Z) : Z := z mod 256.
Definition as_u16 (z : Z) : Z := z mod 65536.
Definition as_u32 (z : Z) : Z := z mod 4294967296.

(** [x as i16] of a [u16], and back. *)
Definition u16_as_i16 (z : Z) : Z := if z <? 32768 then z else z - 65536.
Definition i16_as_u16 (z : Z) : Z := z mod 65536.

(** Result [z] of an arithmetic operation on an unsigned type with [m] values. *)
Definition arith (prof : profile) (m z : Z) : outcome Z :=
  if (0 <=? z) && (z <? m) then Ok z
  else match prof with
       | Debug => Panic ArithmeticOverflow
       | Release => Ok (z mod m)
       end.
Definition sub_u16 prof a b := arith prof 65536 (a - b).
Definition add_u16 prof a b := arith prof 65536 (a + b).
Definition add_u32 prof a b := arith prof 4294967296 (a + b).
Definition mul_u32 prof a b := arith prof 4294967296 (a * b).
Definition add_usize prof a b := arith prof 18446744073709551616 (a + b).

(** [std::collections::HashMap] as an association list without duplicate keys.
    The key comparison is an argument. *)
Section AssocMap.
  Context {K V : Type} (eqb : K -> K -> bool).

  (** [map.get(&k)] *)
  Fixpoint map_get (k : K) (m : list (K * V)) : option V :=
    match m with
    | [] => None
    | (k', v) :: t => if eqb k k' then Some v else map_get k t
    end.

  (** [map.remove(&k)] (the new map; the removed value is [map_get k m]) *)
  Definition map_remove (k : K) (m : list (K * V)) : list (K * V) :=
    filter (fun e => negb (eqb k (fst e))) m.

  (** [map.insert(k, v)] *)
  Definition map_insert (k : K) (v : V) (m : list (K * V)) : list (K * V) :=
    (k, v) :: map_remove k m.
End AssocMap.
