(** Specification of the provided methods of the standard library's [io::Read] and [io::Write] on the reader and the writer of
    a serial module (C89).  They call [read] and [write] in loops. *)
From Coq Require Import ZArith List Bool.
From Verif Require Import Base Types Com Fbc SpecSerial SpecCoupler.
Import ListNotations.
Local Open Scope Z_scope.

(** [write_all]: writes what is left until nothing is; fails with [WriteZero] if nothing is accepted.  The last argument tells
    whether it succeeds. *)
Inductive write_all (i : nat) : coupler -> list Z -> coupler -> bool -> Prop :=
| WA_done c : write_all i c [] c true
| WA_zero c buf c' : buf <> [] -> coupler_write c i buf = (c', Some 0%nat) -> write_all i c buf c' false
| WA_more c buf c1 n c' r : buf <> [] -> coupler_write c i buf = (c1, Some n) -> n <> 0%nat ->
    write_all i c1 (skipn n buf) c' r -> write_all i c buf c' r.

(** [read_exact]: reads what is left of [size] bytes until nothing is; fails with [UnexpectedEof] ([None]) if nothing comes. *)
Inductive read_exact (i : nat) : coupler -> nat -> coupler -> option (list Z) -> Prop :=
| RE_done c : read_exact i c 0 c (Some [])
| RE_eof c size c' : size <> 0%nat -> coupler_read c i size = (c', Some []) -> read_exact i c size c' None
| RE_more c size c1 bytes c' r : size <> 0%nat -> coupler_read c i size = (c1, Some bytes) -> bytes <> [] ->
    read_exact i c1 (size - length bytes) c' r -> read_exact i c size c' (option_map (app bytes) r).

(** [read_to_end], and the iterator of [bytes]: reads into buffers of the sizes [size 0], [size 1], ... until nothing comes.  The
    standard library chooses the sizes. *)
Inductive read_to_end (i : nat) : (nat -> nat) -> coupler -> coupler -> list Z -> Prop :=
| RT_done size c c' : coupler_read c i (size 0%nat) = (c', Some []) -> read_to_end i size c c' []
| RT_more size c c1 bytes c' rest : coupler_read c i (size 0%nat) = (c1, Some bytes) -> bytes <> [] ->
    read_to_end i (fun k => size (S k)) c1 c' rest -> read_to_end i size c c' (bytes ++ rest).
