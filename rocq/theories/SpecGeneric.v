(** Specification for C95: process images of modules of any implementation. *)
From Coq Require Import ZArith List Bool.
From Verif Require Import Base F32 Types Lib Com Fbc Generic SpecCodec SpecImage.
Import ListNotations.
Local Open Scope Z_scope.

(** A module that announces [n] bytes is given whole registers, and at least one. *)
Definition registers_for (n : nat) : nat := Nat.max 1 (Nat.div n 2).

(** What a module at bit address [off] that announces [n] bytes is given of an image that starts
    at register [base]: its registers, if they are in the image; in the middle of a register
    the bytes from there on, followed by a zero byte. *)
Inductive given (base off : Z) (n : nat) (image : list Z) : outcome (list Z) -> Prop :=
| G_outside :
    (length image < Z.to_nat (off / 16 - base) + registers_for n)%nat ->
    given base off n image (Err BufferLength)
| G_misplaced :
    (Z.to_nat (off / 16 - base) + registers_for n <= length image)%nat ->
    off mod 16 <> 0 -> off mod 16 <> 8 ->
    given base off n image (Err ModuleOffsetError)
| G_aligned :
    (Z.to_nat (off / 16 - base) + registers_for n <= length image)%nat ->
    off mod 16 = 0 ->
    given base off n image (Ok (firstn (registers_for n) (skipn (Z.to_nat (off / 16 - base)) image)))
| G_middle words :
    (Z.to_nat (off / 16 - base) + registers_for n <= length image)%nat ->
    off mod 16 = 8 -> Forall is_u16 words ->
    bytes_of_words words = image_bytes image (first_byte base off) (2 * registers_for n - 1) ++ [0] ->
    given base off n image (Ok words).

(** The row of values of one module: nothing without an offset, otherwise what the module makes
    of the words it is given. *)
Definition row_of (t : module_type) (offset : option Z) (base : Z) (count : outcome nat)
  (decode : list Z -> outcome (list channel_value)) (image : list Z)
  (row : outcome (list channel_value)) : Prop :=
  match offset with
  | None => row = Ok (repeat VNone (channel_count t))
  | Some off =>
      match count with
      | Ok n => exists words, given base off n image words /\
          match words with Ok w => row = decode w | Err e => row = Err e | Panic p => row = Panic p end
      | Err e => row = Err e
      | Panic p => row = Panic p
      end
  end.
Definition in_row (image : list Z) (mo : implementation * module_offset) : outcome (list channel_value) -> Prop :=
  row_of (im_type (fst mo)) (mo_input (snd mo)) 0x0000
    (im_input_byte_count (fst mo)) (im_process_input_data (fst mo)) image.
Definition out_row (image : list Z) (mo : implementation * module_offset) : outcome (list channel_value) -> Prop :=
  row_of (im_type (fst mo)) (mo_output (snd mo)) 0x0800
    (im_output_byte_count (fst mo)) (im_process_output_data (fst mo)) image.

(** The result for all modules: a row for each, or the failure of the first module that fails. *)
Definition all_rows {A} (row : A -> outcome (list channel_value) -> Prop) (ms : list A)
  (result : outcome (list (list channel_value))) : Prop :=
  match result with
  | Ok rows => length rows = length ms /\
      forall i m, nth_error ms i = Some m -> exists r, nth_error rows i = Some r /\ row m (Ok r)
  | Err e => exists i m, nth_error ms i = Some m /\ row m (Err e) /\
      forall j m', (j < i)%nat -> nth_error ms j = Some m' -> exists r, row m' (Ok r)
  | Panic p => exists i m, nth_error ms i = Some m /\ row m (Panic p) /\
      forall j m', (j < i)%nat -> nth_error ms j = Some m' -> exists r, row m' (Ok r)
  end.

(** A module that overrides no method for process data. *)
Definition without_data (t : module_type) (inputs outputs : nat) : implementation := mk_implementation
  t (Ok inputs) (Ok outputs) (any_default_process_data t) (any_default_process_data t)
  (any_default_process_output_values t).
