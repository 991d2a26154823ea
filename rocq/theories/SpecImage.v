(** Specification of the process images (C40 - C42, C51): which bytes belong to a module. *)
From Coq Require Import ZArith List Bool.
From Verif Require Import Base F32 Types Com Fbc SpecCodec SpecCoupler.
Import ListNotations.
Local Open Scope Z_scope.

(** Size of the process data of a module in bytes, from the data sheets. *)
Definition input_bytes (m : module) : nat :=
  match m with
  | MDI _ _ => 1
  | MRTD _ _ | MUI16DIAG _ _ | MAIUI _ _ _ | MTC _ _ => 8
  | M8AI _ _ => 16
  | MFCNT _ => 20
  | MCOM l _ => message_size l
  | MSIL => 4
  | MDO _ _ | M16DO | M4RO _ | M4AO _ | M4AODIAG _ => 0
  end.
Definition output_bytes (m : module) : nat :=
  match m with
  | MDO _ _ | M4RO _ => 1
  | M16DO => 2
  | M4AO _ | M4AODIAG _ => 8
  | MFCNT _ => 12
  | MCOM l _ => message_size l
  | MDI _ _ | MRTD _ _ | MUI16DIAG _ _ | MAIUI _ _ _ | M8AI _ _ | MTC _ _ | MSIL => 0
  end.

(** An offset is a bit address: sixteen times a register plus a bit number.  The registers of
    the input image start at 0, those of the output image at 0x0800.  The position of the
    first byte of a module in the bytes of its image: *)
Definition first_byte (base off : Z) : nat := Z.to_nat (2 * (off / 16 - base) + (off mod 16) / 8).

(** [n] bytes of an image, from byte [first]. *)
Definition image_bytes (image : list Z) (first n : nat) : list Z :=
  firstn n (skipn first (bytes_of_words image)).

(** Words that consist of the given bytes, filled up with zero bytes to whole words. *)
Definition words_of_bytes (words : list Z) (bytes : list Z) : Prop :=
  Forall is_u16 words /\
  (bytes_of_words words = bytes \/ bytes_of_words words = bytes ++ [0]).

(** Bit [k] of the output of a module with output offset [off]. *)
Definition output_bit (image : list Z) (off : Z) (k : nat) : bool :=
  bit (nth (Z.to_nat (off / 16 - 0x0800)) image 0) (Z.to_nat (off mod 16) + k).

(** Byte [b] of the output image belongs to a module with this offset and encoded data [d]:
    on a register boundary all its bytes, in the middle of a register one byte. *)
Definition claims (o : module_offset) (d : list Z) (b : nat) : Prop :=
  exists off, mo_output o = Some off /\
    (first_byte 0x0800 off <= b <
     first_byte 0x0800 off + (if (off mod 16 =? 0)%Z then 2 * length d else 1))%nat.

(** The modules of a list fill the output image without gap: each one starts at the register
    behind the [words] registers filled so far, or is a byte-wide module that shares the last
    of these registers. *)
Fixpoint tiled (words : nat) (l : list (module_offset * list Z)) : Prop :=
  match l with
  | [] => True
  | (o, d) :: t =>
      match mo_output o with
      | None => tiled words t
      | Some off =>
          (off = 16 * (0x0800 + Z.of_nat words) /\ tiled (words + length d) t) \/
          (off = 16 * (0x0800 + Z.of_nat words - 1) + 8 /\ (0 < words)%nat /\ d <> [] /\ tiled words t)
      end
  end.
