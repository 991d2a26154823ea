(** Specification of when a cycle succeeds (C59). *)
From Coq Require Import ZArith List Bool.
From Verif Require Import Base F32 Types Lib Com Fbc SpecCodec SpecSerial SpecCoupler SpecImage.
Import ListNotations.
Local Open Scope Z_scope.

(** Registers taken by [n] bytes: a single byte takes one. *)
Definition registers (n : nat) : nat := Nat.max 1 (Nat.div n 2).

(** [n] bytes at bit offset [off] can be taken from an image whose first register is [base]: there are such
    bytes, they start on a byte boundary that the coupler uses, and the registers are there. *)
Definition readable (base : Z) (image : list Z) (off : Z) (n : nat) : Prop :=
  n <> 0%nat /\ (off mod 16 = 0 \/ off mod 16 = 8) /\ base <= off / 16 /\
  off / 16 - base + Z.of_nat (registers n) <= Z.of_nat (length image).

(** Byte [k] of the data at offset [off]. *)
Definition data_byte (base : Z) (image : list Z) (off : Z) (k : nat) : Z :=
  nth (first_byte base off + k) (bytes_of_words image) 0.

(** A serial message announces at most as many bytes as there is room for. *)
Definition announces_fitting (base : Z) (image : list Z) (off : Z) (m : module) : Prop :=
  forall l ch, m = MCOM l ch -> data_byte base image off 1 <= Z.of_nat (payload_size l).

Definition inputs_readable (c : coupler) (image : list Z) : Prop :=
  forall i m o off, module_at c i m o -> mo_input o = Some off ->
    readable 0 image off (input_bytes m) /\ announces_fitting 0 image off m.
Definition outputs_readable (c : coupler) (image : list Z) : Prop :=
  forall i m o off, module_at c i m o -> mo_output o = Some off ->
    readable 0x0800 image off (output_bytes m) /\ announces_fitting 0x0800 image off m.

(** Every pending request for an output can be sent; requests for serial modules are queued. *)
Definition requests_accepted (c : coupler) : Prop :=
  forall i m o k v, module_at c i m o -> mo_output o <> None -> is_serial m = false ->
    requested c (mk_address i k) = Some v -> can_output m v.

(** Counter channels without a request send the preset found in the output image (two registers, high one
    first, in microseconds): it must be one that can be sent. *)
Definition preset_micros (image : list Z) (off : Z) (k : nat) : Z :=
  let byte j := data_byte 0x0800 image off (4 * k + j) in
  word32 (byte 0%nat + 256 * byte 1%nat) (byte 2%nat + 256 * byte 3%nat).
Definition presets_accepted (c : coupler) (image : list Z) : Prop :=
  forall i ch o off k, module_at c i (MFCNT ch) o -> mo_output o = Some off -> (k < 2)%nat ->
    requested c (mk_address i k) = None -> preset_micros image off k <= 8388607.

(** The modules with output data fill the output image in order, without gap: each one starts at the register
    behind the [words] registers filled so far, or in the middle of the last of these. *)
Fixpoint packed (words : nat) (l : list (module * module_offset)) : Prop :=
  match l with
  | [] => True
  | (m, o) :: t =>
      match mo_output o with
      | None => packed words t
      | Some off =>
          (off = 16 * (0x0800 + Z.of_nat words) /\ packed (words + registers (output_bytes m)) t) \/
          (off = 16 * (0x0800 + Z.of_nat words - 1) + 8 /\ (0 < words)%nat /\ packed words t)
      end
  end.
Definition outputs_packed (c : coupler) : Prop := packed 0 (combine (c_modules c) (c_offsets c)).

(** All of it. *)
Definition cycle_possible (c : coupler) (input output : list Z) : Prop :=
  inputs_readable c input /\ outputs_readable c output /\ requests_accepted c /\
  presets_accepted c output /\ outputs_packed c.
