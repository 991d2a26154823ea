(** Specification for C98: a program that exchanges data with a field bus coupler through its registers. *)
From Coq Require Import ZArith List Bool.
From Verif Require Import Base Types Lib Fbc SpecCoupler SpecStartup.
Import ListNotations.
Local Open Scope Z_scope.

(** The registers after a client has written [words] from address [a] on. *)
Definition write_registers (register : Z -> Z) (a : Z) (words : list Z) : Z -> Z :=
  fun x => if (a <=? x) && (x <? a + Z.of_nat (length words)) then nth (Z.to_nat (x - a)) words 0 else register x.

(** One exchange: the program reads [n] input registers and [k] output registers at the addresses the crate gives, calls [next],
    and writes the image it gets back to the output registers.  Each of the two areas has 0x0800 registers. *)
Definition exchange (prof : profile) (c : coupler) (register : Z -> Z) (c' : coupler) (register' : Z -> Z) : Prop :=
  exists n k image, n <= 0x0800 /\ k <= 0x0800 /\
    cycle prof c (read_registers register ADDR_PACKED_PROCESS_INPUT_DATA n)
      (read_registers register ADDR_PACKED_PROCESS_OUTPUT_DATA k) c' (Ok image) /\
    register' = write_registers register ADDR_PACKED_PROCESS_OUTPUT_DATA image.

(** An exchange that fails writes nothing. *)
Definition failed_exchange (prof : profile) (c : coupler) (register : Z -> Z) (c' : coupler) : Prop :=
  exists n k e, n <= 0x0800 /\ k <= 0x0800 /\
    cycle prof c (read_registers register ADDR_PACKED_PROCESS_INPUT_DATA n)
      (read_registers register ADDR_PACKED_PROCESS_OUTPUT_DATA k) c' (Err e).

(** A program and a field bus coupler at work: the program exchanges data and calls the other methods of the coupler, the modules
    change the input registers (those below 0x0800). *)
Inductive operates (prof : profile) : coupler -> (Z -> Z) -> coupler -> (Z -> Z) -> Prop :=
| O_begin c register : operates prof c register c register
| O_exchange c r c1 r1 c2 r2 : operates prof c r c1 r1 -> exchange prof c1 r1 c2 r2 -> operates prof c r c2 r2
| O_failed c r c1 r1 c2 : operates prof c r c1 r1 -> failed_exchange prof c1 r1 c2 -> operates prof c r c2 r1
| O_set c r c1 r1 a v : operates prof c r c1 r1 -> rust_value v -> operates prof c r (fst (set_output c1 a v)) r1
| O_read c r c1 r1 i size : operates prof c r c1 r1 -> operates prof c r (fst (coupler_read c1 i size)) r1
| O_write c r c1 r1 i buf : operates prof c r c1 r1 -> Forall is_u8 buf -> operates prof c r (fst (coupler_write c1 i buf)) r1
| O_inputs c r c1 r1 r2 : operates prof c r c1 r1 -> (forall a, ~ 0 <= a < 0x0800 -> r2 a = r1 a) -> operates prof c r c1 r2.

(** The [n] registers of the data of a module with the bit address [off], or the upper byte of its only register. *)
Definition module_registers (register : Z -> Z) (off : Z) (n : nat) : list Z :=
  if off mod 16 =? 8 then [register (off / 16) / 256] else read_registers register (off / 16) (Z.of_nat n).
