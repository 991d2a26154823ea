(** Specification of setting up modules from a program (C118): the numbers of the enumerations and the parameters that can be
    configured. *)
From Coq Require Import ZArith List.
From Verif Require Import Base F32 Types Lib Analog Com Fbc SpecParams.
Import ListNotations.
Local Open Scope Z_scope.

(** [#[derive(ToPrimitive)]]: [to_u16] gives the number written behind the variant (src/lib.rs 198-372,
    src/ur20_1com_232_485_422.rs 93-154, src/ur20_4ai_tc_diag.rs 48-92; the variants with their numbers are listed in Types.v). *)
Definition to_u16_is {A} (variants : list (A * Z)) (x : A) (n : Z) : Prop := In (x, n) variants.

(** [to_u16] and [from_u16] are inverse to each other. *)
Definition inverse {A} (variants : list (A * Z)) : Prop :=
  (forall x, exists n, to_u16_is variants x n /\ is_u16 n /\ forall n', to_u16_is variants x n' -> n' = n) /\
  (forall x n, from_u16 variants n = Some x <-> to_u16_is variants x n).

(** A parameter structure as a program can hold it, with as many channels as the module has: limits are [i16], XON and XOFF
    characters of one byte. *)
Definition is_i16 (z : Z) : Prop := -32768 <= z <= 32767.
Definition complete (m : module) : Prop :=
  match m with
  | MDI V_4DI_P ch => length ch = 4%nat
  | MDI V_8DI_P_2W ch => length ch = 8%nat
  | MDO V_8DO_P ch => length ch = 8%nat
  | MDO _ ch | M4RO ch => length ch = 4%nat
  | M16DO | MSIL => True
  | M4AO ch => length ch = 4%nat
  | M4AODIAG ch => length ch = 4%nat
  | MRTD _ ch => length ch = 4%nat /\ Forall (fun p => is_i16 (rtd_high_limit p) /\ is_i16 (rtd_low_limit p)) ch
  | MTC _ ch => length ch = 4%nat /\ Forall (fun p => is_i16 (tc_high_limit p) /\ is_i16 (tc_low_limit p)) ch
  | MUI16DIAG _ ch => length ch = 4%nat
  | MAIUI _ _ ch => length ch = 4%nat
  | M8AI _ ch => length ch = 8%nat
  | MFCNT ch => length ch = 2%nat
  | MCOM _ ch => length ch = 1%nat /\ Forall (fun p => is_u8 (com_xon p) /\ is_u8 (com_xoff p)) ch
  end.

(** The modules and parameter registers of a rack. *)
Definition set_up (t : module_type) (m : module) (regs : list Z) : Prop :=
  kind_of t m /\ complete m /\ Forall2 holds (params_registers m) regs.
