(** Specification of when start-up succeeds, and of how it fails (C73). *)
From Coq Require Import ZArith List.
From Verif Require Import Base Types Lib Fbc SpecCatalogue SpecAddr SpecParams SpecStartup.
Import ListNotations.
Local Open Scope Z_scope.

(** The module id that the registers show for slot [i]. *)
Definition shown_id (register : Z -> Z) (i : nat) : Z :=
  register (0x2A00 + 2 * Z.of_nat i) * 65536 + register (0x2A00 + 2 * Z.of_nat i + 1).

(** Slot [i] holds a module the crate has never heard of. *)
Definition unknown_at (register : Z -> Z) (i : nat) : Prop := forall t, documented_id t <> Some (shown_id register i).

(** A module the crate knows, but has no support for. *)
Definition not_supported (s : slot) : Prop := param_bounds (s_type s) = None.

(** A supported module with a parameter out of its range. *)
Definition misconfigured (s : slot) : Prop :=
  exists bounds, param_bounds (s_type s) = Some bounds /\ length (s_params s) = length bounds /\ ~ in_range bounds (s_params s).
