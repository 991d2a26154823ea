(** Specification of the frequencies a coupler reports for its counters (C88). *)
From Coq Require Import ZArith Reals List Bool SpecFloat.
From Verif Require Import Base F32 Types Util Fcnt Fbc SpecCodec SpecCoupler SpecAnalog SpecImage SpecLossless.
Import ListNotations.
Local Open Scope Z_scope.

(** After a cycle, a coupler shows [i] for channel [k] of a counter whose registers hold [period], in units of 125 ns, and
    [count]. *)
Definition counted (prof : profile) (k : nat) (period count : Z) (i : fcnt_in) : Prop :=
  exists c input output c' image j ch o off, reachable prof c /\ cycle prof c input output c' (Ok image) /\
    module_at c j (MFCNT ch) o /\ mo_input o = Some off /\ placed off (input_bytes (MFCNT ch)) /\
    cell (inputs c') j k = Some (FcntIn i) /\
    let regs := registers_at 0 input off in
    period = word32 (reg regs (4 * k)) (reg regs (4 * k + 1)) /\ count = word32 (reg regs (4 * k + 2)) (reg regs (4 * k + 3)).

(** The largest period is no measurement. *)
Definition no_period : Z := 0x07FFFFFF.
