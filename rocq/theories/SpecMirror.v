(** Specification of copying a measured input to an output (C87). *)
From Coq Require Import ZArith Reals List Bool.
From Verif Require Import Base Types Util Digital Analog Fbc SpecCodec SpecAnalog SpecLossless.
Import ListNotations.
Local Open Scope Z_scope.

(** The code of a channel with format [f'] for the code [w] of a channel with format [f] and the same range, limited to
    the largest and smallest code. *)
Definition rescaled (f f' : data_format) (w : Z) : R :=
  Rmax (-32768) (Rmin 32767 (IZR (signed w) * IZR (full_code f') / IZR (full_code f))).

(** The code [w'] of an output channel for the code [w] of an input channel with the same range [r].
    - A disabled channel outputs zero.
    - With the same format the code is the same; with format S7 it can be one nearer to zero, but not if it is a multiple
      of 27.
    - With any formats the code differs by less than 1.07 from the exact one. *)
Definition same_signal (r : analog_ui_range) (f f' : data_format) (w w' : Z) : Prop :=
  match r with
  | UI_Disabled => w' = 0
  | _ =>
      is_u16 w' /\ (Rabs (IZR (signed w') - rescaled f f' w) < 107 / 100)%R /\
      (f = S5 -> f' = S5 -> w' = w) /\
      (f = S7 -> f' = S7 -> towards_zero (signed w) (signed w') /\ Z.abs (signed w' - signed w) <= 1 /\
         forall j, signed w = 27 * j -> w' = w)
  end.

(** Channel [k'] of the output module [m'] with the registers [regs'] outputs what channel [k] of the input module [m] with
    the registers [regs] measures: the same bit, or the same current or voltage if both have the same range. *)
Definition mirrors (m : module) (k : nat) (regs : list Z) (m' : module) (k' : nat) (regs' : list Z) : Prop :=
  match m, m' with
  | MDI _ _, MDO _ _ | MDI _ _, M16DO | MDI _ _, M4RO _ => bit (reg regs' 0) k' = bit (reg regs 0) k
  | _, _ => forall r f f', analog_input m k = Some (r, f) -> analog_output m' k' = Some (r, f') ->
      same_signal r f f' (reg regs k) (reg regs' k')
  end.
