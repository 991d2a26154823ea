(** Specification of signals that are passed along a row of racks (C119). *)
From Coq Require Import ZArith Reals List Bool.
From Verif Require Import Base Types Util Digital Analog Fbc SpecCodec SpecCoupler SpecAnalog SpecImage SpecKeep SpecLossless.
Import ListNotations.
Local Open Scope Z_scope.

(** A program copies channel [k] of an input module [m] with the registers [regs] to channel [k'] of an output module [m']
    and so sends the registers [regs']: what is shown for the input after a cycle is requested for the output before a cycle
    of the same or of another coupler. *)
Definition copies (m : module) (k : nat) (regs : list Z) (m' : module) (k' : nat) (regs' : list Z) : Prop :=
  exists prof c input output d image i o off v prof' c' input' output' d' image' i' o' off',
  reachable prof c /\ cycle prof c input output d (Ok image) /\ module_at c i m o /\ mo_input o = Some off /\ placed off (input_bytes m) /\
  cell (inputs d) i k = Some v /\ reachable prof' c' /\ cycle prof' c' input' output' d' (Ok image') /\ alone c' i' m' o' off' /\
  (k' < channels m')%nat /\ requested c' (mk_address i' k') = Some v /\
  regs = registers_at 0 input off /\ regs' = registers_at 0x0800 image' off'.

(** Modules with digital inputs and with digital outputs. *)
Definition has_digital_inputs (m : module) : Prop := match m with MDI _ _ => True | _ => False end.
Definition has_digital_outputs (m : module) : Prop := match m with MDO _ _ | M16DO | M4RO _ => True | _ => False end.

(** A bit is passed on by [n] programs; a wire leads from the output of each program to the input of the next one. *)
Inductive bit_passed : nat -> bool -> bool -> Prop :=
| bit_here b : bit_passed 0 b b
| bit_on n b b1 m k regs m' k' regs' : bit_passed n b b1 -> has_digital_inputs m -> has_digital_outputs m' ->
    bit (reg regs 0) k = b1 -> copies m k regs m' k' regs' -> bit_passed (S n) b (bit (reg regs' 0) k').

(** A current or voltage is passed on by a program for each of the [formats].  All channels have the range [r].  A wire leads
    from an output to an input of the same format, so that the code is the same; the output of each program has the format that
    is listed for it.  It starts as code [w] of format [f] and arrives as code [w'] of format [g]. *)
Inductive code_passed (r : analog_ui_range) (f : data_format) (w : Z) : list data_format -> data_format -> Z -> Prop :=
| code_here : code_passed r f w [] f w
| code_on formats g w1 h m k regs m' k' regs' : code_passed r f w formats g w1 -> analog_input m k = Some (r, g) ->
    analog_output m' k' = Some (r, h) -> reg regs k = w1 -> copies m k regs m' k' regs' ->
    code_passed r f w (formats ++ [h]) h (reg regs' k').

(** The number of codes in a 1024th of the range. *)
Definition part (f : data_format) : Z := full_code f / 1024.
