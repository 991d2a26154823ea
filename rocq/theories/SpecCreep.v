(** Specification for C20: exactly which codes of format S7 move when they are read back and written again. *)
From Coq Require Import ZArith Reals.
From Verif Require Import Types.
Local Open Scope Z_scope.

(** The ranges whose code 0 means zero, with the value of the nominal full code 27648 = 27 * 1024. *)
Definition from_zero (r : analog_ui_range) : option Z :=
  match r with
  | UI_mA0To20 => Some 20
  | UI_V0To10 | UI_VMinus10To10 => Some 10
  | UI_V0To5 | UI_VMinus5To5 => Some 5
  | _ => None
  end.

(** A code of magnitude [c] loses a step if a product of [c], the full value [span] and a power of two lies between 27 * 2^23 and 2^28
    and leaves the remainder 9, 10, 11, 12 or 13 when divided by 27: the quotient, rounded to 24 binary digits, is then that much too
    small. *)
Definition loses (span c : Z) : Prop :=
  exists j, 0 <= j /\ 27 * 2 ^ 23 <= c * span * 2 ^ j < 2 ^ 28 /\ 9 <= (c * span * 2 ^ j) mod 27 <= 13.

(** The signed code that is written for the signed code [c]. *)
Definition one_less (c : Z) : Z := c - Z.sgn c.

(** The value [v] read back for the signed code [c] falls short: 27648 times its distance from the base should be [|c|] times the span,
    but is smaller by more than half of the distance of the numbers of 24 binary digits just below that product. *)
Definition falls_short (base span c : Z) (v : R) : Prop :=
  exists e, 0 <= e /\ 2 ^ e < Z.abs c * span <= 2 ^ (e + 1) /\
    (27648 * Rabs (v - IZR base) + powerRZ 2 (e - 24) < IZR (Z.abs c * span))%R.
