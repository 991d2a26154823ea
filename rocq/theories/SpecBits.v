(** Specification of the bits of the output image that have a meaning (C93). *)
From Coq Require Import ZArith List Bool.
From Verif Require Import Base Types Com Fbc SpecCodec SpecCoupler SpecAnalog SpecImage.
Import ListNotations.

(** Bit [t] of byte [b] of the output data of a module has a meaning, from the data sheets.
    - Digital outputs: one bit for each channel.
    - Analog outputs: two bytes for each channel, without meaning if it is disabled.
    - Counters: two registers, high one first, low byte first, with the preset of each channel (at most 0x7FFFFF
      microseconds); then a register for each channel with the commands to start and to stop in bits 8 and 9.
    - Serial modules: the status byte, the number of data bytes, and the data. *)
Definition output_bits (m : module) (b t : nat) : Prop :=
  match m with
  | MDO _ _ | M16DO | M4RO _ => (8 * b + t < channels m)%nat
  | M4AO _ | M4AODIAG _ => exists r f, analog_output m (b / 2) = Some (r, f) /\ r <> UI_Disabled
  | MFCNT _ => (b = 0 \/ b = 4)%nat /\ (t < 7)%nat \/ In b [2; 3; 6; 7]%nat \/ (b = 9 \/ b = 11)%nat /\ (t < 2)%nat
  | MCOM l _ => b = 0%nat \/ b = 1%nat /\ (t < 4)%nat \/ (2 <= b < message_size l)%nat
  | MDI _ _ | MRTD _ _ | MUI16DIAG _ _ | MAIUI _ _ _ | M8AI _ _ | MTC _ _ | MSIL => False
  end.
