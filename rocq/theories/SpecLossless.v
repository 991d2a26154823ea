(** Specification of what the decoded values keep of the registers (C81). *)
From Coq Require Import ZArith List Bool.
From Verif Require Import Base F32 Types Fbc SpecCodec SpecCoupler SpecAnalog SpecResolution.
Import ListNotations.
Local Open Scope Z_scope.

(** Register [j] of the data of a module. *)
Definition reg (data : list Z) (j : nat) : Z := nth j data 0.

(** Two bit patterns are equal in the given bits. *)
Definition same_bits (bits : list nat) (w w' : Z) : Prop := forall k, In k bits -> bit w k = bit w' k.

(** Two messages of a serial module announce the same data, and their first bytes are equal in the given bits. *)
Definition same_message (bits : list nat) (a b : list Z) : Prop :=
  exists status status' data, announces (bytes_of_words a) status data /\ announces (bytes_of_words b) status' data /\
    same_bits bits status status'.

(** The input registers of a module say the same.
    - Digital inputs: the bits of the channels are equal.
    - Analog, resistance and thermocouple inputs: the registers of the channels in use are equal.
    - Counters: counts and status bits are equal, and so are the periods, unless both are over range.
    - Serial module: equal data and status bits; bit 2 is reserved.
    - Safe power feed: the seven documented bits are equal. *)
Definition same_input (m : module) (a b : list Z) : Prop :=
  match m with
  | MDI _ _ => same_bits (seq 0 (channels m)) (reg a 0) (reg b 0)
  | MRTD _ _ | MUI16DIAG _ _ | MAIUI _ _ _ | M8AI _ _ | MTC _ _ =>
      forall k, measures m k <> None -> nth_error a k = nth_error b k
  | MFCNT _ => forall k, (k < 2)%nat ->
      (let period w := word32 (reg w (4 * k)) (reg w (4 * k + 1)) in
       period a = period b \/ 0x07FFFFFF <= period a /\ 0x07FFFFFF <= period b) /\
      reg a (4 * k + 2) = reg b (4 * k + 2) /\ reg a (4 * k + 3) = reg b (4 * k + 3) /\
      bit (reg a (8 + k)) 8 = bit (reg b (8 + k)) 8
  | MCOM _ _ => same_message [0; 1; 3; 4; 5; 6; 7]%nat a b
  | MSIL => same_bits [0; 2; 3; 4; 5; 8; 10]%nat (reg a 0) (reg b 0)
  | MDO _ _ | M16DO | M4RO _ | M4AO _ | M4AODIAG _ => True
  end.

(** The output registers of a module say the same.
    - Digital outputs: the bits of the channels are equal.
    - Analog outputs: the registers of the channels in use are equal.
    - Counters: the presets are equal, and so are the commands: start (bit 8), otherwise stop (bit 9) or none.
    - Serial module: equal data and status bits. *)
Definition same_output (m : module) (a b : list Z) : Prop :=
  match m with
  | MDO _ _ | M16DO | M4RO _ => same_bits (seq 0 (channels m)) (reg a 0) (reg b 0)
  | M4AO _ | M4AODIAG _ =>
      forall k r f, analog_output m k = Some (r, f) -> r <> UI_Disabled -> nth_error a k = nth_error b k
  | MFCNT _ => forall k, (k < 2)%nat ->
      reg a (2 * k) = reg b (2 * k) /\ reg a (2 * k + 1) = reg b (2 * k + 1) /\
      bit (reg a (4 + k)) 8 = bit (reg b (4 + k)) 8 /\
      (bit (reg a (4 + k)) 8 = false -> bit (reg a (4 + k)) 9 = bit (reg b (4 + k)) 9)
  | MCOM _ _ => same_message (seq 0 8) a b
  | MDI _ _ | MRTD _ _ | MUI16DIAG _ _ | MAIUI _ _ _ | M8AI _ _ | MTC _ _ | MSIL => True
  end.

(** All channels have settings, as in every module that was configured from registers. *)
Definition all_settings (m : module) : Prop :=
  match m with
  | M4AO ch => length ch = 4%nat
  | M4AODIAG ch => length ch = 4%nat
  | MFCNT ch => length ch = 2%nat
  | _ => fully_configured m
  end.

(** The registers of a module: from its bit address on, or the upper byte of a register.  [base] is the first register
    of the image. *)
Definition registers_at (base : Z) (image : list Z) (off : Z) : list Z :=
  let regs := skipn (Z.to_nat (off / 16 - base)) image in
  if off mod 16 =? 8 then [reg regs 0 / 256] else regs.

(** A module of [n] bytes is on a register boundary, or has one byte and is in the upper byte of a register. *)
Definition placed (off : Z) (n : nat) : Prop := off mod 16 = 0 \/ off mod 16 = 8 /\ n = 1%nat.
