(** Property theorems C119: signals are passed along a row of racks. *)
From Coq Require Import ZArith Reals List Bool Lia.
From Verif Require Import Base F32 Types Util Digital Analog Fbc SpecCodec SpecCoupler SpecAnalog SpecImage SpecKeep SpecLossless SpecRepeater ProofsRepeater.
Import ListNotations.
Local Open Scope Z_scope.

(** C119: a bit arrives unchanged, whatever the number of programs that copy it. *)
Theorem C119_bits : forall n b b', bit_passed n b b' -> b' = b.
Proof. exact C119_bits_all. Qed.
Print Assumptions C119_bits.
Example C119_bit_example : bit_passed 2 true true.
Proof.
  apply (bit_on 1 true true (passing_module 0) 2 (registers_at 0 [4; 0; 0; 0; 0] 0) (passing_module 2) 3 (registers_at 0x0800 [8; 0; 0; 0; 0] 0x8000));
    [|exact I|exact I|reflexivity|exact bit_copied].
  apply (bit_on 0 true true (passing_module 0) 2 (registers_at 0 [4; 0; 0; 0; 0] 0) (passing_module 2) 3 (registers_at 0x0800 [8; 0; 0; 0; 0] 0x8000));
    [|exact I|exact I|reflexivity|exact bit_copied].
  apply bit_here.
Qed.

(** C119: a code never leaves the 1024th of the range in which it started, whatever the number of programs and the formats of
    their channels.  It stays the same if all formats are S5, and loses at most five if all are S7. *)
Theorem C119_codes : forall r f w formats g w', is_u16 w -> r <> UI_Disabled -> code_passed r f w formats g w' ->
  is_u16 w' /\
  (forall j, -1213 <= j <= 1213 -> (j * part f <= signed w -> j * part g <= signed w') /\ (signed w <= j * part f -> signed w' <= j * part g)) /\
  (f = S5 -> Forall (eq S5) formats -> w' = w) /\
  (f = S7 -> Forall (eq S7) formats -> towards_zero (signed w) (signed w') /\ Z.abs (signed w' - signed w) <= 5).
Proof. exact C119_codes_all. Qed.
Print Assumptions C119_codes.

(** C119: so the current or voltage that arrives differs by at most a 1024th of the range. *)
Theorem C119_value : forall r base span f w formats g w', is_u16 w -> base_span r = Some (base, span) -> code_passed r f w formats g w' ->
  Z.abs (signed w) <= 1213 * part f ->
  (Rabs (exact_value base span (full_code g) (signed w') - exact_value base span (full_code f) (signed w)) <= IZR span / 1024)%R.
Proof. exact C119_value_all. Qed.
Print Assumptions C119_value.

(** C119: a disabled channel passes on zero. *)
Theorem C119_disabled : forall f w formats g w', code_passed UI_Disabled f w formats g w' -> formats <> [] -> w' = 0.
Proof. exact passed_disabled. Qed.
Print Assumptions C119_disabled.

(** The code 45 of a channel 0 - 20 mA with format S7 is passed on as 26 with format S5 and then as 43 with format S7, which is
    in the same 1024th (27 to 54). *)
Example C119_code_example : code_passed UI_mA0To20 S7 45 [S5; S7] S7 43 /\ is_u16 45 /\ base_span UI_mA0To20 = Some (0, 20) /\
  part S7 = 27 /\ part S5 = 16 /\ 1 * part S7 <= signed 45 <= 2 * part S7.
Proof.
  split; [|split; [unfold is_u16; lia|]; split; [reflexivity|]; split; [reflexivity|]; split; [reflexivity|]; vm_compute; split; discriminate].
  apply (code_on _ _ _ [S5] S5 26 S7 (passing_module 1) 0 (registers_at 0 [0; 26; 0; 0; 0] 0x10) (passing_module 3) 1 (registers_at 0x0800 [0; 0; 43; 0; 0] 0x8010));
    [|vm_compute; reflexivity|vm_compute; reflexivity|vm_compute; reflexivity|exact code_up].
  apply (code_on _ _ _ [] S7 45 S5 (passing_module 1) 1 (registers_at 0 [0; 0; 45; 0; 0] 0x10) (passing_module 3) 2 (registers_at 0x0800 [0; 0; 0; 26; 0] 0x8010));
    [|vm_compute; reflexivity|vm_compute; reflexivity|vm_compute; reflexivity|exact code_down].
  apply code_here.
Qed.
