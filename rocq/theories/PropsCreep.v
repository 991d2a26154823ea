(** C20: exactly which codes of format S7 move, and how far. *)
From Coq Require Import ZArith Reals List Lia Lra SpecFloat.
From Verif Require Import Base F32 Types Lib Util Analog Fbc SpecCodec SpecCoupler SpecAnalog SpecCreep ProofsReadback ProofsCreep
  ProofsCreepAny.
Import ListNotations.
Local Open Scope Z_scope.

(** C20, as far as it holds: on the ranges 0 - 20 mA, 0 - 10 V, -10 - 10 V, 0 - 5 V and -5 - 5 V a code with format S7 that is read
    back and written again moves by one towards zero if it is one of the codes described by [loses], and otherwise stays exactly as it
    is.  Missing: no code moves. *)
Theorem C20_which_codes_move_partial :
  forall m k r span data data' d d', analog_output m k = Some (r, S7) -> from_zero r = Some span ->
  rewrites m data data' -> nth_error data k = Some d -> nth_error data' k = Some d' -> is_u16 d ->
  is_u16 d' /\
  (loses span (Z.abs (signed d)) -> signed d' = one_less (signed d)) /\
  (~ loses span (Z.abs (signed d)) -> d' = d).
Proof. exact C20_exactly_all. Qed.
Print Assumptions C20_which_codes_move_partial.

(** Five is reached: the code 5548 on a channel 0 - 20 mA, and its opposite; 45 is one of the codes that move, 46 is not. *)
Example C20_five_case : rewrites_n drifting 5 [5548; 0x10000 - 5548; 45; 46] [5543; 0x10000 - 5543; 44; 46] /\
  analog_output drifting 0 = Some (UI_mA0To20, S7) /\ from_zero UI_mA0To20 = Some 20 /\
  loses 20 5548 /\ loses 20 45.
Proof.
  split; [|split; [reflexivity|split; [reflexivity|split]]].
  - apply (rewrites_S _ _ _ [5547; 0x10000 - 5547; 44; 46]); [apply (rewrites_run Debug); vm_compute; reflexivity|].
    apply (rewrites_S _ _ _ [5546; 0x10000 - 5546; 44; 46]); [apply (rewrites_run Debug); vm_compute; reflexivity|].
    apply (rewrites_S _ _ _ [5545; 0x10000 - 5545; 44; 46]); [apply (rewrites_run Debug); vm_compute; reflexivity|].
    apply (rewrites_S _ _ _ [5544; 0x10000 - 5544; 44; 46]); [apply (rewrites_run Debug); vm_compute; reflexivity|].
    apply (rewrites_S _ _ _ [5543; 0x10000 - 5543; 44; 46]); [apply (rewrites_run Debug); vm_compute; reflexivity|]. apply rewrites_0.
  - exists 11. vm_compute. intuition discriminate.
  - exists 18. vm_compute. intuition discriminate.
Qed.
(** A code that stays although it is no multiple of 27. *)
Example C20_stays_case : ~ loses 20 46.
Proof.
  intros (j & Hj & W & M). assert (j = 18).
  { destruct (Z.lt_trichotomy j 18) as [L|[E|L]]; [|exact E|]; exfalso.
    - assert (2 ^ j <= 2 ^ 17) by (apply Z.pow_le_mono_r; lia). lia.
    - assert (2 ^ 19 <= 2 ^ j) by (apply Z.pow_le_mono_r; lia). lia. }
  subst j. vm_compute in M. intuition discriminate.
Qed.

(** C20, as far as it holds, on every range: a code with format S7 that is read back as the value [x] and written again moves by one
    towards zero if the distance of [x] from the base of the range falls short, as described by [falls_short], and otherwise stays
    exactly as it is.  Missing: no code moves. *)
Theorem C20_when_a_code_moves_partial :
  forall m k r base span data data' d d' x, analog_output m k = Some (r, S7) -> base_span r = Some (base, span) ->
  rewrites m data data' -> nth_error data k = Some d -> nth_error data' k = Some d' -> is_u16 d -> reads_back m k d (Decimal32 x) ->
  is_u16 d' /\
  (falls_short base span (signed d) (real x) -> signed d' = one_less (signed d)) /\
  (~ falls_short base span (signed d) (real x) -> d' = d).
Proof. exact C20_any_all. Qed.
Print Assumptions C20_when_a_code_moves_partial.

(** On a channel 4 - 20 mA the code 2 moves and the code 3 stays. *)
Definition offset_outputs : module := M4AO (repeat (mk_ao S7 UI_mA4To20 (f32_of_Z 0)) 4).
Definition read_2 : f32 := S754_finite false 0x80097B (-21).
Definition read_3 : f32 := S754_finite false 0x800E39 (-21).
Example C20_offset_case : analog_output offset_outputs 0 = Some (UI_mA4To20, S7) /\ base_span UI_mA4To20 = Some (4, 16) /\
  rewrites offset_outputs [2; 3; 0; 0] [1; 3; 0; 0] /\
  reads_back offset_outputs 0 2 (Decimal32 read_2) /\ reads_back offset_outputs 1 3 (Decimal32 read_3) /\
  falls_short 4 16 2 (real read_2) /\ ~ falls_short 4 16 3 (real read_3).
Proof.
  split; [reflexivity|]. split; [reflexivity|]. split; [apply (rewrites_run Debug); vm_compute; reflexivity|].
  split; [apply (reads_back_run _ [2; 3; 0; 0]); vm_compute; reflexivity|]. split; [apply (reads_back_run _ [2; 3; 0; 0]); vm_compute; reflexivity|].
  assert (P21 : powerRZ 2 (-21) = (/ 2097152)%R) by (change (/ 2 ^ 21 = / 2097152)%R; f_equal; ring).
  split.
  - exists 4. split; [lia|]. split; [cbn; lia|]. unfold real, read_2. rewrite P21. assert (P : powerRZ 2 (4 - 24) = (/ 1048576)%R) by (change (/ 2 ^ 20 = / 1048576)%R; f_equal; ring).
    rewrite P. change (Z.abs 2 * 16) with 32. rewrite Rabs_pos_eq; lra.
  - intros (e & He & [P1 P2] & F). change (Z.abs 3 * 16) with 48 in *.
    assert (e = 5) as ->.
    { destruct (Z.lt_trichotomy e 5) as [L|[E|L]]; [|exact E|]; exfalso.
      - assert (2 ^ (e + 1) <= 2 ^ 5) by (apply Z.pow_le_mono_r; lia). lia.
      - assert (2 ^ 6 <= 2 ^ e) by (apply Z.pow_le_mono_r; lia). lia. }
    revert F. unfold real, read_3. rewrite P21. assert (P : powerRZ 2 (5 - 24) = (/ 524288)%R) by (change (/ 2 ^ 19 = / 524288)%R; f_equal; ring). rewrite P.
    rewrite Rabs_pos_eq; lra.
Qed.
