(** Property theorems C16 - C22 and C25: analog values, readback and frequency. *)
From Coq Require Import ZArith Reals List Bool Lia Lra SpecFloat.
From Verif Require Import Base F32 Types Lib Util Analog Fcnt Fbc SpecCodec SpecCoupler SpecAnalog ProofsAnalog ProofsReadback ProofsCreepOffset ProofsHertz.
Import ListNotations.
Local Open Scope Z_scope.

(** An input and an output module with different ranges and formats. *)
Definition example_ai : module :=
  MUI16DIAG FS_Disabled [mk_ai_ui_diag false false false S5 UI_mA0To20; mk_ai_ui_diag false false false S7 UI_V2To10;
    mk_ai_ui_diag true false true S7 UI_VMinus10To10; mk_ai_ui_diag false false false S5 UI_Disabled].
Definition example_ao : module :=
  M4AODIAG [mk_ao_diag S5 UI_mA4To20 (f32_of_Z 4) false; mk_ao_diag S7 UI_mA0To20 (f32_of_Z 0) true;
    mk_ao_diag S7 UI_V1To5 (f32_of_Z 1) true; mk_ao_diag S5 UI_Disabled (f32_of_Z 0) true].
Definition half (z : Z) : f32 := f32_frac z 2.

(** C16: what an analog input shows, and an analog output reads back, for a code is [Disabled]
    exactly for a disabled channel and otherwise the physical value of the code: the nearest
    [f32] for ranges from zero, exact for format S5, rounded at most once more for the others. *)
Theorem C16_analog_value :
  forall m k d v r f,
  analog_input m k = Some (r, f) /\ shows m k d v \/ analog_output m k = Some (r, f) /\ reads_back m k d v ->
  is_u16 d ->
  match base_span r with
  | None => v = Disabled
  | Some (base, span) => exists x, v = Decimal32 x /\ decoded base span (full_code f) (signed d) x
  end.
Proof. exact C16_all. Qed.
Print Assumptions C16_analog_value.
(** It shows a value for each channel of each image. *)
Theorem C16_analog_values_exist :
  forall m data, (0 < channels m)%nat -> length data = channels m ->
  ((forall k, (k < channels m)%nat <-> analog_input m k <> None) ->
     exists vs, mod_process_input_data m data = Ok vs /\ length vs = channels m) /\
  ((forall k, (k < channels m)%nat <-> analog_output m k <> None) ->
     exists vs, mod_process_output_data m data = Ok vs /\ length vs = channels m).
Proof. exact C16_total. Qed.
Print Assumptions C16_analog_values_exist.
Example C16_case_input : analog_input example_ai 0 = Some (UI_mA0To20, S5) /\ shows example_ai 0 0x2000 (Decimal32 (f32_of_Z 10)).
Proof. split; [reflexivity|]. apply (shows_run _ [0x2000; 27648; 0; 5]); vm_compute; reflexivity. Qed.
Example C16_case_offset : analog_input example_ai 1 = Some (UI_V2To10, S7) /\ shows example_ai 1 27648 (Decimal32 (f32_of_Z 10)).
Proof. split; [reflexivity|]. apply (shows_run _ [0x2000; 27648; 0; 5]); vm_compute; reflexivity. Qed.
Example C16_case_disabled : analog_input example_ai 3 = Some (UI_Disabled, S5) /\ shows example_ai 3 5 Disabled.
Proof. split; [reflexivity|]. apply (shows_run _ [0x2000; 27648; 0; 5]); vm_compute; reflexivity. Qed.
Example C16_case_readback : analog_output example_ao 0 = Some (UI_mA4To20, S5) /\ reads_back example_ao 0 0xF000 (Decimal32 (f32_of_Z 0)).
Proof. split; [reflexivity|]. apply (reads_back_run _ [0xF000; 0; 0; 0]); vm_compute; reflexivity. Qed.
Example C16_case_complete : (0 < channels example_ai)%nat /\ forall k, (k < channels example_ai)%nat <-> analog_input example_ai k <> None.
Proof.
  change (channels example_ai) with 4%nat. split; [lia|]. intros k. destruct k as [|[|[|[|k]]]]; cbn;
    try (split; [discriminate|lia]). destruct k; cbn; split; try lia; intros H; contradiction H; reflexivity.
Qed.

(** C17: an analog output with settings for all channels accepts every list of analog values; a
    code is always a 16 bit word, 0 for NaN, for [Disabled] and for disabled channels; values
    beyond the range of codes give the extreme codes; larger values never get smaller codes. *)
Theorem C17_analog_encoding :
  (forall prof m values, (0 < channels m)%nat -> (forall k, (k < channels m)%nat <-> analog_output m k <> None) ->
     length values = channels m -> Forall is_analog_value values ->
     exists data, mod_process_output_values prof m values = Ok data /\ length data = channels m) /\
  (forall m k r f v d, analog_output m k = Some (r, f) -> sends m k v d ->
     is_u16 d /\ is_analog_value v /\ (v = Disabled \/ r = UI_Disabled \/ v = Decimal32 S754_nan -> d = 0)) /\
  (forall m k r f base span x d, analog_output m k = Some (r, f) -> base_span r = Some (base, span) ->
     sends m k (Decimal32 x) d ->
     (x = S754_infinity false -> signed d = 32767) /\ (x = S754_infinity true -> signed d = -32768) /\
     (f32_valid x = true -> finite x ->
        ((32768 <= exact_code base span (full_code f) (real x))%R -> signed d = 32767) /\
        ((exact_code base span (full_code f) (real x) <= -32769)%R -> signed d = -32768))) /\
  (forall m1 k1 m2 k2 r f x1 x2 d1 d2, analog_output m1 k1 = Some (r, f) -> analog_output m2 k2 = Some (r, f) ->
     sends m1 k1 (Decimal32 x1) d1 -> sends m2 k2 (Decimal32 x2) d2 ->
     f32_valid x1 = true -> f32_valid x2 = true -> at_most x1 x2 -> signed d1 <= signed d2).
Proof. exact C17_all. Qed.
Print Assumptions C17_analog_encoding.
Example C17_case_complete : (0 < channels example_ao)%nat /\ forall k, (k < channels example_ao)%nat <-> analog_output example_ao k <> None.
Proof.
  change (channels example_ao) with 4%nat. split; [lia|]. intros k. destruct k as [|[|[|[|k]]]]; cbn;
    try (split; [discriminate|lia]). destruct k; cbn; split; try lia; intros H; contradiction H; reflexivity.
Qed.
Example C17_case_values : sends example_ao 0 (Decimal32 (f32_of_Z 12)) 8192 /\ sends example_ao 1 (Decimal32 (f32_of_Z (-1000))) 0x8000 /\
  sends example_ao 1 (Decimal32 (f32_of_Z 1000)) 0x7FFF /\ sends example_ao 2 (Decimal32 S754_nan) 0 /\
  sends example_ao 2 (Decimal32 (S754_infinity true)) 0x8000 /\ sends example_ao 3 Disabled 0.
Proof.
  split; [|split; [|split; [|split; [|split]]]].
  - apply (sends_run Debug _ [Decimal32 (f32_of_Z 12); Decimal32 (f32_of_Z (-1000)); Decimal32 S754_nan; Disabled]); vm_compute; reflexivity.
  - apply (sends_run Debug _ [Decimal32 (f32_of_Z 12); Decimal32 (f32_of_Z (-1000)); Decimal32 S754_nan; Disabled]); vm_compute; reflexivity.
  - apply (sends_run Debug _ [Disabled; Decimal32 (f32_of_Z 1000); Decimal32 (S754_infinity true); Disabled]); vm_compute; reflexivity.
  - apply (sends_run Debug _ [Decimal32 (f32_of_Z 12); Decimal32 (f32_of_Z (-1000)); Decimal32 S754_nan; Disabled]); vm_compute; reflexivity.
  - apply (sends_run Debug _ [Disabled; Decimal32 (f32_of_Z 1000); Decimal32 (S754_infinity true); Disabled]); vm_compute; reflexivity.
  - apply (sends_run Debug _ [Disabled; Decimal32 (f32_of_Z 1000); Decimal32 (S754_infinity true); Disabled]); vm_compute; reflexivity.
Qed.

(** C18: within the range of codes the code differs from the exact one by less than 1.01. *)
Theorem C18_analog_accuracy :
  forall m k r f base span x d, analog_output m k = Some (r, f) -> base_span r = Some (base, span) ->
  sends m k (Decimal32 x) d -> f32_valid x = true -> finite x ->
  (-32768 <= exact_code base span (full_code f) (real x) <= 32767)%R ->
  (Rabs (IZR (signed d) - exact_code base span (full_code f) (real x)) < 101 / 100)%R.
Proof. exact C18_all. Qed.
Print Assumptions C18_analog_accuracy.
Example C18_case : analog_output example_ao 1 = Some (UI_mA0To20, S7) /\ base_span UI_mA0To20 = Some (0, 20) /\
  sends example_ao 1 (Decimal32 (half 15)) 10368 /\ finite (half 15) /\ f32_valid (half 15) = true /\
  (-32768 <= exact_code 0 20 (full_code S7) (real (half 15)) <= 32767)%R.
Proof.
  split; [reflexivity|]. split; [reflexivity|]. split.
  - apply (sends_run Debug _ [Disabled; Decimal32 (half 15); Disabled; Disabled]); vm_compute; reflexivity.
  - split; [vm_compute; exact I|]. split; [vm_compute; reflexivity|].
    replace (half 15) with (S754_finite false 15728640 (-21)) by (vm_compute; reflexivity).
    unfold exact_code. cbn [full_code real]. change (powerRZ 2 (-21)) with (/ 2 ^ 21)%R. replace (2 ^ 21)%R with 2097152%R by (cbn; lra). lra.
Qed.

(** C19: with format S5 writing back the value read back sends the same code again. *)
Theorem C19_readback_S5 :
  forall m data, all_analog_outputs m -> length data = 4%nat -> Forall is_u16 data ->
  (forall prof, exists values data', mod_process_output_data m data = Ok values /\
      mod_process_output_values prof m values = Ok data' /\ length data' = 4%nat) /\
  (forall data' k r d d', rewrites m data data' -> analog_output m k = Some (r, S5) ->
      nth_error data k = Some d -> nth_error data' k = Some d' ->
      d' = match r with UI_Disabled => 0 | _ => d end).
Proof. exact C19_all. Qed.
Print Assumptions C19_readback_S5.
Example C19_case : all_analog_outputs example_ao /\ rewrites example_ao [0xF123; 0; 0; 7] [0xF123; 0; 0; 0] /\
  analog_output example_ao 0 = Some (UI_mA4To20, S5).
Proof.
  split; [|split; [|reflexivity]].
  - exact (proj2 C17_case_complete).
  - apply (rewrites_run Debug). vm_compute. reflexivity.
Qed.

(** C20, as far as it holds: with format S7 each time the value read back is written again the
    code may move by one towards zero; it moves by at most five in all, is stable
    after five times and never passes a multiple of 27; multiples of 27 never move.  Missing: the code does
    not move at all. *)
Theorem C20_readback_S7_partial :
  forall m k r n data data' d d', analog_output m k = Some (r, S7) -> r <> UI_Disabled ->
  rewrites_n m n data data' -> nth_error data k = Some d -> nth_error data' k = Some d' -> is_u16 d ->
  is_u16 d' /\ towards_zero (signed d) (signed d') /\
  (n = 1%nat -> Z.abs (signed d' - signed d) <= 1) /\
  (forall j, towards_zero (signed d) (27 * j) -> towards_zero (signed d') (27 * j)) /\
  Z.abs (signed d' - signed d) <= 5 /\
  (forall j, signed d = 27 * j -> d' = d) /\
  (forall data'' d'', (5 <= n)%nat -> rewrites m data' data'' -> nth_error data'' k = Some d'' -> d'' = d').
Proof. exact C20_all. Qed.
Print Assumptions C20_readback_S7_partial.
(** C20 is false as stated: on a channel 0 - 20 mA with format S7 code 45 is sent as 44. *)
Theorem C20_refuted :
  exists m data data' k, all_analog_outputs m /\
  (forall i, (i < 4)%nat -> analog_output m i = Some (UI_mA0To20, S7)) /\ Forall is_u16 data /\
  rewrites m data data' /\ nth_error data k = Some 45 /\ nth_error data' k = Some 44.
Proof. exact C20_drift. Qed.
Print Assumptions C20_refuted.
Example C20_case : rewrites_n drifting 2 [45; 27648; 101; 0xFFFF] [44; 27648; 100; 0xFFFF].
Proof.
  apply (rewrites_S _ _ _ [44; 27648; 100; 0xFFFF]); [apply (rewrites_run Debug); vm_compute; reflexivity|].
  apply (rewrites_S _ _ _ [44; 27648; 100; 0xFFFF]); [apply (rewrites_run Debug); vm_compute; reflexivity|]. apply rewrites_0.
Qed.

(** C21: temperatures are the nearest value to the signed code in tenths, resistances within
    2^-23 of the full scale times code over 27648. *)
Theorem C21_rtd_value :
  forall u ch k p d v, nth_error ch k = Some p -> shows (MRTD u ch) k d v -> is_u16 d ->
  match rtd_measurement_range p with
  | RTD_Disabled => v = Disabled
  | r => exists x, v = Decimal32 x /\
      match full_resistance r with
      | Some full => within (/ 8388608) x (IZR full * IZR d / 27648)
      | None => nearest x (IZR (signed d) / 10)
      end
  end.
Proof. exact C21_all. Qed.
Print Assumptions C21_rtd_value.
Definition example_rtd : list rtd_params :=
  [mk_rtd PT100 TwoWire CT_ms80 false false 0 0; mk_rtd R2000 FourWire CT_ms36 true true 5 (-5);
   mk_rtd RTD_Disabled TwoWire CT_ms80 false false 0 0; mk_rtd NI1000 TwoWire CT_ms80 false false 0 0].
Example C21_case : shows (MRTD Celsius example_rtd) 0 0xFFFB (Decimal32 (half (-1))) /\
  shows (MRTD Celsius example_rtd) 1 27648 (Decimal32 (f32_of_Z 2000)) /\ shows (MRTD Celsius example_rtd) 2 7 Disabled.
Proof. split; [|split]; apply (shows_run _ [0xFFFB; 27648; 7; 0]); vm_compute; reflexivity. Qed.

(** C22: thermocouples report no value exactly for code 0x7FFF (line break) and otherwise tenths
    within 2^-22; voltage ranges the nearest value to full scale times code over 32767. *)
Theorem C22_tc_value :
  forall u ch k p d v, nth_error ch k = Some p -> shows (MTC u ch) k d v -> is_u16 d ->
  match tc_measurement_range p with
  | TC_Disabled => v = Disabled
  | r =>
      match full_microvolts r with
      | Some full => exists x, v = Decimal32 x /\ nearest x (IZR full / 1000000 * IZR (signed d) / 32767)
      | None => d = 0x7FFF /\ v = VNone \/
                d <> 0x7FFF /\ exists x, v = Decimal32 x /\ within (/ 4194304) x (IZR (signed d) / 10)
      end
  end.
Proof. exact C22_all. Qed.
Print Assumptions C22_tc_value.
Definition example_tc : list tc_params :=
  [mk_tc TC_Type_J CJ_Internal CT_ms80 false false 0 0; mk_tc TC_Type_K CJ_External0 CT_ms36 true true 5 (-5);
   mk_tc TC_Disabled CJ_Internal CT_ms80 false false 0 0; mk_tc uVPlusMinus15625 CJ_Internal CT_ms80 false false 0 0].
Example C22_case : shows (MTC Celsius example_tc) 0 0x7FFF VNone /\ shows (MTC Celsius example_tc) 1 100 (Decimal32 (f32_of_Z 10)) /\
  shows (MTC Celsius example_tc) 2 0x7FFF Disabled /\ shows (MTC Celsius example_tc) 3 0x7FFF (Decimal32 (f32_frac 1 64)).
Proof. split; [|split; [|split]]; apply (shows_run _ [0x7FFF; 100; 0x7FFF; 0x7FFF]); vm_compute; reflexivity. Qed.

(** C25: the frequency is within 2^-21 of the count divided by the period; without a period there
    is none; a period of zero gives an infinite frequency, or NaN if the count is zero too. *)
Theorem C25_hertz :
  forall i, is_u32 (fi_count i) ->
  match fi_duration i with
  | None => hertz i = None
  | Some d => 0 <= d_secs d < 2 ^ 64 -> 0 <= d_nanos d < 1000000000 ->
      exists x, hertz i = Some x /\
        (0 < d_secs d + d_nanos d ->
           within (/ 2097152) x (IZR (fi_count i) / (IZR (d_secs d) + IZR (d_nanos d) / 1000000000))) /\
        (d_secs d + d_nanos d = 0 -> x = if fi_count i =? 0 then S754_nan else S754_infinity false)
  end.
Proof. exact C25_all. Qed.
Print Assumptions C25_hertz.
Example C25_case : hertz (mk_fcnt_in (Some (mk_duration 2 500000000)) 5 true) = Some (f32_of_Z 2) /\
  hertz (mk_fcnt_in (Some (mk_duration 0 0)) 5 true) = Some (S754_infinity false) /\ hertz (mk_fcnt_in None 5 true) = None.
Proof. split; [|split]; vm_compute; reflexivity. Qed.
