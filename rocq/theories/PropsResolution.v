(** C77: measured values keep the order and the resolution of the registers. *)
From Coq Require Import ZArith List Bool.
From Verif Require Import Base Facts F32 Types Lib Analog Fbc SpecCodec SpecCoupler SpecAnalog SpecResolution ProofsWitness ProofsResolution.
Import ListNotations.
Local Open Scope Z_scope.

(** C77. On every enabled channel of an analog, resistance or thermocouple input, the shown numbers are finite, are in the order of
    the numbers in the registers and are equal only for equal registers. *)
Theorem C77_order : forall m k code d1 d2 x1 x2, measures m k = Some code -> is_u16 d1 -> is_u16 d2 ->
  shows m k d1 (Decimal32 x1) -> shows m k d2 (Decimal32 x2) ->
  finite x1 /\ finite x2 /\ (less x1 x2 <-> code d1 < code d2) /\ (equal x1 x2 <-> d1 = d2).
Proof. exact order_all. Qed.
Print Assumptions C77_order.
(** C77. Such a channel always shows a finite number, but for a thermocouple with a broken line. *)
Theorem C77_number : forall m k code d v, measures m k = Some code -> is_u16 d -> shows m k d v ->
  (exists x, v = Decimal32 x /\ finite x) \/ (v = VNone /\ d = 0x7FFF /\ exists u ch, m = MTC u ch).
Proof. exact shown_all. Qed.
Print Assumptions C77_number.
(** C77. The same order for the values read back from analog outputs. *)
Theorem C77_readback_order : forall m k r f d1 d2 x1 x2, analog_output m k = Some (r, f) -> is_u16 d1 -> is_u16 d2 ->
  reads_back m k d1 (Decimal32 x1) -> reads_back m k d2 (Decimal32 x2) ->
  finite x1 /\ finite x2 /\ (less x1 x2 <-> signed d1 < signed d2) /\ (equal x1 x2 <-> d1 = d2).
Proof. exact readback_all. Qed.
Print Assumptions C77_readback_order.
(** C77. Comparing the values of a module with [==] detects exactly the changes of the registers of its enabled channels ... *)
Theorem C77_change : forall m data1 data2 vs1 vs2, measuring_module m -> fully_configured m -> Forall is_u16 data1 -> Forall is_u16 data2 ->
  mod_process_input_data m data1 = Ok vs1 -> mod_process_input_data m data2 = Ok vs2 ->
  Forall2 same_value vs1 vs2 <-> forall k, measures m k <> None -> nth_error data1 k = nth_error data2 k.
Proof. exact row_all. Qed.
Print Assumptions C77_change.
(** ... also in [inputs()] after any two successful cycles, for instance of the same coupler, after any history. *)
Theorem C77_cached_change : forall prof c input output c' image d input2 output2 d' image2 i m o off row row2,
  reachable prof c -> cycle prof c input output c' (Ok image) -> reachable prof d -> cycle prof d input2 output2 d' (Ok image2) ->
  module_at c i m o -> module_at d i m o -> measuring_module m -> mo_input o = Some off -> off mod 16 = 0 ->
  nth_error (inputs c') i = Some row -> nth_error (inputs d') i = Some row2 ->
  Forall2 same_value row row2 <->
  forall k, measures m k <> None -> nth_error input (Z.to_nat (off / 16) + k) = nth_error input2 (Z.to_nat (off / 16) + k).
Proof. exact cached_all. Qed.
Print Assumptions C77_cached_change.

(** A current module with two enabled channels, behind a digital input module. *)
Definition meter_config : config :=
  mk_config [UR20_4DI_P; UR20_8AI_I_16_DIAG_HD] [0xFFFF; 0x0000; 0xFFFF; 0x0010]
    [repeat 0 4; [0] ++ [0; 0; 1; 1] ++ [0; 0; 1; 0] ++ concat (repeat [0; 0; 0; 2] 6)].
Definition meter0 : coupler := after no_coupler (coupler_new meter_config).
Definition meter_run (c : coupler) (input : list Z) : coupler := fst (next Debug as_is as_is c input []).
Definition meter_in1 : list Z := [0; 7; 100; 0; 0; 0; 0; 0; 0].
Definition meter_in2 : list Z := [5; 7; 101; 0; 0; 0; 0; 0; 0].
Definition meter_in3 : list Z := [5; 7; 101; 0; 0; 0; 0; 0; 9].
Definition meter1 : coupler := meter_run meter0 meter_in1.
Definition meter2 : coupler := meter_run meter1 meter_in2.
Definition meter3 : coupler := meter_run meter2 meter_in3.
Definition row_of (c : coupler) : list channel_value := nth 1 (inputs c) [].
Definition meter_module : module := nth 1 (c_modules meter0) MSIL.
Example C77_example : reachable Debug meter0 /\ reachable Debug meter1 /\ reachable Debug meter2 /\
  cycle Debug meter0 meter_in1 [] meter1 (Ok []) /\ cycle Debug meter1 meter_in2 [] meter2 (Ok []) /\ cycle Debug meter2 meter_in3 [] meter3 (Ok []) /\
  module_at meter1 1 meter_module (mk_offset (Some 0x0010) None) /\ measuring_module meter_module /\ fully_configured meter_module /\
  measures meter_module 1 = Some signed /\ measures meter_module 7 = None /\
  ~ Forall2 same_value (row_of meter1) (row_of meter2) /\ Forall2 same_value (row_of meter2) (row_of meter3).
Proof.
  assert (R0 : reachable Debug meter0) by (apply (start_reachable _ meter_config); vm_compute; reflexivity).
  assert (C1 : cycle Debug meter0 meter_in1 [] meter1 (Ok [])) by (apply step_cycle; vm_compute; reflexivity).
  assert (C2 : cycle Debug meter1 meter_in2 [] meter2 (Ok [])) by (apply step_cycle; vm_compute; reflexivity).
  assert (R1 : reachable Debug meter1) by (apply (cycle_reachable _ _ _ _ _ _ R0 C1); discriminate).
  assert (R2 : reachable Debug meter2) by (apply (cycle_reachable _ _ _ _ _ _ R1 C2); discriminate).
  split; [exact R0|]. split; [exact R1|]. split; [exact R2|]. split; [exact C1|]. split; [exact C2|].
  split; [apply step_cycle; vm_compute; reflexivity|]. split; [split; vm_compute; reflexivity|]. split; [exact I|]. split; [reflexivity|].
  split; [reflexivity|]. split; [reflexivity|]. split.
  - intros H. apply Forall2_nth_error in H. destruct H as [_ H]. specialize (H 1%nat).
    destruct (nth_error (row_of meter1) 1) as [v|] eqn:E1; [|vm_compute in E1; discriminate].
    destruct (nth_error (row_of meter2) 1) as [w|] eqn:E2; [|vm_compute in E2; discriminate].
    specialize (H v w eq_refl eq_refl). vm_compute in E1, E2. apply Some_inj in E1, E2. subst v w. vm_compute in H. discriminate.
  - vm_compute. repeat (apply Forall2_cons; [reflexivity|]). apply Forall2_nil.
Qed.
(** A thermocouple and a resistance channel: -0.1, 0.1 and a broken line; 40000 is more than 20000. *)
Example C77_order_example :
  measures (MTC Celsius (repeat (mk_tc TC_Type_J CJ_Internal CT_ms80 false false 0 0) 4)) 0 = Some signed /\
  shows (MTC Celsius (repeat (mk_tc TC_Type_J CJ_Internal CT_ms80 false false 0 0) 4)) 0 0x7FFF VNone /\
  measures (MRTD Celsius (repeat (mk_rtd R40 TwoWire CT_ms80 false false 0 0) 4)) 0 = Some (fun d => d) /\
  exists x y, shows (MRTD Celsius (repeat (mk_rtd R40 TwoWire CT_ms80 false false 0 0) 4)) 0 20000 (Decimal32 x) /\
    shows (MRTD Celsius (repeat (mk_rtd R40 TwoWire CT_ms80 false false 0 0) 4)) 0 40000 (Decimal32 y) /\ less x y.
Proof.
  split; [reflexivity|]. split; [exists [0x7FFF; 0; 0; 0]; eexists; split; [vm_compute; reflexivity|split; reflexivity]|].
  split; [reflexivity|]. do 2 eexists. split; [exists [20000; 0; 0; 0]; eexists; split; [vm_compute; reflexivity|split; reflexivity]|].
  split; [exists [40000; 0; 0; 0]; eexists; split; [vm_compute; reflexivity|split; reflexivity]|]. vm_compute. reflexivity.
Qed.
