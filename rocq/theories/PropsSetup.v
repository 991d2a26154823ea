(** Property theorems C118: a program can set up every combination of parameters. *)
From Coq Require Import ZArith List.
From Verif Require Import Base F32 Types Lib Analog Com Fbc SpecParams SpecSetup ProofsSetup.
Import ListNotations.
Local Open Scope Z_scope.

(** C118: the numbers of the enumerations lead back to their variants. *)
Theorem C118_codes :
  inverse data_format_variants /\ inverse analog_ui_range_variants /\ inverse analog_i_range_variants /\ inverse rtd_range_variants /\
  inverse temperature_unit_variants /\ inverse connection_type_variants /\ inverse conversion_time_variants /\ inverse input_filter_variants /\
  inverse input_delay_variants /\ inverse frequency_suppression_variants /\ inverse tc_range_variants /\ inverse cold_junction_variants /\
  inverse operating_mode_variants /\ inverse data_bits_variants /\ inverse baud_rate_variants /\ inverse stop_bit_variants /\
  inverse parity_variants /\ inverse flow_control_variants /\ inverse process_data_length_variants.
Proof. exact C118_codes_all. Qed.
Print Assumptions C118_codes.
Example C118_codes_example :
  to_u16_is baud_rate_variants Baud_115200 11 /\ from_u16 baud_rate_variants 11 = Some Baud_115200 /\ from_u16 baud_rate_variants 12 = None.
Proof. split; [unfold to_u16_is; repeat (first [left; reflexivity|right])|]. split; reflexivity. Qed.

(** C118: registers lead to a module exactly when they hold its parameters; every module a program can describe is reached. *)
Theorem C118_configurable : forall t bounds regs m, param_bounds t = Some bounds -> length regs = length bounds -> Forall is_u16 regs ->
  (module_from_params t regs = Ok m <-> set_up t m regs).
Proof. exact C118_module_all. Qed.
Print Assumptions C118_configurable.

(** C118: a rack can be set up with any combination of such modules. *)
Theorem C118_rack : forall types ms params offsets,
  length ms = length types -> length params = length types -> length offsets = (2 * length types)%nat ->
  (forall i t m regs, nth_error types i = Some t -> nth_error ms i = Some m -> nth_error params i = Some regs -> set_up t m regs) ->
  exists c, coupler_new (mk_config types offsets params) = Ok c /\ c_modules c = ms.
Proof. exact C118_rack_all. Qed.
Print Assumptions C118_rack.

Definition example_com : module := MCOM SixteenBytes [mk_com RS485 EightBits Baud_115200 TwoBits ParityOdd XON_XOFF 17 19 true].
Definition example_rtd : module :=
  MRTD Fahrenheit [mk_rtd PT1000 FourWire CT_ms36 true false 32767 (-32768); mk_rtd PT100 TwoWire CT_ms240 false true (-1) 0;
                   mk_rtd PT100 TwoWire CT_ms240 false true 500 (-500); mk_rtd PT100 TwoWire CT_ms240 false false 0 0].
Example C118_example :
  param_bounds UR20_1COM_232_485_422 = Some [1; 3; 11; 1; 2; 2; 1; 1; 255; 255] /\
  set_up UR20_1COM_232_485_422 example_com [1; 2; 11; 1; 2; 2; 1; 1; 17; 19] /\
  exists regs, set_up UR20_4AI_RTD_DIAG example_rtd regs /\ Forall is_u16 regs /\ length regs = 29%nat /\
    nth 6 regs 0 = 32767 /\ nth 7 regs 0 = 32768 /\ nth 13 regs 0 = 65535 /\ nth 21 regs 0 = 65036.
Proof.
  split; [reflexivity|]. split.
  - split; [exact I|]. split; [vm_compute; repeat constructor; discriminate|].
    repeat (apply Forall2_cons; [reflexivity|]). apply Forall2_nil.
  - exists (map (fun c => match c with Code n => n | _ => 0 end) (params_registers example_rtd)).
    split; [split; [exact I|]; split; [vm_compute; repeat constructor; discriminate|repeat (apply Forall2_cons; [reflexivity|]); apply Forall2_nil]|].
    split; [vm_compute; repeat constructor; discriminate|]. vm_compute. auto 10.
Qed.
Example C118_rack_example : exists regs c,
  (forall i t m r, nth_error [UR20_1COM_232_485_422; UR20_4AI_RTD_DIAG] i = Some t -> nth_error [example_com; example_rtd] i = Some m ->
     nth_error [[1; 2; 11; 1; 2; 2; 1; 1; 17; 19]; regs] i = Some r -> set_up t m r) /\
  coupler_new (mk_config [UR20_1COM_232_485_422; UR20_4AI_RTD_DIAG] [0x8000; 0; 0xFFFF; 0x0080] [[1; 2; 11; 1; 2; 2; 1; 1; 17; 19]; regs]) = Ok c /\
  c_modules c = [example_com; example_rtd].
Proof.
  destruct C118_example as (_ & C & regs & R & _ & _). exists regs.
  assert (H : forall i t m r, nth_error [UR20_1COM_232_485_422; UR20_4AI_RTD_DIAG] i = Some t -> nth_error [example_com; example_rtd] i = Some m ->
     nth_error [[1; 2; 11; 1; 2; 2; 1; 1; 17; 19]; regs] i = Some r -> set_up t m r).
  { intros [|[|i]] t m r Ht Hm Hr; cbn [nth_error] in Ht, Hm, Hr.
    - injection Ht as <-. injection Hm as <-. injection Hr as <-. exact C.
    - injection Ht as <-. injection Hm as <-. injection Hr as <-. exact R.
    - destruct i; discriminate. }
  destruct (C118_rack [UR20_1COM_232_485_422; UR20_4AI_RTD_DIAG] [example_com; example_rtd] [[1; 2; 11; 1; 2; 2; 1; 1; 17; 19]; regs]
    [0x8000; 0; 0xFFFF; 0x0080] eq_refl eq_refl eq_refl H) as (c & N & M). exists c. auto.
Qed.
