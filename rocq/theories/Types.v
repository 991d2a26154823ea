(** The data types of the crate.  Definitions only. *)
From Coq Require Import ZArith List Bool String.
From Verif Require Import Base F32.
Import ListNotations.
Local Open Scope Z_scope.

(** src/lib.rs 84-107: [enum ModuleCategory] *)
Inductive module_category : Set :=
| DI | DO | AI | AO | CNT | PWM | RTD | TC | COM | RO | PF.

(** src/lib.rs 112-195: [enum ModuleType] *)
Inductive module_type : Set :=
| UR20_4DI_P | UR20_4DI_P_3W | UR20_8DI_P_2W | UR20_8DI_P_3W | UR20_8DI_P_3W_HD
| UR20_16DI_P | UR20_16DI_P_PLC_INT | UR20_2DI_P_TS | UR20_4DI_P_TS | UR20_4DI_N
| UR20_8DI_N_3W | UR20_16DI_N | UR20_16DI_N_PLC_INT | UR20_4DI_2W_230V_AC
| UR20_4DO_P | UR20_4DO_P_2A | UR20_4DO_PN_2A | UR20_8DO_P | UR20_8DO_P_2W_HD
| UR20_16DO_P | UR20_16DO_P_PLC_INT | UR20_4DO_N | UR20_4DO_N_2A | UR20_8DO_N
| UR20_16DO_N | UR20_16DO_N_PLC_INT | UR20_4RO_SSR_255 | UR20_4RO_CO_255
| UR20_2PWM_PN_0_5A | UR20_2PWM_PN_2A
| UR20_4AI_UI_16 | UR20_4AI_UI_16_DIAG | UR20_4AI_UI_DIF_16_DIAG | UR20_4AI_UI_16_HD
| UR20_4AI_UI_16_DIAG_HD | UR20_4AI_UI_12 | UR20_8AI_I_16_HD | UR20_8AI_I_16_DIAG_HD
| UR20_8AI_I_PLC_INT | UR20_4AI_R_HS_16_DIAG | UR20_2AI_SG_24_DIAG | UR20_3EM_230V_AC
| UR20_4AO_UI_16 | UR20_4AO_UI_16_M | UR20_4AO_UI_16_DIAG | UR20_4AO_UI_16_M_DIAG
| UR20_4AO_UI_16_HD | UR20_4AO_UI_16_DIAG_HD
| UR20_1CNT_100_1DO | UR20_2CNT_100 | UR20_1CNT_500 | UR20_2FCNT_100
| UR20_1SSI | UR20_1COM_232_485_422 | UR20_1COM_SAI_PRO | UR20_4COM_IO_LINK
| UR20_4AI_RTD_DIAG | UR20_4AI_TC_DIAG
| UR20_PF_I | UR20_PF_O
| UR20_PF_O_1DI_SIL | UR20_PF_O_2DI_SIL | UR20_PF_O_2DI_DELAY_SIL.

(** [#[derive(FromPrimitive)]]: [FromPrimitive::from_u16(n)] finds the variant whose
    discriminant is [n].  The variants are listed with their discriminants. *)
Definition from_u16 {A} (variants : list (A * Z)) (n : Z) : option A :=
  option_map fst (find (fun v => snd v =? n) variants).

(** src/lib.rs 199-204: [enum DataFormat] *)
Inductive data_format : Set := S5 | S7.
Definition data_format_variants := [(S5, 0); (S7, 1)].

(** src/lib.rs 218-237: [enum AnalogUIRange] *)
Inductive analog_ui_range : Set :=
| UI_mA0To20 | UI_mA4To20 | UI_V0To10 | UI_VMinus10To10 | UI_V0To5 | UI_VMinus5To5
| UI_V1To5 | UI_V2To10 | UI_Disabled.
Definition analog_ui_range_variants :=
  [(UI_mA0To20, 0); (UI_mA4To20, 1); (UI_V0To10, 2); (UI_VMinus10To10, 3); (UI_V0To5, 4);
   (UI_VMinus5To5, 5); (UI_V1To5, 6); (UI_V2To10, 7); (UI_Disabled, 8)].

(** src/lib.rs 242-249: [enum AnalogIRange] *)
Inductive analog_i_range : Set := I_mA0To20 | I_mA4To20 | I_Disabled.
Definition analog_i_range_variants := [(I_mA0To20, 0); (I_mA4To20, 1); (I_Disabled, 2)].

(** src/lib.rs 253-292: [enum RtdRange] *)
Inductive rtd_range : Set :=
| PT100 | PT200 | PT500 | PT1000 | NI100 | NI120 | NI200 | NI500 | NI1000 | Cu10
| R40 | R80 | R150 | R300 | R500 | R1000 | R2000 | R4000 | RTD_Disabled.
Definition rtd_range_variants :=
  [(PT100, 0); (PT200, 1); (PT500, 2); (PT1000, 3); (NI100, 4); (NI120, 5); (NI200, 6);
   (NI500, 7); (NI1000, 8); (Cu10, 9); (R40, 10); (R80, 11); (R150, 12); (R300, 13);
   (R500, 14); (R1000, 15); (R2000, 16); (R4000, 17); (RTD_Disabled, 18)].

(** src/lib.rs 298-302: [enum TemperatureUnit] *)
Inductive temperature_unit : Set := Celsius | Fahrenheit | Kelvin.
Definition temperature_unit_variants := [(Celsius, 0); (Fahrenheit, 1); (Kelvin, 2)].

(** src/lib.rs 307-311: [enum ConnectionType] *)
Inductive connection_type : Set := TwoWire | ThreeWire | FourWire.
Definition connection_type_variants := [(TwoWire, 0); (ThreeWire, 1); (FourWire, 2)].

(** src/lib.rs 317-324: [enum ConversionTime] *)
Inductive conversion_time : Set := CT_ms240 | CT_ms130 | CT_ms80 | CT_ms55 | CT_ms43 | CT_ms36.
Definition conversion_time_variants :=
  [(CT_ms240, 0); (CT_ms130, 1); (CT_ms80, 2); (CT_ms55, 3); (CT_ms43, 4); (CT_ms36, 5)].

(** src/lib.rs 330-348: [enum InputFilter] *)
Inductive input_filter : Set :=
| us5 | us11 | us21 | us43 | us83 | us167 | us333 | us667 | IF_ms1 | IF_ms3 | IF_ms5
| IF_ms11 | IF_ms22 | IF_ms43 | IF_ms91 | IF_ms167 | IF_ms333.
Definition input_filter_variants :=
  [(us5, 0); (us11, 1); (us21, 2); (us43, 3); (us83, 4); (us167, 5); (us333, 6); (us667, 7);
   (IF_ms1, 8); (IF_ms3, 9); (IF_ms5, 10); (IF_ms11, 11); (IF_ms22, 12); (IF_ms43, 13);
   (IF_ms91, 14); (IF_ms167, 15); (IF_ms333, 16)].

(** src/lib.rs 354-361: [enum InputDelay] *)
Inductive input_delay : Set := ID_no | ID_us300 | ID_ms3 | ID_ms10 | ID_ms20 | ID_ms40.
Definition input_delay_variants :=
  [(ID_no, 0); (ID_us300, 1); (ID_ms3, 2); (ID_ms10, 3); (ID_ms20, 4); (ID_ms40, 5)].

(** src/lib.rs 367-372: [enum FrequencySuppression] *)
Inductive frequency_suppression : Set := FS_Disabled | FS_Hz50 | FS_Hz60 | FS_Average16.
Definition frequency_suppression_variants :=
  [(FS_Disabled, 0); (FS_Hz50, 1); (FS_Hz60, 2); (FS_Average16, 3)].

(** src/ur20_4ai_tc_diag.rs 49-81: [enum MeasurementRange] *)
Inductive tc_range : Set :=
| TC_Type_J | TC_Type_K | TC_Type_N | TC_Type_R | TC_Type_S | TC_Type_T | TC_Type_B
| TC_Type_C | TC_Type_E | TC_Type_L | TC_Type_U
| uVPlusMinus15625 | uVPlusMinus31250 | uVPlusMinus62500 | mVPlusMinus125 | mVPlusMinus250
| mVPlusMinus500 | VPlusMinus1 | VPlusMinus2 | TC_Disabled.
Definition tc_range_variants :=
  [(TC_Type_J, 0); (TC_Type_K, 1); (TC_Type_N, 2); (TC_Type_R, 3); (TC_Type_S, 4);
   (TC_Type_T, 5); (TC_Type_B, 6); (TC_Type_C, 7); (TC_Type_E, 8); (TC_Type_L, 9);
   (TC_Type_U, 10); (uVPlusMinus15625, 11); (uVPlusMinus31250, 12); (uVPlusMinus62500, 13);
   (mVPlusMinus125, 14); (mVPlusMinus250, 15); (mVPlusMinus500, 16); (VPlusMinus1, 17);
   (VPlusMinus2, 18); (TC_Disabled, 19)].

(** src/ur20_4ai_tc_diag.rs 85-92: [enum ColdJunctionCompensation] *)
Inductive cold_junction : Set :=
| CJ_Internal | CJ_External0 | CJ_External1 | CJ_External2 | CJ_External3.
Definition cold_junction_variants :=
  [(CJ_Internal, 0); (CJ_External0, 1); (CJ_External1, 2); (CJ_External2, 3); (CJ_External3, 4)].

(** src/ur20_1com_232_485_422.rs 94-99: [enum OperatingMode] *)
Inductive operating_mode : Set := OM_Disabled | RS232 | RS485 | RS422.
Definition operating_mode_variants := [(OM_Disabled, 0); (RS232, 1); (RS485, 2); (RS422, 3)].

(** src/ur20_1com_232_485_422.rs 102-105: [enum DataBits] *)
Inductive data_bits : Set := SevenBits | EightBits.
Definition data_bits_variants := [(SevenBits, 0); (EightBits, 1)].

(** src/ur20_1com_232_485_422.rs 110-123: [enum BaudRate] *)
Inductive baud_rate : Set :=
| Baud_300 | Baud_600 | Baud_1200 | Baud_2400 | Baud_4800 | Baud_9600 | Baud_14400
| Baud_19200 | Baud_28800 | Baud_38400 | Baud_57600 | Baud_115200.
Definition baud_rate_variants :=
  [(Baud_300, 0); (Baud_600, 1); (Baud_1200, 2); (Baud_2400, 3); (Baud_4800, 4);
   (Baud_9600, 5); (Baud_14400, 6); (Baud_19200, 7); (Baud_28800, 8); (Baud_38400, 9);
   (Baud_57600, 10); (Baud_115200, 11)].

(** src/ur20_1com_232_485_422.rs 127-130: [enum StopBit] *)
Inductive stop_bit : Set := OneBit | TwoBits.
Definition stop_bit_variants := [(OneBit, 0); (TwoBits, 1)].

(** src/ur20_1com_232_485_422.rs 134-138: [enum Parity] *)
Inductive parity : Set := ParityNone | ParityEven | ParityOdd.
Definition parity_variants := [(ParityNone, 0); (ParityEven, 1); (ParityOdd, 2)].

(** src/ur20_1com_232_485_422.rs 143-147: [enum FlowControl] *)
Inductive flow_control : Set := FlowNone | CTS_RTS | XON_XOFF.
Definition flow_control_variants := [(FlowNone, 0); (CTS_RTS, 1); (XON_XOFF, 2)].

(** src/ur20_1com_232_485_422.rs 151-154: [enum ProcessDataLength] *)
Inductive process_data_length : Set := EightBytes | SixteenBytes.
Definition process_data_length_variants := [(EightBytes, 0); (SixteenBytes, 1)].

(** src/ur20_1com_232_485_422.rs 21-40: serial [struct ProcessInput];
    counters are [usize], data are bytes. *)
Record rs_in : Set := mk_rs_in {
  ri_data_available : bool;
  ri_buffer_nearly_full : bool;
  ri_rx_cnt : Z;
  ri_tx_cnt_ack : Z;
  ri_ready : bool;
  ri_data : list Z }.

(** src/ur20_1com_232_485_422.rs 43-70: serial [struct ProcessOutput]. *)
Record rs_out : Set := mk_rs_out {
  ro_rx_buf_flush : bool;
  ro_tx_buf_flush : bool;
  ro_disable_tx_hw_buffer : bool;
  ro_tx_cnt : Z;
  ro_rx_cnt_ack : Z;
  ro_reset : bool;
  ro_data : list Z }.

(** [std::time::Duration]: whole seconds (u64) and nanoseconds below 10^9. *)
Record duration : Set := mk_duration { d_secs : Z; d_nanos : Z }.

(** src/ur20_2fcnt_100.rs 22-29: counter [struct ProcessInput]. *)
Record fcnt_in : Set := mk_fcnt_in {
  fi_duration : option duration;
  fi_count : Z;
  fi_active : bool }.

(** src/ur20_2fcnt_100.rs 44-49: [enum Command]. *)
Inductive command : Set := Start | Stop.

(** src/ur20_2fcnt_100.rs 52-57: counter [struct ProcessOutput]. *)
Record fcnt_out : Set := mk_fcnt_out {
  fo_duration : duration;
  fo_command : option command }.

(** src/ur20_pf_o_1di_sil.rs 14-30: power feed [struct ProcessInput]. *)
Record sil_in : Set := mk_sil_in {
  si_safety_input : bool;
  si_autostart : bool;
  si_manual_start : bool;
  si_safety_input_channel_1 : bool;
  si_safety_input_channel_2 : bool;
  si_volt_24_safe_output : bool;
  si_volt_24_dc : bool }.

(** src/lib.rs 42-63: [enum ChannelValue]. *)
Inductive channel_value : Set :=
| Bit (b : bool)
| Decimal32 (v : f32)
| ComRsIn (i : rs_in)
| ComRsOut (o : rs_out)
| FcntIn (i : fcnt_in)
| FcntOut (o : fcnt_out)
| SilPFIn (i : sil_in)
| Bytes (b : list Z)
| Disabled
| VNone.               (* [ChannelValue::None] *)

(** src/lib.rs 67-72: [struct Address]. *)
Record address : Set := mk_address { a_module : nat; a_channel : nat }.
Definition address_eqb (a b : address) : bool :=
  Nat.eqb (a_module a) (a_module b) && Nat.eqb (a_channel a) (a_channel b).
