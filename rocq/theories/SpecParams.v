(** Specification of the module parameter registers (C09 - C12): the documented code
    ranges, and the registers denoted by a parameter structure. *)
From Coq Require Import ZArith List.
From Verif Require Import Base F32 Types Util Analog Com Fbc.
Import ListNotations.
Local Open Scope Z_scope.

(** Largest documented code of each parameter register, per supported module type. *)
Definition param_bounds (t : module_type) : option (list Z) :=
  match t with
  | UR20_4DI_P => Some [5; 5; 5; 5]
  | UR20_8DI_P_2W => Some [5; 5; 5; 5; 5; 5; 5; 5]
  | UR20_4DO_P | UR20_4DO_P_2A | UR20_4RO_CO_255 => Some [1; 1; 1; 1]
  | UR20_8DO_P => Some [1; 1; 1; 1; 1; 1; 1; 1]
  | UR20_16DO_P | UR20_PF_O_1DI_SIL => Some []
  | UR20_4AI_UI_12 | UR20_4AI_UI_16 => Some [3; 1; 8; 1; 8; 1; 8; 1; 8]
  | UR20_4AI_UI_16_DIAG =>
      Some [3; 1; 1; 1; 1; 8; 1; 1; 1; 1; 8; 1; 1; 1; 1; 8; 1; 1; 1; 1; 8]
  | UR20_8AI_I_16_DIAG_HD =>
      Some [3; 1; 1; 1; 2; 1; 1; 1; 2; 1; 1; 1; 2; 1; 1; 1; 2;
               1; 1; 1; 2; 1; 1; 1; 2; 1; 1; 1; 2; 1; 1; 1; 2]
  | UR20_4AI_RTD_DIAG =>
      Some [2; 18; 2; 5; 1; 1; 65535; 65535; 18; 2; 5; 1; 1; 65535; 65535;
               18; 2; 5; 1; 1; 65535; 65535; 18; 2; 5; 1; 1; 65535; 65535]
  | UR20_4AI_TC_DIAG =>
      Some [2; 19; 4; 5; 1; 1; 65535; 65535; 19; 4; 5; 1; 1; 65535; 65535;
               19; 4; 5; 1; 1; 65535; 65535; 19; 4; 5; 1; 1; 65535; 65535]
  | UR20_4AO_UI_16 => Some [1; 8; 65535; 1; 8; 65535; 1; 8; 65535; 1; 8; 65535]
  | UR20_4AO_UI_16_DIAG =>
      Some [1; 8; 65535; 1; 1; 8; 65535; 1; 1; 8; 65535; 1; 1; 8; 65535; 1]
  | UR20_2FCNT_100 => Some [16; 16]
  | UR20_1COM_232_485_422 => Some [1; 3; 11; 1; 2; 2; 1; 1; 255; 255]
  | _ => None
  end.

(** There is a register for each bound, and it does not exceed it. *)
Fixpoint in_range (bounds regs : list Z) : Prop :=
  match bounds, regs with
  | [], _ => True
  | b :: bs, r :: rs => r <= b /\ in_range bs rs
  | _ :: _, [] => False
  end.

(** Codes of the parameter values, as documented. *)
Definition flag_code (b : bool) : Z := if b then 1 else 0.
Definition input_delay_code (d : input_delay) : Z :=
  match d with ID_no => 0 | ID_us300 => 1 | ID_ms3 => 2 | ID_ms10 => 3 | ID_ms20 => 4 | ID_ms40 => 5 end.
Definition data_format_code (f : data_format) : Z := match f with S5 => 0 | S7 => 1 end.
Definition ui_range_code (r : analog_ui_range) : Z :=
  match r with
  | UI_mA0To20 => 0 | UI_mA4To20 => 1 | UI_V0To10 => 2 | UI_VMinus10To10 => 3 | UI_V0To5 => 4
  | UI_VMinus5To5 => 5 | UI_V1To5 => 6 | UI_V2To10 => 7 | UI_Disabled => 8
  end.
Definition i_range_code (r : analog_i_range) : Z :=
  match r with I_mA0To20 => 0 | I_mA4To20 => 1 | I_Disabled => 2 end.
Definition rtd_range_code (r : rtd_range) : Z :=
  match r with
  | PT100 => 0 | PT200 => 1 | PT500 => 2 | PT1000 => 3 | NI100 => 4 | NI120 => 5 | NI200 => 6
  | NI500 => 7 | NI1000 => 8 | Cu10 => 9 | R40 => 10 | R80 => 11 | R150 => 12 | R300 => 13
  | R500 => 14 | R1000 => 15 | R2000 => 16 | R4000 => 17 | RTD_Disabled => 18
  end.
Definition tc_range_code (r : tc_range) : Z :=
  match r with
  | TC_Type_J => 0 | TC_Type_K => 1 | TC_Type_N => 2 | TC_Type_R => 3 | TC_Type_S => 4
  | TC_Type_T => 5 | TC_Type_B => 6 | TC_Type_C => 7 | TC_Type_E => 8 | TC_Type_L => 9
  | TC_Type_U => 10 | uVPlusMinus15625 => 11 | uVPlusMinus31250 => 12 | uVPlusMinus62500 => 13
  | mVPlusMinus125 => 14 | mVPlusMinus250 => 15 | mVPlusMinus500 => 16 | VPlusMinus1 => 17
  | VPlusMinus2 => 18 | TC_Disabled => 19
  end.
Definition cold_junction_code (c : cold_junction) : Z :=
  match c with
  | CJ_Internal => 0 | CJ_External0 => 1 | CJ_External1 => 2 | CJ_External2 => 3 | CJ_External3 => 4
  end.
Definition unit_code (u : temperature_unit) : Z :=
  match u with Celsius => 0 | Fahrenheit => 1 | Kelvin => 2 end.
Definition connection_code (c : connection_type) : Z :=
  match c with TwoWire => 0 | ThreeWire => 1 | FourWire => 2 end.
Definition conversion_code (c : conversion_time) : Z :=
  match c with
  | CT_ms240 => 0 | CT_ms130 => 1 | CT_ms80 => 2 | CT_ms55 => 3 | CT_ms43 => 4 | CT_ms36 => 5
  end.
Definition filter_code (f : input_filter) : Z :=
  match f with
  | us5 => 0 | us11 => 1 | us21 => 2 | us43 => 3 | us83 => 4 | us167 => 5 | us333 => 6 | us667 => 7
  | IF_ms1 => 8 | IF_ms3 => 9 | IF_ms5 => 10 | IF_ms11 => 11 | IF_ms22 => 12 | IF_ms43 => 13
  | IF_ms91 => 14 | IF_ms167 => 15 | IF_ms333 => 16
  end.
Definition suppression_code (f : frequency_suppression) : Z :=
  match f with FS_Disabled => 0 | FS_Hz50 => 1 | FS_Hz60 => 2 | FS_Average16 => 3 end.
Definition length_code (l : process_data_length) : Z :=
  match l with EightBytes => 0 | SixteenBytes => 1 end.
Definition mode_code (m : operating_mode) : Z :=
  match m with OM_Disabled => 0 | RS232 => 1 | RS485 => 2 | RS422 => 3 end.
Definition data_bits_code (d : data_bits) : Z := match d with SevenBits => 0 | EightBits => 1 end.
Definition baud_code (b : baud_rate) : Z :=
  match b with
  | Baud_300 => 0 | Baud_600 => 1 | Baud_1200 => 2 | Baud_2400 => 3 | Baud_4800 => 4
  | Baud_9600 => 5 | Baud_14400 => 6 | Baud_19200 => 7 | Baud_28800 => 8 | Baud_38400 => 9
  | Baud_57600 => 10 | Baud_115200 => 11
  end.
Definition stop_bit_code (s : stop_bit) : Z := match s with OneBit => 0 | TwoBits => 1 end.
Definition parity_code (p : parity) : Z :=
  match p with ParityNone => 0 | ParityEven => 1 | ParityOdd => 2 end.
Definition flow_code (f : flow_control) : Z :=
  match f with FlowNone => 0 | CTS_RTS => 1 | XON_XOFF => 2 end.
(** Two's complement representation of a limit. *)
Definition limit_code (z : Z) : Z := z mod 65536.

(** What a parameter register holds: a code, or the raw form of an analog value. *)
Inductive register_content : Set :=
| Code (n : Z)
| Substitute (range : analog_ui_range) (format : data_format) (v : f32).

(** The registers that a module's parameters stand for, in order. *)
Definition params_registers (m : module) : list register_content :=
  match m with
  | MDI _ ch => map (fun d => Code (input_delay_code d)) ch
  | MDO _ ch | M4RO ch => map (fun b => Code (flag_code b)) ch
  | M16DO | MSIL => []
  | M4AO ch =>
      flat_map (fun p => [Code (data_format_code (ao_format p)); Code (ui_range_code (ao_range p));
                          Substitute (ao_range p) (ao_format p) (ao_substitute p)]) ch
  | M4AODIAG ch =>
      flat_map (fun p => [Code (data_format_code (aod_format p)); Code (ui_range_code (aod_range p));
                          Substitute (aod_range p) (aod_format p) (aod_substitute p);
                          Code (flag_code (aod_channel_diagnostics p))]) ch
  | MRTD u ch =>
      Code (unit_code u) ::
      flat_map (fun p => [Code (rtd_range_code (rtd_measurement_range p));
                          Code (connection_code (rtd_connection p));
                          Code (conversion_code (rtd_conversion p));
                          Code (flag_code (rtd_channel_diagnostics p));
                          Code (flag_code (rtd_limit_monitoring p));
                          Code (limit_code (rtd_high_limit p)); Code (limit_code (rtd_low_limit p))]) ch
  | MTC u ch =>
      Code (unit_code u) ::
      flat_map (fun p => [Code (tc_range_code (tc_measurement_range p));
                          Code (cold_junction_code (tc_cold_junction p));
                          Code (conversion_code (tc_conversion p));
                          Code (flag_code (tc_channel_diagnostics p));
                          Code (flag_code (tc_limit_monitoring p));
                          Code (limit_code (tc_high_limit p)); Code (limit_code (tc_low_limit p))]) ch
  | MUI16DIAG f ch =>
      Code (suppression_code f) ::
      flat_map (fun p => [Code (flag_code (aid_channel_diagnostics p));
                          Code (flag_code (aid_short_circuit p)); Code (flag_code (aid_line_break p));
                          Code (data_format_code (aid_format p)); Code (ui_range_code (aid_range p))]) ch
  | MAIUI _ f ch =>
      Code (suppression_code f) ::
      flat_map (fun p => [Code (data_format_code (aiu_format p)); Code (ui_range_code (aiu_range p))]) ch
  | M8AI f ch =>
      Code (suppression_code f) ::
      flat_map (fun p => [Code (flag_code (aii_channel_diagnostics p));
                          Code (flag_code (aii_short_circuit p));
                          Code (data_format_code (aii_format p)); Code (i_range_code (aii_range p))]) ch
  | MFCNT ch => map (fun f => Code (filter_code f)) ch
  | MCOM l ch =>
      Code (length_code l) ::
      flat_map (fun p => [Code (mode_code (com_operating_mode p)); Code (baud_code (com_baud_rate p));
                          Code (stop_bit_code (com_stop_bit p)); Code (parity_code (com_parity p));
                          Code (flow_code (com_flow_control p)); Code (data_bits_code (com_data_bits p));
                          Code (flag_code (com_terminating_resistor p));
                          Code (com_xon p); Code (com_xoff p)]) ch
  end.

(** The kind of module a module type asks for. *)
Definition kind_of (t : module_type) (m : module) : Prop :=
  match t, m with
  | UR20_4DI_P, MDI V_4DI_P _ | UR20_8DI_P_2W, MDI V_8DI_P_2W _
  | UR20_4DO_P, MDO V_4DO_P _ | UR20_4DO_P_2A, MDO V_4DO_P_2A _ | UR20_8DO_P, MDO V_8DO_P _
  | UR20_16DO_P, M16DO | UR20_4RO_CO_255, M4RO _ | UR20_4AO_UI_16, M4AO _
  | UR20_4AO_UI_16_DIAG, M4AODIAG _ | UR20_4AI_RTD_DIAG, MRTD _ _
  | UR20_4AI_UI_16_DIAG, MUI16DIAG _ _ | UR20_4AI_UI_12, MAIUI V_4AI_UI_12 _ _
  | UR20_4AI_UI_16, MAIUI V_4AI_UI_16 _ _ | UR20_8AI_I_16_DIAG_HD, M8AI _ _
  | UR20_4AI_TC_DIAG, MTC _ _ | UR20_2FCNT_100, MFCNT _ | UR20_1COM_232_485_422, MCOM _ _
  | UR20_PF_O_1DI_SIL, MSIL => True
  | _, _ => False
  end.

(** A register [r] holds the content [c]: it is the code, or the analog value is what [r]
    decodes to in the configured range and format (0.0 when the range is disabled; the decoding
    itself is characterised in real numbers by C16). *)
Definition holds (c : register_content) (r : Z) : Prop :=
  match c with
  | Code n => n = r
  | Substitute range format v =>
      v = match u16_to_analog_ui_value r range format with Some x => x | None => f32_of_Z 0 end
  end.
