(** Model of the [Default] implementations of the module structures and of the serial
    and counter messages.  Definitions only. *)
From Coq Require Import ZArith List Bool.
From Verif Require Import Base F32 Types Lib Util Digital Analog Fcnt Com Fbc.
Import ListNotations.
Local Open Scope Z_scope.

(** src/ur20_ai_ui_generic.rs 72-79 *)
Definition ai_ui_default : ai_ui_params := mk_ai_ui S7 UI_Disabled.
(** src/ur20_4ai_ui_16_diag.rs 45-55 *)
Definition ai_ui_diag_default : ai_ui_diag_params := mk_ai_ui_diag false false false S7 UI_Disabled.
(** src/ur20_8ai_i_16_diag_hd.rs 44-53 *)
Definition ai_i_default : ai_i_params := mk_ai_i false false S7 I_Disabled.
(** src/ur20_4ai_rtd_diag.rs 49-61 *)
Definition rtd_default : rtd_params := mk_rtd RTD_Disabled TwoWire CT_ms80 false false 0 0.
(** src/ur20_4ai_tc_diag.rs 101-113 *)
Definition tc_default : tc_params :=
  mk_tc TC_Disabled CJ_Internal CT_ms80 false false 32767 (-32768).
(** src/ur20_4ao_ui_16.rs 26-34 *)
Definition ao_default : ao_params := mk_ao S7 UI_Disabled (f32_of_Z 0).
(** src/ur20_4ao_ui_16_diag.rs 27-36 *)
Definition ao_diag_default : ao_diag_params := mk_ao_diag S7 UI_Disabled (f32_of_Z 0) false.

(** [Mod::default()] of each supported module type: ur20_di_generic.rs 61-71,
    ur20_do_generic.rs 53-60, ur20_16do_p.rs 19-23, ur20_4ro_co_255.rs 24-29,
    ur20_4ao_ui_16.rs 36-41, ur20_4ao_ui_16_diag.rs 38-43, ur20_4ai_rtd_diag.rs 63-74,
    ur20_4ai_ui_16_diag.rs 57-66, ur20_ai_ui_generic.rs 81-93, ur20_8ai_i_16_diag_hd.rs 55-66,
    ur20_4ai_tc_diag.rs 12 (derived) and 93-99, ur20_2fcnt_100.rs 94-99,
    ur20_1com_232_485_422.rs 301-308, ur20_pf_o_1di_sil.rs 9 (derived) *)
Definition module_default (t : module_type) : option module :=
  match t with
  | UR20_4DI_P => Some (MDI V_4DI_P (repeat ID_ms3 (channel_count UR20_4DI_P)))
  | UR20_8DI_P_2W => Some (MDI V_8DI_P_2W (repeat ID_ms3 (channel_count UR20_8DI_P_2W)))
  | UR20_4DO_P => Some (MDO V_4DO_P (repeat false (channel_count UR20_4DO_P)))
  | UR20_4DO_P_2A => Some (MDO V_4DO_P_2A (repeat false (channel_count UR20_4DO_P_2A)))
  | UR20_8DO_P => Some (MDO V_8DO_P (repeat false (channel_count UR20_8DO_P)))
  | UR20_16DO_P => Some M16DO
  | UR20_4RO_CO_255 => Some (M4RO (repeat false 4))
  | UR20_4AO_UI_16 => Some (M4AO (repeat ao_default 4))
  | UR20_4AO_UI_16_DIAG => Some (M4AODIAG (repeat ao_diag_default 4))
  | UR20_4AI_RTD_DIAG => Some (MRTD Celsius (repeat rtd_default 4))
  | UR20_4AI_UI_16_DIAG => Some (MUI16DIAG FS_Disabled (repeat ai_ui_diag_default 4))
  | UR20_4AI_UI_12 =>
      Some (MAIUI V_4AI_UI_12 FS_Disabled (repeat ai_ui_default (channel_count UR20_4AI_UI_12)))
  | UR20_4AI_UI_16 =>
      Some (MAIUI V_4AI_UI_16 FS_Disabled (repeat ai_ui_default (channel_count UR20_4AI_UI_16)))
  | UR20_8AI_I_16_DIAG_HD => Some (M8AI FS_Disabled (repeat ai_i_default 8))
  | UR20_4AI_TC_DIAG => Some (MTC Celsius (repeat tc_default 4))
  | UR20_2FCNT_100 => Some (MFCNT (repeat us5 2))
  | UR20_1COM_232_485_422 => Some (MCOM com_process_data_len_default [com_params_default])
  | UR20_PF_O_1DI_SIL => Some MSIL
  | _ => None
  end.

(** src/ur20_1com_232_485_422.rs 20, 42 (derived defaults) *)
Definition rs_in_default : rs_in := mk_rs_in false false 0 0 false [].
Definition rs_out_default : rs_out := mk_rs_out false false false 0 0 false [].
(** src/ur20_2fcnt_100.rs 73-80 *)
Definition fcnt_out_default : fcnt_out := mk_fcnt_out (mk_duration 0 0) None.
