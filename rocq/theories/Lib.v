(** Model of the functions of src/lib.rs.  Definitions only. *)
From Coq Require Import ZArith List Bool String Ascii.
From Verif Require Import Base F32 Types.
Import ListNotations.
Local Open Scope Z_scope.

(** src/lib.rs 33-34: [S5_FACTOR], [S7_FACTOR]. *)
Definition S5_FACTOR : Z := 16384.
Definition S7_FACTOR : Z := 27648.

(** src/lib.rs 206-213: [DataFormat::factor]. *)
Definition factor (f : data_format) : f32 :=
  f32_of_Z (match f with S5 => S5_FACTOR | S7 => S7_FACTOR end).

(** src/lib.rs 378-448: the match arms of [ModuleType::try_from_u32]. *)
Definition module_ids : list (Z * module_type) :=
  [
   (0x00091F84, UR20_4DI_P);
   (0x001B1F84, UR20_4DI_P_3W);
   (0x00131FC1, UR20_8DI_P_2W);
   (0x000A1FC1, UR20_8DI_P_3W);
   (0x00031FC1, UR20_8DI_P_3W_HD);
   (0x00049FC2, UR20_16DI_P);
   (0x00059FC2, UR20_16DI_P_PLC_INT);
   (0x0F014700, UR20_2DI_P_TS);
   (0x0F024700, UR20_4DI_P_TS);
   (0x00011F84, UR20_4DI_N);
   (0x00021FC1, UR20_8DI_N_3W);
   (0x000C9FC2, UR20_16DI_N);
   (0x000D9FC2, UR20_16DI_N_PLC_INT);
   (0x00169F84, UR20_4DI_2W_230V_AC);
   (0x01012FA0, UR20_4DO_P);
   (0x01052FA0, UR20_4DO_P_2A);
   (0x01152FC8, UR20_4DO_PN_2A);
   (0x01022FC8, UR20_8DO_P);
   (0x01192FC8, UR20_8DO_P_2W_HD);
   (0x0103AFD0, UR20_16DO_P);
   (0x0104AFD0, UR20_16DO_P_PLC_INT);
   (0x010A2FA0, UR20_4DO_N);
   (0x010B2FA0, UR20_4DO_N_2A);
   (0x010C2FC8, UR20_8DO_N);
   (0x010DAFD0, UR20_16DO_N);
   (0x010EAFD0, UR20_16DO_N_PLC_INT);
   (0x01072FA0, UR20_4RO_SSR_255);
   (0x01062FA0, UR20_4RO_CO_255);
   (0x09084880, UR20_2PWM_PN_0_5A);
   (0x09094880, UR20_2PWM_PN_2A);
   (0x040115C4, UR20_4AI_UI_16);
   (0x04021544, UR20_4AI_UI_16_DIAG);
   (0x041E1544, UR20_4AI_UI_DIF_16_DIAG);
   (0x041315C4, UR20_4AI_UI_16_HD);
   (0x04141544, UR20_4AI_UI_16_DIAG_HD);
   (0x041115C4, UR20_4AI_UI_12);
   (0x040415C5, UR20_8AI_I_16_HD);
   (0x04051545, UR20_8AI_I_16_DIAG_HD);
   (0x040915C5, UR20_8AI_I_PLC_INT);
   (0x041C1544, UR20_4AI_R_HS_16_DIAG);
   (0x041B356D, UR20_2AI_SG_24_DIAG);
   (0x0418356D, UR20_3EM_230V_AC);
   (0x050225E0, UR20_4AO_UI_16);
   (0x050625E0, UR20_4AO_UI_16_M);
   (0x05012560, UR20_4AO_UI_16_DIAG);
   (0x05052560, UR20_4AO_UI_16_M_DIAG);
   (0x050425E0, UR20_4AO_UI_16_HD);
   (0x05032560, UR20_4AO_UI_16_DIAG_HD);
   (0x08C13800, UR20_1CNT_100_1DO);
   (0x08C33800, UR20_2CNT_100);
   (0x08C43801, UR20_1CNT_500);
   (0x088128EE, UR20_2FCNT_100);
   (0x09C17880, UR20_1SSI);
   (0x0E413FED, UR20_1COM_232_485_422);
   (0x0BC1E800, UR20_1COM_SAI_PRO);
   (0x0E81276D, UR20_4COM_IO_LINK);
   (0x04061544, UR20_4AI_RTD_DIAG);
   (0x04071544, UR20_4AI_TC_DIAG);
   (0x18019F43, UR20_PF_O_1DI_SIL);
   (0x18039F43, UR20_PF_O_2DI_SIL);
   (0x18029F43, UR20_PF_O_2DI_DELAY_SIL)].

(** src/lib.rs 375-454: [ModuleType::try_from_u32]. *)
Definition try_from_u32 (id : Z) : outcome module_type :=
  match find (fun e => fst e =? id) module_ids with
  | Some e => Ok (snd e)
  | None => Err UnknownModule
  end.

(** src/lib.rs 456-532: [ModuleType::channel_count]. *)
Definition channel_count (t : module_type) : nat :=
  match t with
  | UR20_PF_I | UR20_PF_O | UR20_PF_O_1DI_SIL | UR20_PF_O_2DI_SIL | UR20_PF_O_2DI_DELAY_SIL => 0
  | UR20_1CNT_100_1DO | UR20_1CNT_500 | UR20_1COM_232_485_422 | UR20_1SSI | UR20_1COM_SAI_PRO => 1
  | UR20_2DI_P_TS | UR20_2PWM_PN_0_5A | UR20_2PWM_PN_2A | UR20_2AI_SG_24_DIAG | UR20_2CNT_100 | UR20_2FCNT_100 => 2
  | UR20_4DI_P | UR20_4DI_P_3W | UR20_4DI_P_TS | UR20_4DI_N | UR20_4DI_2W_230V_AC | UR20_4DO_P | UR20_4DO_P_2A | UR20_4DO_PN_2A | UR20_4DO_N | UR20_4DO_N_2A | UR20_4RO_SSR_255 | UR20_4RO_CO_255 | UR20_4AI_UI_16 | UR20_4AI_UI_16_DIAG | UR20_4AI_UI_DIF_16_DIAG | UR20_4AI_UI_16_HD | UR20_4AI_UI_16_DIAG_HD | UR20_4AI_UI_12 | UR20_4AI_R_HS_16_DIAG | UR20_4AO_UI_16 | UR20_4AO_UI_16_M | UR20_4AO_UI_16_DIAG | UR20_4AO_UI_16_M_DIAG | UR20_4AO_UI_16_HD | UR20_4AO_UI_16_DIAG_HD | UR20_4COM_IO_LINK | UR20_4AI_RTD_DIAG | UR20_4AI_TC_DIAG => 4
  | UR20_8DI_P_2W | UR20_8DI_P_3W | UR20_8DI_P_3W_HD | UR20_8DI_N_3W | UR20_8DO_P | UR20_8DO_P_2W_HD | UR20_8DO_N | UR20_8AI_I_16_HD | UR20_8AI_I_16_DIAG_HD | UR20_8AI_I_PLC_INT | UR20_3EM_230V_AC => 8
  | UR20_16DI_P | UR20_16DI_P_PLC_INT | UR20_16DI_N | UR20_16DI_N_PLC_INT | UR20_16DO_P | UR20_16DO_P_PLC_INT | UR20_16DO_N | UR20_16DO_N_PLC_INT => 16
  end%nat.

(** Unicode strings are lists of scalar values; string literals of the source are
    ASCII. *)
Definition codes (s : string) : list Z :=
  map (fun c => Z.of_N (N_of_ascii c)) (list_ascii_of_string s).

Fixpoint codes_eqb (a b : list Z) : bool :=
  match a, b with
  | [], [] => true
  | x :: a', y :: b' => (x =? y) && codes_eqb a' b'
  | _, _ => false
  end.

(** [char::to_uppercase] for ASCII characters. *)
Definition ascii_upper (c : Z) : Z := if (97 <=? c) && (c <=? 122) then c - 32 else c.

(** [str::to_uppercase]: character by character; the upper case of non-ASCII
    characters (Unicode tables, possibly several characters) is the argument [up]. *)
Definition to_uppercase (up : Z -> list Z) (s : list Z) : list Z :=
  flat_map (fun c => if c <? 128 then [ascii_upper c] else up c) s.

(** [str::replace('-', "_")] *)
Definition replace_dash (s : list Z) : list Z :=
  map (fun c => if c =? 45 then 95 else c) s.

(** src/lib.rs 541-612: the match arms of [ModuleType::from_str]. *)
Definition module_names : list (string * module_type) :=
  [
   ("UR20_4DI_P"%string, UR20_4DI_P);
   ("UR20_4DI_P_3W"%string, UR20_4DI_P_3W);
   ("UR20_8DI_P_2W"%string, UR20_8DI_P_2W);
   ("UR20_8DI_P_3W"%string, UR20_8DI_P_3W);
   ("UR20_8DI_P_3W_HD"%string, UR20_8DI_P_3W_HD);
   ("UR20_16DI_P"%string, UR20_16DI_P);
   ("UR20_16DI_P_PLC_INT"%string, UR20_16DI_P_PLC_INT);
   ("UR20_2DI_P_TS"%string, UR20_2DI_P_TS);
   ("UR20_4DI_P_TS"%string, UR20_4DI_P_TS);
   ("UR20_4DI_N"%string, UR20_4DI_N);
   ("UR20_8DI_N_3W"%string, UR20_8DI_N_3W);
   ("UR20_16DI_N"%string, UR20_16DI_N);
   ("UR20_16DI_N_PLC_INT"%string, UR20_16DI_N_PLC_INT);
   ("UR20_4DI_2W_230V_AC"%string, UR20_4DI_2W_230V_AC);
   ("UR20_4DO_P"%string, UR20_4DO_P);
   ("UR20_4DO_P_2A"%string, UR20_4DO_P_2A);
   ("UR20_4DO_PN_2A"%string, UR20_4DO_PN_2A);
   ("UR20_8DO_P"%string, UR20_8DO_P);
   ("UR20_8DO_P_2W_HD"%string, UR20_8DO_P_2W_HD);
   ("UR20_16DO_P"%string, UR20_16DO_P);
   ("UR20_16DO_P_PLC_INT"%string, UR20_16DO_P_PLC_INT);
   ("UR20_4DO_N"%string, UR20_4DO_N);
   ("UR20_4DO_N_2A"%string, UR20_4DO_N_2A);
   ("UR20_8DO_N"%string, UR20_8DO_N);
   ("UR20_16DO_N"%string, UR20_16DO_N);
   ("UR20_16DO_N_PLC_INT"%string, UR20_16DO_N_PLC_INT);
   ("UR20_4RO_SSR_255"%string, UR20_4RO_SSR_255);
   ("UR20_4RO_CO_255"%string, UR20_4RO_CO_255);
   ("UR20_2PWM_PN_0_5A"%string, UR20_2PWM_PN_0_5A);
   ("UR20_2PWM_PN_2A"%string, UR20_2PWM_PN_2A);
   ("UR20_4AI_UI_16"%string, UR20_4AI_UI_16);
   ("UR20_4AI_UI_16_DIAG"%string, UR20_4AI_UI_16_DIAG);
   ("UR20_4AI_UI_DIF_16_DIAG"%string, UR20_4AI_UI_DIF_16_DIAG);
   ("UR20_4AI_UI_16_HD"%string, UR20_4AI_UI_16_HD);
   ("UR20_4AI_UI_16_DIAG_HD"%string, UR20_4AI_UI_16_DIAG_HD);
   ("UR20_4AI_UI_12"%string, UR20_4AI_UI_12);
   ("UR20_8AI_I_16_HD"%string, UR20_8AI_I_16_HD);
   ("UR20_8AI_I_16_DIAG_HD"%string, UR20_8AI_I_16_DIAG_HD);
   ("UR20_8AI_I_PLC_INT"%string, UR20_8AI_I_PLC_INT);
   ("UR20_4AI_R_HS_16_DIAG"%string, UR20_4AI_R_HS_16_DIAG);
   ("UR20_2AI_SG_24_DIAG"%string, UR20_2AI_SG_24_DIAG);
   ("UR20_3EM_230V_AC"%string, UR20_3EM_230V_AC);
   ("UR20_4AO_UI_16"%string, UR20_4AO_UI_16);
   ("UR20_4AO_UI_16_M"%string, UR20_4AO_UI_16_M);
   ("UR20_4AO_UI_16_DIAG"%string, UR20_4AO_UI_16_DIAG);
   ("UR20_4AO_UI_16_M_DIAG"%string, UR20_4AO_UI_16_M_DIAG);
   ("UR20_4AO_UI_16_HD"%string, UR20_4AO_UI_16_HD);
   ("UR20_4AO_UI_16_DIAG_HD"%string, UR20_4AO_UI_16_DIAG_HD);
   ("UR20_1CNT_100_1DO"%string, UR20_1CNT_100_1DO);
   ("UR20_2CNT_100"%string, UR20_2CNT_100);
   ("UR20_1CNT_500"%string, UR20_1CNT_500);
   ("UR20_2FCNT_100"%string, UR20_2FCNT_100);
   ("UR20_1SSI"%string, UR20_1SSI);
   ("UR20_1COM_232_485_422"%string, UR20_1COM_232_485_422);
   ("UR20_1COM_SAI_PRO"%string, UR20_1COM_SAI_PRO);
   ("UR20_4COM_IO_LINK"%string, UR20_4COM_IO_LINK);
   ("UR20_4AI_RTD_DIAG"%string, UR20_4AI_RTD_DIAG);
   ("UR20_4AI_TC_DIAG"%string, UR20_4AI_TC_DIAG);
   ("UR20_PF_I"%string, UR20_PF_I);
   ("UR20_PF_O"%string, UR20_PF_O);
   ("UR20_PF_O_1DI_SIL"%string, UR20_PF_O_1DI_SIL);
   ("UR20_PF_O_2DI_SIL"%string, UR20_PF_O_2DI_SIL);
   ("UR20_PF_O_2DI_DELAY_SIL"%string, UR20_PF_O_2DI_DELAY_SIL)].

(** src/lib.rs 536-620: [impl FromStr for ModuleType]. *)
Definition module_type_from_str (up : Z -> list Z) (s : list Z) : outcome module_type :=
  let key := replace_dash (to_uppercase up s) in
  match find (fun e => codes_eqb (codes (fst e)) key) module_names with
  | Some e => Ok (snd e)
  | None => Err UnknownModule
  end.

(** src/lib.rs 628-637: the match arms of [ModuleCategory::from_str]. *)
Definition category_names : list (string * module_category) :=
  [
   ("DI"%string, DI);
   ("DO"%string, DO);
   ("AI"%string, AI);
   ("AO"%string, AO);
   ("CNT"%string, CNT);
   ("PWM"%string, PWM);
   ("RTD"%string, RTD);
   ("TC"%string, TC);
   ("COM"%string, COM);
   ("RO"%string, RO)].

(** src/lib.rs 623-644: [impl FromStr for ModuleCategory]. *)
Definition category_from_str (up : Z -> list Z) (s : list Z) : outcome module_category :=
  let key := to_uppercase up s in
  match find (fun e => codes_eqb (codes (fst e)) key) category_names with
  | Some e => Ok (snd e)
  | None => Err UnknownCategory
  end.

(** src/lib.rs 647-725: [impl From<ModuleType> for ModuleCategory]. *)
Definition category_of (t : module_type) : module_category :=
  match t with
  | UR20_4DI_P | UR20_4DI_P_3W | UR20_8DI_P_2W | UR20_8DI_P_3W | UR20_8DI_P_3W_HD | UR20_16DI_P | UR20_16DI_P_PLC_INT | UR20_2DI_P_TS | UR20_4DI_P_TS | UR20_4DI_N | UR20_8DI_N_3W | UR20_16DI_N | UR20_16DI_N_PLC_INT | UR20_4DI_2W_230V_AC => DI
  | UR20_4DO_P | UR20_4DO_P_2A | UR20_4DO_PN_2A | UR20_8DO_P | UR20_8DO_P_2W_HD | UR20_16DO_P | UR20_16DO_P_PLC_INT | UR20_4DO_N | UR20_4DO_N_2A | UR20_8DO_N | UR20_16DO_N | UR20_16DO_N_PLC_INT | UR20_4RO_SSR_255 | UR20_4RO_CO_255 => DO
  | UR20_2PWM_PN_0_5A | UR20_2PWM_PN_2A => PWM
  | UR20_4AI_UI_16 | UR20_4AI_UI_16_DIAG | UR20_4AI_UI_DIF_16_DIAG | UR20_4AI_UI_16_HD | UR20_4AI_UI_16_DIAG_HD | UR20_4AI_UI_12 | UR20_8AI_I_16_HD | UR20_8AI_I_16_DIAG_HD | UR20_8AI_I_PLC_INT | UR20_4AI_R_HS_16_DIAG | UR20_2AI_SG_24_DIAG | UR20_3EM_230V_AC => AI
  | UR20_4AO_UI_16 | UR20_4AO_UI_16_M | UR20_4AO_UI_16_DIAG | UR20_4AO_UI_16_M_DIAG | UR20_4AO_UI_16_HD | UR20_4AO_UI_16_DIAG_HD => AO
  | UR20_1CNT_100_1DO | UR20_2CNT_100 | UR20_1CNT_500 | UR20_2FCNT_100 => CNT
  | UR20_1SSI | UR20_1COM_232_485_422 | UR20_1COM_SAI_PRO | UR20_4COM_IO_LINK => COM
  | UR20_4AI_RTD_DIAG => RTD
  | UR20_4AI_TC_DIAG => TC
  | UR20_PF_I | UR20_PF_O | UR20_PF_O_1DI_SIL | UR20_PF_O_2DI_SIL | UR20_PF_O_2DI_DELAY_SIL => PF
  end.
