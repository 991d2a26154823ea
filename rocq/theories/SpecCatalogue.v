(** Specification of the module catalogue (properties C01 - C05), written without the
    functions of the model. *)
From Coq Require Import ZArith List Bool String Ascii.
From Verif Require Import Base Types.
Import ListNotations.
Local Open Scope Z_scope.

(** All module types. *)
Definition all_types : list module_type :=
  [UR20_4DI_P; UR20_4DI_P_3W; UR20_8DI_P_2W; UR20_8DI_P_3W;
   UR20_8DI_P_3W_HD; UR20_16DI_P; UR20_16DI_P_PLC_INT; UR20_2DI_P_TS;
   UR20_4DI_P_TS; UR20_4DI_N; UR20_8DI_N_3W; UR20_16DI_N;
   UR20_16DI_N_PLC_INT; UR20_4DI_2W_230V_AC; UR20_4DO_P; UR20_4DO_P_2A;
   UR20_4DO_PN_2A; UR20_8DO_P; UR20_8DO_P_2W_HD; UR20_16DO_P;
   UR20_16DO_P_PLC_INT; UR20_4DO_N; UR20_4DO_N_2A; UR20_8DO_N;
   UR20_16DO_N; UR20_16DO_N_PLC_INT; UR20_4RO_SSR_255; UR20_4RO_CO_255;
   UR20_2PWM_PN_0_5A; UR20_2PWM_PN_2A; UR20_4AI_UI_16; UR20_4AI_UI_16_DIAG;
   UR20_4AI_UI_DIF_16_DIAG; UR20_4AI_UI_16_HD; UR20_4AI_UI_16_DIAG_HD; UR20_4AI_UI_12;
   UR20_8AI_I_16_HD; UR20_8AI_I_16_DIAG_HD; UR20_8AI_I_PLC_INT; UR20_4AI_R_HS_16_DIAG;
   UR20_2AI_SG_24_DIAG; UR20_3EM_230V_AC; UR20_4AO_UI_16; UR20_4AO_UI_16_M;
   UR20_4AO_UI_16_DIAG; UR20_4AO_UI_16_M_DIAG; UR20_4AO_UI_16_HD; UR20_4AO_UI_16_DIAG_HD;
   UR20_1CNT_100_1DO; UR20_2CNT_100; UR20_1CNT_500; UR20_2FCNT_100;
   UR20_1SSI; UR20_1COM_232_485_422; UR20_1COM_SAI_PRO; UR20_4COM_IO_LINK;
   UR20_4AI_RTD_DIAG; UR20_4AI_TC_DIAG; UR20_PF_I; UR20_PF_O;
   UR20_PF_O_1DI_SIL; UR20_PF_O_2DI_SIL; UR20_PF_O_2DI_DELAY_SIL].

(** The identifier of each module type; the two plain power feed modules have none. *)
Definition documented_id (t : module_type) : option Z :=
  match t with
  | UR20_4DI_P => Some 0x0009_1F84
  | UR20_4DI_P_3W => Some 0x001B_1F84
  | UR20_8DI_P_2W => Some 0x0013_1FC1
  | UR20_8DI_P_3W => Some 0x000A_1FC1
  | UR20_8DI_P_3W_HD => Some 0x0003_1FC1
  | UR20_16DI_P => Some 0x0004_9FC2
  | UR20_16DI_P_PLC_INT => Some 0x0005_9FC2
  | UR20_2DI_P_TS => Some 0x0F01_4700
  | UR20_4DI_P_TS => Some 0x0F02_4700
  | UR20_4DI_N => Some 0x0001_1F84
  | UR20_8DI_N_3W => Some 0x0002_1FC1
  | UR20_16DI_N => Some 0x000C_9FC2
  | UR20_16DI_N_PLC_INT => Some 0x000D_9FC2
  | UR20_4DI_2W_230V_AC => Some 0x0016_9F84
  | UR20_4DO_P => Some 0x0101_2FA0
  | UR20_4DO_P_2A => Some 0x0105_2FA0
  | UR20_4DO_PN_2A => Some 0x0115_2FC8
  | UR20_8DO_P => Some 0x0102_2FC8
  | UR20_8DO_P_2W_HD => Some 0x0119_2FC8
  | UR20_16DO_P => Some 0x0103_AFD0
  | UR20_16DO_P_PLC_INT => Some 0x0104_AFD0
  | UR20_4DO_N => Some 0x010A_2FA0
  | UR20_4DO_N_2A => Some 0x010B_2FA0
  | UR20_8DO_N => Some 0x010C_2FC8
  | UR20_16DO_N => Some 0x010D_AFD0
  | UR20_16DO_N_PLC_INT => Some 0x010E_AFD0
  | UR20_4RO_SSR_255 => Some 0x0107_2FA0
  | UR20_4RO_CO_255 => Some 0x0106_2FA0
  | UR20_2PWM_PN_0_5A => Some 0x0908_4880
  | UR20_2PWM_PN_2A => Some 0x0909_4880
  | UR20_4AI_UI_16 => Some 0x0401_15C4
  | UR20_4AI_UI_16_DIAG => Some 0x0402_1544
  | UR20_4AI_UI_DIF_16_DIAG => Some 0x041E_1544
  | UR20_4AI_UI_16_HD => Some 0x0413_15C4
  | UR20_4AI_UI_16_DIAG_HD => Some 0x0414_1544
  | UR20_4AI_UI_12 => Some 0x0411_15C4
  | UR20_8AI_I_16_HD => Some 0x0404_15C5
  | UR20_8AI_I_16_DIAG_HD => Some 0x0405_1545
  | UR20_8AI_I_PLC_INT => Some 0x0409_15C5
  | UR20_4AI_R_HS_16_DIAG => Some 0x041C_1544
  | UR20_2AI_SG_24_DIAG => Some 0x041B_356D
  | UR20_3EM_230V_AC => Some 0x0418_356D
  | UR20_4AO_UI_16 => Some 0x0502_25E0
  | UR20_4AO_UI_16_M => Some 0x0506_25E0
  | UR20_4AO_UI_16_DIAG => Some 0x0501_2560
  | UR20_4AO_UI_16_M_DIAG => Some 0x0505_2560
  | UR20_4AO_UI_16_HD => Some 0x0504_25E0
  | UR20_4AO_UI_16_DIAG_HD => Some 0x0503_2560
  | UR20_1CNT_100_1DO => Some 0x08C1_3800
  | UR20_2CNT_100 => Some 0x08C3_3800
  | UR20_1CNT_500 => Some 0x08C4_3801
  | UR20_2FCNT_100 => Some 0x0881_28EE
  | UR20_1SSI => Some 0x09C1_7880
  | UR20_1COM_232_485_422 => Some 0x0E41_3FED
  | UR20_1COM_SAI_PRO => Some 0x0BC1_E800
  | UR20_4COM_IO_LINK => Some 0x0E81_276D
  | UR20_4AI_RTD_DIAG => Some 0x0406_1544
  | UR20_4AI_TC_DIAG => Some 0x0407_1544
  | UR20_PF_I => None
  | UR20_PF_O => None
  | UR20_PF_O_1DI_SIL => Some 0x1801_9F43
  | UR20_PF_O_2DI_SIL => Some 0x1803_9F43
  | UR20_PF_O_2DI_DELAY_SIL => Some 0x1802_9F43
  end.

(** The product name of each module type. *)
Definition product_name (t : module_type) : string :=
  match t with
  | UR20_4DI_P => "UR20_4DI_P"
  | UR20_4DI_P_3W => "UR20_4DI_P_3W"
  | UR20_8DI_P_2W => "UR20_8DI_P_2W"
  | UR20_8DI_P_3W => "UR20_8DI_P_3W"
  | UR20_8DI_P_3W_HD => "UR20_8DI_P_3W_HD"
  | UR20_16DI_P => "UR20_16DI_P"
  | UR20_16DI_P_PLC_INT => "UR20_16DI_P_PLC_INT"
  | UR20_2DI_P_TS => "UR20_2DI_P_TS"
  | UR20_4DI_P_TS => "UR20_4DI_P_TS"
  | UR20_4DI_N => "UR20_4DI_N"
  | UR20_8DI_N_3W => "UR20_8DI_N_3W"
  | UR20_16DI_N => "UR20_16DI_N"
  | UR20_16DI_N_PLC_INT => "UR20_16DI_N_PLC_INT"
  | UR20_4DI_2W_230V_AC => "UR20_4DI_2W_230V_AC"
  | UR20_4DO_P => "UR20_4DO_P"
  | UR20_4DO_P_2A => "UR20_4DO_P_2A"
  | UR20_4DO_PN_2A => "UR20_4DO_PN_2A"
  | UR20_8DO_P => "UR20_8DO_P"
  | UR20_8DO_P_2W_HD => "UR20_8DO_P_2W_HD"
  | UR20_16DO_P => "UR20_16DO_P"
  | UR20_16DO_P_PLC_INT => "UR20_16DO_P_PLC_INT"
  | UR20_4DO_N => "UR20_4DO_N"
  | UR20_4DO_N_2A => "UR20_4DO_N_2A"
  | UR20_8DO_N => "UR20_8DO_N"
  | UR20_16DO_N => "UR20_16DO_N"
  | UR20_16DO_N_PLC_INT => "UR20_16DO_N_PLC_INT"
  | UR20_4RO_SSR_255 => "UR20_4RO_SSR_255"
  | UR20_4RO_CO_255 => "UR20_4RO_CO_255"
  | UR20_2PWM_PN_0_5A => "UR20_2PWM_PN_0_5A"
  | UR20_2PWM_PN_2A => "UR20_2PWM_PN_2A"
  | UR20_4AI_UI_16 => "UR20_4AI_UI_16"
  | UR20_4AI_UI_16_DIAG => "UR20_4AI_UI_16_DIAG"
  | UR20_4AI_UI_DIF_16_DIAG => "UR20_4AI_UI_DIF_16_DIAG"
  | UR20_4AI_UI_16_HD => "UR20_4AI_UI_16_HD"
  | UR20_4AI_UI_16_DIAG_HD => "UR20_4AI_UI_16_DIAG_HD"
  | UR20_4AI_UI_12 => "UR20_4AI_UI_12"
  | UR20_8AI_I_16_HD => "UR20_8AI_I_16_HD"
  | UR20_8AI_I_16_DIAG_HD => "UR20_8AI_I_16_DIAG_HD"
  | UR20_8AI_I_PLC_INT => "UR20_8AI_I_PLC_INT"
  | UR20_4AI_R_HS_16_DIAG => "UR20_4AI_R_HS_16_DIAG"
  | UR20_2AI_SG_24_DIAG => "UR20_2AI_SG_24_DIAG"
  | UR20_3EM_230V_AC => "UR20_3EM_230V_AC"
  | UR20_4AO_UI_16 => "UR20_4AO_UI_16"
  | UR20_4AO_UI_16_M => "UR20_4AO_UI_16_M"
  | UR20_4AO_UI_16_DIAG => "UR20_4AO_UI_16_DIAG"
  | UR20_4AO_UI_16_M_DIAG => "UR20_4AO_UI_16_M_DIAG"
  | UR20_4AO_UI_16_HD => "UR20_4AO_UI_16_HD"
  | UR20_4AO_UI_16_DIAG_HD => "UR20_4AO_UI_16_DIAG_HD"
  | UR20_1CNT_100_1DO => "UR20_1CNT_100_1DO"
  | UR20_2CNT_100 => "UR20_2CNT_100"
  | UR20_1CNT_500 => "UR20_1CNT_500"
  | UR20_2FCNT_100 => "UR20_2FCNT_100"
  | UR20_1SSI => "UR20_1SSI"
  | UR20_1COM_232_485_422 => "UR20_1COM_232_485_422"
  | UR20_1COM_SAI_PRO => "UR20_1COM_SAI_PRO"
  | UR20_4COM_IO_LINK => "UR20_4COM_IO_LINK"
  | UR20_4AI_RTD_DIAG => "UR20_4AI_RTD_DIAG"
  | UR20_4AI_TC_DIAG => "UR20_4AI_TC_DIAG"
  | UR20_PF_I => "UR20_PF_I"
  | UR20_PF_O => "UR20_PF_O"
  | UR20_PF_O_1DI_SIL => "UR20_PF_O_1DI_SIL"
  | UR20_PF_O_2DI_SIL => "UR20_PF_O_2DI_SIL"
  | UR20_PF_O_2DI_DELAY_SIL => "UR20_PF_O_2DI_DELAY_SIL"
  end.

(** Unicode code points of an ASCII string. *)
Fixpoint code_points (s : string) : list Z :=
  match s with
  | EmptyString => []
  | String c t => Z.of_nat (nat_of_ascii c) :: code_points t
  end.

(** [c] may be typed for the character [d] of a product name: the character itself, the
    lower case of an upper case letter, or a dash for an underscore. *)
Definition spells (c d : Z) : Prop :=
  c = d \/ (65 <= d <= 90 /\ c = d + 32) \/ (d = 95 /\ c = 45).

(** As [spells], without the dash. *)
Definition spells_nocase (c d : Z) : Prop := c = d \/ (65 <= d <= 90 /\ c = d + 32).

(** The upper case of a text, one character after the other.  ASCII letters are given by the
    ASCII table; every other character by the Unicode tables [up], about which nothing
    is assumed. *)
Inductive upper (up : Z -> list Z) : list Z -> list Z -> Prop :=
| upper_nil : upper up [] []
| upper_lower c s u : 97 <= c <= 122 -> upper up s u -> upper up (c :: s) (c - 32 :: u)
| upper_same c s u : c < 97 \/ 122 < c < 128 -> upper up s u -> upper up (c :: s) (c :: u)
| upper_unicode c s u : 128 <= c -> upper up s u -> upper up (c :: s) (up c ++ u).

(** [u] with every dash replaced by an underscore. *)
Inductive dashes_replaced : list Z -> list Z -> Prop :=
| dash_nil : dashes_replaced [] []
| dash_dash u w : dashes_replaced u w -> dashes_replaced (45 :: u) (95 :: w)
| dash_other c u w : c <> 45 -> dashes_replaced u w -> dashes_replaced (c :: u) (c :: w).

(** The name of each category. *)
Definition category_name (c : module_category) : string :=
  match c with
  | DI => "DI" | DO => "DO" | AI => "AI" | AO => "AO" | CNT => "CNT" | PWM => "PWM"
  | RTD => "RTD" | TC => "TC" | COM => "COM" | RO => "RO" | PF => "PF"
  end.

(** A product name consists of words separated by underscores. *)
Fixpoint words_acc (cur : string) (s : string) : list string :=
  match s with
  | EmptyString => [cur]
  | String c t => if Ascii.eqb c "_" then cur :: words_acc "" t
                  else words_acc (cur ++ String c "") t
  end.
Definition words (s : string) : list string := words_acc "" s.

(** Leading number of a word, and the rest. *)
Fixpoint leading_number (acc : option nat) (s : string) : option nat * string :=
  match s with
  | EmptyString => (acc, s)
  | String c t =>
      let n := nat_of_ascii c in
      if (Nat.leb 48 n && Nat.leb n 57)%bool
      then leading_number (Some (match acc with Some a => a * 10 + (n - 48) | None => n - 48 end)%nat) t
      else (acc, s)
  end.

(** Number and kind printed in the second word: [UR20_4DI_P] is [(Some 4, "DI")]. *)
Definition printed (t : module_type) : option nat * string :=
  match words (product_name t) with
  | _ :: w :: _ => leading_number None w
  | _ => (None, ""%string)
  end.
Definition third_word (t : module_type) : string :=
  match words (product_name t) with
  | _ :: _ :: w :: _ => w
  | _ => ""%string
  end.

(** The category that the product name tells: the kind, except that resistance thermometer
    and thermocouple inputs say so in the third word, frequency counters count, energy
    meters ("EM") are analog inputs and "SSI" is a communication module. *)
Definition named_category (t : module_type) : option module_category :=
  let kind := snd (printed t) in
  if String.eqb (third_word t) "RTD" then Some RTD
  else if String.eqb (third_word t) "TC" then Some TC
  else if String.eqb kind "DI" then Some DI
  else if String.eqb kind "DO" then Some DO
  else if String.eqb kind "RO" then Some RO
  else if String.eqb kind "AI" then Some AI
  else if String.eqb kind "EM" then Some AI
  else if String.eqb kind "AO" then Some AO
  else if String.eqb kind "PWM" then Some PWM
  else if String.eqb kind "CNT" then Some CNT
  else if String.eqb kind "FCNT" then Some CNT
  else if String.eqb kind "SSI" then Some COM
  else if String.eqb kind "COM" then Some COM
  else if String.eqb kind "PF" then Some PF
  else None.
