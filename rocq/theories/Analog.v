(** Model of the analog modules.  Definitions only. *)
From Coq Require Import ZArith List Bool.
From Verif Require Import Base F32 Types Lib Util Digital.
Import ListNotations.
Local Open Scope Z_scope.

(** src/ur20_ai_ui_generic.rs 48-51 *)
Record ai_ui_params : Set := mk_ai_ui { aiu_format : data_format; aiu_range : analog_ui_range }.

(** src/ur20_4ai_ui_16_diag.rs 19-25 *)
Record ai_ui_diag_params : Set := mk_ai_ui_diag {
  aid_channel_diagnostics : bool;
  aid_short_circuit : bool;
  aid_line_break : bool;
  aid_format : data_format;
  aid_range : analog_ui_range }.

(** src/ur20_8ai_i_16_diag_hd.rs 19-24 *)
Record ai_i_params : Set := mk_ai_i {
  aii_channel_diagnostics : bool;
  aii_short_circuit : bool;
  aii_format : data_format;
  aii_range : analog_i_range }.

(** src/ur20_4ai_rtd_diag.rs 19-29 *)
Record rtd_params : Set := mk_rtd {
  rtd_measurement_range : rtd_range;
  rtd_connection : connection_type;
  rtd_conversion : conversion_time;
  rtd_channel_diagnostics : bool;
  rtd_limit_monitoring : bool;
  rtd_high_limit : Z;   (* i16 *)
  rtd_low_limit : Z }.  (* i16 *)

(** src/ur20_4ai_tc_diag.rs 30-38 *)
Record tc_params : Set := mk_tc {
  tc_measurement_range : tc_range;
  tc_cold_junction : cold_junction;
  tc_conversion : conversion_time;
  tc_channel_diagnostics : bool;
  tc_limit_monitoring : bool;
  tc_high_limit : Z;    (* i16 *)
  tc_low_limit : Z }.   (* i16 *)

(** src/ur20_4ao_ui_16.rs 13-17 *)
Record ao_params : Set := mk_ao {
  ao_format : data_format;
  ao_range : analog_ui_range;
  ao_substitute : f32 }.

(** src/ur20_4ao_ui_16_diag.rs 13-18 *)
Record ao_diag_params : Set := mk_ao_diag {
  aod_format : data_format;
  aod_range : analog_ui_range;
  aod_substitute : f32;
  aod_channel_diagnostics : bool }.

(** [Some(v) => Decimal32(v), None => Disabled], e.g. src/ur20_ai_ui_generic.rs 127-130 *)
Definition analog_value (o : option f32) : channel_value :=
  match o with Some v => Decimal32 v | None => Disabled end.

(** ** src/ur20_ai_ui_generic.rs (UR20_4AI_UI_12, UR20_4AI_UI_16) *)

(** src/ur20_ai_ui_generic.rs 137-162: [parameters_from_raw_data] *)
Definition ai_ui_parameters (t : module_type) (data : list Z)
  : outcome (frequency_suppression * list ai_ui_params) :=
  if Nat.ltb (length data) (1 + 2 * channel_count t) then Err BufferLength
  else
    let? d0 := index data 0 in
    let? fs := enum_param frequency_suppression_variants d0 in
    let? ch := traverse (fun i =>
        let idx := (i * 2)%nat in
        let? d1 := index data (idx + 1) in
        let? f := enum_param data_format_variants d1 in
        let? d2 := index data (idx + 2) in
        let? r := enum_param analog_ui_range_variants d2 in
        Ok (mk_ai_ui f r)) (seq 0 (channel_count t)) in
    Ok (fs, ch).

(** src/ur20_ai_ui_generic.rs 109-134: [process_input_data] *)
Definition ai_ui_process_input_data (t : module_type) (params : list ai_ui_params) (data : list Z)
  : outcome (list channel_value) :=
  if negb (Nat.eqb (length data) (channel_count t)) then Err BufferLength
  else if negb (Nat.eqb (length params) (channel_count t)) then Err ChannelParameter
  else traverse (fun i =>
        let? d := index data i in
        let? p := index params i in
        Ok (analog_value (u16_to_analog_ui_value d (aiu_range p) (aiu_format p))))
      (seq 0 (channel_count t)).

(** ** src/ur20_4ai_ui_16_diag.rs *)

(** src/ur20_4ai_ui_16_diag.rs 115-165: [parameters_from_raw_data] *)
Definition ai_ui_diag_parameters (data : list Z)
  : outcome (frequency_suppression * list ai_ui_diag_params) :=
  if Nat.ltb (length data) 21 then Err BufferLength
  else
    let? d0 := index data 0 in
    let? fs := enum_param frequency_suppression_variants d0 in
    let? ch := traverse (fun i =>
        let idx := (i * 5)%nat in
        let? d1 := index data (idx + 1) in
        let? cd := bool_param d1 in
        let? d2 := index data (idx + 2) in
        let? sc := bool_param d2 in
        let? d3 := index data (idx + 3) in
        let? lb := bool_param d3 in
        let? d4 := index data (idx + 4) in
        let? f := enum_param data_format_variants d4 in
        let? d5 := index data (idx + 5) in
        let? r := enum_param analog_ui_range_variants d5 in
        Ok (mk_ai_ui_diag cd sc lb f r)) (seq 0 4) in
    Ok (fs, ch).

(** src/ur20_4ai_ui_16_diag.rs 81-106: [process_input_data] *)
Definition ai_ui_diag_process_input_data (params : list ai_ui_diag_params) (data : list Z)
  : outcome (list channel_value) :=
  if negb (Nat.eqb (length data) 4) then Err BufferLength
  else if negb (Nat.eqb (length params) 4) then Err ChannelParameter
  else traverse (fun i =>
        let? d := index data i in
        let? p := index params i in
        Ok (analog_value (u16_to_analog_ui_value d (aid_range p) (aid_format p))))
      (seq 0 4).

(** src/ur20_4ai_ui_16_diag.rs 107-112: [process_output_data] *)
Definition ai_ui_diag_process_output_data (data : list Z) : outcome (list channel_value) :=
  match data with
  | [] => Ok (map (fun _ => VNone) (seq 0 4))
  | _ => Err BufferLength
  end.

(** ** src/ur20_8ai_i_16_diag_hd.rs *)

(** src/ur20_8ai_i_16_diag_hd.rs 113-162: [parameters_from_raw_data] *)
Definition ai_i_parameters (data : list Z) : outcome (frequency_suppression * list ai_i_params) :=
  if Nat.ltb (length data) 33 then Err BufferLength
  else
    let? d0 := index data 0 in
    let? fs := enum_param frequency_suppression_variants d0 in
    let? ch := traverse (fun i =>
        let idx := (i * 4)%nat in
        let? d1 := index data (idx + 1) in
        let? cd := bool_param d1 in
        let? d2 := index data (idx + 2) in
        let? sc := bool_param d2 in
        let? d3 := index data (idx + 3) in
        let? f := enum_param data_format_variants d3 in
        let? d4 := index data (idx + 4) in
        let? r := enum_param analog_i_range_variants d4 in
        Ok (mk_ai_i cd sc f r)) (seq 0 8) in
    Ok (fs, ch).

(** src/ur20_8ai_i_16_diag_hd.rs 100-107: conversion of one value *)
Definition ai_i_value (d : Z) (range : analog_i_range) (format : data_format) : channel_value :=
  let val := f32_of_Z (u16_as_i16 d) in
  let fac := factor format in
  match range with
  | I_mA0To20 => Decimal32 (f32_div (f32_mul val (f32_of_Z 20)) fac)
  | I_mA4To20 => Decimal32 (f32_add (f32_div (f32_mul val (f32_of_Z 16)) fac) (f32_of_Z 4))
  | I_Disabled => Disabled
  end.

(** src/ur20_8ai_i_16_diag_hd.rs 81-110: [process_input_data] *)
Definition ai_i_process_input_data (params : list ai_i_params) (data : list Z)
  : outcome (list channel_value) :=
  if negb (Nat.eqb (length data) 8) then Err BufferLength
  else if negb (Nat.eqb (length params) 8) then Err ChannelParameter
  else traverse (fun i =>
        let? d := index data i in
        let? p := index params i in
        Ok (ai_i_value d (aii_range p) (aii_format p)))
      (seq 0 8).

(** ** src/ur20_4ai_rtd_diag.rs *)

(** src/ur20_4ai_rtd_diag.rs 108-170: [parameters_from_raw_data] *)
Definition rtd_parameters (data : list Z) : outcome (temperature_unit * list rtd_params) :=
  if Nat.ltb (length data) 29 then Err BufferLength
  else
    let? d0 := index data 0 in
    let? tu := enum_param temperature_unit_variants d0 in
    let? ch := traverse (fun i =>
        let idx := (i * 7)%nat in
        let? d1 := index data (idx + 1) in
        let? r := enum_param rtd_range_variants d1 in
        let? d2 := index data (idx + 2) in
        let? c := enum_param connection_type_variants d2 in
        let? d3 := index data (idx + 3) in
        let? t := enum_param conversion_time_variants d3 in
        let? d4 := index data (idx + 4) in
        let? cd := bool_param d4 in
        let? d5 := index data (idx + 5) in
        let? lm := bool_param d5 in
        let? d6 := index data (idx + 6) in
        let? d7 := index data (idx + 7) in
        Ok (mk_rtd r c t cd lm (u16_as_i16 d6) (u16_as_i16 d7))) (seq 0 4) in
    Ok (tu, ch).

(** src/ur20_4ai_rtd_diag.rs 89-105: [process_input_data] *)
Definition rtd_process_input_data (params : list rtd_params) (data : list Z)
  : outcome (list channel_value) :=
  if negb (Nat.eqb (length data) 4) then Err BufferLength
  else if negb (Nat.eqb (length params) 4) then Err ChannelParameter
  else traverse (fun i =>
        let? d := index data i in
        let? p := index params i in
        Ok (analog_value (u16_to_rtd_value d (rtd_measurement_range p))))
      (seq 0 4).

(** ** src/ur20_4ai_tc_diag.rs *)

(** [slice.chunks_exact(7)] *)
Fixpoint chunks_exact_7 (l : list Z) : list (list Z) :=
  match l with
  | a :: b :: c :: d :: e :: f :: g :: t => [a; b; c; d; e; f; g] :: chunks_exact_7 t
  | _ => []
  end.

(** src/ur20_4ai_tc_diag.rs 155-197: [parameters_from_raw_data]; [try_into().expect()]
    (192-194) panics unless exactly four chunks were found *)
Definition tc_parameters (data : list Z) : outcome (temperature_unit * list tc_params) :=
  if Nat.ltb (length data) (1 + 4 * 7) then Err BufferLength
  else
    let? d0 := index data 0 in
    let? tu := enum_param temperature_unit_variants d0 in
    let? ch := traverse (fun chunk =>
        let? d0 := index chunk 0 in
        let? r := enum_param tc_range_variants d0 in
        let? d1 := index chunk 1 in
        let? cj := enum_param cold_junction_variants d1 in
        let? d2 := index chunk 2 in
        let? t := enum_param conversion_time_variants d2 in
        let? d3 := index chunk 3 in
        let? cd := bool_param d3 in
        let? d4 := index chunk 4 in
        let? lm := bool_param d4 in
        let? d5 := index chunk 5 in
        let? d6 := index chunk 6 in
        Ok (mk_tc r cj t cd lm (u16_as_i16 d5) (u16_as_i16 d6))) (chunks_exact_7 (skipn 1 data)) in
    if Nat.eqb (length ch) 4 then Ok (tu, ch) else Panic ExpectFailed.

(** src/ur20_4ai_tc_diag.rs 200-227: [u16_to_thermal_value] *)
Definition u16_to_thermal_value (val : Z) (range : tc_range) : option f32 :=
  let fval := f32_of_Z (u16_as_i16 val) in
  let volt c := f32_div (f32_mul c fval) (f32_of_Z 32767) in
  match range with
  | TC_Type_J | TC_Type_K | TC_Type_N | TC_Type_R | TC_Type_S | TC_Type_T | TC_Type_B
  | TC_Type_C | TC_Type_E | TC_Type_L | TC_Type_U =>
      if val =? 32767 then None else Some (f32_mul fval (f32_frac 1 10))
  | uVPlusMinus15625 => Some (volt (f32_frac 1 64))   (* 0.015625 *)
  | uVPlusMinus31250 => Some (volt (f32_frac 1 32))   (* 0.031250 *)
  | uVPlusMinus62500 => Some (volt (f32_frac 1 16))   (* 0.062500 *)
  | mVPlusMinus125 => Some (volt (f32_frac 1 8))      (* 0.125 *)
  | mVPlusMinus250 => Some (volt (f32_frac 1 4))      (* 0.250 *)
  | mVPlusMinus500 => Some (volt (f32_frac 1 2))      (* 0.500 *)
  | VPlusMinus1 => Some (volt (f32_of_Z 1))
  | VPlusMinus2 => Some (volt (f32_of_Z 2))
  | TC_Disabled => None
  end.

(** src/ur20_4ai_tc_diag.rs 40-44: [is_enabled] *)
Definition tc_is_enabled (p : tc_params) : bool :=
  match tc_measurement_range p with TC_Disabled => false | _ => true end.

(** src/ur20_4ai_tc_diag.rs 132-152: [process_input_data] ([zip] stops at the shorter
    list; [ch_params] is an array of four) *)
Definition tc_process_input_data (params : list tc_params) (data : list Z)
  : outcome (list channel_value) :=
  if negb (Nat.eqb (length data) 4) then Err BufferLength
  else Ok (map (fun dp =>
        let '(d, p) := dp in
        if tc_is_enabled p then
          match u16_to_thermal_value d (tc_measurement_range p) with
          | Some v => Decimal32 v
          | None => VNone
          end
        else Disabled) (combine data params)).

(** ** src/ur20_4ao_ui_16.rs *)

(** src/ur20_4ao_ui_16.rs 108-142: [parameters_from_raw_data]; the default substitute
    value 0.0 stays for disabled channels *)
Definition ao_parameters (data : list Z) : outcome (list ao_params) :=
  if Nat.ltb (length data) 12 then Err BufferLength
  else traverse (fun i =>
        let idx := (i * 3)%nat in
        let? d0 := index data idx in
        let? f := enum_param data_format_variants d0 in
        let? d1 := index data (idx + 1) in
        let? r := enum_param analog_ui_range_variants d1 in
        let? d2 := index data (idx + 2) in
        let sv := match u16_to_analog_ui_value d2 r f with Some v => v | None => f32_of_Z 0 end in
        Ok (mk_ao f r sv)) (seq 0 4).

(** src/ur20_4ao_ui_16.rs 56-77: [process_output_data]; no check of the number of
    channel parameters: indexing may panic *)
Definition ao_process_output_data (params : list ao_params) (data : list Z)
  : outcome (list channel_value) :=
  if negb (Nat.eqb (length data) 4) then Err BufferLength
  else traverse (fun iv =>
        let '(i, v) := iv in
        let? p := index params i in
        Ok (analog_value (u16_to_analog_ui_value v (ao_range p) (ao_format p))))
      (enumerate data).

(** src/ur20_4ao_ui_16.rs 100-106 and src/ur20_4ao_ui_16_diag.rs 102-108: [value_to_u16] *)
Definition value_to_u16 (v : channel_value) (range : analog_ui_range) (format : data_format)
  : outcome Z :=
  match v with
  | Decimal32 x => Ok (analog_ui_value_to_u16 x range format)
  | Disabled => Ok 0
  | _ => Err ChannelValueError
  end.

(** src/ur20_4ao_ui_16.rs 78-97: [process_output_values] *)
Definition ao_process_output_values (params : list ao_params) (values : list channel_value)
  : outcome (list Z) :=
  if negb (Nat.eqb (length values) 4) then Err ChannelValueError
  else if negb (Nat.eqb (length params) 4) then Err ChannelParameter
  else traverse (fun iv =>
        let '(i, v) := iv in
        let? p := index params i in
        value_to_u16 v (ao_range p) (ao_format p))
      (enumerate values).

(** ** src/ur20_4ao_ui_16_diag.rs *)

(** src/ur20_4ao_ui_16_diag.rs 110-141: [parameters_from_raw_data] *)
Definition ao_diag_parameters (data : list Z) : outcome (list ao_diag_params) :=
  if Nat.ltb (length data) 16 then Err BufferLength
  else traverse (fun i =>
        let idx := (i * 4)%nat in
        let? d0 := index data idx in
        let? f := enum_param data_format_variants d0 in
        let? d1 := index data (idx + 1) in
        let? r := enum_param analog_ui_range_variants d1 in
        let? d2 := index data (idx + 2) in
        let sv := match u16_to_analog_ui_value d2 r f with Some v => v | None => f32_of_Z 0 end in
        let? d3 := index data (idx + 3) in
        let? cd := bool_param d3 in
        Ok (mk_ao_diag f r sv cd)) (seq 0 4).

(** src/ur20_4ao_ui_16_diag.rs 58-79: [process_output_data]; indexing may panic *)
Definition ao_diag_process_output_data (params : list ao_diag_params) (data : list Z)
  : outcome (list channel_value) :=
  if negb (Nat.eqb (length data) 4) then Err BufferLength
  else traverse (fun iv =>
        let '(i, v) := iv in
        let? p := index params i in
        Ok (analog_value (u16_to_analog_ui_value v (aod_range p) (aod_format p))))
      (enumerate data).

(** src/ur20_4ao_ui_16_diag.rs 80-99: [process_output_values] *)
Definition ao_diag_process_output_values (params : list ao_diag_params)
  (values : list channel_value) : outcome (list Z) :=
  if negb (Nat.eqb (length values) 4) then Err ChannelValueError
  else if negb (Nat.eqb (length params) 4) then Err ChannelParameter
  else traverse (fun iv =>
        let '(i, v) := iv in
        let? p := index params i in
        value_to_u16 v (aod_range p) (aod_format p))
      (enumerate values).
