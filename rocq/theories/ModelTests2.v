(** The rest of the crate's own unit tests, run against the model.  These are tests of
    the faithfulness of the model, not proofs of properties.  Each example is named
    after the test function it follows; the section comment names the file. *)
From Coq Require Import ZArith List Bool String SpecFloat.
From Verif Require Import Base F32 Types Lib Util Digital Analog Fcnt Com Fbc Defaults ModelTests.
Import ListNotations.
Local Open Scope Z_scope.

Definition errs {A} (l : list (outcome A)) : bool := forallb is_err l.
Definition oks {A} (l : list (outcome A)) : bool := forallb is_ok l.
Definition zeros (n : nat) : list Z := repeat 0 n.
(** [data[i] = v] on a list of zeros *)
Definition poke (n i : nat) (v : Z) : list Z := firstn i (zeros n) ++ v :: zeros (n - i - 1).
Definition value {A} (d : A) (o : outcome A) : A := match o with Ok a => a | _ => d end.
Definition default_of (t : module_type) : module :=
  match module_default t with Some m => m | None => MSIL end.
(** [(x - y).abs() <= eps] on [f32] *)
Definition near (eps : f32) (v : channel_value) (y : f32) : bool :=
  match v with
  | Decimal32 x => SFleb (SFabs (f32_sub x y)) eps
  | _ => false
  end.
Definition approx (v : channel_value) (y : f32) : bool := near (f32_frac 1 10000) v y.
Definition up (c : Z) : list Z := [ascii_upper c].

(** src/lib.rs *)
Example module_by_u32_id :
  (try_from_u32 0x05052560, try_from_u32 0x01234567) = (Ok UR20_4AO_UI_16_M_DIAG, Err UnknownModule).
Proof. vm_compute. reflexivity. Qed.
Example module_by_str_id :
  map (fun s => module_type_from_str up (codes s))
    ["UR20_1COM_232_485_422"; "UR20-1COM-232-485-422"; "ur20-1com-232-485-422"; "not-valid"]%string
  = [Ok UR20_1COM_232_485_422; Ok UR20_1COM_232_485_422; Ok UR20_1COM_232_485_422; Err UnknownModule].
Proof. vm_compute. reflexivity. Qed.
Example category_by_str_id :
  map (fun s => category_from_str up (codes s)) ["RTD"; "rtd"; "aO"]%string = [Ok RTD; Ok RTD; Ok AO].
Proof. vm_compute. reflexivity. Qed.

(** src/ur20_16do_p.rs *)
Definition do16 := default_of UR20_16DO_P.
Example do16_values_len :
  (map (fun n => is_ok (mod_process_output_values Debug do16 (repeat (Bit true) n))) [0; 15; 16]%nat)
  = [false; false; true].
Proof. vm_compute. reflexivity. Qed.
Example do16_output_data :
  mod_process_output_data do16 [0xFFFF] = Ok (repeat (Bit true) 16) /\
  map (fun i => nth i (value [] (mod_process_output_data do16 [0x2125])) VNone) [0; 1; 5; 8; 13]%nat
  = [Bit true; Bit false; Bit true; Bit true; Bit true] /\
  is_err (mod_process_output_data do16 [0; 0]) = true.
Proof. vm_compute. auto. Qed.
Example do16_invalid_values :
  is_err (mod_process_output_values Debug do16 (repeat (dec 0) 16)) = true.
Proof. vm_compute. reflexivity. Qed.
Definition bits (n : nat) (l : list nat) : list channel_value :=
  map (fun i => Bit (existsb (Nat.eqb i) l)) (seq 0 n).
Example do16_values :
  (mod_process_output_values Debug do16 (bits 16 [0; 2; 3; 13]%nat),
   mod_process_output_values Debug do16 (bits 16 [0; 2; 3; 7; 8; 13]%nat)) = (Ok [0x200D], Ok [0x218D]).
Proof. vm_compute. reflexivity. Qed.
Example do16_type_and_params :
  mod_type do16 = UR20_16DO_P /\ is_ok (module_from_params UR20_16DO_P []) = true /\
  is_err (module_from_params UR20_16DO_P [0]) = true.
Proof. vm_compute. auto. Qed.

(** src/ur20_di_generic.rs *)
Definition di4 := default_of UR20_4DI_P.
Definition di8 := default_of UR20_8DI_P_2W.
Example di_input_data :
  is_err (mod_process_input_data di4 []) = true /\
  mod_process_input_data di4 [4] = Ok (bits 4 [2]%nat) /\
  is_err (mod_process_input_data di8 []) = true /\
  mod_process_input_data di8 [0xD4] = Ok (bits 8 [2; 4; 6; 7]%nat).
Proof. vm_compute. auto. Qed.
(** the tests [test_process_output_data] and [test_process_output_values] of the input
    modules *)
Definition inputs_only (m : module) (n : nat) (v : channel_value) : bool :=
  is_err (mod_process_output_data m (zeros n)) && is_err (mod_process_output_values Debug m [v]).
Example input_modules_have_no_outputs :
  forallb (fun x => inputs_only (default_of (fst (fst x))) (snd (fst x)) (snd x))
    [(UR20_4DI_P, 4%nat, Bit true); (UR20_4AI_UI_12, 4%nat, dec 0); (UR20_4AI_RTD_DIAG, 4%nat, dec 0);
     (UR20_4AI_TC_DIAG, 4%nat, dec 0); (UR20_4AI_UI_16_DIAG, 4%nat, dec 0);
     (UR20_8AI_I_16_DIAG_HD, 8%nat, dec 0)] = true /\
  map (fun x => (mod_process_output_data (default_of (fst x)) [],
                 mod_process_output_values Debug (default_of (fst x)) [],
                 mod_process_output_values Debug (default_of (fst x)) (repeat VNone (snd x))))
    [(UR20_4DI_P, 4%nat); (UR20_4AI_UI_12, 4%nat); (UR20_4AI_RTD_DIAG, 4%nat);
     (UR20_4AI_TC_DIAG, 4%nat); (UR20_4AI_UI_16_DIAG, 4%nat); (UR20_8AI_I_16_DIAG_HD, 8%nat)]
  = repeat (Ok (repeat VNone 4), Ok [], Ok []) 5 ++ [(Ok (repeat VNone 8), Ok [], Ok [])].
Proof. vm_compute. auto. Qed.
Example di_params :
  di_parameters UR20_4DI_P [2; 3; 4; 0] = Ok [ID_ms3; ID_ms10; ID_ms20; ID_no] /\
  errs (map (di_parameters UR20_4DI_P) [[6; 0; 0; 0]; []; zeros 3]) = true /\
  is_ok (di_parameters UR20_4DI_P (zeros 4)) = true /\
  module_from_params UR20_4DI_P [0; 3; 4; 5] = Ok (MDI V_4DI_P [ID_no; ID_ms10; ID_ms20; ID_ms40]) /\
  module_from_params UR20_8DI_P_2W [0; 1; 2; 3; 4; 5; 2; 2]
  = Ok (MDI V_8DI_P_2W [ID_no; ID_us300; ID_ms3; ID_ms10; ID_ms20; ID_ms40; ID_ms3; ID_ms3]).
Proof. vm_compute. auto 10. Qed.

(** src/ur20_do_generic.rs and src/ur20_4ro_co_255.rs, whose tests agree *)
Example do_tests :
  forallb (fun m =>
    errs (map (mod_process_output_values Debug m)
            [[]; [Bit true; Bit false; Bit true]; [Bit false; Bit true; Bit false; dec 0]]) &&
    is_err (mod_process_output_data m [0; 0]))
    [default_of UR20_4DO_P; default_of UR20_4RO_CO_255] = true /\
  map (fun m => (mod_process_output_data m [0x0F], mod_process_output_data m [5],
                 mod_process_output_values Debug m [Bit true; Bit false; Bit true; Bit true],
                 mod_type m))
    [default_of UR20_4DO_P; default_of UR20_4RO_CO_255]
  = [(Ok (repeat (Bit true) 4), Ok (bits 4 [0; 2]%nat), Ok [13], UR20_4DO_P);
     (Ok (repeat (Bit true) 4), Ok (bits 4 [0; 2]%nat), Ok [13], UR20_4RO_CO_255)].
Proof. vm_compute. auto. Qed.
Example do_params :
  (module_from_params UR20_4DO_P [0; 1; 0; 1], module_from_params UR20_4DO_P [1; 0; 1; 0],
   module_from_params UR20_4RO_CO_255 [0; 1; 0; 1])
  = (Ok (MDO V_4DO_P [false; true; false; true]), Ok (MDO V_4DO_P [true; false; true; false]),
     Ok (M4RO [false; true; false; true])) /\
  errs (map (module_from_params UR20_4DO_P) [[2; 0; 0; 0]; []; zeros 3]) = true /\
  errs (map (module_from_params UR20_4RO_CO_255) [[2; 0; 0; 0]; []; zeros 3]) = true.
Proof. vm_compute. auto. Qed.

(** src/ur20_pf_o_1di_sil.rs *)
Example sil_tests :
  mod_input_byte_count MSIL = 4%nat /\ mod_output_byte_count MSIL = Ok 0%nat /\
  map (fun n => is_ok (mod_process_input_data MSIL (zeros n))) [0; 1; 2; 3; 4]%nat
  = [false; false; true; false; false] /\
  map (fun n => is_ok (mod_process_output_data MSIL (zeros n))) [0; 1; 2; 3]%nat
  = [true; false; false; false] /\
  map (fun w => mod_process_input_data MSIL [w; 0]) [0x053D; 0x0118; 0]
  = map (fun i => Ok [SilPFIn i])
      [mk_sil_in true true true true true true true; mk_sil_in false false true true false true false;
       mk_sil_in false false false false false false false].
Proof. vm_compute. auto 10. Qed.

(** src/ur20_ai_ui_generic.rs, src/ur20_4ai_ui_16_diag.rs, src/ur20_8ai_i_16_diag_hd.rs *)
Definition ui12 ch := MAIUI V_4AI_UI_12 FS_Disabled ch.
Definition ui16 ch := MUI16DIAG FS_Disabled ch.
Definition diag (f : data_format) (r : analog_ui_range) := mk_ai_ui_diag false false false f r.
Example ui_empty_and_missing :
  errs [mod_process_input_data (default_of UR20_4AI_UI_12) []; mod_process_input_data (ui12 []) (zeros 4);
        mod_process_input_data (default_of UR20_4AI_UI_16_DIAG) [];
        mod_process_input_data (ui16 []) (zeros 4);
        mod_process_input_data (default_of UR20_8AI_I_16_DIAG_HD) [];
        mod_process_input_data (M8AI FS_Disabled []) (zeros 8)] = true.
Proof. vm_compute. reflexivity. Qed.
Example ui_input_data :
  (mod_process_input_data (default_of UR20_4AI_UI_12) [5; 0; 7; 8],
   mod_process_input_data (default_of UR20_4AI_UI_16_DIAG) [5; 0; 7; 8],
   mod_process_input_data (default_of UR20_8AI_I_16_DIAG_HD) [5; 0; 7; 8; 0; 0; 0; 0])
  = (Ok (repeat Disabled 4), Ok (repeat Disabled 4), Ok (repeat Disabled 8)) /\
  let v := Ok [dec 20; decq 5 2; dec 10; dec 5] in
  let d := [0x6C00; 0x3600; 0x4000; 0x6C00] in
  (mod_process_input_data (ui12 [mk_ai_ui S7 UI_mA0To20; mk_ai_ui S7 UI_VMinus5To5;
                                 mk_ai_ui S5 UI_V2To10; mk_ai_ui S7 UI_V0To5]) d,
   mod_process_input_data (ui16 [diag S7 UI_mA0To20; diag S7 UI_VMinus5To5;
                                 diag S5 UI_V2To10; diag S7 UI_V0To5]) d) = (v, v).
Proof. vm_compute. auto. Qed.
Definition underload (o : outcome (list channel_value)) : bool :=
  near (f32_frac 1 100) (nth 0 (value [] o) VNone) (f32_frac 119 100) &&
  near (f32_frac 1 100) (nth 1 (value [] o) VNone) (f32_frac 8 10).
Example ui_underloading :
  underload (mod_process_input_data
    (ui12 (mk_ai_ui S7 UI_mA4To20 :: mk_ai_ui S5 UI_mA4To20 :: repeat ai_ui_default 2))
    [0xED00; 0xF333; 0; 0]) &&
  underload (mod_process_input_data
    (ui16 (diag S7 UI_mA4To20 :: diag S5 UI_mA4To20 :: repeat ai_ui_diag_default 2))
    [0xED00; 0xF333; 0; 0]) &&
  underload (mod_process_input_data
    (M8AI FS_Disabled (mk_ai_i false false S7 I_mA4To20 :: mk_ai_i false false S5 I_mA4To20 ::
                       repeat ai_i_default 6)) [0xED00; 0xF333; 0; 0; 0; 0; 0; 0]) = true.
Proof. vm_compute. reflexivity. Qed.
Example ui12_params :
  (option_map fst (match ai_ui_parameters UR20_4AI_UI_12 (zeros 9) with Ok p => Some p | _ => None end),
   option_map fst (match ai_ui_parameters UR20_4AI_UI_12 (poke 9 0 3) with Ok p => Some p | _ => None end))
  = (Some FS_Disabled, Some FS_Average16) /\
  ai_ui_parameters UR20_4AI_UI_12 [0; 1; 8; 0; 5; 0; 0; 0; 0]
  = Ok (FS_Disabled, [ai_ui_default; mk_ai_ui S5 UI_VMinus5To5; mk_ai_ui S5 UI_mA0To20;
                      mk_ai_ui S5 UI_mA0To20]) /\
  errs (map (ai_ui_parameters UR20_4AI_UI_12) [poke 9 0 4; poke 9 1 2; poke 9 2 9; []; zeros 8]) = true /\
  module_from_params UR20_4AI_UI_12 [0; 0; 1; 1; 8; 0; 0; 0; 0]
  = Ok (ui12 [mk_ai_ui S5 UI_mA4To20; ai_ui_default; mk_ai_ui S5 UI_mA0To20; mk_ai_ui S5 UI_mA0To20]).
Proof. vm_compute. auto. Qed.
Example ui16_params :
  ai_ui_diag_parameters (3 :: zeros 20) = Ok (FS_Average16, repeat (diag S5 UI_mA0To20) 4) /\
  ai_ui_diag_parameters [0; 0; 0; 0; 1; 8; 1; 0; 0; 0; 5; 0; 1; 0; 0; 0; 0; 0; 1; 0; 0]
  = Ok (FS_Disabled, [ai_ui_diag_default; mk_ai_ui_diag true false false S5 UI_VMinus5To5;
                      mk_ai_ui_diag false true false S5 UI_mA0To20;
                      mk_ai_ui_diag false false true S5 UI_mA0To20]) /\
  errs (map ai_ui_diag_parameters
          [poke 21 0 4; poke 21 1 2; poke 21 2 2; poke 21 3 2; poke 21 4 2; poke 21 5 9; []; zeros 20])
  = true /\
  module_from_params UR20_4AI_UI_16_DIAG
    [0; 0; 0; 0; 0; 1; 0; 0; 0; 1; 8; 1; 0; 0; 0; 0; 0; 0; 0; 0; 0]
  = Ok (ui16 [diag S5 UI_mA4To20; ai_ui_diag_default; mk_ai_ui_diag true false false S5 UI_mA0To20;
              diag S5 UI_mA0To20]).
Proof. vm_compute. auto. Qed.
Example ai8_params :
  map (fun n => ai_i_parameters (n :: zeros 32)) [0; 1; 2; 3]
  = map (fun f => Ok (f, repeat (mk_ai_i false false S5 I_mA0To20) 8))
      [FS_Disabled; FS_Hz50; FS_Hz60; FS_Average16] /\
  ai_i_parameters (0 :: [0; 0; 1; 2] ++ [1; 0; 0; 2] ++ [0; 1; 0; 2] ++ [0; 0; 1; 2] ++ [0; 0; 0; 1] ++
                   [1; 1; 1; 0] ++ [0; 0; 0; 0] ++ [0; 0; 0; 0])
  = Ok (FS_Disabled, [ai_i_default; mk_ai_i true false S5 I_Disabled; mk_ai_i false true S5 I_Disabled;
                      ai_i_default; mk_ai_i false false S5 I_mA4To20; mk_ai_i true true S7 I_mA0To20;
                      mk_ai_i false false S5 I_mA0To20; mk_ai_i false false S5 I_mA0To20]) /\
  errs (map ai_i_parameters [poke 33 1 2; poke 33 2 2; poke 33 3 2; poke 33 4 3; []; zeros 32]) = true.
Proof. vm_compute. auto. Qed.

(** src/ur20_4ai_rtd_diag.rs *)
Definition rtd (l : list rtd_range) : module :=
  MRTD Celsius (map (fun r => mk_rtd r TwoWire CT_ms80 false false 0 0) l).
Example rtd_input_data :
  errs [mod_process_input_data (default_of UR20_4AI_RTD_DIAG) []; mod_process_input_data (rtd []) (zeros 4)]
  = true /\
  mod_process_input_data (default_of UR20_4AI_RTD_DIAG) [5; 0; 7; 8] = Ok (repeat Disabled 4) /\
  mod_process_input_data (rtd [R40; R40; PT100; PT1000]) [0x6C00; 0x7EFF; 55; 99]
  = Ok [dec 40; decq 4703559 100000; decq 55 10; decq 99 10] /\
  mod_process_input_data (rtd [PT100; Cu10; RTD_Disabled; RTD_Disabled]) [0xF830; 0xFF38; 0; 0]
  = Ok [dec (-200); dec (-20); Disabled; Disabled] /\
  mod_process_input_data (rtd [PT100; NI1000; RTD_Disabled; RTD_Disabled])
    [65536 - 2040; 65536 - 640; 0; 0] = Ok [dec (-204); dec (-64); Disabled; Disabled].
Proof. vm_compute. auto 10. Qed.
Example rtd_params :
  map (fun n => rtd_parameters (n :: zeros 28)) [0; 1; 2]
  = map (fun u => Ok (u, repeat (mk_rtd PT100 TwoWire CT_ms240 false false 0 0) 4))
      [Celsius; Fahrenheit; Kelvin] /\
  rtd_parameters (0 :: [18; 0; 2; 0; 0; 0; 0] ++ [5; 1; 0; 0; 0; 0; 0] ++ [0; 0; 1; 0; 0; 0; 0] ++
                  [0; 0; 0; 1; 1; 0x7FFF; 0x8000])
  = Ok (Celsius, [rtd_default; mk_rtd NI120 ThreeWire CT_ms240 false false 0 0;
                  mk_rtd PT100 TwoWire CT_ms130 false false 0 0;
                  mk_rtd PT100 TwoWire CT_ms240 true true 32767 (-32768)]) /\
  errs (map rtd_parameters [poke 29 1 19; poke 29 2 3; poke 29 3 6; []; zeros 28]) = true.
Proof. vm_compute. auto. Qed.

(** src/ur20_4ai_tc_diag.rs *)
Definition tc (l : list tc_range) : module :=
  MTC Celsius (map (fun r => mk_tc r CJ_Internal CT_ms80 false false 32767 (-32768)) l).
Definition decoded (m : module) (d : list Z) : list channel_value := value [] (mod_process_input_data m d).
Definition all_approx (l : list channel_value) (r : list f32) : bool :=
  Nat.eqb (List.length l) (List.length r) && forallb (fun x => approx (fst x) (snd x)) (combine l r).
Example tc_input_data :
  map (fun n => is_ok (mod_process_input_data (default_of UR20_4AI_TC_DIAG) (zeros n))) [0; 1; 2; 3; 4; 5]%nat
  = [false; false; false; false; true; false] /\
  mod_process_input_data (default_of UR20_4AI_TC_DIAG) (zeros 4) = Ok (repeat Disabled 4) /\
  let m := tc [TC_Type_K; VPlusMinus2; mVPlusMinus500; uVPlusMinus15625] in
  all_approx (decoded m [65536 - 2000; 0; 0; 0]) [f32_of_Z (-200); f32_of_Z 0; f32_of_Z 0; f32_of_Z 0] = true /\
  all_approx (decoded m [0; 16384; 16384; 16384])
    [f32_of_Z 0; f32_of_Z 1; f32_frac 1 4; f32_frac 1 128] = true /\
  nth 0 (decoded m (repeat 32767 4)) Disabled = VNone /\
  all_approx (tl (decoded m (repeat 32767 4))) [f32_of_Z 2; f32_frac 1 2; f32_frac 1 64] = true /\
  nth 0 (decoded (tc [TC_Disabled; VPlusMinus2; mVPlusMinus500; uVPlusMinus15625]) [1000; 0; 0; 0]) VNone
  = Disabled /\
  all_approx (firstn 2 (decoded (tc [TC_Type_B; TC_Type_J; TC_Disabled; TC_Disabled])
                          [460; 65536 - 2140; 0; 0])) [f32_of_Z 46; f32_of_Z (-214)] = true.
Proof. vm_compute. auto 10. Qed.
Example tc_params_tests :
  map (fun n => tc_parameters (n :: zeros 28)) [0; 1]
  = map (fun u => Ok (u, repeat (mk_tc TC_Type_J CJ_Internal CT_ms240 false false 0 0) 4))
      [Celsius; Fahrenheit] /\
  tc_parameters (0 :: [19; 0; 2; 0; 0; 32767; 32768] ++ [1; 1; 1; 1; 1; 1000; 65536 - 1000] ++
                 [19; 0; 0; 0; 0; 0; 0] ++ [11; 4; 2; 0; 0; 0; 0])
  = Ok (Celsius, [tc_default; mk_tc TC_Type_K CJ_External0 CT_ms130 true true 1000 (-1000);
                  mk_tc TC_Disabled CJ_Internal CT_ms240 false false 0 0;
                  mk_tc uVPlusMinus15625 CJ_External3 CT_ms80 false false 0 0]) /\
  errs (map tc_parameters [poke 29 0 3; poke 29 1 20; poke 29 2 5; poke 29 3 6; poke 29 4 2; poke 29 5 2;
                           []; zeros 28]) = true /\
  is_ok (tc_parameters (zeros 29)) = true.
Proof. vm_compute. auto. Qed.

(** src/ur20_4ao_ui_16.rs and src/ur20_4ao_ui_16_diag.rs *)
Definition aod4 (r0 r1 r2 r3 : analog_ui_range) :=
  map (fun r => mk_ao_diag S7 r (f32_of_Z 0) false) [r0; r1; r2; r3].
Example ao_input_data :
  map (fun t => (is_err (mod_process_input_data (default_of t) (zeros 4)),
                 mod_process_input_data (default_of t) []))
    [UR20_4AO_UI_16; UR20_4AO_UI_16_DIAG] = repeat (true, Ok (repeat VNone 4)) 2.
Proof. vm_compute. reflexivity. Qed.
Example ao_output_data :
  map (fun t => (mod_process_output_data (default_of t) [123; 456; 789; 0],
                 map (fun n => is_ok (mod_process_output_data (default_of t) (zeros n))) [0; 3; 5; 4]%nat))
    [UR20_4AO_UI_16; UR20_4AO_UI_16_DIAG]
  = repeat (Ok (repeat Disabled 4), [false; false; false; true]) 2 /\
  mod_process_output_data (M4AODIAG (aod4 UI_mA0To20 UI_mA0To20 UI_mA0To20 UI_mA0To20)) [0; 0x6C00; 0x3600; 0]
  = Ok [dec 0; dec 20; dec 10; dec 0].
Proof. vm_compute. auto. Qed.
Example ao_output_values :
  forallb (fun m =>
    errs (map (mod_process_output_values Debug m)
            [[]; [dec 0; dec 0; dec 0]; [Bit false; dec 0; dec 0; dec 0]]))
    [default_of UR20_4AO_UI_16; default_of UR20_4AO_UI_16_DIAG] = true /\
  errs (map (fun m => mod_process_output_values Debug m [dec 0; dec 0; dec 0; dec 0])
          [M4AO []; M4AODIAG []]) = true /\
  map (fun m => mod_process_output_values Debug m [dec 0; decq 999 10; Disabled; decq 33 10])
    [default_of UR20_4AO_UI_16; default_of UR20_4AO_UI_16_DIAG] = repeat (Ok (zeros 4)) 2 /\
  map (fun m => mod_process_output_values Debug m [decq 23518 1000; dec 20; dec 10; dec 0])
    [M4AO (ao4 UI_mA0To20 UI_mA0To20 UI_mA0To20 UI_mA0To20);
     M4AODIAG (aod4 UI_mA0To20 UI_mA0To20 UI_mA0To20 UI_mA0To20)]
  = repeat (Ok [0x7EFF; 0x6C00; 0x3600; 0]) 2 /\
  map (fun m => mod_process_output_values Debug m [dec 10; dec 12; dec 10; dec (-10)])
    [M4AO (ao4 UI_mA0To20 UI_mA4To20 UI_V0To10 UI_VMinus10To10);
     M4AODIAG (aod4 UI_mA0To20 UI_mA4To20 UI_V0To10 UI_VMinus10To10)]
  = repeat (Ok [0x3600; 0x3600; 0x6C00; 0x9400]) 2 /\
  map (fun m => mod_process_output_values Debug m [dec 5; dec (-5); dec 1; dec 2])
    [M4AO (ao4 UI_V0To5 UI_VMinus5To5 UI_V1To5 UI_V2To10);
     M4AODIAG (aod4 UI_V0To5 UI_VMinus5To5 UI_V1To5 UI_V2To10)]
  = repeat (Ok [0x6C00; 0x9400; 0; 0]) 2.
Proof. vm_compute. auto 10. Qed.
Example ao_params :
  ao_parameters [1; 8; 0; 1; 0; 0; 0; 2; 0; 1; 5; 0xCA00]
  = Ok [ao_default; mk_ao S7 UI_mA0To20 (f32_of_Z 0); mk_ao S5 UI_V0To10 (f32_of_Z 0);
        mk_ao S7 UI_VMinus5To5 (f32_frac (-5) 2)] /\
  errs (map ao_parameters [poke 12 0 2; poke 12 1 9; []; zeros 11]) = true /\
  is_ok (ao_parameters (zeros 12)) = true /\
  ao_diag_parameters [1; 8; 0; 0; 1; 0; 0; 1; 0; 2; 0; 0; 1; 5; 0xCA00; 0]
  = Ok [ao_diag_default; mk_ao_diag S7 UI_mA0To20 (f32_of_Z 0) true;
        mk_ao_diag S5 UI_V0To10 (f32_of_Z 0) false; mk_ao_diag S7 UI_VMinus5To5 (f32_frac (-5) 2) false] /\
  errs (map ao_diag_parameters [poke 16 0 2; poke 16 1 9; poke 16 3 2; []; zeros 15]) = true /\
  is_ok (ao_diag_parameters (zeros 16)) = true.
Proof. vm_compute. auto 10. Qed.

(** src/ur20_2fcnt_100.rs *)
Definition fcnt := default_of UR20_2FCNT_100.
Example fcnt_params :
  map fcnt_parameters [[0; 0]; [0; 1]; [2; 1]] = [Ok [us5; us5]; Ok [us5; us11]; Ok [us21; us11]] /\
  errs (map fcnt_parameters [[]; [0]]) = true.
Proof. vm_compute. auto. Qed.
Example fcnt_sizes :
  mod_input_byte_count fcnt = 20%nat /\ mod_output_byte_count fcnt = Ok 12%nat /\
  map (fun n => is_ok (mod_process_input_data fcnt (zeros n))) [0; 2; 9; 10]%nat
  = [false; false; false; true] /\
  map (fun n => is_ok (mod_process_output_data fcnt (zeros n))) [0; 5; 7; 6]%nat
  = [false; false; false; true] /\
  is_err (mod_process_input_data (MFCNT []) (zeros 10)) = true.
Proof. vm_compute. auto 10. Qed.
Example fcnt_min_duration :
  nth 0 (value [] (mod_process_input_data fcnt (poke 10 1 8))) VNone
  = FcntIn (mk_fcnt_in (Some (mk_duration 0 1000)) 0 false).
Proof. vm_compute. reflexivity. Qed.
Example fcnt_output_data :
  map (mod_process_output_data fcnt)
    [zeros 6; [0; 120; 0; 3; 0; 0]; [0; 0; 0; 0; set_bit_16 0 8; set_bit_16 0 9]]
  = map (fun x => Ok [FcntOut (fst x); FcntOut (snd x)])
      [(fcnt_out_default, fcnt_out_default);
       (mk_fcnt_out (mk_duration 0 120000) None, mk_fcnt_out (mk_duration 0 3000) None);
       (mk_fcnt_out (mk_duration 0 0) (Some Start), mk_fcnt_out (mk_duration 0 0) (Some Stop))].
Proof. vm_compute. reflexivity. Qed.
Example fcnt_output_values :
  map (fun n => is_ok (mod_process_output_values Debug fcnt (repeat (FcntOut fcnt_out_default) n)))
    [0; 1; 3; 2]%nat = [false; false; false; true] /\
  errs [mod_process_output_values Debug (MFCNT []) (repeat (FcntOut fcnt_out_default) 2);
        mod_process_output_values Debug fcnt [Bit false; dec 0]] = true /\
  mod_process_output_values Debug fcnt (repeat (FcntOut fcnt_out_default) 2) = Ok (zeros 6) /\
  mod_process_output_values Debug fcnt
    [FcntOut (mk_fcnt_out (mk_duration 2 0) None); FcntOut (mk_fcnt_out (mk_duration 0 1000) None)]
  = Ok [0x1e; 0x8480; 0; 1; 0; 0] /\
  hertz (mk_fcnt_in None 5 true) = None.
Proof. vm_compute. auto 10. Qed.

(** src/ur20_1com_232_485_422.rs *)
Definition com := default_of UR20_1COM_232_485_422.
Example com_from_bytes :
  rs_in_from_bytes [0; 0] = Ok rs_in_default /\
  map rs_in_from_bytes [[0]; [0; 5; 0]] = [Err BufferLength; Err BufferLength] /\
  is_ok (rs_in_from_bytes [0; 5; 0; 0; 0; 0; 0]) = true.
Proof. vm_compute. auto. Qed.
Example com_invalid_output :
  map (fun o => rs_out_to_bytes o EightBytes)
    [mk_rs_out false false false 4 0 false []; mk_rs_out false false false 0 4 false [];
     mk_rs_out false false false 0 0 false (zeros 7); rs_out_default]
  = [Err SequenceNumber; Err SequenceNumber; Err DataLength; Ok (zeros 8)].
Proof. vm_compute. reflexivity. Qed.
Example com_module :
  errs [mod_process_input_data com []; mod_process_output_data com []] = true /\
  mod_process_output_data com [0x035A; 0x0E00; 7]
  = Ok [ComRsOut (mk_rs_out false true false 3 2 false [0; 14; 7])] /\
  mod_process_input_data com [0x0600; 0; 0xABCD; 0]
  = Ok [ComRsIn (mk_rs_in false false 0 0 false [0; 0; 0xCD; 0xAB; 0; 0])] /\
  errs (map (mod_process_output_values Debug com)
          [[]; [ComRsIn rs_in_default; ComRsIn rs_in_default]; [dec 0]]) = true.
Proof. vm_compute. auto 10. Qed.
Definition sends (l : process_data_length) (n : nat) : bool :=
  is_ok (com_process_output_values l [ComRsOut (mk_rs_out false false false 0 0 false (zeros n))]).
Example com_invalid_byte_len :
  (map (sends SixteenBytes) [2; 14; 15]%nat, map (sends EightBytes) [14; 7; 6]%nat)
  = ([true; true; false], [false; false; true]).
Proof. vm_compute. reflexivity. Qed.
Definition go (p : processor) (i : rs_in) (o : rs_out) : processor * rs_out :=
  value (p, o) (processor_next Debug p i o).
Definition ready (ack : Z) : rs_in := mk_rs_in false false 0 ack true [].
Example com_send_eight :
  let p := mk_processor Done 0 [] [] EightBytes in
  let '(p, o0) := go p (ready 0) rs_out_default in
  let p := fst (processor_write p (codes "This msg is >6 bytes")) in
  let '(p, o1) := go p (ready 0) o0 in
  let '(p, o1') := go p (ready 0) o1 in
  let '(p, o2) := go p (ready 1) o1' in
  let '(p, o3) := go p (ready 2) o2 in
  let '(p, o4) := go p (ready 3) o3 in
  let '(p, o5) := go p (ready 3) o4 in
  (o0 = rs_out_default /\ o1' = o1 /\ o5 = o4) /\
  map (fun o => (ro_tx_cnt o, ro_data o)) [o1; o2; o3; o4]
  = [(1, codes "This m"); (2, codes "sg is "); (3, codes ">6 byt"); (0, codes "es")].
Proof. vm_compute. auto. Qed.
Example com_send_sixteen :
  let p := fst (processor_write (mk_processor Done 0 [] [] SixteenBytes) (codes "This msg is >14 bytes")) in
  let '(p, o1) := go p (ready 0) rs_out_default in
  let '(p, o2) := go p (ready 1) o1 in
  (ro_data o1, ro_tx_cnt o1, ro_data o2) = (codes "This msg is >1", 1, codes "4 bytes").
Proof. vm_compute. reflexivity. Qed.
Example com_initial_send :
  let p := fst (processor_write (processor_new SixteenBytes) (codes "This msg is >14 bytes")) in
  let '(p1, o1) := go p (ready 0) rs_out_default in
  let '(p2, o2) := go p1 (ready 0) o1 in
  let '(p3, o3) := go p2 (ready 0) o2 in
  (p_init_state p = ClearBuffers /\ p_init_state p1 = ResetState /\ p_init_state p2 = Done /\
   p_last_rx_cnt p2 = 4) /\
  (ro_rx_buf_flush o1, ro_tx_buf_flush o1, ro_reset o1) = (true, true, false) /\
  (ro_rx_buf_flush o2, ro_tx_buf_flush o2, ro_reset o2, ro_data o2, ro_tx_cnt o2)
  = (false, false, true, [], 0) /\
  (ro_data o3, ro_tx_cnt o3) = (codes "This msg is >1", 1).
Proof. vm_compute. auto 10. Qed.
Example com_receive :
  let p := processor_new EightBytes in
  let '(p, o) := go p (ready 0) rs_out_default in
  let '(p, b0) := processor_read p 11 in
  let msg n s := mk_rs_in true false n 0 true (codes s) in
  let '(p, o) := go p (msg 1 "a msg"%string) o in
  let '(p, o) := go p (msg 1 "a msg"%string) o in
  let '(p, b1) := processor_read p 11 in
  let '(p, b2) := processor_read p 11 in
  let '(p, o) := go p (msg 2 "Foo"%string) o in
  let '(p, o) := go p (msg 3 " bar"%string) o in
  let '(p, o) := go p (msg 0 " baz"%string) o in
  let '(p, b3) := processor_read p 11 in
  let '(p, b4) := processor_read p 11 in
  (b0, b1, b2, b3, b4) = ([], codes "a msg", [], codes "Foo bar baz", []).
Proof. vm_compute. reflexivity. Qed.
Example com_rx_cnt :
  let msg n := mk_rs_in true false n 0 true (codes "foo") in
  let p0 := fst (go (mk_processor Done 0 [] [] EightBytes) (msg 0) rs_out_default) in
  let p1 := fst (go p0 (msg 1) rs_out_default) in
  let p2 := fst (go p1 (msg 1) rs_out_default) in
  map (fun p => (p_last_rx_cnt p, List.length (p_in_data p))) [p0; p1; p2]
  = [(0, 0%nat); (1, 3%nat); (1, 3%nat)].
Proof. vm_compute. reflexivity. Qed.
Example com_outdated_tx_cnt :
  map (fun x => let o := snd (go (mk_processor Done 0 [] [codes "some data"] EightBytes) (ready (fst x))
                                (mk_rs_out false false false (snd x) 0 false [])) in
                (ro_tx_cnt o, negb (Nat.eqb (List.length (ro_data o)) 0)))
    (list_prod [0; 1; 2; 3] [0; 1; 2; 3])
  = [(1, true); (1, false); (1, true); (1, true);
     (2, true); (2, true); (2, false); (2, true);
     (3, true); (3, true); (3, true); (3, false);
     (0, false); (0, true); (0, true); (0, true)].
Proof. vm_compute. reflexivity. Qed.
Example com_invalid_params :
  errs (map com_parameters [poke 10 0 2; poke 10 1 4; poke 10 2 12; poke 10 3 2; poke 10 4 3; poke 10 5 3;
                            poke 10 6 2; poke 10 7 2; poke 10 8 256; poke 10 9 256; []; zeros 9]) = true /\
  com_parameters (zeros 10)
  = Ok (EightBytes, mk_com OM_Disabled SevenBits Baud_300 OneBit ParityNone FlowNone 0 0 false) /\
  is_ok (module_from_params UR20_1COM_232_485_422 [1; 0; 5; 0; 0; 0; 1; 0; 17; 19]) = true.
Proof. vm_compute. auto. Qed.

(** src/ur20_fbc_mod_tcp.rs *)
Definition rtd_m := default_of UR20_4AI_RTD_DIAG.
Definition ao_m := default_of UR20_4AO_UI_16.
Definition do_m := default_of UR20_4DO_P.
Definition in_at (w : Z) (b : nat) : module_offset :=
  mk_offset (Some (to_bit_address (ADDR_PACKED_PROCESS_INPUT_DATA + w) b)) None.
Definition out_at (w : Z) (b : nat) : module_offset :=
  mk_offset None (Some (to_bit_address (ADDR_PACKED_PROCESS_OUTPUT_DATA + w) b)).
Example fbc_invalid_input :
  errs [process_input_data Debug [(rtd_m, in_at 0 3)] [0; 33; 0; 0];
        process_input_data Debug [(rtd_m, in_at 0 0); (rtd_m, in_at 4 0)] [0; 33; 0; 0]] = true.
Proof. vm_compute. reflexivity. Qed.
Example fbc_output_data :
  process_output_data Debug
    [(M4AO (ao4 UI_Disabled UI_VMinus5To5 UI_Disabled UI_Disabled), out_at 0 0); (rtd_m, in_at 0 0);
     (do_m, out_at 4 0); (do_m, out_at 4 8)] [0; 0x3600; 0; 0; 0x0102]
  = Ok [[Disabled; decq 5 2; Disabled; Disabled]; repeat VNone 4; bits 4 [1]%nat; bits 4 [0]%nat].
Proof. vm_compute. reflexivity. Qed.
Example fbc_invalid_output_data :
  errs [process_output_data Debug [(ao_m, out_at 0 3)] [0; 33; 0; 0];
        process_output_data Debug [(ao_m, out_at 0 0); (ao_m, out_at 4 0)] [0; 33; 0; 0]] = true.
Proof. vm_compute. reflexivity. Qed.
Example fbc_invalid_output_values :
  let v := [dec 15; dec 20; dec 20; dec 10] in
  errs [process_output_values Debug [(ao_m, out_at 0 0); (rtd_m, in_at 0 0)] [v];
        process_output_values Debug [(ao_m, out_at 10 0); (rtd_m, in_at 0 0)] [v; []];
        process_output_values Debug [(ao_m, out_at 0 0); (rtd_m, in_at 0 0); (do_m, out_at 1 8)]
          [v; []; repeat (Bit false) 4];
        process_output_values Debug [(ao_m, mk_offset None (Some (to_bit_address 0 0)))] [v]] = true.
Proof. vm_compute. reflexivity. Qed.
Example fbc_param_addresses :
  (param_addresses_and_register_counts Debug [], param_addresses_and_register_counts Debug [UR20_4DI_P])
  = (Ok [], Ok [(0xC000, 4)]).
Proof. vm_compute. reflexivity. Qed.
Example fbc_offsets_empty : offsets_of_process_data [] = Ok [].
Proof. vm_compute. reflexivity. Qed.
Example fbc_validate :
  map (fun c => is_ok (validate c))
    [mk_config [] [] []; mk_config [UR20_4DI_P] [0xFFFF; 0] [zeros 4]; mk_config [UR20_4DI_P] [0xFFFF; 0] [];
     mk_config [UR20_4DI_P] [] [zeros 4]; mk_config [UR20_4DI_P] [0xFFFF] []]
  = [true; true; false; false; false].
Proof. vm_compute. reflexivity. Qed.
Example fbc_new :
  is_err (coupler_new (mk_config [UR20_4DI_P; UR20_1COM_232_485_422] [0xFFFF; 0; 0x8000; 8] [])) = true /\
  match coupler_new (mk_config [UR20_4DI_P; UR20_1COM_232_485_422] [0xFFFF; 0; 0x8000; 8]
                       [zeros 4; zeros 10]) with
  | Ok c => (List.length (c_modules c), List.length (c_processors c), List.length (c_offsets c),
             inputs c, outputs c, c_write c) = (2%nat, 1%nat, 2%nat, [], [], [])
  | _ => False
  end.
Proof. vm_compute. auto. Qed.
