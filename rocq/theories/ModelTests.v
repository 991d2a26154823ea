(** The crate's own unit tests, run against the model.  These are tests of the
    faithfulness of the model, not proofs of properties. *)
From Coq Require Import ZArith List Bool String.
From Verif Require Import Base F32 Types Lib Util Digital Analog Fcnt Com Fbc Defaults.
Import ListNotations.
Local Open Scope Z_scope.

Definition is_err {A} (o : outcome A) : bool := match o with Err _ => true | _ => false end.
Definition is_ok {A} (o : outcome A) : bool := match o with Ok _ => true | _ => false end.
Definition dec (z : Z) : channel_value := Decimal32 (f32_of_Z z).
Definition decq (p q : Z) : channel_value := Decimal32 (f32_frac p q).

(** src/util.rs tests *)
Example t_bits : (test_bit 2 0, test_bit 2 1, set_bit 0 0, set_bit 0 1) = (false, true, 1, 2).
Proof. vm_compute. reflexivity. Qed.
Example t_u16_to_u8 : (u16_to_u8 [], u16_to_u8 [0xABCD], u16_to_u8 [0xAB; 0xCD])
  = ([], [0xCD; 0xAB], [0xAB; 0; 0xCD; 0]).
Proof. vm_compute. reflexivity. Qed.
Example t_u8_to_u16 : (u8_to_u16 [], u8_to_u16 [0xAB], u8_to_u16 [0xA; 0xB], u8_to_u16 [0xA; 0xB; 0xC])
  = ([], [0xAB], [0x0B0A], [0x0B0A; 0xC]).
Proof. vm_compute. reflexivity. Qed.
Example t_shift : shift_data [0xABCD] = Ok [0x00AB].
Proof. vm_compute. reflexivity. Qed.
Example t_ui_value :
  (map (fun x => u16_to_analog_ui_value (fst (fst x)) (snd (fst x)) (snd x))
     [(0x3600, UI_mA0To20, S7); (0x2000, UI_mA0To20, S5); (0x3600, UI_mA4To20, S7);
      (0x2000, UI_mA4To20, S5); (0x3600, UI_V0To10, S7); (0x2000, UI_V0To10, S5);
      (0x3600, UI_VMinus10To10, S7); (0x9400, UI_VMinus10To10, S7); (0x2000, UI_VMinus10To10, S5);
      (0x3600, UI_V2To10, S7); (0x2000, UI_V2To10, S5); (0x3600, UI_V1To5, S7);
      (0x2000, UI_V1To5, S5); (0x3600, UI_V0To5, S7); (0x2000, UI_V0To5, S5);
      (0x3600, UI_VMinus5To5, S7); (0xCA00, UI_VMinus5To5, S7); (0x2000, UI_VMinus5To5, S5);
      (0xE000, UI_VMinus5To5, S5); (0xE000, UI_Disabled, S5)])
  = map (option_map (fun z => f32_frac z 2))
     [Some 20; Some 20; Some 24; Some 24; Some 10; Some 10; Some 10; Some (-20); Some 10;
      Some 12; Some 12; Some 6; Some 6; Some 5; Some 5; Some 5; Some (-5); Some 5; Some (-5); None].
Proof. vm_compute. reflexivity. Qed.
Example t_ui_code :
  (analog_ui_value_to_u16 (f32_of_Z 10) UI_mA0To20 S7,
   analog_ui_value_to_u16 (f32_of_Z (-10)) UI_VMinus10To10 S7) = (0x3600, 0x9400).
Proof. vm_compute. reflexivity. Qed.

(** src/ur20_4ao_ui_16.rs tests *)
Definition ao4 r0 r1 r2 r3 :=
  map (fun r => mk_ao S7 r (f32_of_Z 0)) [r0; r1; r2; r3].
Example t_ao_values_1 :
  ao_process_output_values (ao4 UI_mA0To20 UI_mA0To20 UI_mA0To20 UI_mA0To20)
    [decq 23518 1000; dec 20; dec 10; dec 0] = Ok [0x7EFF; 0x6C00; 0x3600; 0].
Proof. vm_compute. reflexivity. Qed.
Example t_ao_values_2 :
  ao_process_output_values (ao4 UI_mA0To20 UI_mA4To20 UI_V0To10 UI_VMinus10To10)
    [dec 10; dec 12; dec 10; dec (-10)] = Ok [0x3600; 0x3600; 0x6C00; 0x9400].
Proof. vm_compute. reflexivity. Qed.
Example t_ao_data :
  ao_process_output_data (ao4 UI_mA0To20 UI_mA0To20 UI_mA0To20 UI_mA0To20) [0; 0x6C00; 0x3600; 0]
  = Ok [dec 0; dec 20; dec 10; dec 0].
Proof. vm_compute. reflexivity. Qed.

(** src/ur20_8ai_i_16_diag_hd.rs tests *)
Example t_8ai :
  ai_i_process_input_data
    (map (fun p => mk_ai_i false false (fst p) (snd p))
       [(S7, I_mA0To20); (S7, I_mA0To20); (S5, I_mA0To20); (S7, I_mA4To20); (S7, I_mA4To20);
        (S5, I_mA4To20); (S7, I_Disabled); (S7, I_Disabled)])
    [0x6C00; 0x3600; 0x4000; 0x6C00; 0x3600; 0x4000; 0; 0]
  = Ok [dec 20; dec 10; dec 20; dec 20; dec 12; dec 20; Disabled; Disabled].
Proof. vm_compute. reflexivity. Qed.

(** src/ur20_2fcnt_100.rs tests *)
Example t_hertz_1 : hertz (mk_fcnt_in (Some (mk_duration 1 0)) 100 true) = Some (f32_of_Z 100).
Proof. vm_compute. reflexivity. Qed.
Example t_hertz_2 : hertz (mk_fcnt_in (Some (mk_duration 0 200000)) 5 true) = Some (f32_of_Z 25000).
Proof. vm_compute. reflexivity. Qed.
Example t_hertz_3 : hertz (mk_fcnt_in (Some (mk_duration 0 1000)) 4294967295 true)
  = Some (f32_of_Z 4294967295000000).
Proof. vm_compute. reflexivity. Qed.
Example t_fcnt_out :
  fcnt_process_output_values Debug [us5; us5]
    [FcntOut (mk_fcnt_out (mk_duration 0 1000) (Some Start));
     FcntOut (mk_fcnt_out (mk_duration 8 388607000) (Some Stop))]
  = Ok [0; 1; 127; 0xFFFF; 0x100; 0x200].
Proof. vm_compute. reflexivity. Qed.
Example t_fcnt_out_invalid :
  is_err (fcnt_process_output_values Debug [us5; us5]
    [FcntOut (mk_fcnt_out (mk_duration 0 1000) None);
     FcntOut (mk_fcnt_out (mk_duration 8 388608000) None)]) = true.
Proof. vm_compute. reflexivity. Qed.
Example t_fcnt_in :
  fcnt_process_input_data [us5; us5] [0; 1200; 0; 3; 0; 0; 0; 0; 0x100; 0]
  = Ok [FcntIn (mk_fcnt_in (Some (mk_duration 0 150000)) 3 true);
        FcntIn (mk_fcnt_in (Some (mk_duration 0 0)) 0 false)].
Proof. vm_compute. reflexivity. Qed.
Example t_fcnt_in_max :
  fcnt_process_input_data [us5; us5] [0x7FF; 0xFFFE; 0; 0; 0x7FF; 0xFFFF; 0; 0; 0; 0]
  = Ok [FcntIn (mk_fcnt_in (Some (mk_duration 16 777215750)) 0 false);
        FcntIn (mk_fcnt_in None 0 false)].
Proof. vm_compute. reflexivity. Qed.

(** src/ur20_1com_232_485_422.rs tests *)
Example t_com_in : rs_in_from_bytes [0xF1; 3; 0; 0xf; 5] = Ok (mk_rs_in true false 2 3 true [0; 15; 5]).
Proof. vm_compute. reflexivity. Qed.
Example t_com_out : rs_out_from_bytes [0x5A; 3; 0; 0xe; 7]
  = Ok (mk_rs_out false true false 3 2 false [0; 14; 7]).
Proof. vm_compute. reflexivity. Qed.
Example t_com_out_words :
  com_process_output_values SixteenBytes [ComRsOut (mk_rs_out false false false 0 0 false [10; 11; 0; 12])]
  = Ok [0x0400; 0x0B0A; 0x0C00; 0; 0; 0; 0; 0].
Proof. vm_compute. reflexivity. Qed.
Example t_com_status :
  map (fun o => rs_out_to_bytes o EightBytes)
    [mk_rs_out true false false 0 0 false []; mk_rs_out false true false 0 0 false [];
     mk_rs_out false false true 0 0 false []; mk_rs_out false false false 3 0 false [];
     mk_rs_out false false false 0 3 false []; mk_rs_out false false false 0 0 true [];
     mk_rs_out false false false 0 0 false [4; 3; 2; 1]]
  = map Ok [[1; 0; 0; 0; 0; 0; 0; 0]; [2; 0; 0; 0; 0; 0; 0; 0]; [4; 0; 0; 0; 0; 0; 0; 0];
     [24; 0; 0; 0; 0; 0; 0; 0]; [96; 0; 0; 0; 0; 0; 0; 0]; [128; 0; 0; 0; 0; 0; 0; 0];
     [0; 4; 4; 3; 2; 1; 0; 0]].
Proof. vm_compute. reflexivity. Qed.
Example t_processor_send :
  let p := mk_processor Done 0 [] [] EightBytes in
  let p := fst (processor_write p (codes "This msg is >6 bytes")) in
  let inp ack := mk_rs_in false false 0 ack true [] in
  let out := mk_rs_out false false false 0 0 false [] in
  match processor_next Debug p (inp 0) out with
  | Ok (p1, o1) =>
      match processor_next Debug p1 (inp 0) o1, processor_next Debug p1 (inp 1) o1 with
      | Ok (_, o1'), Ok (_, o2) =>
          (o1, o1', o2) = (mk_rs_out false false false 1 0 false (codes "This m"),
                           mk_rs_out false false false 1 0 false (codes "This m"),
                           mk_rs_out false false false 2 0 false (codes "sg is "))
      | _, _ => False
      end
  | _ => False
  end.
Proof. vm_compute. reflexivity. Qed.
Example t_inc_cnt : map (inc_cnt Debug) [0; 1; 2; 3; 4] = map Ok [1; 2; 3; 0; 0].
Proof. vm_compute. reflexivity. Qed.
Example t_com_params : com_parameters [1; 3; 9; 1; 2; 2; 1; 1; 33; 35]
  = Ok (SixteenBytes, mk_com RS422 EightBits Baud_38400 TwoBits ParityOdd XON_XOFF 33 35 true).
Proof. vm_compute. reflexivity. Qed.

(** src/ur20_fbc_mod_tcp.rs tests *)
Example t_offsets :
  offsets_of_process_data [0xFFFF; 0; 0x8000; 0x40; 0x8050; 0xFFFF]
  = Ok [mk_offset (Some 0) None; mk_offset (Some 0x40) (Some 0x8000); mk_offset None (Some 0x8050)].
Proof. vm_compute. reflexivity. Qed.
Example t_addr : (to_register_address 0x80AB, to_bit_address 0x080A 11) = ((0x080A, 11%nat), 0x80AB).
Proof. vm_compute. reflexivity. Qed.
Example t_input_data :
  process_input_data Debug
    [(M4AO (repeat ao_default 4), mk_offset None (Some 0x8000));
     (MRTD Celsius [rtd_default; mk_rtd PT100 TwoWire CT_ms80 false false 0 0; rtd_default; rtd_default],
      mk_offset (Some 0) None);
     (MDI V_4DI_P (repeat ID_ms3 4), mk_offset (Some 0x40) None);
     (MDI V_4DI_P (repeat ID_ms3 4), mk_offset (Some 0x48) None)]
    [0; 33; 0; 0; 0x0102]
  = Ok [[VNone; VNone; VNone; VNone]; [Disabled; decq 33 10; Disabled; Disabled];
        [Bit false; Bit true; Bit false; Bit false]; [Bit true; Bit false; Bit false; Bit false]].
Proof. vm_compute. reflexivity. Qed.
Example t_output_values :
  process_output_values Debug
    [(M4AO (ao4 UI_Disabled UI_mA0To20 UI_Disabled UI_mA0To20), mk_offset None (Some 0x8000));
     (MRTD Celsius (repeat rtd_default 4), mk_offset (Some 0) None);
     (MDO V_4DO_P (repeat false 4), mk_offset None (Some 0x8040));
     (MDO V_4DO_P (repeat false 4), mk_offset None (Some 0x8048))]
    [[dec 15; dec 20; dec 20; dec 10]; []; [Bit false; Bit true; Bit false; Bit false];
     [Bit false; Bit false; Bit true; Bit true]]
  = Ok [0; 0x6C00; 0; 0x3600; 0x0C02].
Proof. vm_compute. reflexivity. Qed.
Example t_param_addresses :
  param_addresses_and_register_counts Debug [UR20_4DI_P; UR20_4DO_P; UR20_4AI_RTD_DIAG]
  = Ok [(0xC000, 4); (0xC100, 4); (0xC200, 29)].
Proof. vm_compute. reflexivity. Qed.
Example t_module_list :
  (module_list_from_registers [], module_list_from_registers [0xAB0C],
   module_list_from_registers [0x0101; 0x2FA0])
  = (Err RegisterCount, Err RegisterCount, Ok [UR20_4DO_P]).
Proof. vm_compute. reflexivity. Qed.

(** The test [process_in_out_data_with_coupler]. *)
Definition id_ord (l : list (nat * channel_value)) := l.
Definition cycle (c : coupler) (pin pout : list Z) : coupler * list Z :=
  let '(c, r) := next Debug id_ord id_ord c pin pout in
  (c, match r with Ok o => o | _ => [] end).
Example t_coupler :
  match coupler_new (mk_config [UR20_4DI_P; UR20_4DO_P; UR20_1COM_232_485_422]
          [0xFFFF; 0; 0x8000; 0xFFFF; 0x8010; 0x0010]
          [repeat 0 4; repeat 0 4; [0; 1; 0; 0; 0; 0; 0; 0; 0; 0]]) with
  | Ok c =>
      let pin := [5; 0x04F1; 0; 0xABCD; 0] in
      let '(c, o) := cycle c pin [12; 0; 0; 0; 0; 0; 0; 0; 0; 0] in
      let '(c, o) := cycle c pin o in
      let '(c, o) := cycle c pin o in
      inputs c = [[Bit true; Bit false; Bit true; Bit false]; repeat VNone 4;
                  [Bytes [0; 0; 0xCD; 0xAB]]] /\
      outputs c = [repeat VNone 4; [Bit false; Bit false; Bit true; Bit true]; [VNone]] /\
      let '(c, r1) := set_output c (mk_address 2 0) (Bytes (codes "Hello modbus coupler!")) in
      let '(c, r2) := set_output c (mk_address 1 1) (Bit true) in
      let '(c, r3) := set_output c (mk_address 3 0) (Bit true) in
      let '(c, r4) := set_output c (mk_address 2 1) (Bit true) in
      (r1, r2, is_err r3, is_err r4, List.length (c_write c)) = (Ok tt, Ok tt, true, true, 2%nat) /\
      let pin := [5; 0; 0; 0; 0] in
      let '(c, o) := cycle c pin o in
      c_write c = [] /\
      (nth 2 (inputs c) [], nth 1 (nth 1 (outputs c) []) VNone, nth 2 (outputs c) [])
      = ([VNone], Bit false, [VNone]) /\
      let '(c, o) := cycle c pin o in
      (nth 2 (inputs c) [], nth 1 (nth 1 (outputs c) []) VNone, nth 2 (outputs c) [])
      = ([VNone], Bit true, [Bytes (codes "Hello ")]) /\
      let '(c, o) := cycle c pin o in
      nth 2 (outputs c) [] = [VNone] /\
      let '(c, o) := cycle c [5; 0x05F9; 0xDDEE; 0xFFFF; 0x00AA] o in
      snd (coupler_read c 0 20) = None /\ snd (coupler_read c 1 20) = None /\
      let '(c, b1) := coupler_read c 2 20 in
      let '(c, b2) := coupler_read c 2 20 in
      (b1, b2) = (Some [0; 0; 0xCD; 0xAB; 0xEE; 0xDD; 0xFF; 0xFF; 0xAA], Some [])
  | _ => False
  end.
Proof. vm_compute. repeat split; reflexivity. Qed.
