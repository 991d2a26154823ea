(** Model of src/ur20_fbc_mod_tcp.rs: modules, coupler, process images.
    Definitions only. *)
From Coq Require Import ZArith List Bool.
From Verif Require Import Base F32 Types Lib Util Digital Analog Fcnt Com.
Import ListNotations.
Local Open Scope Z_scope.

(** src/ur20_fbc_mod_tcp.rs 15-24 *)
Definition ADDR_PACKED_PROCESS_INPUT_DATA : Z := 0x0000.
Definition ADDR_PACKED_PROCESS_OUTPUT_DATA : Z := 0x0800.
Definition ADDR_PROCESS_OUTPUT_LEN : Z := 0x1010.
Definition ADDR_PROCESS_INPUT_LEN : Z := 0x1011.
Definition ADDR_COUPLER_ID : Z := 0x1000.
Definition ADDR_COUPLER_STATUS : Z := 0x100C.
Definition ADDR_CURRENT_MODULE_COUNT : Z := 0x27FE.
Definition ADDR_CURRENT_MODULE_LIST : Z := 0x2A00.
Definition ADDR_MODULE_OFFSETS : Z := 0x2B00.
Definition ADDR_MODULE_PARAMETERS : Z := 0xC000.

(** ** Modules *)

(** The module structures ([Mod] of each module file) behind
    [Box<dyn ProcessModbusTcpData>].  The type parameters [Variant] of the generic
    modules are constructor arguments. *)
Inductive di_variant : Set := V_4DI_P | V_8DI_P_2W.              (* ur20_di_generic.rs 27-30 *)
Inductive do_variant : Set := V_4DO_P | V_4DO_P_2A | V_8DO_P.    (* ur20_do_generic.rs 26-30 *)
Inductive ai_variant : Set := V_4AI_UI_12 | V_4AI_UI_16.         (* ur20_ai_ui_generic.rs 30-33 *)

Inductive module : Set :=
| MDI (v : di_variant) (ch : list input_delay)                    (* ur20_di_generic.rs 33-36 *)
| MDO (v : do_variant) (ch : list bool)                           (* ur20_do_generic.rs 33-36 *)
| M16DO                                                           (* ur20_16do_p.rs 8 *)
| M4RO (ch : list bool)                                           (* ur20_4ro_co_255.rs 8-10 *)
| M4AO (ch : list ao_params)                                      (* ur20_4ao_ui_16.rs 8-10 *)
| M4AODIAG (ch : list ao_diag_params)                             (* ur20_4ao_ui_16_diag.rs 8-10 *)
| MRTD (u : temperature_unit) (ch : list rtd_params)              (* ur20_4ai_rtd_diag.rs 8-11 *)
| MUI16DIAG (f : frequency_suppression) (ch : list ai_ui_diag_params) (* ur20_4ai_ui_16_diag.rs 8-11 *)
| MAIUI (v : ai_variant) (f : frequency_suppression) (ch : list ai_ui_params) (* ur20_ai_ui_generic.rs 36-40 *)
| M8AI (f : frequency_suppression) (ch : list ai_i_params)        (* ur20_8ai_i_16_diag_hd.rs 8-11 *)
| MTC (u : temperature_unit) (ch : list tc_params)                (* ur20_4ai_tc_diag.rs 13-16: array of 4 *)
| MFCNT (ch : list input_filter)                                  (* ur20_2fcnt_100.rs 17-19 *)
| MCOM (l : process_data_length) (ch : list com_params)           (* ur20_1com_232_485_422.rs 15-18 *)
| MSIL.                                                           (* ur20_pf_o_1di_sil.rs 10 *)

(** [Variant::MODULE_TYPE]: ur20_di_generic.rs 14-25, ur20_do_generic.rs 13-24,
    ur20_ai_ui_generic.rs 17-28 *)
Definition di_type (v : di_variant) : module_type :=
  match v with V_4DI_P => UR20_4DI_P | V_8DI_P_2W => UR20_8DI_P_2W end.
Definition do_type (v : do_variant) : module_type :=
  match v with V_4DO_P => UR20_4DO_P | V_4DO_P_2A => UR20_4DO_P_2A | V_8DO_P => UR20_8DO_P end.
Definition ai_type (v : ai_variant) : module_type :=
  match v with V_4AI_UI_12 => UR20_4AI_UI_12 | V_4AI_UI_16 => UR20_4AI_UI_16 end.

(** [Module::module_type] of each module (cited in the arms) *)
Definition mod_type (m : module) : module_type :=
  match m with
  | MDI v _ => di_type v                    (* ur20_di_generic.rs 73-77 *)
  | MDO v _ => do_type v                    (* ur20_do_generic.rs 62-66 *)
  | M16DO => UR20_16DO_P                    (* ur20_16do_p.rs 25-29 *)
  | M4RO _ => UR20_4RO_CO_255               (* ur20_4ro_co_255.rs 31-35 *)
  | M4AO _ => UR20_4AO_UI_16                (* ur20_4ao_ui_16.rs 43-47 *)
  | M4AODIAG _ => UR20_4AO_UI_16_DIAG       (* ur20_4ao_ui_16_diag.rs 45-49 *)
  | MRTD _ _ => UR20_4AI_RTD_DIAG           (* ur20_4ai_rtd_diag.rs 76-80 *)
  | MUI16DIAG _ _ => UR20_4AI_UI_16_DIAG    (* ur20_4ai_ui_16_diag.rs 68-72 *)
  | MAIUI _ _ _ => UR20_4AI_UI_12           (* ur20_ai_ui_generic.rs 95-99: for every variant *)
  | M8AI _ _ => UR20_8AI_I_16_DIAG_HD       (* ur20_8ai_i_16_diag_hd.rs 68-72 *)
  | MTC _ _ => UR20_4AI_TC_DIAG             (* ur20_4ai_tc_diag.rs 18-22 *)
  | MFCNT _ => UR20_2FCNT_100               (* ur20_2fcnt_100.rs 101-105 *)
  | MCOM _ _ => UR20_1COM_232_485_422       (* ur20_1com_232_485_422.rs 310-314 *)
  | MSIL => UR20_PF_O_1DI_SIL               (* ur20_pf_o_1di_sil.rs 38-42 *)
  end.

(** [process_input_byte_count] of each module *)
Definition mod_input_byte_count (m : module) : nat :=
  match m with
  | MDI v _ => di_input_byte_count (di_type v)      (* ur20_di_generic.rs 80-82 *)
  | MDO _ _ => 0                                    (* ur20_do_generic.rs 68-70 *)
  | M16DO => 0                                      (* ur20_16do_p.rs 32-34 *)
  | M4RO _ => 0                                     (* ur20_4ro_co_255.rs 38-40 *)
  | M4AO _ => 0                                     (* ur20_4ao_ui_16.rs 50-52 *)
  | M4AODIAG _ => 0                                 (* ur20_4ao_ui_16_diag.rs 52-54 *)
  | MRTD _ _ => 8                                   (* ur20_4ai_rtd_diag.rs 83-85 *)
  | MUI16DIAG _ _ => 8                              (* ur20_4ai_ui_16_diag.rs 75-77 *)
  | MAIUI v _ _ => 2 * channel_count (ai_type v)    (* ur20_ai_ui_generic.rs 102-105 *)
  | M8AI _ _ => 16                                  (* ur20_8ai_i_16_diag_hd.rs 75-77 *)
  | MTC _ _ => 8                                    (* ur20_4ai_tc_diag.rs 126-128 *)
  | MFCNT _ => 20                                   (* ur20_2fcnt_100.rs 115-117 *)
  | MCOM l _ => process_data_byte_count l           (* ur20_1com_232_485_422.rs 317-322 *)
  | MSIL => 4                                       (* ur20_pf_o_1di_sil.rs 54-56 *)
  end%nat.

(** [process_output_byte_count] of each module *)
Definition mod_output_byte_count (m : module) : outcome nat :=
  match m with
  | MDI _ _ => Ok 0%nat                             (* ur20_di_generic.rs 83-85 *)
  | MDO v _ => do_output_byte_count (do_type v)     (* ur20_do_generic.rs 71-80 *)
  | M16DO => Ok 2%nat                               (* ur20_16do_p.rs 35-37 *)
  | M4RO _ => Ok 1%nat                              (* ur20_4ro_co_255.rs 41-43 *)
  | M4AO _ => Ok 8%nat                              (* ur20_4ao_ui_16.rs 53-55 *)
  | M4AODIAG _ => Ok 8%nat                          (* ur20_4ao_ui_16_diag.rs 55-57 *)
  | MRTD _ _ => Ok 0%nat                            (* ur20_4ai_rtd_diag.rs 86-88 *)
  | MUI16DIAG _ _ => Ok 0%nat                       (* ur20_4ai_ui_16_diag.rs 78-80 *)
  | MAIUI _ _ _ => Ok 0%nat                         (* ur20_ai_ui_generic.rs 106-108 *)
  | M8AI _ _ => Ok 0%nat                            (* ur20_8ai_i_16_diag_hd.rs 78-80 *)
  | MTC _ _ => Ok 0%nat                             (* ur20_4ai_tc_diag.rs 129-131 *)
  | MFCNT _ => Ok 12%nat                            (* ur20_2fcnt_100.rs 118-120 *)
  | MCOM l _ => Ok (process_data_byte_count l)      (* ur20_1com_232_485_422.rs 323-328 *)
  | MSIL => Ok 0%nat                                (* ur20_pf_o_1di_sil.rs 57-59 *)
  end.

(** src/ur20_fbc_mod_tcp.rs 32-38, 40-46: default [process_input_data] and
    [process_output_data] *)
Definition default_process_data (m : module) (data : list Z) : outcome (list channel_value) :=
  match data with
  | [] => Ok (repeat VNone (channel_count (mod_type m)))
  | _ => Err BufferLength
  end.

(** src/ur20_fbc_mod_tcp.rs 48-53: default [process_output_values] *)
Definition default_process_output_values (m : module) (values : list channel_value)
  : outcome (list Z) :=
  if negb (Nat.eqb (length values) 0) && negb (Nat.eqb (length values) (channel_count (mod_type m)))
  then Err ChannelValueError
  else Ok [].

(** [process_input_data] of each module; modules without their own use the default *)
Definition mod_process_input_data (m : module) (data : list Z) : outcome (list channel_value) :=
  match m with
  | MDI v _ => di_process_input_data (di_type v) data
  | MRTD _ ch => rtd_process_input_data ch data
  | MUI16DIAG _ ch => ai_ui_diag_process_input_data ch data
  | MAIUI v _ ch => ai_ui_process_input_data (ai_type v) ch data
  | M8AI _ ch => ai_i_process_input_data ch data
  | MTC _ ch => tc_process_input_data ch data
  | MFCNT ch => fcnt_process_input_data ch data
  | MCOM _ _ => com_process_input_data data
  | MSIL => sil_process_input_data data
  | MDO _ _ | M16DO | M4RO _ | M4AO _ | M4AODIAG _ => default_process_data m data
  end.

(** [process_output_data] of each module; modules without their own use the default *)
Definition mod_process_output_data (m : module) (data : list Z) : outcome (list channel_value) :=
  match m with
  | MDO v _ => do_process_output_data (channel_count (do_type v)) data
  | M16DO => do_process_output_data 16 data
  | M4RO _ => do_process_output_data 4 data
  | M4AO ch => ao_process_output_data ch data
  | M4AODIAG ch => ao_diag_process_output_data ch data
  | MUI16DIAG _ _ => ai_ui_diag_process_output_data data
  | MFCNT _ => fcnt_process_output_data data
  | MCOM _ _ => com_process_output_data data
  | MDI _ _ | MRTD _ _ | MAIUI _ _ _ | M8AI _ _ | MTC _ _ | MSIL => default_process_data m data
  end.

(** [process_output_values] of each module; modules without their own use the default *)
Definition mod_process_output_values (prof : profile) (m : module) (values : list channel_value)
  : outcome (list Z) :=
  match m with
  | MDO v _ => do_process_output_values (channel_count (do_type v)) values
  | M16DO => do_process_output_values 16 values
  | M4RO _ => do_process_output_values 4 values
  | M4AO ch => ao_process_output_values ch values
  | M4AODIAG ch => ao_diag_process_output_values ch values
  | MFCNT ch => fcnt_process_output_values prof ch values
  | MCOM l _ => com_process_output_values l values
  | MDI _ _ | MRTD _ _ | MUI16DIAG _ _ | MAIUI _ _ _ | M8AI _ _ | MTC _ _ | MSIL =>
      default_process_output_values m values
  end.

(** [from_modbus_parameter_data] of each module file, as selected by
    src/ur20_fbc_mod_tcp.rs 112-198 *)
Definition module_from_params (t : module_type) (data : list Z) : outcome module :=
  match t with
  | UR20_4DI_P => let? ch := di_parameters UR20_4DI_P data in Ok (MDI V_4DI_P ch)
  | UR20_8DI_P_2W => let? ch := di_parameters UR20_8DI_P_2W data in Ok (MDI V_8DI_P_2W ch)
  | UR20_4DO_P => let? ch := do_parameters (channel_count UR20_4DO_P) data in Ok (MDO V_4DO_P ch)
  | UR20_4DO_P_2A =>
      let? ch := do_parameters (channel_count UR20_4DO_P_2A) data in Ok (MDO V_4DO_P_2A ch)
  | UR20_8DO_P => let? ch := do_parameters (channel_count UR20_8DO_P) data in Ok (MDO V_8DO_P ch)
  | UR20_16DO_P => let? _ := no_parameters data in Ok M16DO
  | UR20_4RO_CO_255 => let? ch := do_parameters 4 data in Ok (M4RO ch)
  | UR20_4AO_UI_16 => let? ch := ao_parameters data in Ok (M4AO ch)
  | UR20_4AO_UI_16_DIAG => let? ch := ao_diag_parameters data in Ok (M4AODIAG ch)
  | UR20_4AI_RTD_DIAG => let? (u, ch) := rtd_parameters data in Ok (MRTD u ch)
  | UR20_4AI_UI_16_DIAG => let? (f, ch) := ai_ui_diag_parameters data in Ok (MUI16DIAG f ch)
  | UR20_4AI_UI_12 =>
      let? (f, ch) := ai_ui_parameters UR20_4AI_UI_12 data in Ok (MAIUI V_4AI_UI_12 f ch)
  | UR20_4AI_UI_16 =>
      let? (f, ch) := ai_ui_parameters UR20_4AI_UI_16 data in Ok (MAIUI V_4AI_UI_16 f ch)
  | UR20_8AI_I_16_DIAG_HD => let? (f, ch) := ai_i_parameters data in Ok (M8AI f ch)
  | UR20_4AI_TC_DIAG => let? (u, ch) := tc_parameters data in Ok (MTC u ch)
  | UR20_2FCNT_100 => let? ch := fcnt_parameters data in Ok (MFCNT ch)
  | UR20_1COM_232_485_422 => let? (l, ch) := com_parameters data in Ok (MCOM l [ch])
  | UR20_PF_O_1DI_SIL => let? _ := no_parameters data in Ok MSIL
  | _ => Panic Unsupported
  end.

(** ** Addresses, offsets, module list *)

(** src/ur20_fbc_mod_tcp.rs 65-68: [struct ModuleOffset] *)
Record module_offset : Set := mk_offset { mo_input : option Z; mo_output : option Z }.

(** src/ur20_fbc_mod_tcp.rs 456-458: [word_to_offset] *)
Definition word_to_offset (word : Z) : option Z :=
  if word =? 0xFFFF then None else Some word.

(** src/ur20_fbc_mod_tcp.rs 327-336: [offsets_of_process_data] *)
Definition offsets_of_process_data (data : list Z) : outcome (list module_offset) :=
  traverse (fun i =>
      let? inp := index data (i * 2 + 1) in
      let? out := index data (i * 2) in
      Ok (mk_offset (word_to_offset inp) (word_to_offset out)))
    (seq 0 (Nat.div (length data) 2)).

(** src/ur20_fbc_mod_tcp.rs 462-466: [to_register_address] *)
Definition to_register_address (addr : Z) : Z * nat :=
  (Z.shiftr (Z.land addr 0xFFF0) 4, Z.to_nat (Z.land addr 0x000F)).

(** src/ur20_fbc_mod_tcp.rs 470-472: [to_bit_address]; [<<] drops the high bits *)
Definition to_bit_address (addr : Z) (bit : nat) : Z :=
  Z.lor (as_u16 (Z.shiftl addr 4)) (as_u16 (Z.of_nat bit)).

(** src/ur20_fbc_mod_tcp.rs 480-520: [param_register_count] *)
Definition param_register_count (t : module_type) : outcome Z :=
  match t with
  | UR20_4DI_P | UR20_4DI_P_3W => Ok 4
  | UR20_8DI_P_2W | UR20_8DI_P_3W => Ok 8
  | UR20_4DO_P | UR20_4DO_P_2A => Ok 4
  | UR20_8DO_P => Ok 8
  | UR20_16DO_P => Ok 0
  | UR20_4RO_CO_255 => Ok 4
  | UR20_8AI_I_16_DIAG_HD => Ok (1 + 8 * 4)
  | UR20_4AI_UI_16_DIAG => Ok (1 + 4 * 5)
  | UR20_4AI_UI_12 | UR20_4AI_UI_16 => Ok (1 + 4 * 2)
  | UR20_4AI_TC_DIAG => Ok (1 + 4 * 7)
  | UR20_4AO_UI_16 => Ok (4 * 3)
  | UR20_4AO_UI_16_DIAG => Ok (4 * 4)
  | UR20_4AI_RTD_DIAG => Ok (1 + 4 * 7)
  | UR20_2FCNT_100 => Ok 2
  | UR20_1COM_232_485_422 => Ok 10
  | UR20_PF_O_1DI_SIL => Ok 0
  | _ => Panic Unsupported
  end.

(** src/ur20_fbc_mod_tcp.rs 525-536: [param_addresses_and_register_counts] *)
Definition param_addresses_and_register_counts (prof : profile) (modules : list module_type)
  : outcome (list (Z * Z)) :=
  traverse (fun im =>
      let '(idx, m) := im in
      let? a := add_u16 prof ADDR_MODULE_PARAMETERS (as_u16 (Z.of_nat idx * 256)) in
      let? c := param_register_count m in
      Ok (a, c)) (enumerate modules).

(** src/ur20_fbc_mod_tcp.rs 539-553: [module_list_from_registers] *)
Definition module_list_from_registers (registers : list Z) : outcome (list module_type) :=
  if Nat.eqb (length registers) 0 || negb (Nat.eqb (Nat.modulo (length registers) 2) 0)
  then Err RegisterCount
  else traverse (fun idx =>
      let? hi := index registers (idx * 2) in
      let? lo := index registers (idx * 2 + 1) in
      let id := as_u32 (Z.shiftl hi 16) + lo in
      try_from_u32 id) (seq 0 (Nat.div (length registers) 2)).

(** ** Process images *)

(** src/ur20_fbc_mod_tcp.rs 384-407: [prepare_raw_data_to_process] *)
Definition prepare_raw_data_to_process (prof : profile) (offset addr : Z) (byte_count : nat)
  (data : list Z) : outcome (list Z) :=
  let '(start, bit) := to_register_address offset in
  let? s := sub_u16 prof start addr in
  let start := Z.to_nat s in
  let word_count := let cnt := Nat.div byte_count 2 in if Nat.eqb cnt 0 then 1%nat else cnt in
  let end_ := (start + word_count)%nat in
  if Nat.ltb (length data) end_ then Err BufferLength
  else
    let? output := slice data start end_ in
    match bit with
    | 0%nat => Ok output
    | 8%nat => shift_data output
    | _ => Err ModuleOffsetError
    end.

(** src/ur20_fbc_mod_tcp.rs 339-359: [process_input_data] *)
Definition process_input_data (prof : profile) (modules : list (module * module_offset))
  (data : list Z) : outcome (list (list channel_value)) :=
  traverse (fun mo =>
      let '(m, offset) := mo in
      match mo_input offset with
      | Some in_offset =>
          let cnt := mod_input_byte_count m in
          let? raw := prepare_raw_data_to_process prof in_offset ADDR_PACKED_PROCESS_INPUT_DATA
                        cnt data in
          mod_process_input_data m raw
      | None => Ok (repeat VNone (channel_count (mod_type m)))
      end) modules.

(** src/ur20_fbc_mod_tcp.rs 362-382: [process_output_data] *)
Definition process_output_data (prof : profile) (modules : list (module * module_offset))
  (data : list Z) : outcome (list (list channel_value)) :=
  traverse (fun mo =>
      let '(m, offset) := mo in
      match mo_output offset with
      | Some out_offset =>
          let? cnt := mod_output_byte_count m in
          let? raw := prepare_raw_data_to_process prof out_offset ADDR_PACKED_PROCESS_OUTPUT_DATA
                        cnt data in
          mod_process_output_data m raw
      | None => Ok (repeat VNone (channel_count (mod_type m)))
      end) modules.

(** src/ur20_fbc_mod_tcp.rs 421-450: one iteration of the loop of
    [process_output_values]: the image extended by module [m] *)
Definition output_step (prof : profile) (m : module) (offset : module_offset)
  (values : list channel_value) (out : list Z) : outcome (list Z) :=
  match mo_output offset with
  | None => Ok out
  | Some out_offset =>
      let? data := mod_process_output_values prof m values in
      let '(start, bit) := to_register_address out_offset in
      if start <? ADDR_PACKED_PROCESS_OUTPUT_DATA then Err ModuleOffsetError
      else
        let start := Z.to_nat (start - ADDR_PACKED_PROCESS_OUTPUT_DATA) in
        match bit with
        | 0%nat =>
            if negb (Nat.eqb (length out) start) then Err ModuleOffsetError
            else Ok (out ++ data)
        | 8%nat =>
            if negb (Nat.eqb (length out) (start + 1)) then Err ModuleOffsetError
            else
              let? w := index out start in
              let shared_low_byte := Z.land w 0x00FF in
              let buf := u16_to_u8 data in
              let? b := index buf 0 in
              let shared_high_byte := as_u16 (Z.shiftl b 8) in
              store out start (Z.lor shared_high_byte shared_low_byte)
        | _ => Err ModuleOffsetError
        end
  end.

(** src/ur20_fbc_mod_tcp.rs 420-451: the loop *)
Fixpoint output_loop (prof : profile) (modules : list (nat * (module * module_offset)))
  (values : list (list channel_value)) (out : list Z) : outcome (list Z) :=
  match modules with
  | [] => Ok out
  | (i, (m, offset)) :: t =>
      let? out :=
        match mo_output offset with
        | None => Ok out
        | Some _ => let? v := index values i in output_step prof m offset v out
        end in
      output_loop prof t values out
  end.

(** src/ur20_fbc_mod_tcp.rs 410-454: [process_output_values] *)
Definition process_output_values (prof : profile) (modules : list (module * module_offset))
  (values : list (list channel_value)) : outcome (list Z) :=
  if negb (Nat.eqb (length modules) (length values)) then Err ChannelValueError
  else output_loop prof (enumerate modules) values [].

(** ** The coupler *)

(** src/ur20_fbc_mod_tcp.rs 91-100: [struct CouplerConfig] *)
Record config : Set := mk_config {
  cfg_modules : list module_type;
  cfg_offsets : list Z;
  cfg_params : list (list Z) }.

(** src/ur20_fbc_mod_tcp.rs 72-87: [struct Coupler] *)
Record coupler : Set := mk_coupler {
  c_in_values : list (list channel_value);
  c_out_values : list (list channel_value);
  c_write : list (address * channel_value);        (* HashMap *)
  c_modules : list module;
  c_offsets : list module_offset;
  c_processors : list (nat * processor);           (* HashMap *)
  c_last_tx_cnt : Z }.

(** src/ur20_fbc_mod_tcp.rs 314-322: [CouplerConfig::validate] *)
Definition validate (cfg : config) : outcome unit :=
  if negb (Nat.eqb (length (cfg_modules cfg)) (length (cfg_params cfg))) then Err BufferLength
  else if negb (Nat.eqb (length (cfg_modules cfg) * 2) (length (cfg_offsets cfg)))
  then Err ModuleOffsetError
  else Ok tt.

(** src/ur20_fbc_mod_tcp.rs 110-200: the loop of [Coupler::new]; the accumulators are
    the modules pushed and the processors inserted so far *)
Fixpoint new_loop (types : list (nat * module_type)) (params : list (list Z))
  (modules : list module) (processors : list (nat * processor))
  : outcome (list module * list (nat * processor)) :=
  match types with
  | [] => Ok (modules, processors)
  | (i, t) :: rest =>
      let? param_data := index params i in
      let? m := module_from_params t param_data in
      let processors :=
        match m with
        | MCOM l _ => map_insert Nat.eqb i (processor_new l) processors  (* 185-188 *)
        | _ => processors
        end in
      new_loop rest params (modules ++ [m]) processors
  end.

(** src/ur20_fbc_mod_tcp.rs 103-210: [Coupler::new] *)
Definition coupler_new (cfg : config) : outcome coupler :=
  let? _ := validate cfg in
  let? offsets := offsets_of_process_data (cfg_offsets cfg) in
  let? (modules, processors) := new_loop (enumerate (cfg_modules cfg)) (cfg_params cfg) [] [] in
  Ok (mk_coupler [] [] [] modules offsets processors 0).

(** src/ur20_fbc_mod_tcp.rs 219-221, 225-227: [inputs], [outputs] *)
Definition inputs (c : coupler) : list (list channel_value) := c_in_values c.
Definition outputs (c : coupler) : list (list channel_value) := c_out_values c.

(** src/ur20_fbc_mod_tcp.rs 212-215: [is_valid_addr] ([&&] guards the indexing) *)
Definition is_valid_addr (c : coupler) (addr : address) : outcome bool :=
  if Nat.ltb (a_module addr) (length (c_modules c)) then
    let? m := index (c_modules c) (a_module addr) in
    Ok (Nat.ltb (a_channel addr) (channel_count (mod_type m)))
  else Ok false.

(** src/ur20_fbc_mod_tcp.rs 243-249: [set_output] *)
Definition set_output (c : coupler) (addr : address) (value : channel_value)
  : coupler * outcome unit :=
  match is_valid_addr c addr with
  | Ok true =>
      (mk_coupler (c_in_values c) (c_out_values c) (map_insert address_eqb addr value (c_write c))
         (c_modules c) (c_offsets c) (c_processors c) (c_last_tx_cnt c), Ok tt)
  | Ok false => (c, Err AddressError)
  | Err e => (c, Err e)
  | Panic p => (c, Panic p)
  end.

(** A coupler with a different processor table. *)
Definition with_processors (c : coupler) (ps : list (nat * processor)) : coupler :=
  mk_coupler (c_in_values c) (c_out_values c) (c_write c) (c_modules c) (c_offsets c) ps
    (c_last_tx_cnt c).

(** src/ur20_fbc_mod_tcp.rs 230-234: [reader(module_nr)] followed by [read] into a
    buffer of [n] bytes; [None] when there is no reader *)
Definition coupler_read (c : coupler) (module_nr n : nat) : coupler * option (list Z) :=
  match map_get Nat.eqb module_nr (c_processors c) with
  | None => (c, None)
  | Some p =>
      let '(p', bytes) := processor_read p n in
      (with_processors c (map_insert Nat.eqb module_nr p' (c_processors c)), Some bytes)
  end.

(** src/ur20_fbc_mod_tcp.rs 237-241: [writer(module_nr)] followed by [write] *)
Definition coupler_write (c : coupler) (module_nr : nat) (buf : list Z) : coupler * option nat :=
  match map_get Nat.eqb module_nr (c_processors c) with
  | None => (c, None)
  | Some p =>
      let '(p', n) := processor_write p buf in
      (with_processors c (map_insert Nat.eqb module_nr p' (c_processors c)), Some n)
  end.

(** Variables modified by the loop of [next] (265-302) *)
Record loop_state : Set := mk_loop {
  l_write : list (address * channel_value);
  l_processors : list (nat * processor);
  l_last_tx_cnt : Z;
  l_next_out : list (list channel_value);          (* next_out_values *)
  l_in_bytes : list (nat * channel_value);         (* HashMap *)
  l_out_bytes : list (nat * channel_value) }.      (* HashMap *)

(** [v[i][j] = a] *)
Definition store2 {A} (v : list (list A)) (i j : nat) (a : A) : outcome (list (list A)) :=
  let? row := index v i in
  let? row := store row j a in
  store v i row.

(** src/ur20_fbc_mod_tcp.rs 293-300: apply the pending writes of channels [chs] of
    module [m_nr] *)
Fixpoint apply_writes (m_nr : nat) (chs : list nat) (write : list (address * channel_value))
  (next_out : list (list channel_value))
  : outcome (list (address * channel_value) * list (list channel_value)) :=
  match chs with
  | [] => Ok (write, next_out)
  | i :: t =>
      let a := mk_address m_nr i in
      match map_get address_eqb a write with
      | None => apply_writes m_nr t write next_out
      | Some v =>
          let? next_out := store2 next_out m_nr i v in
          apply_writes m_nr t (map_remove address_eqb a write) next_out
      end
  end.

(** src/ur20_fbc_mod_tcp.rs 265-302: one iteration of the loop *)
Definition next_step (prof : profile) (m_nr : nat) (in_v out_v : list channel_value)
  (s : loop_state) : outcome loop_state :=
  match map_get Nat.eqb m_nr (l_processors s) with
  | Some p =>
      let? i0 := index in_v 0 in
      match i0 with
      | ComRsIn rin =>
          let? o0 := index out_v 0 in
          match o0 with
          | ComRsOut rout =>
              let out_bytes := map_insert Nat.eqb m_nr VNone (l_out_bytes s) in
              let in_bytes := map_insert Nat.eqb m_nr VNone (l_in_bytes s) in
              let out_bytes :=
                if negb (Nat.eqb (length (ro_data rout)) 0)
                   && negb (ro_tx_cnt rout =? l_last_tx_cnt s)
                then map_insert Nat.eqb m_nr (Bytes (ro_data rout)) out_bytes
                else out_bytes in
              let last := ro_tx_cnt rout in
              let a := mk_address m_nr 0 in
              let p := match map_get address_eqb a (l_write s) with
                       | Some (Bytes data) => fst (processor_write p data)
                       | _ => p
                       end in
              let write := map_remove address_eqb a (l_write s) in
              let? (p, rs_out) := processor_next prof p rin rout in
              let? next_out := store2 (l_next_out s) m_nr 0 (ComRsOut rs_out) in
              let in_bytes :=
                if ri_data_available rin && negb (Nat.eqb (length (ri_data rin)) 0)
                then map_insert Nat.eqb m_nr (Bytes (ri_data rin)) in_bytes
                else in_bytes in
              Ok (mk_loop write (map_insert Nat.eqb m_nr p (l_processors s)) last next_out
                    in_bytes out_bytes)
          | _ => Ok s
          end
      | _ => Ok s
      end
  | None =>
      let? (write, next_out) :=
        apply_writes m_nr (seq 0 (length out_v)) (l_write s) (l_next_out s) in
      Ok (mk_loop write (l_processors s) (l_last_tx_cnt s) next_out (l_in_bytes s)
            (l_out_bytes s))
  end.

(** src/ur20_fbc_mod_tcp.rs 265-302: the loop *)
Fixpoint next_loop (prof : profile)
  (l : list (nat * (list channel_value * list channel_value))) (s : loop_state)
  : outcome loop_state :=
  match l with
  | [] => Ok s
  | (m_nr, (in_v, out_v)) :: t =>
      let? s := next_step prof m_nr in_v out_v s in next_loop prof t s
  end.

(** src/ur20_fbc_mod_tcp.rs 303-305, 306-308: [values[m_nr][0] = v] for all entries, in
    iteration order *)
Fixpoint patch (entries : list (nat * channel_value)) (values : list (list channel_value))
  : outcome (list (list channel_value)) :=
  match entries with
  | [] => Ok values
  | (m_nr, v) :: t => let? values := store2 values m_nr 0 v in patch t values
  end.

(** src/ur20_fbc_mod_tcp.rs 252-257: [infos] *)
Definition infos (c : coupler) : list (module * module_offset) :=
  combine (c_modules c) (c_offsets c).

(** src/ur20_fbc_mod_tcp.rs 251-310: [Coupler::next].  [ord_in] and [ord_out] are the
    iteration orders of the two hash maps.  The coupler after a panic is of no
    interest and given as it was when last assigned. *)
Definition next (prof : profile)
  (ord_in ord_out : list (nat * channel_value) -> list (nat * channel_value))
  (c : coupler) (process_input process_output : list Z) : coupler * outcome (list Z) :=
  match process_input_data prof (infos c) process_input with
  | Err e => (c, Err e)
  | Panic p => (c, Panic p)
  | Ok in_values =>
      let c1 := mk_coupler in_values (c_out_values c) (c_write c) (c_modules c) (c_offsets c)
                  (c_processors c) (c_last_tx_cnt c) in
      match process_output_data prof (infos c) process_output with
      | Err e => (c1, Err e)
      | Panic p => (c1, Panic p)
      | Ok out_values =>
          let c2 := mk_coupler in_values out_values (c_write c) (c_modules c) (c_offsets c)
                      (c_processors c) (c_last_tx_cnt c) in
          match next_loop prof (enumerate (combine in_values out_values))
                  (mk_loop (c_write c) (c_processors c) (c_last_tx_cnt c) out_values [] []) with
          | Err e => (c2, Err e)
          | Panic p => (c2, Panic p)
          | Ok s =>
              match patch (ord_in (l_in_bytes s)) in_values with
              | Err e => (c2, Err e)
              | Panic p => (c2, Panic p)
              | Ok in_values' =>
                  match patch (ord_out (l_out_bytes s)) out_values with
                  | Err e => (c2, Err e)
                  | Panic p => (c2, Panic p)
                  | Ok out_values' =>
                      (mk_coupler in_values' out_values' (l_write s) (c_modules c) (c_offsets c)
                         (l_processors s) (l_last_tx_cnt s),
                       process_output_values prof (infos c) (l_next_out s))
                  end
              end
          end
      end
  end.
