(** Model of the public functions on process images for modules of any implementation of the
    trait [ProcessModbusTcpData], not only those of this crate.  [Fbc.v] has the same functions
    for the modules of the crate; [PropsGeneric.v] shows that they agree. *)
From Coq Require Import ZArith List Bool.
From Verif Require Import Base F32 Types Lib Util Com Fbc.
Import ListNotations.
Local Open Scope Z_scope.

(** src/ur20_fbc_mod_tcp.rs 26-54: [trait ProcessModbusTcpData], with [module_type] of the
    supertrait [Module] (src/lib.rs).  Simplification: the methods take [&self], they are
    modelled as functions of their arguments only, so that an implementation cannot change its
    behaviour from call to call by interior mutability.  A method may panic. *)
Record implementation : Type := mk_implementation {
  im_type : module_type;
  im_input_byte_count : outcome nat;
  im_output_byte_count : outcome nat;
  im_process_input_data : list Z -> outcome (list channel_value);
  im_process_output_data : list Z -> outcome (list channel_value);
  im_process_output_values : list channel_value -> outcome (list Z) }.

(** src/ur20_fbc_mod_tcp.rs 32-38, 40-46: the default [process_input_data] and
    [process_output_data] *)
Definition any_default_process_data (t : module_type) (data : list Z) : outcome (list channel_value) :=
  match data with
  | [] => Ok (repeat VNone (channel_count t))
  | _ => Err BufferLength
  end.

(** src/ur20_fbc_mod_tcp.rs 48-53: the default [process_output_values] *)
Definition any_default_process_output_values (t : module_type) (values : list channel_value)
  : outcome (list Z) :=
  if negb (Nat.eqb (length values) 0) && negb (Nat.eqb (length values) (channel_count t))
  then Err ChannelValueError
  else Ok [].

(** The implementations of this crate (the impl blocks cited at the definitions in [Fbc.v]). *)
Definition of_module (prof : profile) (m : module) : implementation := mk_implementation
  (mod_type m) (Ok (mod_input_byte_count m)) (mod_output_byte_count m)
  (mod_process_input_data m) (mod_process_output_data m) (mod_process_output_values prof m).

(** src/ur20_fbc_mod_tcp.rs 339-359: [process_input_data] *)
Definition any_process_input_data (prof : profile) (modules : list (implementation * module_offset))
  (data : list Z) : outcome (list (list channel_value)) :=
  traverse (fun mo =>
      let '(m, offset) := mo in
      match mo_input offset with
      | Some in_offset =>
          let? cnt := im_input_byte_count m in
          let? raw := prepare_raw_data_to_process prof in_offset ADDR_PACKED_PROCESS_INPUT_DATA
                        cnt data in
          im_process_input_data m raw
      | None => Ok (repeat VNone (channel_count (im_type m)))
      end) modules.

(** src/ur20_fbc_mod_tcp.rs 362-382: [process_output_data] *)
Definition any_process_output_data (prof : profile) (modules : list (implementation * module_offset))
  (data : list Z) : outcome (list (list channel_value)) :=
  traverse (fun mo =>
      let '(m, offset) := mo in
      match mo_output offset with
      | Some out_offset =>
          let? cnt := im_output_byte_count m in
          let? raw := prepare_raw_data_to_process prof out_offset ADDR_PACKED_PROCESS_OUTPUT_DATA
                        cnt data in
          im_process_output_data m raw
      | None => Ok (repeat VNone (channel_count (im_type m)))
      end) modules.

(** src/ur20_fbc_mod_tcp.rs 423-450: what the loop of [process_output_values] does with the
    words [data] of a module at [out_offset] *)
Definition place (out_offset : Z) (data out : list Z) : outcome (list Z) :=
  let '(start, bit) := to_register_address out_offset in
  if start <? ADDR_PACKED_PROCESS_OUTPUT_DATA then Err ModuleOffsetError
  else
    let start := Z.to_nat (start - ADDR_PACKED_PROCESS_OUTPUT_DATA) in
    match bit with
    | 0%nat =>
        if negb (Nat.eqb (length out) start) then Err ModuleOffsetError
        else Ok (out ++ data)
    | 8%nat =>
        if negb (Nat.eqb (length out) (start + 1)) then Err ModuleOffsetError
        else
          let? w := index out start in
          let shared_low_byte := Z.land w 0x00FF in
          let buf := u16_to_u8 data in
          let? b := index buf 0 in
          let shared_high_byte := as_u16 (Z.shiftl b 8) in
          store out start (Z.lor shared_high_byte shared_low_byte)
    | _ => Err ModuleOffsetError
    end.

(** src/ur20_fbc_mod_tcp.rs 420-451: the loop *)
Fixpoint any_output_loop (modules : list (nat * (implementation * module_offset)))
  (values : list (list channel_value)) (out : list Z) : outcome (list Z) :=
  match modules with
  | [] => Ok out
  | (i, (m, offset)) :: t =>
      let? out :=
        match mo_output offset with
        | None => Ok out
        | Some out_offset =>
            let? v := index values i in
            let? data := im_process_output_values m v in
            place out_offset data out
        end in
      any_output_loop t values out
  end.

(** src/ur20_fbc_mod_tcp.rs 410-454: [process_output_values] *)
Definition any_process_output_values (modules : list (implementation * module_offset))
  (values : list (list channel_value)) : outcome (list Z) :=
  if negb (Nat.eqb (length modules) (length values)) then Err ChannelValueError
  else any_output_loop (enumerate modules) values [].
