(** Model of the digital modules (src/ur20_di_generic.rs, src/ur20_do_generic.rs,
    src/ur20_16do_p.rs, src/ur20_4ro_co_255.rs) and of the safe power feed module
    (src/ur20_pf_o_1di_sil.rs).  Definitions only. *)
From Coq Require Import ZArith List Bool.
From Verif Require Import Base F32 Types Lib Util.
Import ListNotations.
Local Open Scope Z_scope.

(** Parameter registers holding a flag: [match data[i] { 0 => false, 1 => true,
    _ => return Err(ChannelParameter) }], e.g. src/ur20_do_generic.rs 122-128. *)
Definition bool_param (n : Z) : outcome bool :=
  if n =? 0 then Ok false else if n =? 1 then Ok true else Err ChannelParameter.

(** Parameter registers holding an enumeration: [FromPrimitive::from_u16(n)], [None]
    giving [ChannelParameter], e.g. src/ur20_di_generic.rs 106-111. *)
Definition enum_param {A} (variants : list (A * Z)) (n : Z) : outcome A :=
  ok_or (from_u16 variants n) ChannelParameter.

(** ** src/ur20_di_generic.rs: variants UR20_4DI_P and UR20_8DI_P_2W (27-30) *)

(** src/ur20_di_generic.rs 98-117: [parameters_from_raw_data] *)
Definition di_parameters (t : module_type) (data : list Z) : outcome (list input_delay) :=
  if Nat.ltb (length data) (channel_count t) then Err BufferLength
  else traverse (fun i => let? d := index data i in enum_param input_delay_variants d)
                (seq 0 (channel_count t)).

(** src/ur20_di_generic.rs 80-82: [process_input_byte_count] *)
Definition di_input_byte_count (t : module_type) : nat := Nat.div (channel_count t + 7) 8.

(** src/ur20_di_generic.rs 86-95: [process_input_data] *)
Definition di_process_input_data (t : module_type) (data : list Z) : outcome (list channel_value) :=
  if negb (Nat.eqb (length data) 1) then Err BufferLength
  else
    let? bits := index data 0 in
    Ok (map (fun i => Bit (test_bit_16 bits i)) (seq 0 (channel_count t))).

(** ** src/ur20_do_generic.rs: variants UR20_4DO_P, UR20_4DO_P_2A, UR20_8DO_P (26-30) *)

(** src/ur20_do_generic.rs 114-134 and src/ur20_4ro_co_255.rs 77-97:
    [parameters_from_raw_data] with [n] channels *)
Definition do_parameters (n : nat) (data : list Z) : outcome (list bool) :=
  if Nat.ltb (length data) n then Err BufferLength
  else traverse (fun i => let? d := index data i in bool_param d) (seq 0 n).

(** src/ur20_do_generic.rs 71-80: [process_output_byte_count] *)
Definition do_output_byte_count (t : module_type) : outcome nat :=
  match channel_count t with
  | 4%nat => Ok 1%nat
  | 8%nat => Ok 1%nat
  | 16%nat => Ok 2%nat
  | _ => Panic UnreachableCode
  end.

(** src/ur20_do_generic.rs 81-89, src/ur20_16do_p.rs 38-46 (n = 16),
    src/ur20_4ro_co_255.rs 44-52 (n = 4): [process_output_data] *)
Definition do_process_output_data (n : nat) (data : list Z) : outcome (list channel_value) :=
  if negb (Nat.eqb (length data) 1) then Err BufferLength
  else
    let? w := index data 0 in
    Ok (map (fun i => Bit (test_bit_16 w i)) (seq 0 n)).

(** The loop of src/ur20_do_generic.rs 94-109, src/ur20_16do_p.rs 51-66,
    src/ur20_4ro_co_255.rs 57-72 *)
Fixpoint do_encode (res : Z) (values : list (nat * channel_value)) : outcome Z :=
  match values with
  | [] => Ok res
  | (i, v) :: t =>
      match v with
      | Bit state => do_encode (if state then set_bit_16 res i else res) t
      | Disabled => do_encode res t
      | _ => Err ChannelValueError
      end
  end.

(** src/ur20_do_generic.rs 90-111, src/ur20_16do_p.rs 47-68 (n = 16),
    src/ur20_4ro_co_255.rs 53-74 (n = 4): [process_output_values] *)
Definition do_process_output_values (n : nat) (values : list channel_value) : outcome (list Z) :=
  if negb (Nat.eqb (length values) n) then Err ChannelValueError
  else let? res := do_encode 0 (enumerate values) in Ok [res].

(** src/ur20_16do_p.rs 11-16 and src/ur20_pf_o_1di_sil.rs 45-50:
    [from_modbus_parameter_data] of modules without parameters *)
Definition no_parameters (data : list Z) : outcome unit :=
  match data with [] => Ok tt | _ => Err BufferLength end.

(** ** src/ur20_pf_o_1di_sil.rs *)

(** src/ur20_pf_o_1di_sil.rs 60-78: [process_input_data].  The reserved bytes of the
    second word are read ([data[1]]) and dropped. *)
Definition sil_process_input_data (data : list Z) : outcome (list channel_value) :=
  if negb (Nat.eqb (length data) 2) then Err BufferLength
  else
    let? w0 := index data 0 in
    let? _ := index data 1 in
    let byte0 := as_u8 w0 in
    let byte1 := Z.shiftr w0 8 in
    Ok [SilPFIn (mk_sil_in
          (test_bit byte0 0) (test_bit byte0 2) (test_bit byte0 3) (test_bit byte0 4)
          (test_bit byte0 5) (test_bit byte1 0) (test_bit byte1 2))].
