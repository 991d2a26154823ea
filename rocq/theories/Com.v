(** Model of src/ur20_1com_232_485_422.rs.  Definitions only. *)
From Coq Require Import ZArith List Bool.
From Verif Require Import Base F32 Types Lib Util Digital.
Import ListNotations.
Local Open Scope Z_scope.

(** src/ur20_1com_232_485_422.rs 366-367 *)
Definition CNT_MASK : Z := 24.      (* 0b0001_1000 *)
Definition CNT_ACK_MASK : Z := 96.  (* 0b0110_0000 *)

(** src/ur20_1com_232_485_422.rs 369-371: [cnt_from_status_byte] *)
Definition cnt_from_status_byte (byte : Z) : Z := Z.shiftr (Z.land CNT_MASK byte) 3.

(** src/ur20_1com_232_485_422.rs 373-376: [cnt_to_status_byte]; the shift of a [u8]
    drops the bits above 7 *)
Definition cnt_to_status_byte (cnt byte : Z) : Z :=
  Z.lor byte (Z.land CNT_MASK (as_u8 (Z.shiftl (as_u8 cnt) 3))).

(** src/ur20_1com_232_485_422.rs 378-380: [cnt_ack_from_status_byte] *)
Definition cnt_ack_from_status_byte (byte : Z) : Z := Z.shiftr (Z.land CNT_ACK_MASK byte) 5.

(** src/ur20_1com_232_485_422.rs 382-385: [cnt_ack_to_status_byte] *)
Definition cnt_ack_to_status_byte (cnt byte : Z) : Z :=
  Z.lor byte (Z.land CNT_ACK_MASK (as_u8 (Z.shiftl (as_u8 cnt) 5))).

(** [&bytes[a..b]] *)
Definition slice {A} (l : list A) (a b : nat) : outcome (list A) :=
  if Nat.leb a b && Nat.leb b (length l) then Ok (firstn (b - a) (skipn a l))
  else Panic IndexOutOfBounds.

(** src/ur20_1com_232_485_422.rs 167-189: [ProcessInput::try_from_byte_message] *)
Definition rs_in_from_bytes (bytes : list Z) : outcome rs_in :=
  if Nat.ltb (length bytes) 2 then Err BufferLength
  else
    let? status := index bytes 0 in
    let? b1 := index bytes 1 in
    let data_len := Z.to_nat b1 in
    if Nat.ltb (length bytes) (data_len + 2) then Err BufferLength
    else
      let? data := slice bytes 2 (data_len + 2) in
      Ok (mk_rs_in (test_bit status 0) (test_bit status 1) (cnt_from_status_byte status)
            (cnt_ack_from_status_byte status) (test_bit status 7) data).

(** src/ur20_1com_232_485_422.rs 194-200: [ProcessDataLength::user_data_len] *)
Definition user_data_len (l : process_data_length) : nat :=
  match l with EightBytes => 6 | SixteenBytes => 14 end.

(** src/ur20_1com_232_485_422.rs 237-240, 317-328: process data byte count *)
Definition process_data_byte_count (l : process_data_length) : nat :=
  match l with EightBytes => 8 | SixteenBytes => 16 end.

(** src/ur20_1com_232_485_422.rs 245-247: the copy loop *)
Fixpoint copy_data (msg : list Z) (data : list (nat * Z)) : outcome (list Z) :=
  match data with
  | [] => Ok msg
  | (i, d) :: t => let? msg := store msg (2 + i) d in copy_data msg t
  end.

(** src/ur20_1com_232_485_422.rs 204-249: [ProcessOutput::try_into_byte_message] *)
Definition rs_out_to_bytes (o : rs_out) (l : process_data_length) : outcome (list Z) :=
  if (3 <? ro_tx_cnt o) || (3 <? ro_rx_cnt_ack o) then Err SequenceNumber
  else if Nat.ltb (user_data_len l) (length (ro_data o)) then Err DataLength
  else
    let status := 0 in
    let status := if ro_rx_buf_flush o then set_bit status 0 else status in
    let status := if ro_tx_buf_flush o then set_bit status 1 else status in
    let status := if ro_disable_tx_hw_buffer o then set_bit status 2 else status in
    let status := cnt_to_status_byte (ro_tx_cnt o) status in
    let status := cnt_ack_to_status_byte (ro_rx_cnt_ack o) status in
    let status := if ro_reset o then set_bit status 7 else status in
    let msg := repeat 0 (process_data_byte_count l) in
    let? msg := store msg 0 status in
    let? msg := store msg 1 (as_u8 (Z.of_nat (length (ro_data o)))) in
    copy_data msg (enumerate (ro_data o)).

(** src/ur20_1com_232_485_422.rs 251-274: [ProcessOutput::try_from_byte_message] *)
Definition rs_out_from_bytes (bytes : list Z) : outcome rs_out :=
  if Nat.ltb (length bytes) 2 then Err BufferLength
  else
    let? status := index bytes 0 in
    let? b1 := index bytes 1 in
    let data_len := Z.to_nat b1 in
    if Nat.ltb (length bytes) (data_len + 2) then Err BufferLength
    else
      let? data := slice bytes 2 (data_len + 2) in
      Ok (mk_rs_out (test_bit status 0) (test_bit status 1) (test_bit status 2)
            (cnt_from_status_byte status) (cnt_ack_from_status_byte status)
            (test_bit status 7) data).

(** src/ur20_1com_232_485_422.rs 330-334, 339-343: words to bytes, low byte first *)
Definition words_to_bytes (data : list Z) : list Z :=
  fold_left (fun x elem => (x ++ [Z.land elem 255]) ++ [Z.shiftr elem 8]) data [].

(** src/ur20_1com_232_485_422.rs 329-337: [process_input_data] *)
Definition com_process_input_data (data : list Z) : outcome (list channel_value) :=
  let? i := rs_in_from_bytes (words_to_bytes data) in Ok [ComRsIn i].

(** src/ur20_1com_232_485_422.rs 338-346: [process_output_data] *)
Definition com_process_output_data (data : list Z) : outcome (list channel_value) :=
  let? o := rs_out_from_bytes (words_to_bytes data) in Ok [ComRsOut o].

(** src/ur20_1com_232_485_422.rs 347-363: [process_output_values] *)
Definition com_process_output_values (l : process_data_length) (values : list channel_value)
  : outcome (list Z) :=
  if negb (Nat.eqb (length values) 1) then Err ChannelValueError
  else
    let? v := index values 0 in
    match v with
    | ComRsOut o =>
        if Nat.ltb (user_data_len l) (length (ro_data o)) then Err BufferLength
        else let? msg := rs_out_to_bytes o l in Ok (u8_to_u16 msg)
    | _ => Err ChannelValueError
    end.

(** src/ur20_1com_232_485_422.rs 80-90: [struct ChannelParameters]; characters are
    code points *)
Record com_params : Set := mk_com {
  com_operating_mode : operating_mode;
  com_data_bits : data_bits;
  com_baud_rate : baud_rate;
  com_stop_bit : stop_bit;
  com_parity : parity;
  com_flow_control : flow_control;
  com_xon : Z;
  com_xoff : Z;
  com_terminating_resistor : bool }.

(** src/ur20_1com_232_485_422.rs 553-558, 560-565: [match data[i] { 0..=255 => .., _ => Err }] *)
Definition char_param (n : Z) : outcome Z :=
  if (0 <=? n) && (n <=? 255) then Ok (as_u8 n) else Err ChannelParameter.

(** src/ur20_1com_232_485_422.rs 488-568: [parameters_from_raw_data] *)
Definition com_parameters (data : list Z) : outcome (process_data_length * com_params) :=
  if Nat.ltb (length data) 10 then Err BufferLength
  else
    let? d0 := index data 0 in let? pdl := enum_param process_data_length_variants d0 in
    let? d1 := index data 1 in let? om := enum_param operating_mode_variants d1 in
    let? d2 := index data 2 in let? br := enum_param baud_rate_variants d2 in
    let? d3 := index data 3 in let? sb := enum_param stop_bit_variants d3 in
    let? d4 := index data 4 in let? pa := enum_param parity_variants d4 in
    let? d5 := index data 5 in let? fc := enum_param flow_control_variants d5 in
    let? d6 := index data 6 in let? db := enum_param data_bits_variants d6 in
    let? d7 := index data 7 in let? tr := bool_param d7 in
    let? d8 := index data 8 in let? xon := char_param d8 in
    let? d9 := index data 9 in let? xoff := char_param d9 in
    Ok (pdl, mk_com om db br sb pa fc xon xoff tr).

(** ** Message processor *)

(** src/ur20_1com_232_485_422.rs 397-401: [enum InitState] *)
Inductive init_state : Set := ClearBuffers | ResetState | Done.

(** src/ur20_1com_232_485_422.rs 388-394: [struct MessageProcessor] *)
Record processor : Set := mk_processor {
  p_init_state : init_state;
  p_last_rx_cnt : Z;
  p_in_data : list Z;
  p_out_data : list (list Z);
  p_process_data_len : process_data_length }.

(** src/ur20_1com_232_485_422.rs 406-414: [MessageProcessor::new] *)
Definition processor_new (l : process_data_length) : processor :=
  mk_processor ClearBuffers 0 [] [] l.

(** src/ur20_1com_232_485_422.rs 452-458: [inc_cnt] on [usize] *)
Definition inc_cnt (prof : profile) (tx_cnt_ack : Z) : outcome Z :=
  let? c := add_usize prof tx_cnt_ack 1 in
  Ok (if 3 <? c then 0 else c).

(** src/ur20_1com_232_485_422.rs 418-450: [MessageProcessor::next] *)
Definition processor_next (prof : profile) (p : processor) (input : rs_in) (output : rs_out)
  : outcome (processor * rs_out) :=
  match p_init_state p with
  | Done =>
      (* 421-424: [&&] evaluates [inc_cnt] only if the queue is not empty *)
      let? (out_data, tx_cnt, data) :=
        match p_out_data p with
        | [] => Ok ([], ro_tx_cnt output, ro_data output)
        | c :: rest =>
            let? n := inc_cnt prof (ri_tx_cnt_ack input) in
            if negb (n =? ro_tx_cnt output) then Ok (rest, n, c)
            else Ok (c :: rest, ro_tx_cnt output, ro_data output)
        end in
      (* 425-428 *)
      let fetch := ri_data_available input && negb (p_last_rx_cnt p =? ri_rx_cnt input) in
      let in_data := if fetch then p_in_data p ++ ri_data input else p_in_data p in
      let last := if fetch then ri_rx_cnt input else p_last_rx_cnt p in
      Ok (mk_processor Done last in_data out_data (p_process_data_len p),
          mk_rs_out (ro_rx_buf_flush output) (ro_tx_buf_flush output)
            (ro_disable_tx_hw_buffer output) tx_cnt (ri_rx_cnt input) (ro_reset output) data)
  | ClearBuffers =>
      (* 432-437 *)
      Ok (mk_processor ResetState (p_last_rx_cnt p) (p_in_data p) (p_out_data p)
            (p_process_data_len p),
          mk_rs_out true true (ro_disable_tx_hw_buffer output) (ro_tx_cnt output)
            (ri_rx_cnt input) false [])
  | ResetState =>
      (* 438-444 *)
      Ok (mk_processor Done 4 (p_in_data p) (p_out_data p) (p_process_data_len p),
          mk_rs_out false false (ro_disable_tx_hw_buffer output) (ro_tx_cnt output)
            (ri_rx_cnt input) true [])
  end.

(** src/ur20_1com_232_485_422.rs 461-474: [Read::read] into a buffer of [n] bytes: the
    bytes stored at the front of the buffer (their number is the result) *)
Definition processor_read (p : processor) (n : nat) : processor * list Z :=
  match p_in_data p with
  | [] => (p, [])
  | _ =>
      let len := Nat.min n (length (p_in_data p)) in
      (mk_processor (p_init_state p) (p_last_rx_cnt p) (skipn len (p_in_data p))
         (p_out_data p) (p_process_data_len p),
       firstn len (p_in_data p))
  end.

(** [slice.chunks(n)] for [n > 0]; [fuel] bounds the number of chunks and is
    sufficient when at least the length of the list *)
Fixpoint chunks_fuel (fuel : nat) (n : nat) (l : list Z) : list (list Z) :=
  match fuel with
  | O => []
  | S f => match l with
           | [] => []
           | _ => firstn n l :: chunks_fuel f n (skipn n l)
           end
  end.
Definition chunks (n : nat) (l : list Z) : list (list Z) := chunks_fuel (length l) n l.

(** src/ur20_1com_232_485_422.rs 476-482: [Write::write] (result: all bytes written).
    [write_all] (src/ur20_fbc_mod_tcp.rs 281) is one such call. *)
Definition processor_write (p : processor) (buf : list Z) : processor * nat :=
  (mk_processor (p_init_state p) (p_last_rx_cnt p) (p_in_data p)
     (p_out_data p ++ chunks (user_data_len (p_process_data_len p)) buf)
     (p_process_data_len p),
   length buf).

(** src/ur20_1com_232_485_422.rs 285-299, 277-283: defaults *)
Definition com_params_default : com_params :=
  mk_com OM_Disabled EightBits Baud_9600 OneBit ParityNone FlowNone 17 19 false.
Definition com_process_data_len_default : process_data_length := SixteenBytes.
