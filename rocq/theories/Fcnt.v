(** Model of src/ur20_2fcnt_100.rs.  Definitions only. *)
From Coq Require Import ZArith List Bool.
From Verif Require Import Base F32 Types Lib Util Digital.
Import ListNotations.
Local Open Scope Z_scope.

(** src/ur20_2fcnt_100.rs 8-10: [MAX_MEASUREMENT_DURATION] *)
Definition MAX_MEASUREMENT_DURATION : duration := mk_duration 8 388607000.
(** src/ur20_2fcnt_100.rs 12-14 *)
Definition MICROS_PER_SEC : Z := 1000000.
Definition NANOS_PER_SEC : Z := 1000000000.
Definition MAX_MEASUREMENT_PERIOD : Z := 0x07FFFFFF.

(** [Duration::from_nanos] *)
Definition duration_from_nanos (n : Z) : duration :=
  mk_duration (n / 1000000000) (n mod 1000000000).

(** [a > b] on [Duration]: lexicographic *)
Definition duration_gtb (a b : duration) : bool :=
  (d_secs b <? d_secs a) || ((d_secs a =? d_secs b) && (d_nanos b <? d_nanos a)).

(** [Duration::subsec_micros] *)
Definition subsec_micros (d : duration) : Z := d_nanos d / 1000.

(** src/ur20_2fcnt_100.rs 34-39: [ProcessInput::hertz] *)
Definition hertz (i : fcnt_in) : option f32 :=
  match fi_duration i with
  | None => None
  | Some d =>
      Some (f32_div (f32_of_Z (fi_count i))
              (f32_add (f32_of_Z (d_secs d))
                 (f32_div (f32_of_Z (d_nanos d)) (f32_of_Z NANOS_PER_SEC))))
  end.

(** [(u32::from(hi) << 16) | u32::from(lo)] (lines 138, 145, 178) *)
Definition u32_of_words (hi lo : Z) : Z := Z.lor (Z.shiftl hi 16) lo.

(** src/ur20_2fcnt_100.rs 121-158: [process_input_data] *)
Definition fcnt_process_input_data (params : list input_filter) (data : list Z)
  : outcome (list channel_value) :=
  if negb (Nat.eqb (length data) 10) then Err BufferLength
  else if negb (Nat.eqb (length params) 2) then Err ChannelParameter
  else traverse (fun i =>
        let idx := (i * 4)%nat in
        let? dh := index data idx in
        let? dl := index data (idx + 1) in
        let? ch := index data (idx + 2) in
        let? cl := index data (idx + 3) in
        let? active := index data (8 + i) in
        let d := u32_of_words dh dl in
        let dur := if MAX_MEASUREMENT_PERIOD <=? d then None
                   else Some (duration_from_nanos (d * 125)) in
        Ok (FcntIn (mk_fcnt_in dur (u32_of_words ch cl) (test_bit_16 active 8))))
      (seq 0 2).

(** src/ur20_2fcnt_100.rs 159-190: [process_output_data] *)
Definition fcnt_process_output_data (data : list Z) : outcome (list channel_value) :=
  if negb (Nat.eqb (length data) 6) then Err BufferLength
  else traverse (fun i =>
        let idx := (i * 2)%nat in
        let? dh := index data idx in
        let? dl := index data (idx + 1) in
        let? control := index data (4 + i) in
        let cmd := if test_bit_16 control 8 then Some Start
                   else if test_bit_16 control 9 then Some Stop
                   else None in
        Ok (FcntOut (mk_fcnt_out (duration_from_nanos (u32_of_words dh dl * 1000)) cmd)))
      (seq 0 2).

(** The loop of src/ur20_2fcnt_100.rs 201-231 *)
Fixpoint fcnt_encode (prof : profile) (out : list Z) (values : list (nat * channel_value))
  : outcome (list Z) :=
  match values with
  | [] => Ok out
  | (i, v) :: t =>
      match v with
      | FcntOut o =>
          if duration_gtb (fo_duration o) MAX_MEASUREMENT_DURATION then Err ChannelValueError
          else
            let? s := mul_u32 prof (as_u32 (d_secs (fo_duration o))) MICROS_PER_SEC in
            let? micros := add_u32 prof s (subsec_micros (fo_duration o)) in
            let lo := Z.land micros 0x0000FFFF in
            let hi := Z.shiftr (Z.land micros 0xFFFF0000) 16 in
            let idx := (i * 2)%nat in
            let? out := store out idx (as_u16 hi) in
            let? out := store out (idx + 1) (as_u16 lo) in
            let? out := match fo_command o with
                        | Some Start => store out (i + 4) (set_bit_16 0 8)
                        | Some Stop => store out (i + 4) (set_bit_16 0 9)
                        | None => Ok out
                        end in
            fcnt_encode prof out t
      | Disabled => fcnt_encode prof out t
      | _ => Err ChannelValueError
      end
  end.

(** src/ur20_2fcnt_100.rs 191-233: [process_output_values] *)
Definition fcnt_process_output_values (prof : profile) (params : list input_filter)
  (values : list channel_value) : outcome (list Z) :=
  let cnt := channel_count UR20_2FCNT_100 in
  if negb (Nat.eqb (length values) cnt) then Err ChannelValueError
  else if negb (Nat.eqb (length params) cnt) then Err ChannelParameter
  else fcnt_encode prof (repeat 0 6) (enumerate values).

(** src/ur20_2fcnt_100.rs 236-256: [parameters_from_raw_data] *)
Definition fcnt_parameters (data : list Z) : outcome (list input_filter) :=
  if Nat.ltb (length data) 2 then Err BufferLength
  else traverse (fun i => let? d := index data i in enum_param input_filter_variants d) (seq 0 2).
