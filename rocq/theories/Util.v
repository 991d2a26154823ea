(** Model of src/util.rs.  Definitions only. *)
From Coq Require Import ZArith List Bool.
From Verif Require Import Base F32 Types Lib.
Import ListNotations.
Local Open Scope Z_scope.

(** src/util.rs 22-24: [bit_mask].  Simplification: a shift by 64 or more (a
    debug panic) is not modelled; the crate only uses bit numbers below 16. *)
Definition bit_mask (bit : nat) : Z := Z.shiftl 1 (Z.of_nat bit).

(** src/util.rs 4-7: [set_bit] *)
Definition set_bit (val : Z) (bit_nr : nat) : Z := Z.lor val (as_u8 (bit_mask bit_nr)).

(** src/util.rs 9-12: [set_bit_16] *)
Definition set_bit_16 (val : Z) (bit_nr : nat) : Z := Z.lor val (as_u16 (bit_mask bit_nr)).

(** src/util.rs 18-20: [test_bit_16] *)
Definition test_bit_16 (val : Z) (bit_nr : nat) : bool :=
  negb (Z.land val (as_u16 (bit_mask bit_nr)) =? 0).

(** src/util.rs 14-16: [test_bit] *)
Definition test_bit (val : Z) (bit_nr : nat) : bool := test_bit_16 val bit_nr.

(** src/util.rs 26-30: [u16_to_u8] (little endian) *)
Definition u16_to_u8 (words : list Z) : list Z :=
  flat_map (fun w => [Z.land w 255; Z.shiftr w 8]) words.

(** src/util.rs 32-44: [u8_to_u16] (little endian, an odd trailing byte is padded
    with a zero byte) *)
Fixpoint u8_to_u16 (bytes : list Z) : list Z :=
  match bytes with
  | [] => []
  | [lo] => [Z.lor lo (Z.shiftl 0 8)]
  | lo :: hi :: t => Z.lor lo (Z.shiftl hi 8) :: u8_to_u16 t
  end.

(** src/util.rs 46-53: [shift_data]; [&buf[1..]] panics on an empty buffer *)
Definition shift_data (data : list Z) : outcome (list Z) :=
  match u16_to_u8 data with
  | [] => Panic IndexOutOfBounds
  | _ :: buf => Ok (u8_to_u16 (buf ++ [0]))
  end.

(** src/util.rs 55-69: [analog_ui_value_to_u16] *)
Definition analog_ui_value_to_u16 (v : f32) (range : analog_ui_range) (format : data_format) : Z :=
  let fac := factor format in
  let x :=
    match range with
    | UI_mA0To20 => f32_div (f32_mul fac v) (f32_of_Z 20)
    | UI_mA4To20 => f32_div (f32_mul fac (f32_sub v (f32_of_Z 4))) (f32_of_Z 16)
    | UI_V0To10 | UI_VMinus10To10 => f32_div (f32_mul fac v) (f32_of_Z 10)
    | UI_V0To5 | UI_VMinus5To5 => f32_div (f32_mul fac v) (f32_of_Z 5)
    | UI_V1To5 => f32_div (f32_mul fac (f32_sub v (f32_of_Z 1))) (f32_of_Z 4)
    | UI_V2To10 => f32_div (f32_mul fac (f32_sub v (f32_of_Z 2))) (f32_of_Z 8)
    | UI_Disabled => f32_of_Z 0
    end in
  i16_as_u16 (f32_as_i16 x).

(** src/util.rs 71-89: [u16_to_analog_ui_value] *)
Definition u16_to_analog_ui_value (data : Z) (range : analog_ui_range) (format : data_format)
  : option f32 :=
  let fac := factor format in
  let d := f32_of_Z (u16_as_i16 data) in
  match range with
  | UI_mA0To20 => Some (f32_div (f32_mul d (f32_of_Z 20)) fac)
  | UI_mA4To20 => Some (f32_add (f32_div (f32_mul d (f32_of_Z 16)) fac) (f32_of_Z 4))
  | UI_V0To10 | UI_VMinus10To10 => Some (f32_div (f32_mul d (f32_of_Z 10)) fac)
  | UI_V0To5 | UI_VMinus5To5 => Some (f32_div (f32_mul d (f32_of_Z 5)) fac)
  | UI_V1To5 => Some (f32_add (f32_div (f32_mul d (f32_of_Z 4)) fac) (f32_of_Z 1))
  | UI_V2To10 => Some (f32_add (f32_div (f32_mul d (f32_of_Z 8)) fac) (f32_of_Z 2))
  | UI_Disabled => None
  end.

(** src/util.rs 91-117: [u16_to_rtd_value].  The inner match with [unreachable!()]
    is flattened: it repeats exactly the patterns of the outer arm. *)
Definition u16_to_rtd_value (data : Z) (range : rtd_range) : option f32 :=
  let resistance n := f32_div (f32_mul (f32_of_Z n) (f32_of_Z data)) (f32_of_Z 0x6C00) in
  match range with
  | PT100 | PT200 | PT500 | PT1000 | NI100 | NI120 | NI200 | NI500 | NI1000 | Cu10 =>
      Some (f32_div (f32_of_Z (u16_as_i16 data)) (f32_of_Z 10))
  | R40 => Some (resistance 40)
  | R80 => Some (resistance 80)
  | R150 => Some (resistance 150)
  | R300 => Some (resistance 300)
  | R500 => Some (resistance 500)
  | R1000 => Some (resistance 1000)
  | R2000 => Some (resistance 2000)
  | R4000 => Some (resistance 4000)
  | RTD_Disabled => None
  end.
