(** Specification of the analog values and of the reported frequency (C16 - C22, C25), in real
    numbers. *)
From Coq Require Import ZArith Reals List Bool SpecFloat.
From Verif Require Import Base F32 Types Util Analog Fbc SpecCodec.
Import ListNotations.
Local Open Scope Z_scope.

(** ** Floating point numbers as real numbers *)

Definition finite (x : f32) : Prop :=
  match x with S754_zero _ | S754_finite _ _ _ => True | _ => False end.
(** The number a finite [f32] stands for. *)
Definition real (x : f32) : R :=
  match x with
  | S754_finite s m e => (IZR (if s then Zneg m else Zpos m) * powerRZ 2 e)%R
  | _ => 0%R
  end.
Definition even_mantissa (x : f32) : Prop :=
  match x with S754_zero _ => True | S754_finite _ m _ => Z.even (Zpos m) = true | _ => False end.

(** [x] is the correctly rounded value of the real number [r]: none of all finite [f32] values is
    nearer to [r], and if another one is as near, [x] is the one with the even mantissa. *)
Definition nearest (x : f32) (r : R) : Prop :=
  f32_valid x = true /\ finite x /\
  forall y, f32_valid y = true -> finite y ->
    (Rabs (real x - r) <= Rabs (real y - r))%R /\
    (Rabs (real x - r) = Rabs (real y - r) -> real y <> real x -> even_mantissa x)%R.

(** [x] is exactly [r]. *)
Definition exactly (x : f32) (r : R) : Prop := f32_valid x = true /\ finite x /\ real x = r.

(** [x] differs from [r] by at most [eps * |r|]. *)
Definition within (eps : R) (x : f32) (r : R) : Prop :=
  f32_valid x = true /\ finite x /\ (Rabs (real x - r) <= eps * Rabs r)%R.

(** The order of all values but NaN. *)
Definition at_most (x y : f32) : Prop :=
  match x, y with
  | S754_nan, _ | _, S754_nan => False
  | S754_infinity true, _ | _, S754_infinity false => True
  | S754_infinity false, _ | _, S754_infinity true => False
  | _, _ => (real x <= real y)%R
  end.

(** ** Current and voltage channels *)

(** The value for code 0 and the difference between it and the value for the nominal full code. *)
Definition base_span (r : analog_ui_range) : option (Z * Z) :=
  match r with
  | UI_mA0To20 => Some (0, 20)
  | UI_mA4To20 => Some (4, 16)
  | UI_V0To10 | UI_VMinus10To10 => Some (0, 10)
  | UI_V0To5 | UI_VMinus5To5 => Some (0, 5)
  | UI_V1To5 => Some (1, 4)
  | UI_V2To10 => Some (2, 8)
  | UI_Disabled => None
  end.
Definition full_code (f : data_format) : Z := match f with S5 => 16384 | S7 => 27648 end.

(** The code as a signed number. *)
Definition signed (w : Z) : Z := if w <? 32768 then w else w - 65536.

Definition exact_value (base span full code : Z) : R := (IZR base + IZR span * IZR code / IZR full)%R.
Definition exact_code (base span full : Z) (v : R) : R := (IZR full * (v - IZR base) / IZR span)%R.

(** What is reported for a code: correctly rounded for ranges from zero, exact for format S5;
    for ranges with an offset the sum is rounded again. *)
Definition decoded (base span full code : Z) (x : f32) : Prop :=
  (base = 0 -> nearest x (exact_value base span full code)) /\
  (full = 16384 -> exactly x (exact_value base span full code)) /\
  (exists q, nearest q (IZR span * IZR code / IZR full) /\ nearest x (real q + IZR base)) /\
  (Rabs (real x - exact_value base span full code) <= / 131072)%R.

(** The current range of a current module. *)
Definition current_range (r : analog_i_range) : analog_ui_range :=
  match r with I_mA0To20 => UI_mA0To20 | I_mA4To20 => UI_mA4To20 | I_Disabled => UI_Disabled end.

(** Range and format of channel [k] of an analog input and of an analog output module. *)
Definition analog_input (m : module) (k : nat) : option (analog_ui_range * data_format) :=
  match m with
  | MUI16DIAG _ ch => option_map (fun p => (aid_range p, aid_format p)) (nth_error ch k)
  | MAIUI _ _ ch => option_map (fun p => (aiu_range p, aiu_format p)) (nth_error ch k)
  | M8AI _ ch => option_map (fun p => (current_range (aii_range p), aii_format p)) (nth_error ch k)
  | _ => None
  end.
Definition analog_output (m : module) (k : nat) : option (analog_ui_range * data_format) :=
  match m with
  | M4AO ch => option_map (fun p => (ao_range p, ao_format p)) (nth_error ch k)
  | M4AODIAG ch => option_map (fun p => (aod_range p, aod_format p)) (nth_error ch k)
  | _ => None
  end.

(** Module [m] shows [v] for code [d] of its channel [k] in some input image. *)
Definition shows (m : module) (k : nat) (d : Z) (v : channel_value) : Prop :=
  exists data vs, mod_process_input_data m data = Ok vs /\ nth_error data k = Some d /\ nth_error vs k = Some v.
(** It reads back [v] for code [d] in some output image. *)
Definition reads_back (m : module) (k : nat) (d : Z) (v : channel_value) : Prop :=
  exists data vs, mod_process_output_data m data = Ok vs /\ nth_error data k = Some d /\ nth_error vs k = Some v.
(** It sends code [d] when [v] is written to channel [k], among some other values. *)
Definition sends (m : module) (k : nat) (v : channel_value) (d : Z) : Prop :=
  exists prof values data, mod_process_output_values prof m values = Ok data /\
    nth_error values k = Some v /\ nth_error data k = Some d.

(** The values an analog output accepts. *)
Definition is_analog_value (v : channel_value) : Prop :=
  match v with Decimal32 _ | Disabled => True | _ => False end.

(** ** Temperature and resistance channels *)

Definition full_resistance (r : rtd_range) : option Z :=
  match r with
  | R40 => Some 40 | R80 => Some 80 | R150 => Some 150 | R300 => Some 300 | R500 => Some 500
  | R1000 => Some 1000 | R2000 => Some 2000 | R4000 => Some 4000 | _ => None
  end.
(** The full scale voltage of a thermocouple module in microvolts. *)
Definition full_microvolts (r : tc_range) : option Z :=
  match r with
  | uVPlusMinus15625 => Some 15625 | uVPlusMinus31250 => Some 31250 | uVPlusMinus62500 => Some 62500
  | mVPlusMinus125 => Some 125000 | mVPlusMinus250 => Some 250000 | mVPlusMinus500 => Some 500000
  | VPlusMinus1 => Some 1000000 | VPlusMinus2 => Some 2000000 | _ => None
  end.

(** ** Writing back what was read back *)

(** The codes [data'] a module sends when the values it reads back for the codes [data] are written to it. *)
Definition rewrites (m : module) (data data' : list Z) : Prop :=
  exists prof values, mod_process_output_data m data = Ok values /\ mod_process_output_values prof m values = Ok data'.
(** The same, [n] times in a row. *)
Inductive rewrites_n (m : module) : nat -> list Z -> list Z -> Prop :=
| rewrites_0 data : rewrites_n m 0 data data
| rewrites_S n data data' data'' : rewrites m data data' -> rewrites_n m n data' data'' -> rewrites_n m (S n) data data''.

(** The module is a module with four analog outputs and has settings for each of them. *)
Definition all_analog_outputs (m : module) : Prop :=
  forall k, (k < 4)%nat <-> analog_output m k <> None.

(** [c'] lies between 0 and [c]. *)
Definition towards_zero (c c' : Z) : Prop := 0 <= c' <= c \/ c <= c' <= 0.
