(** Specification of the digital, counter and serial process data (C13 - C15, C23, C24,
    C26 - C28). *)
From Coq Require Import ZArith List Bool.
From Verif Require Import Base F32 Types Fbc.
Import ListNotations.
Local Open Scope Z_scope.

(** Number of channels of the digital input and output modules. *)
Definition digital_inputs (m : module) : option nat :=
  match m with
  | MDI V_4DI_P _ => Some 4%nat
  | MDI V_8DI_P_2W _ => Some 8%nat
  | _ => None
  end.
Definition digital_outputs (m : module) : option nat :=
  match m with
  | MDO V_4DO_P _ | MDO V_4DO_P_2A _ | M4RO _ => Some 4%nat
  | MDO V_8DO_P _ => Some 8%nat
  | M16DO => Some 16%nat
  | _ => None
  end.

(** Bit [i] of a word. *)
Definition bit (w : Z) (i : nat) : bool := Z.testbit w (Z.of_nat i).

(** A value a digital output accepts, and whether it switches the output on. *)
Definition switches (v : channel_value) : option bool :=
  match v with Bit b => Some b | Disabled => Some false | _ => None end.

(** Durations. *)
Definition valid_duration (d : duration) : Prop := is_u64 (d_secs d) /\ 0 <= d_nanos d < 1000000000.
Definition nanoseconds (d : duration) : Z := d_secs d * 1000000000 + d_nanos d.
(** The largest preset, 8.388607 s. *)
Definition max_preset : Z := 8388607000.
Definition truncated_to_micros (d : duration) : duration :=
  mk_duration (d_secs d) (d_nanos d / 1000 * 1000).

(** What a counter output value stands for: preset and command ([Disabled]: nothing). *)
Definition preset (v : channel_value) : option fcnt_out :=
  match v with
  | FcntOut o => Some o
  | Disabled => Some (mk_fcnt_out (mk_duration 0 0) None)
  | _ => None
  end.

(** A 32 bit number from two words. *)
Definition word32 (hi lo : Z) : Z := hi * 65536 + lo.

(** Size of the process data of the serial module and of the user data in it. *)
Definition message_size (l : process_data_length) : nat :=
  match l with EightBytes => 8 | SixteenBytes => 16 end.
Definition payload_size (l : process_data_length) : nat :=
  match l with EightBytes => 6 | SixteenBytes => 14 end.

(** The documented layout of the status byte. *)
Definition in_message (i : rs_in) (status : Z) (data : list Z) : Prop :=
  ri_data_available i = bit status 0 /\ ri_buffer_nearly_full i = bit status 1 /\
  ri_rx_cnt i = (status / 8) mod 4 /\ ri_tx_cnt_ack i = (status / 32) mod 4 /\
  ri_ready i = bit status 7 /\ ri_data i = data.
Definition out_message (o : rs_out) (status : Z) (data : list Z) : Prop :=
  ro_rx_buf_flush o = bit status 0 /\ ro_tx_buf_flush o = bit status 1 /\
  ro_disable_tx_hw_buffer o = bit status 2 /\
  ro_tx_cnt o = (status / 8) mod 4 /\ ro_rx_cnt_ack o = (status / 32) mod 4 /\
  ro_reset o = bit status 7 /\ ro_data o = data.

(** A byte string that announces data it does contain. *)
Definition announces (bytes : list Z) (status : Z) (data : list Z) : Prop :=
  exists rest, bytes = status :: Z.of_nat (length data) :: data ++ rest.

(** Values whose duration is a value of type [Duration]. *)
Definition valid_preset (v : channel_value) : Prop :=
  match v with FcntOut o => valid_duration (fo_duration o) | _ => True end.

(** The bytes of a list of words, low byte first. *)
Definition bytes_of_words (words : list Z) : list Z := flat_map (fun w => [w mod 256; w / 256]) words.

(** A message whose counters are values of type [usize]. *)
Definition in_counters (o : rs_out) : Prop := is_usize (ro_tx_cnt o) /\ is_usize (ro_rx_cnt_ack o).
