(** Specification of what [outputs] shows for serial modules (C61, C62). *)
From Coq Require Import ZArith List Bool.
From Verif Require Import Base F32 Types Lib Com Fbc SpecCodec SpecSerial SpecCoupler SpecImage SpecSystem.
Import ListNotations.
Local Open Scope Z_scope.

(** ** The rule (C61) *)

(** The messages to the serial modules that exchange data in both directions, in the order of the slots, in
    decoded output values. *)
Definition sending (c : coupler) (outs : list (list channel_value)) : list (nat * rs_out) :=
  flat_map (fun k => match nth_error (c_modules c) k, nth_error (c_offsets c) k, cell outs k 0 with
                     | Some (MCOM _ _), Some (mk_offset (Some _) (Some _)), Some (ComRsOut r) => [(k, r)]
                     | _, _, _ => []
                     end) (seq 0 (length (c_modules c))).

(** The messages in the output image of a cycle whose images can be decoded, and those of a history. *)
Definition messages (prof : profile) (c : coupler) (x : call) : list (nat * rs_out) :=
  match x with
  | NextCycle input output =>
      match process_input_data prof (infos c) input, process_output_data prof (infos c) output with
      | Ok _, Ok outs => sending c outs
      | _, _ => []
      end
  | _ => []
  end.

(** The transmit counter of the last of some messages, 0 if there are none. *)
Definition last_counter (l : list (nat * rs_out)) : Z := last (map (fun e => ro_tx_cnt (snd e)) l) 0.

(** What is shown for a message that comes after [earlier] ones: its data, unless it has none or has the
    same counter as the message before. *)
Definition shown_message (earlier : list (nat * rs_out)) (r : rs_out) : channel_value :=
  match ro_data r with
  | [] => VNone
  | _ => if ro_tx_cnt r =? last_counter earlier then VNone else Bytes (ro_data r)
  end.

(** ** Everything that is sent is shown once (C62) *)

(** Module [i] is the only serial module that exchanges data in both directions. *)
Definition only_serial (c : coupler) (i : nat) : Prop :=
  forall j m o, module_at c j m o -> is_serial m = true -> mo_input o <> None -> mo_output o <> None -> j = i.

(** The bytes that [outputs] shows for module [i]. *)
Definition bytes_shown (c : coupler) (i : nat) : list Z :=
  match cell (outputs c) i 0 with Some (Bytes b) => b | _ => [] end.

(** A history in which each cycle is given the output image returned by the one before.  A state is a coupler
    with the output image given to its last cycle and the one returned by it; [written] and [shown] are the bytes
    handed over for transmission and the bytes shown. *)
Inductive feeds_back (prof : profile) (i : nat)
  : coupler * list Z * list Z -> list Z -> list Z -> coupler * list Z * list Z -> Prop :=
| FB_end s : feeds_back prof i s [] [] s
| FB_set c given image a v written shown s : rust_value v ->
    feeds_back prof i (fst (set_output c a v), given, image) written shown s ->
    feeds_back prof i (c, given, image) written shown s
| FB_read c given image j size written shown s :
    feeds_back prof i (fst (coupler_read c j size), given, image) written shown s ->
    feeds_back prof i (c, given, image) written shown s
| FB_write c given image j buf written shown s : Forall is_u8 buf ->
    feeds_back prof i (fst (coupler_write c j buf), given, image) written shown s ->
    feeds_back prof i (c, given, image) ((if Nat.eqb j i then buf else []) ++ written) shown s
| FB_next c given image input c' image' written shown s :
    cycle prof c input image c' (Ok image') ->
    feeds_back prof i (c', image, image') written shown s ->
    feeds_back prof i (c, given, image) (pending c i ++ written) (bytes_shown c' i ++ shown) s.

(** The segment that the last cycle has put into the output image. *)
Definition not_yet_shown (l : process_data_length) (ooff : Z) (given image : list Z) : list Z :=
  match rs_out_from_bytes (out_part l ooff given), rs_out_from_bytes (out_part l ooff image) with
  | Ok o, Ok o' => if ro_tx_cnt o' =? ro_tx_cnt o then [] else ro_data o'
  | _, _ => []
  end.
