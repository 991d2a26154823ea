(** Specification of serial modules inside a coupler (C49, C50, C55, C56): the part of the
    process images that belongs to a serial module, what a program does and sees of one serial
    module, and a transition system of a program, a coupler and a serial module. *)
From Coq Require Import ZArith List Bool.
From Verif Require Import Base F32 Types Lib Com Fbc SpecCodec SpecSerial SpecCoupler SpecImage.
Import ListNotations.
Local Open Scope Z_scope.

(** Module [i] is a serial module on register boundaries, and no later module starts in its part
    of the output image (C40: such overlaps are not rejected). *)
Definition serial_at (c : coupler) (i : nat) (l : process_data_length) (ioff ooff : Z) : Prop :=
  (exists ch, module_at c i (MCOM l ch) (mk_offset (Some ioff) (Some ooff))) /\
  ioff mod 16 = 0 /\ ooff mod 16 = 0 /\
  forall j m o off, (i < j)%nat -> module_at c j m o -> mo_output o = Some off ->
    ~ (first_byte 0x0800 ooff <= first_byte 0x0800 off < first_byte 0x0800 ooff + message_size l)%nat.

(** Its bytes in an input and in an output image. *)
Definition in_part (l : process_data_length) (ioff : Z) (image : list Z) : list Z :=
  image_bytes image (first_byte 0 ioff) (message_size l).
Definition out_part (l : process_data_length) (ooff : Z) (image : list Z) : list Z :=
  image_bytes image (first_byte 0x0800 ooff) (message_size l).

(** ** What a program does with one serial module, and what it sees of it (C49) *)

Inductive own_call : Set :=
| OwnSet (channel : nat) (v : channel_value)
| OwnRead (size : nat)
| OwnWrite (buf : list Z)
| OwnCycle (input output : list Z).              (* the module's part of the images *)
Inductive own_answer : Set :=
| OwnResult (r : outcome unit)
| OwnBytesRead (r : option (list Z))
| OwnBytesWritten (r : option nat)
| OwnSent (image : list Z) (shown : option (list channel_value)).
                                                 (* its part of the image and of [inputs] *)

(** The calls that concern module [i], and their answers. *)
Fixpoint own (i : nat) (l : process_data_length) (ioff ooff : Z) (xs : list call) (answers : list answer)
  : list own_call * list own_answer :=
  match xs, answers with
  | x :: xs', a :: answers' =>
      let (calls, seen) := own i l ioff ooff xs' answers' in
      match x, a with
      | SetOutput addr v, SetResult r =>
          if Nat.eqb (a_module addr) i then (OwnSet (a_channel addr) v :: calls, OwnResult r :: seen)
          else (calls, seen)
      | ReadFrom j size, BytesRead r =>
          if Nat.eqb j i then (OwnRead size :: calls, OwnBytesRead r :: seen) else (calls, seen)
      | WriteTo j buf, BytesWritten r =>
          if Nat.eqb j i then (OwnWrite buf :: calls, OwnBytesWritten r :: seen) else (calls, seen)
      | NextCycle input output, CycleResult (Ok image) ins _ =>
          (OwnCycle (in_part l ioff input) (out_part l ooff output) :: calls,
           OwnSent (out_part l ooff image) (nth_error ins i) :: seen)
      | _, _ => (calls, seen)
      end
  | _, _ => ([], [])
  end.

(** All cycles of a history succeed. *)
Definition all_ok (answers : list answer) : Prop :=
  forall r ins outs, In (CycleResult r ins outs) answers -> exists image, r = Ok image.

(** ** A program, a coupler and a serial module (C50, C55, C56) *)

(** The program holds the input image it has read last ([t_latch]) and the output image it has
    computed last ([t_image]); [t_register] is the output image it has written last to the
    coupler, and [t_device] what the serial module presents.  The last five fields record what
    happened. *)
Record plant : Set := mk_plant {
  t_coupler : coupler;
  t_latch : list Z;
  t_image : list Z;
  t_register : list Z;
  t_device : rs_in;
  t_written : list Z;               (* bytes handed over for transmission *)
  t_taken : list Z;                 (* bytes the module has taken over *)
  t_offered : list (list Z);        (* segments the module has offered *)
  t_delivered : list Z;             (* bytes the program has read *)
  t_cycles : nat }.                 (* number of cycles *)

Inductive plant_event : Set :=
| PSet (a : address) (v : channel_value)
| PRead (j size : nat)
| PWrite (j : nat) (buf : list Z)
| PInput (input : list Z)           (* the program reads an input image *)
| PCycle                            (* the program calls [next] *)
| POutput                           (* the program writes the output image *)
| PTake                             (* the module looks at the transmit counter *)
| POffer (seg : list Z)             (* the module has received a segment on the line *)
| PClear                            (* the module withdraws an acknowledged segment *)
| PStatus (nearly_full ready : bool).

Definition with_coupler (t : plant) (c : coupler) : plant :=
  mk_plant c (t_latch t) (t_image t) (t_register t) (t_device t)
    (t_written t) (t_taken t) (t_offered t) (t_delivered t) (t_cycles t).
Definition with_device (t : plant) (d : rs_in) (taken : list Z) (offered : list (list Z)) : plant :=
  mk_plant (t_coupler t) (t_latch t) (t_image t) (t_register t) d
    (t_written t) taken offered (t_delivered t) (t_cycles t).

(** The bytes of the pending request for a serial module. *)
Definition pending (c : coupler) (i : nat) : list Z :=
  match requested c (mk_address i 0) with Some (Bytes b) => b | _ => [] end.

(** Steps of the plant with its serial module [i].  The other modules and their process data are
    arbitrary; an input image contains what the serial module presents; [next] succeeds. *)
Inductive plant_step (prof : profile) (i : nat) (l : process_data_length) (ioff ooff : Z)
  : plant -> plant_event -> plant -> Prop :=
| P_set t a v : rust_value v ->
    plant_step prof i l ioff ooff t (PSet a v) (with_coupler t (fst (set_output (t_coupler t) a v)))
| P_read t j size c r : coupler_read (t_coupler t) j size = (c, r) ->
    plant_step prof i l ioff ooff t (PRead j size)
      (mk_plant c (t_latch t) (t_image t) (t_register t) (t_device t) (t_written t) (t_taken t) (t_offered t)
         (t_delivered t ++ match r with Some bytes => if Nat.eqb j i then bytes else [] | None => [] end)
         (t_cycles t))
| P_write t j buf : Forall is_u8 buf ->
    plant_step prof i l ioff ooff t (PWrite j buf)
      (mk_plant (fst (coupler_write (t_coupler t) j buf)) (t_latch t) (t_image t) (t_register t) (t_device t)
         (t_written t ++ if Nat.eqb j i then buf else []) (t_taken t) (t_offered t) (t_delivered t) (t_cycles t))
| P_input t input : Forall is_u16 input -> rs_in_from_bytes (in_part l ioff input) = Ok (t_device t) ->
    plant_step prof i l ioff ooff t (PInput input)
      (mk_plant (t_coupler t) input (t_image t) (t_register t) (t_device t)
         (t_written t) (t_taken t) (t_offered t) (t_delivered t) (t_cycles t))
| P_cycle t c' image : cycle prof (t_coupler t) (t_latch t) (t_image t) c' (Ok image) ->
    plant_step prof i l ioff ooff t PCycle
      (mk_plant c' (t_latch t) image (t_register t) (t_device t)
         (t_written t ++ pending (t_coupler t) i) (t_taken t) (t_offered t) (t_delivered t) (S (t_cycles t)))
| P_output t :
    plant_step prof i l ioff ooff t POutput
      (mk_plant (t_coupler t) (t_latch t) (t_image t) (t_image t) (t_device t)
         (t_written t) (t_taken t) (t_offered t) (t_delivered t) (t_cycles t))
| P_take t o : rs_out_from_bytes (out_part l ooff (t_register t)) = Ok o ->
    plant_step prof i l ioff ooff t PTake
      (if ro_tx_cnt o =? ri_tx_cnt_ack (t_device t) then t
       else with_device t
         (mk_rs_in (ri_data_available (t_device t)) (ri_buffer_nearly_full (t_device t)) (ri_rx_cnt (t_device t))
            (ro_tx_cnt o) (ri_ready (t_device t)) (ri_data (t_device t)))
         (t_taken t ++ ro_data o) (t_offered t))
| P_offer t seg o : rs_out_from_bytes (out_part l ooff (t_register t)) = Ok o ->
    plant_step prof i l ioff ooff t (POffer seg)
      (if ro_rx_cnt_ack o =? ri_rx_cnt (t_device t) then
         with_device t
           (mk_rs_in true (ri_buffer_nearly_full (t_device t)) (succ4 (ri_rx_cnt (t_device t)))
              (ri_tx_cnt_ack (t_device t)) (ri_ready (t_device t)) seg)
           (t_taken t) (t_offered t ++ [seg])
       else t)
| P_clear t o : rs_out_from_bytes (out_part l ooff (t_register t)) = Ok o ->
    plant_step prof i l ioff ooff t PClear
      (if ro_rx_cnt_ack o =? ri_rx_cnt (t_device t) then
         with_device t
           (mk_rs_in false (ri_buffer_nearly_full (t_device t)) (ri_rx_cnt (t_device t))
              (ri_tx_cnt_ack (t_device t)) (ri_ready (t_device t)) [])
           (t_taken t) (t_offered t)
       else t)
| P_status t full ready :
    plant_step prof i l ioff ooff t (PStatus full ready)
      (with_device t
         (mk_rs_in (ri_data_available (t_device t)) full (ri_rx_cnt (t_device t))
            (ri_tx_cnt_ack (t_device t)) ready (ri_data (t_device t))) (t_taken t) (t_offered t)).

Inductive plant_runs (prof : profile) (i : nat) (l : process_data_length) (ioff ooff : Z)
  : plant -> list plant_event -> plant -> Prop :=
| PR_nil t : plant_runs prof i l ioff ooff t [] t
| PR_cons t e t1 es t2 : plant_step prof i l ioff ooff t e t1 -> plant_runs prof i l ioff ooff t1 es t2 ->
    plant_runs prof i l ioff ooff t (e :: es) t2.

(** The start: a new coupler, a serial module that has nothing to send and to which nothing is
    being sent; all other contents of the process data are arbitrary. *)
Definition plant_start (i : nat) (l : process_data_length) (ioff ooff : Z) (t : plant) : Prop :=
  (exists cfg, rust_config cfg /\ coupler_new cfg = Ok (t_coupler t)) /\
  serial_at (t_coupler t) i l ioff ooff /\
  rs_in_from_bytes (in_part l ioff (t_latch t)) = Ok (t_device t) /\ Forall is_u16 (t_latch t) /\
  t_image t = t_register t /\ Forall is_u16 (t_image t) /\
  length (out_part l ooff (t_image t)) = message_size l /\
  (exists o, rs_out_from_bytes (out_part l ooff (t_register t)) = Ok o /\
     ri_data_available (t_device t) = false /\
     ri_tx_cnt_ack (t_device t) = ro_tx_cnt o /\ ro_rx_cnt_ack o = ri_rx_cnt (t_device t)) /\
  t_written t = [] /\ t_taken t = [] /\ t_offered t = [] /\ t_delivered t = [] /\ t_cycles t = O.

(** The segment in the output image that the module has not yet taken over. *)
Definition on_its_way (l : process_data_length) (ooff : Z) (t : plant) : list Z :=
  match rs_out_from_bytes (out_part l ooff (t_image t)) with
  | Ok o => if ro_tx_cnt o =? ri_tx_cnt_ack (t_device t) then [] else ro_data o
  | _ => []
  end.

(** The bytes waiting in the coupler to be sent, and those waiting to be read. *)
Definition waiting_in (c : coupler) (i : nat) : list Z :=
  match serial c i with Some p => queued p | None => [] end.
Definition readable_in (c : coupler) (i : nat) : list Z :=
  match serial c i with Some p => buffered p | None => [] end.

(** A stretch of a history in which an input image is read and processed and the output image
    written and then looked at by the module, with anything else in between. *)
Definition plant_round (es : list plant_event) : Prop :=
  exists a input b c d e, es = a ++ [PInput input] ++ b ++ [PCycle] ++ c ++ [POutput] ++ d ++ [PTake] ++ e.

(** The number of segments that the module has not yet taken over. *)
Definition outstanding (i : nat) (l : process_data_length) (ooff : Z) (t : plant) : nat :=
  (match rs_out_from_bytes (out_part l ooff (t_image t)) with
   | Ok o => if (ro_tx_cnt o =? ri_tx_cnt_ack (t_device t))%Z then 0 else 1
   | _ => 0
   end +
   match serial (t_coupler t) i with Some p => length (p_out_data p) | None => 0 end)%nat.
