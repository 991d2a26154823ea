(** Specification of the serial message processor (C29 - C35): histories of a single
    processor, and a transition system of a host and a serial module with arbitrary delays. *)
From Coq Require Import ZArith List Bool.
From Verif Require Import Base Types Com SpecCodec.
Import ListNotations.
Local Open Scope Z_scope.

(** ** Histories of a processor *)

(** The public operations: write bytes, read into a buffer of some size, process a cycle. *)
Inductive operation : Set :=
| Write (buf : list Z)
| Read (size : nat)
| Cycle (input : rs_in) (output : rs_out).

(** What can be observed of an operation: the number of bytes written, the bytes read, the
    input and output given and the output returned. *)
Inductive observation : Set :=
| Written (buf : list Z) (n : nat)
| Was_read (size : nat) (bytes : list Z)
| Cycled (input : rs_in) (output : rs_out) (result : rs_out).

Definition operate (prof : profile) (p : processor) (op : operation)
  : outcome (processor * observation) :=
  match op with
  | Write buf => let (p', n) := processor_write p buf in Ok (p', Written buf n)
  | Read size => let (p', bytes) := processor_read p size in Ok (p', Was_read size bytes)
  | Cycle input output =>
      let? (p', result) := processor_next prof p input output in Ok (p', Cycled input output result)
  end.

(** A history: the processor and the observations after a list of operations. *)
Fixpoint history (prof : profile) (p : processor) (ops : list operation)
  : outcome (processor * list observation) :=
  match ops with
  | [] => Ok (p, [])
  | op :: ops' =>
      let? (p', o) := operate prof p op in
      let? (p'', os) := history prof p' ops' in
      Ok (p'', o :: os)
  end.

(** The cycles among the observations. *)
Fixpoint cycles (os : list observation) : list (rs_in * rs_out * rs_out) :=
  match os with
  | [] => []
  | Cycled i o r :: os' => (i, o, r) :: cycles os'
  | _ :: os' => cycles os'
  end.
(** All bytes written, and all bytes read, in order. *)
Fixpoint all_written (os : list observation) : list Z :=
  match os with
  | [] => []
  | Written buf _ :: os' => buf ++ all_written os'
  | _ :: os' => all_written os'
  end.
Fixpoint all_read (os : list observation) : list Z :=
  match os with
  | [] => []
  | Was_read _ bytes :: os' => bytes ++ all_read os'
  | _ :: os' => all_read os'
  end.

(** The bytes waiting to be sent, and the received bytes waiting to be read. *)
Definition queued (p : processor) : list Z := concat (p_out_data p).
Definition buffered (p : processor) : list Z := p_in_data p.

(** The flags of the initialisation: flush of the receive and the transmit buffer, reset. *)
Definition flags (o : rs_out) : bool * bool * bool :=
  (ro_rx_buf_flush o, ro_tx_buf_flush o, ro_reset o).

(** The bytes a history receives: a cycle after the first two fetches the data of its input if
    there are any and the receive counter differs from the one fetched last. [k] is the number
    of cycles so far, [last] the counter fetched last. *)
Fixpoint receptions (k : nat) (last : option Z) (os : list observation) : list Z :=
  match os with
  | [] => []
  | Cycled i _ _ :: os' =>
      if Nat.leb 2 k && ri_data_available i &&
         match last with Some c => negb (c =? ri_rx_cnt i) | None => true end
      then ri_data i ++ receptions (S k) (Some (ri_rx_cnt i)) os'
      else receptions (S k) last os'
  | _ :: os' => receptions k last os'
  end.

(** A split of [bytes] into segments of a process image with [n] bytes of user data:
    all full except for the last, which is not empty. *)
Inductive segmented (n : nat) : list Z -> list (list Z) -> Prop :=
| Seg_nil : segmented n [] []
| Seg_last c : (0 < length c <= n)%nat -> segmented n c [c]
| Seg_full c rest segs : length c = n -> rest <> [] -> segmented n rest segs ->
    segmented n (c ++ rest) (c :: segs).

(** Counters of decoded process data. *)
Definition counter (z : Z) : Prop := 0 <= z <= 3.
Definition decoded_in (i : rs_in) : Prop := counter (ri_rx_cnt i) /\ counter (ri_tx_cnt_ack i).
Definition encodable (l : process_data_length) (o : rs_out) : Prop :=
  counter (ro_tx_cnt o) /\ counter (ro_rx_cnt_ack o) /\ (length (ro_data o) <= payload_size l)%nat.

Definition decoded_operation (l : process_data_length) (op : operation) : Prop :=
  match op with Cycle i o => decoded_in i /\ encodable l o | _ => True end.

(** ** Host and module *)

(** The successor of a sequence number. *)
Definition succ4 (z : Z) : Z := (z + 1) mod 4.

(** The state of the whole system.  The host has latched an input ([s_latch]), computed an
    output ([s_image]) and written an output to the module ([s_register]); the module presents
    an input ([s_device]).  The last five fields record what happened. *)
Record system : Set := mk_system {
  s_proc : processor;
  s_latch : rs_in;
  s_image : rs_out;
  s_register : rs_out;
  s_device : rs_in;
  s_written : list Z;               (* bytes the user has written *)
  s_taken : list Z;                 (* bytes the module has taken over *)
  s_offered : list (list Z);        (* segments the module has offered *)
  s_delivered : list Z;             (* bytes the user has read *)
  s_cycles : nat }.                 (* number of processed cycles *)

Inductive event : Set :=
| UserWrite (buf : list Z)
| UserRead (size : nat)
| HostRead                          (* the host reads the input of the module *)
| HostCycle                         (* the host computes the next output *)
| HostWrite                         (* the host writes the output to the module *)
| DevTake                           (* the module looks at the transmit counter *)
| DevOffer (seg : list Z)           (* the module has received a segment on the line *)
| DevClear                          (* the module withdraws an acknowledged segment *)
| DevStatus (nearly_full ready : bool).

Definition set_proc (s : system) (p : processor) : system :=
  mk_system p (s_latch s) (s_image s) (s_register s) (s_device s)
    (s_written s) (s_taken s) (s_offered s) (s_delivered s) (s_cycles s).

(** One event.  An event of the module that is not enabled has no effect. *)
Definition happen (prof : profile) (s : system) (e : event) : outcome system :=
  let d := s_device s in
  match e with
  | UserWrite buf =>
      let (p, _) := processor_write (s_proc s) buf in
      Ok (mk_system p (s_latch s) (s_image s) (s_register s) (s_device s)
            (s_written s ++ buf) (s_taken s) (s_offered s) (s_delivered s) (s_cycles s))
  | UserRead size =>
      let (p, bytes) := processor_read (s_proc s) size in
      Ok (mk_system p (s_latch s) (s_image s) (s_register s) (s_device s)
            (s_written s) (s_taken s) (s_offered s) (s_delivered s ++ bytes) (s_cycles s))
  | HostRead =>
      Ok (mk_system (s_proc s) (s_device s) (s_image s) (s_register s) (s_device s)
            (s_written s) (s_taken s) (s_offered s) (s_delivered s) (s_cycles s))
  | HostCycle =>
      let? (p, o) := processor_next prof (s_proc s) (s_latch s) (s_image s) in
      Ok (mk_system p (s_latch s) o (s_register s) (s_device s)
            (s_written s) (s_taken s) (s_offered s) (s_delivered s) (S (s_cycles s)))
  | HostWrite =>
      Ok (mk_system (s_proc s) (s_latch s) (s_image s) (s_image s) (s_device s)
            (s_written s) (s_taken s) (s_offered s) (s_delivered s) (s_cycles s))
  | DevTake =>
      if ro_tx_cnt (s_register s) =? ri_tx_cnt_ack d then Ok s
      else Ok (mk_system (s_proc s) (s_latch s) (s_image s) (s_register s)
                 (mk_rs_in (ri_data_available d) (ri_buffer_nearly_full d) (ri_rx_cnt d)
                    (ro_tx_cnt (s_register s)) (ri_ready d) (ri_data d))
                 (s_written s) (s_taken s ++ ro_data (s_register s)) (s_offered s)
                 (s_delivered s) (s_cycles s))
  | DevOffer seg =>
      if ro_rx_cnt_ack (s_register s) =? ri_rx_cnt d then
        Ok (mk_system (s_proc s) (s_latch s) (s_image s) (s_register s)
              (mk_rs_in true (ri_buffer_nearly_full d) (succ4 (ri_rx_cnt d))
                 (ri_tx_cnt_ack d) (ri_ready d) seg)
              (s_written s) (s_taken s) (s_offered s ++ [seg]) (s_delivered s) (s_cycles s))
      else Ok s
  | DevClear =>
      if ro_rx_cnt_ack (s_register s) =? ri_rx_cnt d then
        Ok (mk_system (s_proc s) (s_latch s) (s_image s) (s_register s)
              (mk_rs_in false (ri_buffer_nearly_full d) (ri_rx_cnt d)
                 (ri_tx_cnt_ack d) (ri_ready d) [])
              (s_written s) (s_taken s) (s_offered s) (s_delivered s) (s_cycles s))
      else Ok s
  | DevStatus full ready =>
      Ok (mk_system (s_proc s) (s_latch s) (s_image s) (s_register s)
            (mk_rs_in (ri_data_available d) full (ri_rx_cnt d) (ri_tx_cnt_ack d) ready (ri_data d))
            (s_written s) (s_taken s) (s_offered s) (s_delivered s) (s_cycles s))
  end.

Fixpoint schedule (prof : profile) (s : system) (es : list event) : outcome system :=
  match es with
  | [] => Ok s
  | e :: es' => let? s' := happen prof s e in schedule prof s' es'
  end.

(** The start: a new processor, a module that has nothing to send and to which nothing is
    being sent; all other contents of the process data are arbitrary. *)
Definition start (l : process_data_length) (s : system) : Prop :=
  s_proc s = processor_new l /\
  decoded_in (s_device s) /\ encodable l (s_register s) /\
  ri_data_available (s_device s) = false /\
  ri_tx_cnt_ack (s_device s) = ro_tx_cnt (s_register s) /\
  ro_rx_cnt_ack (s_register s) = ri_rx_cnt (s_device s) /\
  s_latch s = s_device s /\ s_image s = s_register s /\
  s_written s = [] /\ s_taken s = [] /\ s_offered s = [] /\ s_delivered s = [] /\
  s_cycles s = O.

(** All bytes received by the host: read by the user or waiting to be read. *)
Definition received (s : system) : list Z := s_delivered s ++ buffered (s_proc s).

(** The segments sent but not yet taken over by the module, and those waiting to be sent. *)
Definition in_flight (s : system) : list (list Z) :=
  if ro_tx_cnt (s_image s) =? ri_tx_cnt_ack (s_device s) then [] else [ro_data (s_image s)].
Definition waiting (s : system) : list (list Z) := p_out_data (s_proc s).

(** The bytes written by a schedule. *)
Fixpoint written_by (es : list event) : list Z :=
  match es with
  | [] => []
  | UserWrite buf :: es' => buf ++ written_by es'
  | _ :: es' => written_by es'
  end.

(** A stretch of a schedule in which the input is read, processed, the output written and then
    looked at by the module, with anything else in between. *)
Definition fair_round (es : list event) : Prop :=
  exists a b c d e, es = a ++ [HostRead] ++ b ++ [HostCycle] ++ c ++ [HostWrite] ++ d ++ [DevTake] ++ e.
