(** Property theorems C94: the message processor used directly, with any messages. *)
From Coq Require Import ZArith List Bool.
From Verif Require Import Base Types Com SpecCodec SpecSerial SpecDirect ProofsSerial ProofsDirect.
Import ListNotations.
Local Open Scope Z_scope.

(** C94: nothing written is lost, sent twice or reordered, and what is read is what was received; the counters of the messages
    may be any numbers and the data of any length.  A message with the receive counter 4, which no module can send, is taken for
    an old one as long as none was received. *)
Theorem C94_streams : forall prof l ops p os, Forall any_operation ops -> history prof (processor_new l) ops = Ok (p, os) ->
  all_written os = sendings 0 os ++ queued p /\ all_read os ++ buffered p = receptions 0 (Some 4) os.
Proof. exact (fun prof l ops p os Hops H => let A := C94_streams_all prof l ops p os Hops H in conj (proj1 A) (proj1 (proj2 A))). Qed.
Print Assumptions C94_streams.

(** C94: after the initialisation every message acknowledges the one received, and either repeats counter and data of the given
    message or carries the counter following the acknowledged one and at least one byte, but no more than fit. *)
Theorem C94_messages : forall prof l ops p os n i o r, Forall any_operation ops -> history prof (processor_new l) ops = Ok (p, os) ->
  nth_error (cycles os) n = Some (i, o, r) -> (2 <= n)%nat ->
  ro_rx_cnt_ack r = ri_rx_cnt i /\
  (ro_tx_cnt r = ro_tx_cnt o /\ ro_data r = ro_data o \/
   ro_tx_cnt r <> ro_tx_cnt o /\ ro_tx_cnt r = following (ri_tx_cnt_ack i) /\ (0 < length (ro_data r) <= payload_size l)%nat).
Proof. exact (fun prof l ops p os n i o r Hops H => proj2 (proj2 (C94_streams_all prof l ops p os Hops H)) n i o r). Qed.
Print Assumptions C94_messages.

(** C94: the only way to fail is a panic in a debug build, when there is something to send after the initialisation and the
    acknowledged counter is the largest number. *)
Theorem C94_total : forall prof l ops, Forall any_operation ops ->
  let overflow := prof = Debug /\ exists before i o after p os, ops = before ++ Cycle i o :: after /\
    history prof (processor_new l) before = Ok (p, os) /\ (2 <= length (cycles os))%nat /\ queued p <> [] /\ ri_tx_cnt_ack i = max_usize in
  ((exists p os, history prof (processor_new l) ops = Ok (p, os)) <-> ~ overflow) /\
  ((exists q, history prof (processor_new l) ops = Panic q) <-> overflow).
Proof. exact C94_total_all. Qed.
Print Assumptions C94_total.

(** Messages that no module sends: receive counters 4 and 9, acknowledged counter 77, twenty bytes of data. *)
Definition odd_in (rx ack : Z) (data : list Z) : rs_in := mk_rs_in true false rx ack true data.
Definition odd_out (tx : Z) (data : list Z) : rs_out := mk_rs_out false false false tx 12 false data.
Definition odd_start : list operation := [Write [1; 2; 3; 4; 5; 6; 7]; Cycle (odd_in 9 0 [50]) (odd_out 8 []); Cycle (odd_in 9 0 [50]) (odd_out 8 [])].
Definition odd_ops : list operation := odd_start ++
  [Cycle (odd_in 4 77 [51]) (odd_out 8 [99]); Cycle (odd_in 9 77 (repeat 52 20)) (odd_out 0 [98]); Cycle (odd_in 4 2 [53]) (odd_out 0 [97]); Read 21].
Definition bad_ack : operation := Cycle (odd_in 1 max_usize []) (odd_out 1 []).

Example C94_example : Forall any_operation (odd_ops ++ [bad_ack]) /\
  (exists p os, history Debug (processor_new EightBytes) odd_ops = Ok (p, os) /\
     map (fun c => (ro_tx_cnt (snd c), ro_data (snd c))) (cycles os) = [(8, []); (8, []); (0, [1; 2; 3; 4; 5; 6]); (0, [98]); (3, [7])] /\
     sendings 0 os = [1; 2; 3; 4; 5; 6; 7] /\ queued p = [] /\ all_read os = repeat 52 20 ++ [53]) /\
  (* with nothing left to send the largest counter does no harm *)
  (exists p os, history Debug (processor_new EightBytes) (odd_ops ++ [bad_ack]) = Ok (p, os)) /\
  (* otherwise it does, in a debug build *)
  history Debug (processor_new EightBytes) (odd_start ++ [bad_ack]) = Panic ArithmeticOverflow /\
  (exists p os, history Release (processor_new EightBytes) (odd_start ++ [bad_ack]) = Ok (p, os) /\ queued p = [7]).
Proof.
  split. { unfold odd_ops, odd_start, bad_ack. cbn [app]. repeat (apply Forall_cons; [cbn; unfold is_usize, max_usize; repeat split; discriminate || reflexivity|]). apply Forall_nil. }
  split. { eexists _, _. split; [vm_compute; reflexivity|]. vm_compute. auto. }
  split. { eexists _, _. vm_compute. reflexivity. }
  split; [vm_compute; reflexivity|]. eexists _, _. split; vm_compute; reflexivity.
Qed.
