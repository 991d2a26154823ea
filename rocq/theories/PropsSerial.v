(** Property theorems C29 - C35 and C53: the serial message processor and the dialogue with
    the serial module. *)
From Coq Require Import ZArith List Bool.
From Verif Require Import Base Types Com SpecCodec SpecSerial ProofsSerial ProofsSerialSystem.
Import ListNotations.
Local Open Scope Z_scope.

(** C29: Serial initialisation runs exactly once, in order, for every history. *)
Theorem C29_init_sequence : forall prof l ops p os,
  history prof (processor_new l) ops = Ok (p, os) ->
  (forall n i o r, nth_error (cycles os) n = Some (i, o, r) ->
     ro_disable_tx_hw_buffer r = ro_disable_tx_hw_buffer o /\
     (n = 0%nat -> flags r = (true, true, false)) /\
     (n = 1%nat -> flags r = (false, false, true)) /\
     ((n < 2)%nat -> ro_data r = [] /\ ro_tx_cnt r = ro_tx_cnt o) /\
     ((2 <= n)%nat -> flags r = flags o)) /\
  ((length (cycles os) <= 2)%nat -> queued p = all_written os).
Proof. exact C29_all. Qed.
Print Assumptions C29_init_sequence.
Example C29_example :
  let i := mk_rs_in true false 1 0 true [9; 8] in
  let o := mk_rs_out false true true 0 3 false [5] in
  exists p os, history Debug (processor_new EightBytes)
                 [Write [1; 2]; Cycle i o; Read 4; Cycle i o; Write [3]; Cycle i o] = Ok (p, os) /\
    map (fun c => snd c) (cycles os) =
      [mk_rs_out true true true 0 1 false []; mk_rs_out false false true 0 1 true [];
       mk_rs_out false true true 1 1 false [1; 2]] /\
    queued p = [3] /\ buffered p = [9; 8].
Proof. cbv zeta. eexists _, _. split; [vm_compute; reflexivity|]. vm_compute. auto. Qed.

(** C30: Written bytes are queued completely and in order. *)
Theorem C30_write_chunks :
  (forall p buf, exists segs,
     snd (processor_write p buf) = length buf /\
     segmented (payload_size (p_process_data_len p)) buf segs /\
     Forall (fun c => (0 < length c <= payload_size (p_process_data_len p))%nat) segs /\
     concat segs = buf /\
     fst (processor_write p buf) =
       mk_processor (p_init_state p) (p_last_rx_cnt p) (p_in_data p) (p_out_data p ++ segs)
                    (p_process_data_len p)) /\
  (forall prof l bufs p os, history prof (processor_new l) (map Write bufs) = Ok (p, os) ->
     queued p = concat bufs /\ all_written os = concat bufs) /\
  (forall p buf1 buf2,
     queued (fst (processor_write (fst (processor_write p buf1)) buf2)) =
     queued (fst (processor_write p (buf1 ++ buf2)))).
Proof. exact C30_all. Qed.
Print Assumptions C30_write_chunks.
Example C30_example :
  p_out_data (fst (processor_write (processor_new EightBytes) [1; 2; 3; 4; 5; 6; 7; 8])) =
    [[1; 2; 3; 4; 5; 6]; [7; 8]] /\
  (exists p os, history Debug (processor_new EightBytes) (map Write [[1; 2]; []; [3]]) = Ok (p, os) /\
     queued p = [1; 2; 3]).
Proof. split; [reflexivity|]. eexists _, _. split; [vm_compute; reflexivity|reflexivity]. Qed.

(** C31: Received bytes are read exactly once and in order. *)
Theorem C31_read_fifo :
  (forall p n,
     snd (processor_read p n) = firstn n (buffered p) /\
     buffered (fst (processor_read p n)) = skipn n (buffered p) /\
     queued (fst (processor_read p n)) = queued p) /\
  (forall prof l ops p os, Forall (decoded_operation l) ops ->
     history prof (processor_new l) ops = Ok (p, os) ->
     all_read os ++ buffered p = receptions 0 None os).
Proof. exact C31_all. Qed.
Print Assumptions C31_read_fifo.
Example C31_example :
  let o := mk_rs_out false false false 0 0 false [] in
  let i n := mk_rs_in true false n 0 true [n; n; n] in
  let ops := [Cycle (i 1) o; Cycle (i 1) o; Cycle (i 1) o; Cycle (i 2) o; Read 4; Cycle (i 2) o; Cycle (i 1) o] in
  Forall (decoded_operation EightBytes) ops /\
  (exists p os, history Debug (processor_new EightBytes) ops = Ok (p, os) /\
     all_read os = [1; 1; 1; 2] /\ buffered p = [2; 2; 1; 1; 1]).
Proof.
  cbv zeta. split.
  - repeat constructor; discriminate.
  - eexists _, _. split; [vm_compute; reflexivity|vm_compute; auto].
Qed.

(** C32: Sequence numbers stay encodable forever. *)
Theorem C32_always_encodable :
  (forall prof l ops, Forall (decoded_operation l) ops ->
     exists p os, history prof (processor_new l) ops = Ok (p, os) /\
       forall i o r, In (i, o, r) (cycles os) ->
         encodable l r /\ ro_rx_cnt_ack r = ri_rx_cnt i /\
         exists bytes, rs_out_to_bytes r l = Ok bytes /\ length bytes = message_size l) /\
  (forall bytes i, Forall is_u8 bytes -> rs_in_from_bytes bytes = Ok i -> decoded_in i) /\
  (forall l bytes o, Forall is_u8 bytes -> length bytes = message_size l ->
     rs_out_from_bytes bytes = Ok o -> encodable l o).
Proof. exact C32_all. Qed.
Print Assumptions C32_always_encodable.
Example C32_example :
  let i := mk_rs_in false false 2 3 true [] in
  let o := mk_rs_out false false false 3 3 false [] in
  let ops := [Cycle i o; Cycle i o; Write [1; 2; 3; 4; 5; 6; 7]; Cycle i o] in
  Forall (decoded_operation EightBytes) ops /\
  (exists p os, history Debug (processor_new EightBytes) ops = Ok (p, os) /\
     nth_error (map (fun c => snd c) (cycles os)) 2 =
       Some (mk_rs_out false false false 0 2 false [1; 2; 3; 4; 5; 6])).
Proof.
  cbv zeta. split.
  - repeat constructor; discriminate.
  - eexists _, _. split; [vm_compute; reflexivity|vm_compute; auto].
Qed.

(** A start of the system used in the examples. *)
Definition example_start : system :=
  let d := mk_rs_in false false 3 1 true [] in
  let o := mk_rs_out false false false 1 3 false [7] in
  mk_system (processor_new EightBytes) d o o d [] [] [] [] 0.
Example example_starts : start EightBytes example_start.
Proof. unfold start, example_start, decoded_in, encodable, counter. cbn. repeat split; try discriminate.
  repeat constructor. Qed.

(** C33: Serial transmission is exactly-once and in order under every schedule. *)
Theorem C33_transmit_exactly_once : forall prof l s0 es, start l s0 ->
  exists s, schedule prof s0 es = Ok s /\
    s_written s = written_by es /\
    s_written s = s_taken s ++ concat (in_flight s) ++ queued (s_proc s).
Proof. exact C33_all. Qed.
Print Assumptions C33_transmit_exactly_once.
Example C33_example :
  let es := [UserWrite [1; 2; 3; 4; 5; 6; 7; 8]; HostCycle; HostWrite; DevTake; HostCycle; HostWrite; HostCycle;
             HostWrite; DevTake; UserWrite [9]; HostCycle; HostRead; HostCycle; DevTake] in
  start EightBytes example_start /\
  (exists s, schedule Debug example_start es = Ok s /\ s_taken s = [1; 2; 3; 4; 5; 6] /\
     in_flight s = [[7; 8]] /\ queued (s_proc s) = [9]).
Proof.
  cbv zeta. split; [exact example_starts|].
  eexists. split; [vm_compute; reflexivity|vm_compute; auto].
Qed.

(** C34: Serial transmission makes progress. *)
Theorem C34_transmit_progress :
  (forall prof l s0 es s rounds, start l s0 -> schedule prof s0 es = Ok s ->
     (2 <= s_cycles s)%nat -> Forall fair_round rounds ->
     (length (in_flight s) + length (waiting s) <= length rounds)%nat ->
     exists s' rest, schedule prof s (concat rounds) = Ok s' /\ s_taken s' = s_written s ++ rest) /\
  (forall prof l ops p os i o c rest,
     history prof (processor_new l) ops = Ok (p, os) -> (2 <= length (cycles os))%nat ->
     p_out_data p = c :: rest -> counter (ro_tx_cnt o) -> ri_tx_cnt_ack i = ro_tx_cnt o ->
     exists p' r, processor_next prof p i o = Ok (p', r) /\
       p_out_data p' = rest /\ ro_data r = c /\ ro_tx_cnt r = succ4 (ro_tx_cnt o)).
Proof. exact (conj C34_rounds C34_cycle). Qed.
Print Assumptions C34_transmit_progress.
Example C34_example :
  let es := [UserWrite [1; 2; 3; 4; 5; 6; 7; 8]; HostCycle; HostCycle] in
  let round := [DevStatus true true; HostRead; HostCycle; DevTake; HostWrite; UserRead 1; DevTake] in
  fair_round round /\
  (exists s, schedule Debug example_start es = Ok s /\ s_cycles s = 2%nat /\
     (length (in_flight s) + length (waiting s) = 2)%nat /\
     exists s', schedule Debug s (concat [round; round]) = Ok s' /\ s_taken s' = s_written s).
Proof.
  cbv zeta. split.
  - exists [DevStatus true true], [], [DevTake], [UserRead 1], []. reflexivity.
  - eexists. split; [vm_compute; reflexivity|]. split; [reflexivity|]. split; [reflexivity|].
    eexists. split; [vm_compute; reflexivity|reflexivity].
Qed.

(** C35: Serial reception is exactly-once and in order under every schedule.
    As stated it is false: a segment offered during the initialisation is acknowledged but not
    stored. *)
Theorem C35_receive_exactly_once_refuted :
  exists s0 es s, start EightBytes s0 /\ schedule Debug s0 es = Ok s /\
    s_offered s = [[1]; [2]] /\ s_cycles s = 3%nat /\ received s = [2].
Proof.
  exists example_start,
    [DevOffer [1]; HostRead; HostCycle; HostWrite; DevOffer [2]; HostRead; HostCycle; HostCycle].
  eexists. split; [exact example_starts|]. split; [vm_compute; reflexivity|vm_compute; auto].
Qed.
Print Assumptions C35_receive_exactly_once_refuted.

(** After the initialisation (two cycles), nothing is lost, duplicated or reordered: only
    segments offered before can be missing. *)
Theorem C35_receive_exactly_once_partial : forall prof l s0 es1 s1 es2, start l s0 ->
  schedule prof s0 es1 = Ok s1 -> (2 <= s_cycles s1)%nat ->
  exists s2, schedule prof s1 es2 = Ok s2 /\
  (exists lost fetched,
    (lost <= length (s_offered s1))%nat /\
    (lost + fetched <= length (s_offered s2) <= lost + fetched + 1)%nat /\
    received s2 = concat (firstn fetched (skipn lost (s_offered s2)))) /\
  (s_offered s1 = [] ->
   exists fetched, (fetched <= length (s_offered s2) <= fetched + 1)%nat /\
     received s2 = concat (firstn fetched (s_offered s2))).
Proof. exact C35_partial_all. Qed.
Print Assumptions C35_receive_exactly_once_partial.
Example C35_example :
  exists s1 s2, schedule Debug example_start [HostRead; HostCycle; HostCycle; HostWrite] = Ok s1 /\
    s_cycles s1 = 2%nat /\ s_offered s1 = [] /\
    schedule Debug s1 [DevOffer [1]; DevOffer [5]; HostRead; HostCycle; HostCycle; HostWrite; DevClear;
                       DevOffer [2; 3]; HostCycle; HostRead; UserRead 1; HostCycle; HostWrite; DevOffer [4]] = Ok s2 /\
    s_offered s2 = [[1]; [2; 3]; [4]] /\ s_delivered s2 = [1] /\ received s2 = [1; 2; 3].
Proof.
  eexists _, _. split; [vm_compute; reflexivity|]. split; [reflexivity|]. split; [reflexivity|].
  split; [vm_compute; reflexivity|vm_compute; auto].
Qed.

(** C53: Serial reception makes progress. *)
Theorem C53_receive_progress : forall prof l s0 es0 si es1 s1 b c d s2, start l s0 ->
  schedule prof s0 es0 = Ok si -> (2 <= s_cycles si)%nat -> schedule prof si es1 = Ok s1 ->
  schedule prof s1 (b ++ [HostRead] ++ c ++ [HostCycle] ++ d) = Ok s2 ->
  exists lost fetched,
    (lost <= length (s_offered si))%nat /\
    (length (s_offered s1) <= lost + fetched <= length (s_offered s2))%nat /\
    received s2 = concat (firstn fetched (skipn lost (s_offered s2))).
Proof. exact C53_all. Qed.
Print Assumptions C53_receive_progress.
Example C53_example :
  exists si s1 s2, schedule Debug example_start [HostRead; HostCycle; HostCycle; HostWrite] = Ok si /\
    s_cycles si = 2%nat /\ s_offered si = [] /\ schedule Debug si [DevOffer [1; 2]] = Ok s1 /\
    received s1 = [] /\
    schedule Debug s1 ([] ++ [HostRead] ++ [HostWrite; UserWrite [5]] ++ [HostCycle] ++ []) = Ok s2 /\
    s_offered s1 = [[1; 2]] /\ received s2 = [1; 2].
Proof.
  eexists _, _, _. split; [vm_compute; reflexivity|]. split; [reflexivity|]. split; [reflexivity|].
  split; [vm_compute; reflexivity|]. split; [reflexivity|]. split; [vm_compute; reflexivity|vm_compute; auto].
Qed.
