(** Property theorems C13 - C15, C23, C24, C26 - C28: digital, counter and serial process data. *)
From Coq Require Import ZArith List Bool.
From Verif Require Import Base F32 Types Lib Com Fbc SpecCodec ProofsCodec ProofsFcnt ProofsSerialCodec.
Import ListNotations.
Local Open Scope Z_scope.

(** C13: Digital channels are the bits of the process image. *)
Theorem C13_digital_decode : forall m n,
  (digital_inputs m = Some n ->
     (forall data, length data <> 1%nat -> mod_process_input_data m data = Err BufferLength) /\
     (forall w, exists vs, mod_process_input_data m [w] = Ok vs /\ length vs = n /\
        forall i, (i < n)%nat -> nth_error vs i = Some (Bit (bit w i))) /\
     (forall w w', (forall i, (i < n)%nat -> bit w i = bit w' i) ->
        mod_process_input_data m [w] = mod_process_input_data m [w'])) /\
  (digital_outputs m = Some n ->
     (forall data, length data <> 1%nat -> mod_process_output_data m data = Err BufferLength) /\
     (forall w, exists vs, mod_process_output_data m [w] = Ok vs /\ length vs = n /\
        forall i, (i < n)%nat -> nth_error vs i = Some (Bit (bit w i))) /\
     (forall w w', (forall i, (i < n)%nat -> bit w i = bit w' i) ->
        mod_process_output_data m [w] = mod_process_output_data m [w'])).
Proof. exact C13_all. Qed.
Print Assumptions C13_digital_decode.
Example C13_example :
  digital_inputs (MDI V_4DI_P []) = Some 4%nat /\ digital_outputs M16DO = Some 16%nat /\
  mod_process_input_data (MDI V_4DI_P []) [0xFFF5] =
    Ok [Bit true; Bit false; Bit true; Bit false] /\
  mod_process_input_data (MDI V_4DI_P []) [1; 2] = Err BufferLength.
Proof. vm_compute. auto. Qed.

(** C14: Digital output encoding is exact and rejects foreign values. *)
Theorem C14_digital_encode : forall prof m n, digital_outputs m = Some n ->
  (forall vs, length vs <> n \/ ~ Forall (fun v => switches v <> None) vs ->
     mod_process_output_values prof m vs = Err ChannelValueError) /\
  (forall vs, length vs = n -> Forall (fun v => switches v <> None) vs ->
     exists w, mod_process_output_values prof m vs = Ok [w] /\ is_u16 w /\
       (forall i v b, nth_error vs i = Some v -> switches v = Some b -> bit w i = b) /\
       (forall i, (n <= i)%nat -> bit w i = false)) /\
  (forall bs, length bs = n -> exists w, mod_process_output_values prof m (map Bit bs) = Ok [w] /\
     mod_process_output_data m [w] = Ok (map Bit bs)) /\
  (forall w vs, is_u16 w -> mod_process_output_data m [w] = Ok vs ->
     mod_process_output_values prof m vs = Ok [w mod 2 ^ Z.of_nat n]).
Proof. exact C14_all. Qed.
Print Assumptions C14_digital_encode.
Example C14_example :
  digital_outputs (MDO V_4DO_P []) = Some 4%nat /\
  mod_process_output_values Debug (MDO V_4DO_P []) [Bit true; Disabled; Bit false; Bit true] = Ok [9] /\
  mod_process_output_values Debug (MDO V_4DO_P []) [Bit true; Bit true; Bit false; VNone] =
    Err ChannelValueError /\
  mod_process_output_values Debug (MDO V_4DO_P []) [Bit true] = Err ChannelValueError.
Proof. vm_compute. auto. Qed.

(** C15: Safe power feed status bits are decoded at their documented positions. *)
Theorem C15_safe_power_feed :
  (forall data, length data <> 2%nat -> mod_process_input_data MSIL data = Err BufferLength) /\
  (forall w0 w1, is_u16 w0 ->
     mod_process_input_data MSIL [w0; w1] =
     Ok [SilPFIn (mk_sil_in (bit w0 0) (bit w0 2) (bit w0 3) (bit w0 4) (bit w0 5)
                            (bit w0 8) (bit w0 10))]).
Proof. exact C15_all. Qed.
Print Assumptions C15_safe_power_feed.
Example C15_example :
  is_u16 0x0421 /\
  mod_process_input_data MSIL [0x0421; 7] =
    Ok [SilPFIn (mk_sil_in true false false false true false true)].
Proof. vm_compute. intuition discriminate. Qed.

(** C23: Frequency counter presets survive the round trip. *)
Theorem C23_counter_presets : forall prof ch values, length ch = 2%nat -> Forall valid_preset values ->
  (forall v1 v2 a b, values = [v1; v2] -> preset v1 = Some a -> preset v2 = Some b ->
     nanoseconds (fo_duration a) <= max_preset -> nanoseconds (fo_duration b) <= max_preset ->
     exists words, mod_process_output_values prof (MFCNT ch) values = Ok words /\
       length words = 6%nat /\ Forall is_u16 words /\
       mod_process_output_data (MFCNT ch) words =
       Ok [FcntOut (mk_fcnt_out (truncated_to_micros (fo_duration a)) (fo_command a));
           FcntOut (mk_fcnt_out (truncated_to_micros (fo_duration b)) (fo_command b))]) /\
  (forall v o, In v values -> preset v = Some o -> max_preset < nanoseconds (fo_duration o) ->
     mod_process_output_values prof (MFCNT ch) values = Err ChannelValueError) /\
  ((length values <> 2%nat \/ exists v, In v values /\ preset v = None) ->
     mod_process_output_values prof (MFCNT ch) values = Err ChannelValueError) /\
  (forall p, mod_process_output_values prof (MFCNT ch) values <> Panic p).
Proof. exact C23_all. Qed.
Print Assumptions C23_counter_presets.
Example C23_example :
  let ch := repeat us5 2 in
  let a := mk_fcnt_out (mk_duration 8 388606999) (Some Start) in
  let late := mk_fcnt_out (mk_duration 8 388607001) None in
  length ch = 2%nat /\ Forall valid_preset [FcntOut a; Disabled] /\
  (exists words, mod_process_output_values Debug (MFCNT ch) [FcntOut a; Disabled] = Ok words /\
     mod_process_output_data (MFCNT ch) words =
     Ok [FcntOut (mk_fcnt_out (mk_duration 8 388606000) (Some Start));
         FcntOut (mk_fcnt_out (mk_duration 0 0) None)]) /\
  mod_process_output_values Debug (MFCNT ch) [FcntOut late; Disabled] = Err ChannelValueError.
Proof.
  cbv zeta. split; [reflexivity|]. split.
  - repeat constructor; cbn; discriminate.
  - split; [exists [127; 65534; 0; 0; 256; 0]; vm_compute; auto|vm_compute; reflexivity].
Qed.

(** C24: Frequency counter inputs decode exactly. *)
Theorem C24_counter_inputs : forall ch data, length ch = 2%nat -> Forall is_u16 data ->
  (length data <> 10%nat -> mod_process_input_data (MFCNT ch) data = Err BufferLength) /\
  (length data = 10%nat -> exists i0 i1,
     mod_process_input_data (MFCNT ch) data = Ok [FcntIn i0; FcntIn i1] /\
     forall k i, (k = 0%nat /\ i = i0) \/ (k = 1%nat /\ i = i1) ->
       let raw := word32 (nth (4 * k) data 0) (nth (4 * k + 1) data 0) in
       fi_count i = word32 (nth (4 * k + 2) data 0) (nth (4 * k + 3) data 0) /\
       fi_active i = bit (nth (8 + k) data 0) 8 /\
       (fi_duration i = None <-> 0x07FFFFFF <= raw) /\
       (forall d, fi_duration i = Some d -> valid_duration d /\ nanoseconds d = 125 * raw)).
Proof. exact C24_all. Qed.
Print Assumptions C24_counter_inputs.
Example C24_example :
  let ch := repeat us5 2 in
  length ch = 2%nat /\ Forall is_u16 [0; 8; 1; 2; 0x07FF; 0xFFFF; 0; 5; 0x100; 0] /\
  mod_process_input_data (MFCNT ch) [0; 8; 1; 2; 0x07FF; 0xFFFF; 0; 5; 0x100; 0] =
    Ok [FcntIn (mk_fcnt_in (Some (mk_duration 0 1000)) 65538 true);
        FcntIn (mk_fcnt_in None 5 false)].
Proof.
  cbv zeta. split; [reflexivity|]. split; [repeat constructor; discriminate|vm_compute; reflexivity].
Qed.

(** C26: Serial messages survive encoding and decoding. *)
Theorem C26_serial_roundtrip : forall l o, in_counters o -> Forall is_u8 (ro_data o) ->
  (3 < ro_tx_cnt o \/ 3 < ro_rx_cnt_ack o -> rs_out_to_bytes o l = Err SequenceNumber) /\
  (ro_tx_cnt o <= 3 -> ro_rx_cnt_ack o <= 3 -> (payload_size l < length (ro_data o))%nat ->
     rs_out_to_bytes o l = Err DataLength) /\
  (ro_tx_cnt o <= 3 -> ro_rx_cnt_ack o <= 3 -> (length (ro_data o) <= payload_size l)%nat ->
     (exists bytes, rs_out_to_bytes o l = Ok bytes /\ length bytes = message_size l /\
        Forall is_u8 bytes /\ rs_out_from_bytes bytes = Ok o) /\
     (forall prof ch, exists words,
        mod_process_output_values prof (MCOM l ch) [ComRsOut o] = Ok words /\
        (2 * length words = message_size l)%nat /\ Forall is_u16 words /\
        mod_process_output_data (MCOM l ch) words = Ok [ComRsOut o])) /\
  (forall p, rs_out_to_bytes o l <> Panic p).
Proof. exact C26_all. Qed.
Print Assumptions C26_serial_roundtrip.
Example C26_example :
  let o := mk_rs_out false true false 2 3 false [65; 0; 255] in
  in_counters o /\ Forall is_u8 (ro_data o) /\
  (exists bytes, rs_out_to_bytes o EightBytes = Ok bytes /\ length bytes = 8%nat /\
                 rs_out_from_bytes bytes = Ok o) /\
  rs_out_to_bytes (mk_rs_out false true false 4 3 false (repeat 0 7)) EightBytes = Err SequenceNumber /\
  rs_out_to_bytes (mk_rs_out false true false 3 3 false (repeat 0 7)) EightBytes = Err DataLength.
Proof.
  cbv zeta. split; [split; split; [discriminate|reflexivity|discriminate|reflexivity]|].
  split; [repeat constructor; discriminate|].
  split; [exists [114; 3; 65; 0; 255; 0; 0; 0]; vm_compute; auto|vm_compute; auto].
Qed.

(** C27: Serial message decoding is total and bit exact. *)
Theorem C27_serial_decode : forall bytes, Forall is_u8 bytes ->
  (forall i, rs_in_from_bytes bytes = Ok i <->
     exists status data, announces bytes status data /\ in_message i status data) /\
  (forall o, rs_out_from_bytes bytes = Ok o <->
     exists status data, announces bytes status data /\ out_message o status data) /\
  ((forall status data, ~ announces bytes status data) ->
     rs_in_from_bytes bytes = Err BufferLength /\ rs_out_from_bytes bytes = Err BufferLength) /\
  (forall status data, announces bytes status data ->
     (exists i, rs_in_from_bytes bytes = Ok i) /\ (exists o, rs_out_from_bytes bytes = Ok o)) /\
  (forall p, rs_in_from_bytes bytes <> Panic p) /\ (forall p, rs_out_from_bytes bytes <> Panic p).
Proof. exact C27_all. Qed.
Print Assumptions C27_serial_decode.
Example C27_example :
  Forall is_u8 [0xB2; 2; 10; 11; 12] /\ announces [0xB2; 2; 10; 11; 12] 0xB2 [10; 11] /\
  rs_in_from_bytes [0xB2; 2; 10; 11; 12] = Ok (mk_rs_in false true 2 1 true [10; 11]) /\
  rs_in_from_bytes [0xB2; 3; 10; 11] = Err BufferLength.
Proof.
  split; [repeat constructor; discriminate|]. split; [exists [12]; reflexivity|vm_compute; auto].
Qed.

(** C28: Serial messages read back and written again are unchanged up to padding. *)
Theorem C28_serial_canonical :
  (forall l bytes o, length bytes = message_size l -> Forall is_u8 bytes ->
     rs_out_from_bytes bytes = Ok o ->
     rs_out_to_bytes o l =
     Ok (firstn (2 + length (ro_data o)) bytes ++ repeat 0 (message_size l - 2 - length (ro_data o)))) /\
  (forall prof l ch words vs, (2 * length words = message_size l)%nat -> Forall is_u16 words ->
     mod_process_output_data (MCOM l ch) words = Ok vs ->
     exists o words', vs = [ComRsOut o] /\
       mod_process_output_values prof (MCOM l ch) vs = Ok words' /\
       bytes_of_words words' = firstn (2 + length (ro_data o)) (bytes_of_words words) ++
                               repeat 0 (message_size l - 2 - length (ro_data o))).
Proof. exact C28_all. Qed.
Print Assumptions C28_serial_canonical.
Example C28_example :
  let image := [0x2E; 3; 7; 8; 9; 99; 98; 97] in
  length image = message_size EightBytes /\ Forall is_u8 image /\
  (exists o, rs_out_from_bytes image = Ok o /\ length (ro_data o) = 3%nat /\
     rs_out_to_bytes o EightBytes = Ok [0x2E; 3; 7; 8; 9; 0; 0; 0]).
Proof.
  cbv zeta. split; [reflexivity|]. split; [repeat constructor; discriminate|].
  exists (mk_rs_out false true true 1 1 false [7; 8; 9]); vm_compute; auto.
Qed.
