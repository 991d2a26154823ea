(** Property theorems C97: which calls of the methods of a single module succeed. *)
From Coq Require Import ZArith List Bool Lia.
From Verif Require Import Base Facts F32 Types Lib Analog Fcnt Com Fbc SpecCodec SpecCoupler SpecImage SpecTerminal SpecContract ProofsContract.
Import ListNotations.
Local Open Scope Z_scope.

(** C97: every module but the serial one reads its inputs from exactly as many registers as it has, and refuses any other number;
    a module without inputs shows that it has none. *)
Theorem C97_inputs : forall m data, Forall is_u16 data -> buildable m -> is_serial m = false ->
  (length data <> registers_in m -> mod_process_input_data m data = Err BufferLength) /\
  (length data = registers_in m -> ~ settings_to_read m -> mod_process_input_data m data = Err ChannelParameter) /\
  (length data = registers_in m -> settings_to_read m ->
     exists row, mod_process_input_data m data = Ok row /\ length row = shown_inputs m) /\
  (input_bytes m = 0%nat -> data = [] -> mod_process_input_data m data = Ok (nothing m)).
Proof. exact C97_inputs_all. Qed.
Print Assumptions C97_inputs.

(** C97: the same for the outputs that are read back. *)
Theorem C97_outputs : forall m data, Forall is_u16 data -> is_serial m = false ->
  (length data <> registers_out m -> mod_process_output_data m data = Err BufferLength) /\
  (length data = registers_out m -> settings_to_read_back m ->
     exists row, mod_process_output_data m data = Ok row /\ length row = channels m) /\
  (output_bytes m = 0%nat -> data = [] -> mod_process_output_data m data = Ok (nothing m)).
Proof. exact C97_outputs_all. Qed.
Print Assumptions C97_outputs.

(** C97: a serial module takes any registers, of any number, that contain the message they announce. *)
Theorem C97_messages : forall l ch data, Forall is_u16 data ->
  (forall row, mod_process_input_data (MCOM l ch) data = Ok row <->
     exists i status bytes, row = [ComRsIn i] /\ announces (bytes_of_words data) status bytes /\ in_message i status bytes) /\
  (forall row, mod_process_output_data (MCOM l ch) data = Ok row <->
     exists o status bytes, row = [ComRsOut o] /\ announces (bytes_of_words data) status bytes /\ out_message o status bytes) /\
  ((forall status bytes, ~ announces (bytes_of_words data) status bytes) ->
     mod_process_input_data (MCOM l ch) data = Err BufferLength /\ mod_process_output_data (MCOM l ch) data = Err BufferLength).
Proof. exact C97_messages_all. Qed.
Print Assumptions C97_messages.

(** C97: values are written exactly if there is one for every channel and each of them is of a kind that the module can send. *)
Theorem C97_write : forall prof m values, Forall rust_value values -> is_serial m = false -> output_bytes m <> 0%nat ->
  (length values <> channels m -> mod_process_output_values prof m values = Err ChannelValueError) /\
  (length values = channels m -> ~ settings_to_write m -> mod_process_output_values prof m values = Err ChannelParameter) /\
  (length values = channels m -> settings_to_write m -> ~ Forall (can_output m) values ->
     mod_process_output_values prof m values = Err ChannelValueError) /\
  (length values = channels m -> settings_to_write m -> Forall (can_output m) values ->
     exists words, mod_process_output_values prof m values = Ok words /\ length words = registers_out m /\ Forall is_u16 words).
Proof. exact C97_write_all. Qed.
Print Assumptions C97_write.

(** C97: a serial module writes one message that fits, ... *)
Theorem C97_write_message : forall prof l ch values, Forall rust_value values -> let m := MCOM l ch in
  ((forall o, values <> [ComRsOut o]) -> mod_process_output_values prof m values = Err ChannelValueError) /\
  (forall o, values = [ComRsOut o] ->
     ((payload_size l < length (ro_data o))%nat -> mod_process_output_values prof m values = Err BufferLength) /\
     ((length (ro_data o) <= payload_size l)%nat -> 3 < ro_tx_cnt o \/ 3 < ro_rx_cnt_ack o ->
        mod_process_output_values prof m values = Err SequenceNumber) /\
     ((length (ro_data o) <= payload_size l)%nat -> ro_tx_cnt o <= 3 -> ro_rx_cnt_ack o <= 3 ->
        exists words, mod_process_output_values prof m values = Ok words /\ length words = registers_out m /\ Forall is_u16 words)).
Proof. exact C97_write_message_all. Qed.
Print Assumptions C97_write_message.

(** ... and a module without outputs writes nothing, for no value or one for every channel. *)
Theorem C97_write_nothing : forall prof m values, output_bytes m = 0%nat ->
  (length values = 0%nat \/ length values = channels m -> mod_process_output_values prof m values = Ok []) /\
  (length values <> 0%nat -> length values <> channels m -> mod_process_output_values prof m values = Err ChannelValueError).
Proof. exact C97_write_nothing_all. Qed.
Print Assumptions C97_write_nothing.

(** A resistance module with and without its settings, a counter, a serial module and an input module. *)
Definition rtd_channel : rtd_params := mk_rtd PT100 TwoWire CT_ms130 false false 0 0.
Definition rtd4 : module := MRTD Celsius (repeat rtd_channel 4).
Example C97_reading_example :
  buildable rtd4 /\ is_serial rtd4 = false /\ settings_to_read rtd4 /\ ~ settings_to_read (MRTD Celsius []) /\
  mod_process_input_data rtd4 [1; 2; 3] = Err BufferLength /\ mod_process_input_data rtd4 [1; 2; 3; 4; 5] = Err BufferLength /\
  mod_process_input_data (MRTD Celsius []) [1; 2; 3; 4] = Err ChannelParameter /\
  (exists row, mod_process_input_data rtd4 [1; 2; 3; 4] = Ok row /\ length row = 4%nat) /\
  mod_process_input_data M16DO [] = Ok (repeat VNone 16) /\ mod_process_output_data rtd4 [] = Ok (repeat VNone 4).
Proof.
  split; [exact I|]. split; [reflexivity|]. split; [reflexivity|]. split; [discriminate|]. split; [reflexivity|]. split; [reflexivity|].
  split; [reflexivity|]. split; [|split; reflexivity]. eexists. split; [vm_compute; reflexivity|reflexivity].
Qed.
Example C97_message_example :
  Forall is_u16 [0x0208; 0x0605; 0x0007] /\ announces (bytes_of_words [0x0208; 0x0605; 0x0007]) 8 [5; 6] /\
  Forall is_u16 [0x0508; 0x0605; 0x0007] /\ (forall status bytes, ~ announces (bytes_of_words [0x0508; 0x0605; 0x0007]) status bytes).
Proof.
  split. { repeat (apply Forall_cons; [split; discriminate || reflexivity|]). apply Forall_nil. }
  split. { exists [7; 0]. reflexivity. }
  split. { repeat (apply Forall_cons; [split; discriminate || reflexivity|]). apply Forall_nil. }
  intros status bytes (rest & E). injection E as _ El E. assert (L : length bytes = 5%nat) by lia.
  apply (f_equal (@length Z)) in E. rewrite app_length, L in E. cbn in E. lia.
Qed.
Definition short_time : channel_value := FcntOut (mk_fcnt_out (mk_duration 8 388607000) (Some Start)).
Definition long_time : channel_value := FcntOut (mk_fcnt_out (mk_duration 8 388607001) (Some Start)).
Definition counter2 : module := MFCNT [us5; us5].
Example C97_writing_example : forall prof,
  Forall rust_value [short_time; Disabled] /\ Forall (can_output counter2) [short_time; Disabled] /\ settings_to_write counter2 /\
  mod_process_output_values prof counter2 [short_time; Disabled] = Ok [0x007F; 0xFFFF; 0; 0; 0x0100; 0] /\
  Forall rust_value [short_time; long_time] /\ ~ Forall (can_output counter2) [short_time; long_time] /\
  mod_process_output_values prof counter2 [short_time; long_time] = Err ChannelValueError /\
  mod_process_output_values prof counter2 [short_time] = Err ChannelValueError /\
  mod_process_output_values prof (MFCNT [us5]) [short_time; Disabled] = Err ChannelParameter.
Proof.
  intros prof. split. { repeat (apply Forall_cons; [cbn; unfold valid_duration; cbn; repeat split; lia|]). apply Forall_nil. }
  split. { repeat (apply Forall_cons; [eexists; split; [reflexivity|vm_compute; discriminate]|]). apply Forall_nil. }
  split; [reflexivity|]. split; [destruct prof; vm_compute; reflexivity|].
  split. { repeat (apply Forall_cons; [cbn; unfold valid_duration; cbn; repeat split; lia|]). apply Forall_nil. }
  split. { intros H. inversion H as [|? ? _ H']. inversion H' as [|? ? K _]. destruct K as (f & E & L). cbn [preset long_time] in E. apply Some_inj in E. subst f. vm_compute in L. apply L. reflexivity. }
  split; [destruct prof; vm_compute; reflexivity|]. split; destruct prof; vm_compute; reflexivity.
Qed.
Definition full_message : rs_out := mk_rs_out false false false 3 0 false [1; 2; 3; 4; 5; 6].
Definition long_message : rs_out := mk_rs_out false false false 3 0 false [1; 2; 3; 4; 5; 6; 7].
Definition bad_message : rs_out := mk_rs_out false false false 4 0 false [1].
Example C97_writing_message_example : forall prof ch, let write := mod_process_output_values prof (MCOM EightBytes ch) in
  Forall rust_value [ComRsOut full_message] /\ Forall rust_value [ComRsOut long_message] /\ Forall rust_value [ComRsOut bad_message] /\
  write [ComRsOut full_message] = Ok [0x0618; 0x0201; 0x0403; 0x0605] /\ write [ComRsOut long_message] = Err BufferLength /\
  write [ComRsOut bad_message] = Err SequenceNumber /\ write [] = Err ChannelValueError /\ write [Bit true] = Err ChannelValueError /\
  mod_process_output_values prof rtd4 [] = Ok [] /\ mod_process_output_values prof rtd4 [VNone] = Err ChannelValueError.
Proof.
  intros prof ch write.
  assert (U : forall o, 0 <= ro_tx_cnt o < 100 -> 0 <= ro_rx_cnt_ack o < 100 -> Forall is_u8 (ro_data o) -> Forall rust_value [ComRsOut o]).
  { intros o H1 H2 H3. apply Forall_cons; [|apply Forall_nil]. split; [|exact H3]. unfold in_counters, is_usize. lia. }
  split; [|split; [|split; [|repeat split]]]; (apply U; [cbn; lia..|]; repeat (apply Forall_cons; [unfold is_u8; lia|]); apply Forall_nil).
Qed.
