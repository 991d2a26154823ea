(** Property theorems C36 - C39, C43 - C47 and C54: cycles and requests of the coupler. *)
From Coq Require Import ZArith List Bool.
From Verif Require Import Base Facts F32 Types Lib Com Fbc SpecCodec SpecSerial SpecCoupler SpecImage
  ProofsCoupler ProofsOrder ProofsDigital ProofsWitness.
Import ListNotations.
Local Open Scope Z_scope.

(** A coupler used in the examples: four digital inputs, four digital outputs and a serial
    module, built from its configuration and after two cycles. *)
Definition example_config : config :=
  mk_config [UR20_4DI_P; UR20_4DO_P; UR20_1COM_232_485_422]
    [0xFFFF; 0; 0x8000; 0xFFFF; 0x8010; 0x0010]
    [repeat 0 4; repeat 0 4; [0; 1; 0; 0; 0; 0; 0; 0; 0; 0]].
Definition example_input : list Z := [5; 0x04F1; 0; 0xABCD; 0].
Definition example_output : list Z := [12; 0; 0; 0; 0].
Definition example_run (c : coupler) (input output : list Z) : coupler :=
  fst (next Debug as_is as_is c input output).
Definition example_new : coupler := after no_coupler (coupler_new example_config).
Definition example_coupler : coupler :=
  example_run (example_run example_new example_input example_output) example_input example_output.
Example example_reachable : reachable Debug example_coupler.
Proof.
  apply (cycle_reachable _ (example_run example_new example_input example_output) example_input example_output
           example_coupler (Ok [12; 0x00C0; 0; 0; 0])).
  - apply (cycle_reachable _ example_new example_input example_output _ (Ok [12; 0x0043; 0; 0; 0])).
    + apply (start_reachable _ example_config); vm_compute; reflexivity.
    + apply step_cycle; vm_compute; reflexivity.
    + discriminate.
  - apply step_cycle; vm_compute; reflexivity.
  - discriminate.
Qed.
Definition example_request : coupler := fst (set_output example_coupler (mk_address 1 1) (Bit true)).
Example example_request_reachable : reachable Debug example_request.
Proof. apply R_set; [exact example_reachable|exact I]. Qed.

(** C36, as far as it holds: one entry per module and channel, after every successful cycle of
    every history and also after failing ones (where [inputs] or [outputs] may still be empty).
    Only the row of the safe power feed module in [inputs] has another length. *)
Theorem C36_shapes_partial :
  (forall prof c input output c' image, reachable prof c -> cycle prof c input output c' (Ok image) ->
     c_modules c' = c_modules c /\
     length (inputs c') = length (c_modules c) /\ length (outputs c') = length (c_modules c) /\
     forall i m, nth_error (c_modules c) i = Some m ->
       (exists row, nth_error (outputs c') i = Some row /\ length row = channels m) /\
       exists row, nth_error (inputs c') i = Some row /\ (m <> MSIL -> length row = channels m)) /\
  (forall prof c, reachable prof c ->
     (inputs c = [] \/ length (inputs c) = length (c_modules c) /\
        forall i m, nth_error (c_modules c) i = Some m ->
          exists row, nth_error (inputs c) i = Some row /\ (m <> MSIL -> length row = channels m)) /\
     (outputs c = [] \/ length (outputs c) = length (c_modules c) /\
        forall i m, nth_error (c_modules c) i = Some m ->
          exists row, nth_error (outputs c) i = Some row /\ length row = channels m)).
Proof. exact C36_partial_all. Qed.
Print Assumptions C36_shapes_partial.
Example C36_example :
  cycle Debug example_coupler example_input example_output
    (example_run example_coupler example_input example_output) (Ok [12; 0x0040; 0; 0; 0]) /\
  map (@length _) (inputs (example_run example_coupler example_input example_output)) = [4; 4; 1]%nat /\
  map channels (c_modules example_coupler) = [4; 4; 1]%nat.
Proof. split; [apply step_cycle; vm_compute; reflexivity|vm_compute; auto]. Qed.

(** C36 does not hold as stated: the safe power feed module has no channel but one value. *)
Theorem C36_shapes_refuted : exists prof c input output c' image m row,
  reachable prof c /\ cycle prof c input output c' (Ok image) /\
  nth_error (c_modules c) 0 = Some m /\ nth_error (inputs c') 0 = Some row /\ length row <> channels m.
Proof. exact C36_refuted_all. Qed.
Print Assumptions C36_shapes_refuted.

(** C37: [set_output] accepts exactly the channels of existing modules, changes nothing but the
    request for that channel, and the last request for a channel counts. *)
Theorem C37_requests :
  (forall c a v,
     (valid_address c a -> snd (set_output c a v) = Ok tt) /\
     (~ valid_address c a -> set_output c a v = (c, Err AddressError))) /\
  (forall c a v c', set_output c a v = (c', Ok tt) ->
     inputs c' = inputs c /\ outputs c' = outputs c /\ c_modules c' = c_modules c /\
     c_offsets c' = c_offsets c /\ (forall i, serial c' i = serial c i) /\
     requested c' a = Some v /\ forall b, b <> a -> requested c' b = requested c b) /\
  (forall c reqs a, ~ valid_address c a -> requested (set_all c reqs) a = requested c a) /\
  (forall c reqs a last, latest reqs a last -> valid_address c a ->
     requested (set_all c reqs) a = match last with Some v => Some v | None => requested c a end) /\
  (forall c reqs, inputs (set_all c reqs) = inputs c /\ outputs (set_all c reqs) = outputs c /\
     forall i, serial (set_all c reqs) i = serial c i).
Proof. exact C37_all. Qed.
Print Assumptions C37_requests.

(** Two requests for one channel act like the last one; requests for different channels
    commute: the couplers cannot be told apart (by C47 they behave alike ever after). *)
Theorem C37_requests_same :
  (forall c a v w, same_coupler (fst (set_output (fst (set_output c a v)) a w)) (fst (set_output c a w))) /\
  (forall c a b v w, a <> b ->
     same_coupler (fst (set_output (fst (set_output c a v)) b w)) (fst (set_output (fst (set_output c b w)) a v))).
Proof. exact C37_same_all. Qed.
Print Assumptions C37_requests_same.
Example C37_example :
  valid_address example_coupler (mk_address 1 3) /\ ~ valid_address example_coupler (mk_address 1 4) /\
  ~ valid_address example_coupler (mk_address 3 0) /\
  latest [(mk_address 1 3, Bit true); (mk_address 1 2, Bit true); (mk_address 1 3, Bit false)]
    (mk_address 1 3) (Some (Bit false)) /\
  requested (set_all example_coupler [(mk_address 1 3, Bit true); (mk_address 1 2, Bit true); (mk_address 1 3, Bit false)])
    (mk_address 1 3) = Some (Bit false).
Proof.
  split; [eexists; split; [vm_compute; reflexivity|vm_compute; repeat constructor]|].
  split. { intros (m & Hm & Hc). vm_compute in Hm. apply Some_inj in Hm. subst m. vm_compute in Hc. repeat (apply le_S_n in Hc). inversion Hc. }
  split. { intros (m & Hm & _). vm_compute in Hm. discriminate. }
  split; [|vm_compute; reflexivity].
  apply (Latest_some [(mk_address 1 3, Bit true); (mk_address 1 2, Bit true)] [] (mk_address 1 3)). intros w [].
Qed.

(** C38: a successful cycle sends the requested value where there is a request and the value
    read back from the process image elsewhere, and leaves no request behind. *)
Theorem C38_writes : forall prof c input output c' image,
  reachable prof c -> cycle prof c input output c' (Ok image) ->
  exists readback sent,
    process_output_data prof (infos c) output = Ok readback /\
    process_output_values prof (infos c) sent = Ok image /\
    length sent = length (c_modules c) /\ length readback = length (c_modules c) /\
    forall i m, nth_error (c_modules c) i = Some m -> is_serial m = false ->
      exists old new, nth_error readback i = Some old /\ nth_error sent i = Some new /\
        length old = channels m /\ length new = channels m /\
        (forall j, (j < channels m)%nat ->
           nth_error new j = match requested c (mk_address i j) with
                             | Some v => Some v | None => nth_error old j end) /\
        forall j, requested c' (mk_address i j) = None.
Proof. exact C38_all. Qed.
Print Assumptions C38_writes.
Example C38_example : exists c' image readback,
  cycle Debug example_request example_input example_output c' (Ok image) /\
  process_output_data Debug (infos example_request) example_output = Ok readback /\
  nth_error readback 1 = Some [Bit false; Bit false; Bit true; Bit true] /\
  requested example_request (mk_address 1 1) = Some (Bit true) /\ nth_error image 0 = Some 14 /\
  requested c' (mk_address 1 1) = None.
Proof.
  exists (example_run example_request example_input example_output), [14; 0x0040; 0; 0; 0],
    (after [] (process_output_data Debug (infos example_request) example_output)).
  split; [apply step_cycle; vm_compute; reflexivity|]. vm_compute. auto 10.
Qed.

(** C39, as far as it holds: a digital output module on a register boundary, or with at most
    eight channels, whose byte no later module overwrites. *)
Theorem C39_digital_output_partial : forall prof c input output c' image, reachable prof c ->
  cycle prof c input output c' (Ok image) ->
  forall i m o n off, module_at c i m o -> digital_outputs m = Some n -> mo_output o = Some off ->
  (off mod 16 = 0 \/ (n <= 8)%nat) ->
  (forall j m' o' off', (i < j)%nat -> module_at c j m' o' -> mo_output o' = Some off' ->
     ~ (first_byte 0x0800 off <= first_byte 0x0800 off' < first_byte 0x0800 off + output_bytes m)%nat) ->
  forall k, (k < n)%nat ->
    (forall v, requested c (mk_address i k) = Some v -> switches v = Some (output_bit image off k)) /\
    (requested c (mk_address i k) = None -> output_bit image off k = output_bit output off k).
Proof. exact C39_partial_all. Qed.
Print Assumptions C39_digital_output_partial.
Example C39_example :
  cycle Debug example_request example_input example_output
    (example_run example_request example_input example_output) (Ok [14; 0x0040; 0; 0; 0]) /\
  module_at example_request 1 (MDO V_4DO_P (repeat false 4)) (mk_offset None (Some 0x8000)) /\
  (forall j m' o' off', (1 < j)%nat -> module_at example_request j m' o' -> mo_output o' = Some off' ->
     ~ (first_byte 0x0800 0x8000 <= first_byte 0x0800 off' < first_byte 0x0800 0x8000 + 1)%nat) /\
  output_bit [14; 0x0040; 0; 0; 0] 0x8000 1 = true.
Proof.
  split; [apply step_cycle; vm_compute; reflexivity|]. split; [split; vm_compute; reflexivity|].
  split; [|reflexivity]. intros j m' o' off' Hj [_ Ho] E.
  destruct j as [|[|[|j]]]; [inversion Hj|inversion Hj as [|? Hj']; inversion Hj'| |].
  - vm_compute in Ho. apply Some_inj in Ho. subst o'. cbn in E. apply Some_inj in E. subst off'.
    vm_compute. intros [_ H]. inversion H as [|? H']. inversion H'.
  - destruct j; vm_compute in Ho; discriminate.
Qed.

(** C39 does not hold as stated: channels 8 to 15 of a module in the middle of a register are
    not in the image at all (without an error), ... *)
Theorem C39_refuted_wide : exists prof c a input output c' image m off,
  reachable prof c /\ requested c a = Some (Bit true) /\ cycle prof c input output c' (Ok image) /\
  module_at c (a_module a) m (mk_offset None (Some off)) /\ digital_outputs m = Some 16%nat /\
  (a_channel a < 16)%nat /\
  nth_error (bytes_of_words image) (first_byte 0x0800 off + Nat.div (a_channel a) 8) = None.
Proof. exact C39_refuted_wide_all. Qed.
Print Assumptions C39_refuted_wide.

(** ... and a module at the same byte wins silently. *)
Theorem C39_refuted_overlap : exists prof c a input output c' image m off,
  reachable prof c /\ requested c a = Some (Bit true) /\ cycle prof c input output c' (Ok image) /\
  module_at c (a_module a) m (mk_offset None (Some off)) /\ digital_outputs m = Some 4%nat /\
  (a_channel a < 4)%nat /\ output_bit image off (a_channel a) = false.
Proof. exact C39_refuted_overlap_all. Qed.
Print Assumptions C39_refuted_overlap.

(** C43, as far as it holds: no cycle panics in release builds, nor in debug builds with all
    output offsets at or above register 0x0800. *)
Theorem C43_no_panic_partial : forall prof c input output c' r, reachable prof c ->
  (prof = Release \/ forall i m o off, module_at c i m o -> mo_output o = Some off -> 0x8000 <= off) ->
  cycle prof c input output c' r -> forall p, r <> Panic p.
Proof. exact C43_partial_all. Qed.
Print Assumptions C43_no_panic_partial.
Example C43_example : reachable Debug example_coupler /\
  (forall i m o off, module_at example_coupler i m o -> mo_output o = Some off -> 0x8000 <= off) /\
  cycle Debug example_coupler [1] [] example_coupler (Err BufferLength).
Proof.
  split; [exact example_reachable|]. split; [|apply step_cycle; vm_compute; reflexivity].
  intros i m o off [_ Ho] E. destruct i as [|[|[|i]]]; vm_compute in Ho.
  1-3: apply Some_inj in Ho; subst o; cbn in E; try discriminate; apply Some_inj in E; subst off; discriminate.
  destruct i; discriminate.
Qed.

(** C43 does not hold as stated: an output offset below register 0x0800 overflows. *)
Theorem C43_no_panic_refuted : exists c input output c' p,
  reachable Debug c /\ cycle Debug c input output c' (Panic p).
Proof. exact C43_refuted_all. Qed.
Print Assumptions C43_no_panic_refuted.

(** C44, as far as it holds: a cycle that fails because the input cannot be decoded changes
    nothing; one that fails because the output cannot be decoded changes [inputs] only. *)
Theorem C44_failed_cycle_partial : forall prof c input output c' e, reachable prof c ->
  cycle prof c input output c' (Err e) ->
  c_modules c' = c_modules c /\ c_offsets c' = c_offsets c /\
  ((forall ins, process_input_data prof (infos c) input <> Ok ins) ->
     c' = c /\ process_input_data prof (infos c) input = Err e) /\
  (forall ins, process_input_data prof (infos c) input = Ok ins ->
   (forall outs, process_output_data prof (infos c) output <> Ok outs) ->
     process_output_data prof (infos c) output = Err e /\ inputs c' = ins /\
     outputs c' = outputs c /\ (forall a, requested c' a = requested c a) /\
     (forall i, serial c' i = serial c i)).
Proof. exact C44_partial_all. Qed.
Print Assumptions C44_failed_cycle_partial.
Example C44_example : reachable Debug example_request /\
  cycle Debug example_request [1] [] example_request (Err BufferLength) /\
  cycle Debug example_request example_input [] (example_run example_request example_input []) (Err BufferLength) /\
  requested (example_run example_request example_input []) (mk_address 1 1) = Some (Bit true).
Proof.
  split; [exact example_request_reachable|]. split; [apply step_cycle; vm_compute; reflexivity|].
  split; [apply step_cycle; vm_compute; reflexivity|vm_compute; reflexivity].
Qed.

(** C44 does not hold as stated: a failing cycle may change [inputs], ... *)
Theorem C44_refuted_inputs : exists prof c input output c' e,
  reachable prof c /\ cycle prof c input output c' (Err e) /\ inputs c' <> inputs c.
Proof. exact C44_refuted_inputs_all. Qed.
Print Assumptions C44_refuted_inputs.

(** ... drop pending requests ... *)
Theorem C44_refuted_requests : exists prof c input output c' e a v,
  reachable prof c /\ cycle prof c input output c' (Err e) /\
  requested c a = Some v /\ requested c' a = None.
Proof. exact C44_refuted_requests_all. Qed.
Print Assumptions C44_refuted_requests.

(** ... and drop serial data. *)
Theorem C44_refuted_serial : exists prof c input output c' e p p',
  reachable prof c /\ cycle prof c input output c' (Err e) /\
  serial c 0 = Some p /\ serial c' 0 = Some p' /\ queued p = [65] /\ queued p' = [].
Proof. exact C44_refuted_serial_all. Qed.
Print Assumptions C44_refuted_serial.

(** C45, as far as it holds: a cycle with a value of the wrong kind for an output module fails,
    and every cycle that decodes both images answers all requests for other modules than serial
    ones, whether it succeeds or not; serial data only leave the queue from its front, at most
    one segment per cycle. *)
Theorem C45_rejected_request_partial : forall prof c input output c' r,
  reachable prof c -> cycle prof c input output c' r ->
  (forall i m o j v, module_at c i m o -> is_serial m = false -> mo_output o <> None ->
     requested c (mk_address i j) = Some v -> ~ can_output m v -> forall image, r <> Ok image) /\
  (forall ins outs, process_input_data prof (infos c) input = Ok ins ->
     process_output_data prof (infos c) output = Ok outs ->
     (forall i m j, nth_error (c_modules c) i = Some m -> is_serial m = false ->
        requested c' (mk_address i j) = None) /\
     (forall i p, serial c i = Some p -> exists p', serial c' i = Some p' /\
        exists written sent, queued p ++ written = sent ++ queued p' /\
          (length sent <= payload_size (p_process_data_len p))%nat /\
          (written = [] \/ requested c (mk_address i 0) = Some (Bytes written)))).
Proof. exact C45_partial_all. Qed.
Print Assumptions C45_rejected_request_partial.
Example C45_example :
  requested w45' (mk_address 1 0) = Some VNone /\ module_at w45' 1 (MDO V_4DO_P (repeat false 4)) (mk_offset None (Some 0x8010)) /\
  ~ can_output (MDO V_4DO_P (repeat false 4)) VNone /\ reachable Release w45' /\
  cycle Release w45' [] [0; 0] w45'' (Err ChannelValueError).
Proof.
  split; [vm_compute; reflexivity|]. split; [split; vm_compute; reflexivity|].
  split; [intros (b & Hb); discriminate|]. exact C45_reach.
Qed.

(** C45 does not hold as stated: the cycle fails, and a valid request for another module is
    lost; the following cycle succeeds without it. *)
Theorem C45_refuted : exists prof c a b v w m off input output c1 e c2 image,
  reachable prof c /\ a_module a <> a_module b /\
  module_at c (a_module a) m (mk_offset None (Some off)) /\
  requested c a = Some v /\ can_output m v /\ switches v = Some true /\
  requested c b = Some w /\ (forall m', nth_error (c_modules c) (a_module b) = Some m' -> ~ can_output m' w) /\
  (forall d, d <> a -> d <> b -> requested c d = None) /\
  cycle prof c input output c1 (Err e) /\
  cycle prof c1 input output c2 (Ok image) /\
  output_bit image off (a_channel a) = false /\ requested c2 a = None.
Proof. exact C45_refuted_all. Qed.
Print Assumptions C45_refuted.

(** Nor for serial data: the segment dequeued by the failing cycle is not in the image that the
    following cycle returns, and no longer in the queue. *)
Theorem C45_refuted_serial : exists prof c input output c1 e c2 image p p2 words ch,
  reachable prof c /\ serial c 0 = Some p /\ queued p = [65] /\
  cycle prof c input output c1 (Err e) /\ cycle prof c1 input output c2 (Ok image) /\
  serial c2 0 = Some p2 /\ queued p2 = [] /\
  module_at c 0 (MCOM EightBytes ch) (mk_offset (Some 0) (Some 0x8000)) /\
  words_of_bytes words (image_bytes image (first_byte 0x0800 0x8000) 8) /\
  exists rs, mod_process_output_data (MCOM EightBytes ch) words = Ok [ComRsOut rs] /\ ro_data rs = [].
Proof. exact C45_refuted_serial_all. Qed.
Print Assumptions C45_refuted_serial.

(** C46, as far as it holds: for an output module the value is in the encoded data of the
    successful cycle, and these are in the image (with the exceptions of C42); the bytes for a
    serial module are appended to its queue. *)
Theorem C46_accepted_request_partial : forall prof c a v c1 input output c2 image,
  reachable prof c -> rust_value v -> set_output c a v = (c1, Ok tt) ->
  cycle prof c1 input output c2 (Ok image) ->
  exists m o, module_at c (a_module a) m o /\
    (is_serial m = false -> forall off, mo_output o = Some off ->
       can_output m v /\
       exists row d, nth_error row (a_channel a) = Some v /\ mod_process_output_values prof m row = Ok d /\
         ((off mod 16 = 0 \/ output_bytes m = 1%nat) ->
          (forall j m' o' off', (a_module a < j)%nat -> module_at c j m' o' -> mo_output o' = Some off' ->
             ~ (first_byte 0x0800 off <= first_byte 0x0800 off' < first_byte 0x0800 off + output_bytes m)%nat) ->
          image_bytes image (first_byte 0x0800 off) (output_bytes m) = firstn (output_bytes m) (bytes_of_words d))) /\
    (forall b, is_serial m = true -> mo_input o <> None -> mo_output o <> None -> v = Bytes b ->
       exists p p' sent, serial c (a_module a) = Some p /\ serial c2 (a_module a) = Some p' /\
         queued p ++ b = sent ++ queued p' /\ requested c2 a = None).
Proof. exact C46_partial_all. Qed.
Print Assumptions C46_accepted_request_partial.
Example C46_example : exists image c2,
  set_output example_coupler (mk_address 1 1) (Bit true) = (example_request, Ok tt) /\
  cycle Debug example_request example_input example_output c2 (Ok image) /\
  image_bytes image (first_byte 0x0800 0x8000) 1 = [14] /\
  mod_process_output_values Debug (MDO V_4DO_P (repeat false 4)) [Bit false; Bit true; Bit true; Bit true] = Ok [14].
Proof.
  exists [14; 0x0040; 0; 0; 0], (example_run example_request example_input example_output).
  split; [vm_compute; reflexivity|]. split; [apply step_cycle; vm_compute; reflexivity|]. vm_compute. auto.
Qed.

(** C46 does not hold as stated: a request for an input module is accepted and dropped, ... *)
Theorem C46_refuted_input : exists prof c a v c1 input output c2 c3 image m,
  reachable prof c /\ rust_value v /\ set_output c a v = (c1, Ok tt) /\
  nth_error (c_modules c) (a_module a) = Some m /\ output_bytes m = 0%nat /\
  cycle prof c1 input output c2 (Ok image) /\
  cycle prof c input output c3 (Ok image) /\ same_coupler c2 c3.
Proof. exact C46_refuted_input_all. Qed.
Print Assumptions C46_refuted_input.

(** ... and so is a value other than a byte string for a serial module. *)
Theorem C46_refuted_serial : exists prof c a v c1 input output c2 c3 image m,
  reachable prof c /\ rust_value v /\ set_output c a v = (c1, Ok tt) /\
  nth_error (c_modules c) (a_module a) = Some m /\ is_serial m = true /\
  cycle prof c1 input output c2 (Ok image) /\
  cycle prof c input output c3 (Ok image) /\ same_coupler c2 c3.
Proof. exact C46_refuted_serial_all. Qed.
Print Assumptions C46_refuted_serial.

(** C47: the iteration order of hash maps has no influence on a cycle, nor on any later call:
    two couplers that differ only in the order of their hash maps give the same answers to every
    sequence of calls. *)
Theorem C47_iteration_order :
  (forall prof c input output c1 r1 c2 r2, reachable prof c ->
     cycle prof c input output c1 r1 -> cycle prof c input output c2 r2 ->
     r1 = r2 /\ inputs c1 = inputs c2 /\ outputs c1 = outputs c2 /\ same_coupler c1 c2) /\
  (forall prof xs c1 c2 c1' c2' a1 a2, reachable prof c1 -> same_coupler c1 c2 ->
     runs prof c1 xs c1' a1 -> runs prof c2 xs c2' a2 -> a1 = a2 /\ same_coupler c1' c2').
Proof. exact C47_all. Qed.
Print Assumptions C47_iteration_order.
Example C47_example :
  let xs := [SetOutput (mk_address 1 1) (Bit true); NextCycle example_input example_output; ReadFrom 2 9] in
  exists c answers, runs Debug example_coupler xs c answers /\
    nth_error answers 2 = Some (BytesRead (Some [0; 0; 0xCD; 0xAB])) /\ hash_order (@rev _).
Proof.
  cbv zeta. eexists _, _. split; [|split].
  - eapply Runs_cons; [apply Calls_set; exact I|]. eapply Runs_cons.
    + apply (Calls_next _ _ _ _ (example_run example_request example_input example_output) (Ok [14; 0x0040; 0; 0; 0])); [|discriminate].
      apply step_cycle; vm_compute; reflexivity.
    + eapply Runs_cons; [apply Calls_read|apply Runs_nil].
  - vm_compute. reflexivity.
  - intros l. apply Permutation.Permutation_rev.
Qed.

(** C54: [inputs] and [outputs] show the process data of the cycle, module by module; serial
    modules show the bytes they received and sent. *)
Theorem C54_shown_values : forall prof c input output c' r,
  reachable prof c -> cycle prof c input output c' r ->
  forall ins outs, process_input_data prof (infos c) input = Ok ins ->
  process_output_data prof (infos c) output = Ok outs ->
  length (inputs c') = length (c_modules c) /\ length (outputs c') = length (c_modules c) /\
  forall i m o, module_at c i m o ->
    exists iv ov, nth_error ins i = Some iv /\ nth_error outs i = Some ov /\
      (is_serial m = false -> nth_error (inputs c') i = Some iv /\ nth_error (outputs c') i = Some ov) /\
      (is_serial m = true -> mo_input o <> None -> mo_output o <> None ->
         exists rin rout, iv = [ComRsIn rin] /\ ov = [ComRsOut rout] /\
           nth_error (inputs c') i =
             Some [if ri_data_available rin then match ri_data rin with [] => VNone | _ => Bytes (ri_data rin) end else VNone] /\
           exists shown, nth_error (outputs c') i = Some [shown] /\
             (shown = VNone \/ ro_data rout <> [] /\ shown = Bytes (ro_data rout))).
Proof. exact C54_all. Qed.
Print Assumptions C54_shown_values.
Example C54_example :
  reachable Debug example_coupler /\
  cycle Debug example_coupler example_input example_output
    (example_run example_coupler example_input example_output) (Ok [12; 0x0040; 0; 0; 0]) /\
  inputs (example_run example_coupler example_input example_output) =
    [[Bit true; Bit false; Bit true; Bit false]; repeat VNone 4; [Bytes [0; 0; 0xCD; 0xAB]]] /\
  outputs (example_run example_coupler example_input example_output) =
    [repeat VNone 4; [Bit false; Bit false; Bit true; Bit true]; [VNone]].
Proof.
  split; [exact example_reachable|]. split; [apply step_cycle; vm_compute; reflexivity|]. vm_compute. auto.
Qed.
