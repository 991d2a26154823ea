(** Property theorems C81: what the decoded values keep of the registers. *)
From Coq Require Import ZArith List Bool Lia.
From Verif Require Import Base F32 Types Lib Util Analog Fcnt Com Fbc Facts SpecCodec SpecCoupler SpecAnalog SpecResolution SpecImage SpecLossless
  ProofsWitness ProofsLossless ProofsOffsets PropsResolution.
Import ListNotations.
Local Open Scope Z_scope.

(** C81: the decoded inputs of a module are equal just if its registers say the same: decoding loses the unused bits and nothing
    else. *)
Theorem C81_inputs : forall m a b u v, all_settings m -> Forall is_u16 a -> Forall is_u16 b ->
  mod_process_input_data m a = Ok u -> mod_process_input_data m b = Ok v -> (u = v <-> same_input m a b).
Proof. exact C81_inputs_all. Qed.
Print Assumptions C81_inputs.
(** The same for the values read back from the output registers. *)
Theorem C81_outputs : forall m a b u v, all_settings m -> Forall is_u16 a -> Forall is_u16 b ->
  mod_process_output_data m a = Ok u -> mod_process_output_data m b = Ok v -> (u = v <-> same_output m a b).
Proof. exact C81_outputs_all. Qed.
Print Assumptions C81_outputs.
(** The rows of [inputs()] of equal modules, at any two positions of any two couplers after any two successful cycles, are equal just
    if the registers of the modules say the same. *)
Theorem C81_shown_inputs : forall prof prof2 c input output c' image d input2 output2 d' image2 i j m o o2 off off2,
  reachable prof c -> cycle prof c input output c' (Ok image) -> reachable prof2 d -> cycle prof2 d input2 output2 d' (Ok image2) ->
  module_at c i m o -> module_at d j m o2 -> is_serial m = false -> mo_input o = Some off -> mo_input o2 = Some off2 ->
  placed off (input_bytes m) -> placed off2 (input_bytes m) ->
  (nth_error (inputs c') i = nth_error (inputs d') j <-> same_input m (registers_at 0 input off) (registers_at 0 input2 off2)).
Proof. exact C81_shown_inputs_all. Qed.
Print Assumptions C81_shown_inputs.
(** The same for [outputs()]. *)
Theorem C81_shown_outputs : forall prof prof2 c input output c' image d input2 output2 d' image2 i j m o o2 off off2,
  reachable prof c -> cycle prof c input output c' (Ok image) -> reachable prof2 d -> cycle prof2 d input2 output2 d' (Ok image2) ->
  module_at c i m o -> module_at d j m o2 -> is_serial m = false -> mo_output o = Some off -> mo_output o2 = Some off2 ->
  placed off (output_bytes m) -> placed off2 (output_bytes m) ->
  (nth_error (outputs c') i = nth_error (outputs d') j <-> same_output m (registers_at 0x0800 output off) (registers_at 0x0800 output2 off2)).
Proof. exact C81_shown_outputs_any. Qed.
Print Assumptions C81_shown_outputs.

(** The safe power feed: bit 1 of its register is unused, bit 2 is not. *)
Example C81_power_example : exists u v w, mod_process_input_data MSIL [0x0403; 0] = Ok u /\ mod_process_input_data MSIL [0x0401; 0] = Ok v /\
  mod_process_input_data MSIL [0x0405; 0] = Ok w /\ u = v /\ same_input MSIL [0x0403; 0] [0x0401; 0] /\ u <> w /\ ~ same_input MSIL [0x0403; 0] [0x0405; 0].
Proof.
  do 3 eexists. split; [vm_compute; reflexivity|]. split; [vm_compute; reflexivity|]. split; [vm_compute; reflexivity|]. split; [reflexivity|].
  split; [intros k Hk; cbn [In] in Hk; repeat (destruct Hk as [<-|Hk]; [reflexivity|]); destruct Hk|]. split; [intros E; discriminate|].
  intros H. specialize (H 2%nat). vm_compute in H. discriminate H. right. left. reflexivity.
Qed.
(** The counter module: all periods from 0x07FFFFFF on are shown as out of range. *)
Definition two_counters : module := MFCNT (repeat us5 2).
Definition over (w : Z) : list Z := [w; 0xFFFF; 3; 0; 0; 0; 0; 0; 0x0100; 0].
Example C81_counter_example : all_settings two_counters /\ exists u v, mod_process_input_data two_counters (over 0x07FF) = Ok u /\
  mod_process_input_data two_counters (over 0x0800) = Ok v /\ u = v /\ same_input two_counters (over 0x07FF) (over 0x0800).
Proof.
  split; [reflexivity|]. do 2 eexists. split; [vm_compute; reflexivity|]. split; [vm_compute; reflexivity|]. split; [reflexivity|].
  intros [|[|k]] Hk; [| |exfalso; lia].
  - split; [right; split; vm_compute; discriminate|]. split; [reflexivity|]. split; reflexivity.
  - split; [left; reflexivity|]. split; [reflexivity|]. split; reflexivity.
Qed.

(** Two relay drivers that share a register: after the first cycle they show the same, after the second they do not. *)
Definition pair_config : config := mk_config [UR20_4DO_P; UR20_4DO_P] [0x8000; 0xFFFF; 0x8008; 0xFFFF] [repeat 0 4; repeat 0 4].
Definition pair0 : coupler := after no_coupler (coupler_new pair_config).
Definition pair1 : coupler := fst (next Debug as_is as_is pair0 [] [0x2535]).
Definition pair2 : coupler := fst (next Debug as_is as_is pair1 [] [0x2534]).
Definition pair_module : module := nth 0 (c_modules pair0) MSIL.
Example C81_example : reachable Debug pair0 /\ cycle Debug pair0 [] [0x2535] pair1 (Ok [0x0505]) /\ cycle Debug pair1 [] [0x2534] pair2 (Ok [0x0504]) /\
  module_at pair0 0 pair_module (mk_offset None (Some 0x8000)) /\ module_at pair0 1 pair_module (mk_offset None (Some 0x8008)) /\
  module_at pair1 0 pair_module (mk_offset None (Some 0x8000)) /\ is_serial pair_module = false /\
  placed 0x8000 (output_bytes pair_module) /\ placed 0x8008 (output_bytes pair_module) /\
  registers_at 0x0800 [0x2535] 0x8008 = [0x25] /\
  same_output pair_module [0x2535] [0x25] /\ nth_error (outputs pair1) 0 = nth_error (outputs pair1) 1 /\
  ~ same_output pair_module [0x2535] [0x2534] /\ nth_error (outputs pair1) 0 <> nth_error (outputs pair2) 0.
Proof.
  assert (R0 : reachable Debug pair0) by (apply (start_reachable _ pair_config); vm_compute; reflexivity).
  assert (C1 : cycle Debug pair0 [] [0x2535] pair1 (Ok [0x0505])) by (apply step_cycle; vm_compute; reflexivity).
  assert (C2 : cycle Debug pair1 [] [0x2534] pair2 (Ok [0x0504])) by (apply step_cycle; vm_compute; reflexivity).
  split; [exact R0|]. split; [exact C1|]. split; [exact C2|]. split; [split; vm_compute; reflexivity|]. split; [split; vm_compute; reflexivity|].
  split; [split; vm_compute; reflexivity|]. split; [reflexivity|]. split; [left; reflexivity|]. split; [right; split; reflexivity|].
  split; [reflexivity|]. split; [intros k Hk; cbn [In seq channels] in Hk; vm_compute in Hk; repeat (destruct Hk as [<-|Hk]; [reflexivity|]); destruct Hk|].
  split; [vm_compute; reflexivity|]. split; [intros H; specialize (H 0%nat); vm_compute in H; discriminate H; left; reflexivity|].
  vm_compute. discriminate.
Qed.
