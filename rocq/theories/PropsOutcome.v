(** Property theorems C59: when a cycle succeeds, and why it fails; C43: when it panics. *)
From Coq Require Import ZArith List Bool.
From Verif Require Import Base Facts F32 Types Lib Com Fbc SpecCodec SpecSerial SpecCoupler SpecImage SpecOutcome
  ProofsWitness ProofsOutcome ProofsOffsets ProofsPanic.
Import ListNotations.
Local Open Scope Z_scope.

(** C59: a cycle succeeds exactly if every module finds its data in the two images, every request can be sent,
    every counter preset that is sent again is in range and the output offsets describe a packed image.
    Nothing else matters: neither other register contents nor the history of the coupler. *)
Theorem C59_cycle_succeeds : forall prof c input output c' r, reachable prof c -> cycle prof c input output c' r ->
  (exists image, r = Ok image) <-> cycle_possible c input output.
Proof. exact C59_all. Qed.
Print Assumptions C59_cycle_succeeds.

(** A cycle fails with one of three errors, and each tells what was wrong.  (0xF800 registers are all from 0x0800 to 0xFFFF: no output
    image that was read from a coupler is longer.) *)
Theorem C59_cycle_errors : forall prof c input output c' e, reachable prof c ->
  Z.of_nat (length output) <= 0xF800 ->
  cycle prof c input output c' (Err e) ->
  (e = BufferLength /\ ~ (inputs_readable c input /\ outputs_readable c output)) \/
  (e = ModuleOffsetError /\
    ((exists i m o off, module_at c i m o /\ (mo_input o = Some off \/ mo_output o = Some off) /\ off mod 16 <> 0 /\ off mod 16 <> 8) \/
     ~ outputs_packed c)) \/
  (e = ChannelValueError /\ inputs_readable c input /\ outputs_readable c output /\
    ~ (requests_accepted c /\ presets_accepted c output)).
Proof. exact C59_errors_any. Qed.
Print Assumptions C59_cycle_errors.

(** When the modules find their data is what decides whether the images can be decoded. *)
Theorem C59_decodable : forall prof c input output, reachable prof c -> Forall is_u16 input -> Forall is_u16 output ->
  Z.of_nat (length output) <= 0xF800 ->
  ((exists ins, process_input_data prof (combine (c_modules c) (c_offsets c)) input = Ok ins) <-> inputs_readable c input) /\
  ((exists outs, process_output_data prof (combine (c_modules c) (c_offsets c)) output = Ok outs) <-> outputs_readable c output).
Proof. exact C59_decodable_all. Qed.
Print Assumptions C59_decodable.

(** Four inputs, two modules of four outputs that share a register, and two counters. *)
Definition counters_config : config :=
  mk_config [UR20_4DI_P; UR20_4DO_P; UR20_4DO_P; UR20_2FCNT_100]
    [0xFFFF; 0x0000; 0x8000; 0xFFFF; 0x8008; 0xFFFF; 0x8010; 0x0010]
    [repeat 0 4; repeat 0 4; repeat 0 4; repeat 0 2].
Definition counters0 : coupler := after no_coupler (coupler_new counters_config).
Definition counters1 : coupler := fst (set_output counters0 (mk_address 2 1) (Bit true)).
Definition counters_bad : coupler := fst (set_output counters0 (mk_address 2 1) (Bytes [1])).
Definition counters_in : list Z := repeat 0 11.
Lemma counters_reachable : reachable Debug counters0.
Proof. apply (start_reachable _ counters_config); vm_compute; reflexivity. Qed.
Definition step (c : coupler) (input output : list Z) : coupler := fst (next Debug as_is as_is c input output).
(** It succeeds, with a preset of 8.388607 s read back; it fails with a preset of 8.388608 s, with a value that is
    not for an output, and with an image that is too short. *)
Example C59_example : reachable Debug counters1 /\ reachable Debug counters_bad /\
  cycle Debug counters1 counters_in [0; 0x7F; 0xFFFF; 0; 0; 0; 0] (step counters1 counters_in [0; 0x7F; 0xFFFF; 0; 0; 0; 0])
    (Ok [0x0200; 0x7F; 0xFFFF; 0; 0; 0; 0]) /\
  cycle Debug counters1 counters_in [0; 0x80; 0; 0; 0; 0; 0] (step counters1 counters_in [0; 0x80; 0; 0; 0; 0; 0]) (Err ChannelValueError) /\
  cycle Debug counters_bad counters_in (repeat 0 7) (step counters_bad counters_in (repeat 0 7)) (Err ChannelValueError) /\
  cycle Debug counters1 counters_in (repeat 0 6) (step counters1 counters_in (repeat 0 6)) (Err BufferLength).
Proof.
  split; [apply R_set; [exact counters_reachable|exact I]|].
  split; [apply R_set; [exact counters_reachable|repeat constructor; vm_compute; discriminate]|].
  repeat split; try (apply step_cycle; vm_compute; reflexivity); try (repeat constructor; vm_compute; discriminate).
  all: try (exists as_is, as_is; repeat split; try (intros l; apply Permutation.Permutation_refl); vm_compute; reflexivity).
Qed.

(** The second module does not start where the first one ends. *)
Definition gap_config : config := mk_config [UR20_16DO_P; UR20_16DO_P] [0x8000; 0xFFFF; 0x8020; 0xFFFF] [[]; []].
Definition gap0 : coupler := after no_coupler (coupler_new gap_config).
Example C59_gap_example : reachable Debug gap0 /\ Z.of_nat (length [0; 0; 0]) <= 0xF800 /\
  cycle Debug gap0 [] [0; 0; 0] (step gap0 [] [0; 0; 0]) (Err ModuleOffsetError).
Proof.
  split; [apply (start_reachable _ gap_config); vm_compute; reflexivity|]. split; [discriminate|].
  apply step_cycle; vm_compute; reflexivity.
Qed.

(** C43, exactly: in a debug build a cycle panics if and only if the inputs can be read and, in the order of the
    modules, one with an output offset below register 0x0800 comes before any whose output cannot be read.
    (Release builds: [C43_no_panic_partial].) *)
Theorem C43_panic_exactly : forall c input output c' r, reachable Debug c -> cycle Debug c input output c' r ->
  (exists p, r = Panic p) <->
  inputs_readable c input /\
  exists i m o off, module_at c i m o /\ mo_output o = Some off /\ off < 0x8000 /\
    forall j m' o' off', (j < i)%nat -> module_at c j m' o' -> mo_output o' = Some off' ->
      readable 0x0800 output off' (output_bytes m') /\ announces_fitting 0x0800 output off' m'.
Proof. exact C43_exact_all. Qed.
Print Assumptions C43_panic_exactly.
(** The panic is an arithmetic overflow; it leaves the coupler with new input values and everything else as it was. *)
Theorem C43_panic_state : forall prof c input output c' p, reachable prof c -> cycle prof c input output c' (Panic p) ->
  prof = Debug /\ p = ArithmeticOverflow /\
  (exists ins, process_input_data prof (infos c) input = Ok ins /\ inputs c' = ins) /\
  outputs c' = outputs c /\ (forall a, requested c' a = requested c a) /\ (forall i, serial c' i = serial c i) /\
  (forall i m o, module_at c' i m o <-> module_at c i m o).
Proof. exact C43_state_all. Qed.
Print Assumptions C43_panic_state.

(** Inputs, outputs at register 0x0800, outputs at register 0: panics, unless the image for the first outputs is missing. *)
Definition low_config : config :=
  mk_config [UR20_4DI_P; UR20_4DO_P; UR20_4DO_P] [0xFFFF; 0x0000; 0x8000; 0xFFFF; 0x0000; 0xFFFF]
    [repeat 0 4; repeat 0 4; repeat 0 4].
Definition low0 : coupler := after no_coupler (coupler_new low_config).
Example C43_panic_example : reachable Debug low0 /\
  cycle Debug low0 [5] [0] (step low0 [5] [0]) (Panic ArithmeticOverflow) /\
  inputs (step low0 [5] [0]) = [[Bit true; Bit false; Bit true; Bit false]; repeat VNone 4; repeat VNone 4] /\
  cycle Debug low0 [5] [] (step low0 [5] []) (Err BufferLength) /\
  cycle Debug low0 [] [0] (step low0 [] [0]) (Err BufferLength).
Proof.
  split; [apply (start_reachable _ low_config); vm_compute; reflexivity|].
  split; [apply step_cycle; vm_compute; reflexivity|]. split; [vm_compute; reflexivity|].
  split; apply step_cycle; vm_compute; reflexivity.
Qed.
