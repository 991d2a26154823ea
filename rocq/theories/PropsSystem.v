(** Property theorems C49, C50, C55 and C56: serial modules inside a coupler. *)
From Coq Require Import ZArith List Bool Lia.
From Verif Require Import Base Facts F32 Types Lib Com Fbc SpecCodec SpecSerial SpecCoupler SpecImage SpecSystem
  ProofsCoupler ProofsWitness ProofsSystem ProofsPlant PropsCoupler.
Import ListNotations.
Local Open Scope Z_scope.

(** The coupler of PropsCoupler.v (four inputs, four outputs, a serial module) and a history:
    two cycles, eight bytes requested with [set_output] and one byte written with a writer,
    while the device offers the two bytes 40 and 41. *)
Definition example_start : plant :=
  mk_plant example_new [5; 0; 0; 0; 0] [12; 0; 0; 0; 0] [12; 0; 0; 0; 0]
    (mk_rs_in false false 0 0 false []) [] [] [] [] 0.
Definition example_history : list plant_event :=
  [PCycle; PCycle; POutput].
Definition example_sending : list plant_event :=
  [PWrite 2 [9]; PSet (mk_address 2 0) (Bytes [1; 2; 3; 4; 5; 6; 7; 8]); PSet (mk_address 1 1) (Bit true);
   PCycle; POutput; PTake; POffer [40; 41]].
Definition example_round (first second third : Z) : list plant_event :=
  [PInput [first; second; third; 0; 0]; PCycle; POutput; PTake].
Definition example_exec (t : plant) (es : list plant_event) : plant :=
  after t (match plant_execs Debug 2 EightBytes 0x10 0x8010 t es with Some t' => Ok t' | None => Err BufferLength end).
Definition example_initialised : plant := example_exec example_start example_history.
Definition example_sent : plant := example_exec example_initialised example_sending.
Definition example_rounds : list (list plant_event) :=
  [example_round 7 0x0229 0x2928; example_round 7 0x0249 0x2928; PRead 2 1 :: example_round 0 0x0269 0x2928].
Definition example_end : plant := example_exec example_sent (concat example_rounds).

Example example_module : serial_at example_new 2 EightBytes 0x10 0x8010.
Proof.
  split; [eexists; split; vm_compute; reflexivity|]. split; [reflexivity|]. split; [reflexivity|].
  intros [|[|[|j]]] m o off Hj [Hm _]; try lia. destruct j; discriminate.
Qed.
Example example_starts : plant_start 2 EightBytes 0x10 0x8010 example_start.
Proof.
  split.
  - exists example_config. split; [apply fits_config; reflexivity|vm_compute; reflexivity].
  - split; [exact example_module|]. split; [vm_compute; reflexivity|]. split; [apply fits_u16; reflexivity|].
    split; [reflexivity|]. split; [apply fits_u16; reflexivity|]. split; [vm_compute; reflexivity|].
    split; [|repeat split]. eexists. split; [vm_compute; reflexivity|]. vm_compute. auto.
Qed.
Example example_runs_1 : plant_runs Debug 2 EightBytes 0x10 0x8010 example_start example_history example_initialised.
Proof. apply exec_runs. vm_compute. reflexivity. Qed.
Example example_runs_2 : plant_runs Debug 2 EightBytes 0x10 0x8010 example_initialised example_sending example_sent.
Proof. apply exec_runs. vm_compute. reflexivity. Qed.
Example example_runs_3 : plant_runs Debug 2 EightBytes 0x10 0x8010 example_sent (concat example_rounds) example_end.
Proof. apply exec_runs. vm_compute. reflexivity. Qed.

(** C49, as far as it holds: two histories, possibly of different couplers with different other
    modules and in different positions, in which a serial module with the same offsets starts in
    the same state, the program makes the same calls for it and its part of the images is the
    same.  Then all answers for it, its part of all returned images, its row of [inputs] after
    each cycle and its final state are the same. *)
Theorem C49_serial_isolation_partial : forall prof l ioff ooff c1 i1 xs1 c1' answers1 c2 i2 xs2 c2' answers2,
  reachable prof c1 -> reachable prof c2 ->
  serial_at c1 i1 l ioff ooff -> serial_at c2 i2 l ioff ooff ->
  serial c1 i1 = serial c2 i2 -> requested c1 (mk_address i1 0) = requested c2 (mk_address i2 0) ->
  runs prof c1 xs1 c1' answers1 -> runs prof c2 xs2 c2' answers2 -> all_ok answers1 -> all_ok answers2 ->
  fst (own i1 l ioff ooff xs1 answers1) = fst (own i2 l ioff ooff xs2 answers2) ->
  snd (own i1 l ioff ooff xs1 answers1) = snd (own i2 l ioff ooff xs2 answers2) /\
  serial c1' i1 = serial c2' i2 /\ requested c1' (mk_address i1 0) = requested c2' (mk_address i2 0).
Proof. exact C49_partial_all. Qed.
Print Assumptions C49_serial_isolation_partial.
Example C49_example : exists c1 c2,
  runs Debug example_new [NextCycle example_input example_output] c1
    [CycleResult (Ok [12; 0x0043; 0; 0; 0]) (inputs c1) (outputs c1)] /\
  runs Debug example_new [SetOutput (mk_address 1 1) (Bit true); NextCycle (10 :: tl example_input) (0 :: tl example_output)] c2
    [SetResult (Ok tt); CycleResult (Ok [2; 0x0043; 0; 0; 0]) (inputs c2) (outputs c2)] /\
  fst (own 2 EightBytes 0x10 0x8010 [NextCycle example_input example_output]
         [CycleResult (Ok [12; 0x0043; 0; 0; 0]) (inputs c1) (outputs c1)]) =
  fst (own 2 EightBytes 0x10 0x8010
         [SetOutput (mk_address 1 1) (Bit true); NextCycle (10 :: tl example_input) (0 :: tl example_output)]
         [SetResult (Ok tt); CycleResult (Ok [2; 0x0043; 0; 0; 0]) (inputs c2) (outputs c2)]).
Proof.
  exists (example_run example_new example_input example_output),
    (example_run (fst (set_output example_new (mk_address 1 1) (Bit true))) (10 :: tl example_input) (0 :: tl example_output)).
  split; [|split].
  - eapply Runs_cons; [|apply Runs_nil]. apply Calls_next; [apply step_cycle; vm_compute; reflexivity|].
    discriminate.
  - eapply Runs_cons; [exact (Calls_set Debug example_new (mk_address 1 1) (Bit true) I)|].
    eapply Runs_cons; [|apply Runs_nil].
    apply Calls_next; [apply step_cycle; vm_compute; reflexivity|]. discriminate.
  - vm_compute. reflexivity.
Qed.

(** C49 does not hold as stated: what [outputs] shows for a serial module depends on the process
    data of another one. *)
Theorem C49_refuted : exists prof c m o off input out1 out2 c1 c2 image1 image2,
  reachable prof c /\ module_at c 1 m o /\ is_serial m = true /\ mo_output o = Some off /\
  cycle prof c input out1 c1 (Ok image1) /\ cycle prof c input out2 c2 (Ok image2) /\
  image_bytes out1 (first_byte 0x0800 off) (output_bytes m) = image_bytes out2 (first_byte 0x0800 off) (output_bytes m) /\
  nth_error (outputs c1) 1 = Some [VNone] /\ nth_error (outputs c2) 1 = Some [Bytes [66]].
Proof. exact C49_refuted_all. Qed.
Print Assumptions C49_refuted.

(** C50: in every history the bytes handed over for transmission are, in this order, those the
    module has taken over, the segment in the current output image and the bytes waiting. *)
Theorem C50_serial_transmission : forall prof i l ioff ooff t0 es t, plant_start i l ioff ooff t0 ->
  plant_runs prof i l ioff ooff t0 es t ->
  t_written t = t_taken t ++ on_its_way l ooff t ++ waiting_in (t_coupler t) i.
Proof. exact C50_all. Qed.
Print Assumptions C50_serial_transmission.
Example C50_example :
  t_written example_sent = [9; 1; 2; 3; 4; 5; 6; 7; 8] /\ t_taken example_sent = [9] /\
  on_its_way EightBytes 0x8010 example_sent = [] /\ waiting_in (t_coupler example_sent) 2 = [1; 2; 3; 4; 5; 6; 7; 8] /\
  t_taken example_end = [9; 1; 2; 3; 4; 5; 6; 7; 8].
Proof. vm_compute. auto 10. Qed.

(** C55: after two cycles the program reads the segments the module has offered, in order, each
    once, except those offered before. *)
Theorem C55_serial_reception : forall prof i l ioff ooff t0 es1 t1 es2 t2, plant_start i l ioff ooff t0 ->
  plant_runs prof i l ioff ooff t0 es1 t1 -> (2 <= t_cycles t1)%nat ->
  plant_runs prof i l ioff ooff t1 es2 t2 ->
  (exists lost fetched,
    (lost <= length (t_offered t1))%nat /\
    (lost + fetched <= length (t_offered t2) <= lost + fetched + 1)%nat /\
    t_delivered t2 ++ readable_in (t_coupler t2) i = concat (firstn fetched (skipn lost (t_offered t2)))) /\
  (t_offered t1 = [] ->
   exists fetched, (fetched <= length (t_offered t2) <= fetched + 1)%nat /\
     t_delivered t2 ++ readable_in (t_coupler t2) i = concat (firstn fetched (t_offered t2))).
Proof. exact C55_partial_all. Qed.
Print Assumptions C55_serial_reception.
Example C55_example :
  t_cycles example_initialised = 2%nat /\ t_offered example_initialised = [] /\
  t_offered example_end = [[40; 41]] /\ t_delivered example_end = [40] /\ readable_in (t_coupler example_end) 2 = [41].
Proof. vm_compute. auto 10. Qed.

(** C56: once two cycles have been made, all bytes handed over so far are taken over after as many
    rounds as segments are outstanding, whatever else happens during these rounds; and a cycle
    with a fresh input image fetches everything that had been offered. *)
Theorem C56_serial_progress :
  (forall prof i l ioff ooff t0 es t rounds t', plant_start i l ioff ooff t0 ->
     plant_runs prof i l ioff ooff t0 es t -> (2 <= t_cycles t)%nat ->
     Forall plant_round rounds -> (outstanding i l ooff t <= length rounds)%nat ->
     plant_runs prof i l ioff ooff t (concat rounds) t' ->
     exists rest, t_taken t' = t_written t ++ rest) /\
  (forall prof i l ioff ooff t0 es ti es1 t1 input a b c t2, plant_start i l ioff ooff t0 ->
     plant_runs prof i l ioff ooff t0 es ti -> (2 <= t_cycles ti)%nat ->
     plant_runs prof i l ioff ooff ti es1 t1 ->
     plant_runs prof i l ioff ooff t1 (a ++ [PInput input] ++ b ++ [PCycle] ++ c) t2 ->
     exists lost fetched,
       (lost <= length (t_offered ti))%nat /\
       (length (t_offered t1) <= lost + fetched <= length (t_offered t2))%nat /\
       t_delivered t2 ++ readable_in (t_coupler t2) i = concat (firstn fetched (skipn lost (t_offered t2)))).
Proof. exact C56_all. Qed.
Print Assumptions C56_serial_progress.
Example C56_example :
  Forall plant_round example_rounds /\ outstanding 2 EightBytes 0x8010 example_sent = 2%nat /\
  t_taken example_end = t_written example_sent.
Proof.
  split; [|vm_compute; auto].
  repeat constructor; [exists [], [7; 0x0229; 0x2928; 0; 0]|exists [], [7; 0x0249; 0x2928; 0; 0]|exists [PRead 2 1], [0; 0x0269; 0x2928; 0; 0]];
    exists [], [], [], []; reflexivity.
Qed.
