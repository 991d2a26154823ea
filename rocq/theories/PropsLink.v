(** Property theorems C86: two programs that talk to each other over a serial line. *)
From Coq Require Import ZArith List Bool Lia.
From Verif Require Import Base Facts F32 Types Lib Com Fbc SpecCodec SpecSerial SpecCoupler SpecImage SpecSystem SpecLink
  ProofsCoupler ProofsWitness ProofsPlant ProofsLink PropsCoupler PropsSystem.
Import ListNotations.
Local Open Scope Z_scope.

(** The coupler of PropsCoupler.v on the left, and one with a single serial module on the right.
    The left program writes nine bytes, the right one requests a byte with [set_output]. *)
Definition link_config : config :=
  mk_config [UR20_1COM_232_485_422] [0x8000; 0x0000] [[0; 1; 0; 0; 0; 0; 0; 0; 0; 0]].
Definition link_new : coupler := after no_coupler (coupler_new link_config).
Definition link_left : side := mk_side Debug 2 EightBytes 0x10 0x8010.
Definition link_right : side := mk_side Release 0 EightBytes 0 0x8000.
Definition link_start : plant :=
  mk_plant link_new [0; 0; 0; 0] [0; 0; 0; 0] [0; 0; 0; 0] (mk_rs_in false false 0 0 false []) [] [] [] [] 0.
Definition link_exec (s : plant * plant) (es : list link_event) : plant * plant :=
  match link_execs link_left link_right s es with Some s' => s' | None => (example_start, example_start) end.
Definition link_events_1 : list link_event :=
  [OnLeft PCycle; OnRight PCycle; OnLeft PCycle; OnRight PCycle; OnLeft POutput; OnRight POutput].
Definition link_events_2 : list link_event :=
  [OnLeft (PWrite 2 [1; 2; 3; 4; 5; 6; 7; 8; 9]); OnRight (PSet (mk_address 0 0) (Bytes [21]));
   OnRight PCycle; OnRight POutput; OnRight PTake; OnLeft (POffer [21]); OnLeft PCycle; OnLeft POutput; OnLeft PTake].
Definition link_round : list plant_event := [PInput [5; 0x0129; 0x0015; 0; 0]; PCycle; POutput; PTake].
Definition link_events_3 : list link_event := OnRight (POffer [1; 2; 3; 4; 5; 6]) :: map OnLeft link_round.
Definition link_events_4 : list link_event :=
  map OnRight [PInput [0x0629; 0x0201; 0x0403; 0x0605]; PCycle; POutput; POffer [7; 8; 9]; PRead 0 4].
Definition link_events_5 : list link_event := map OnRight [PInput [0x0331; 0x0807; 0x0009; 0]; PCycle; PRead 0 1].
Definition link_state_1 := link_exec (example_start, link_start) link_events_1.
Definition link_state_2 := link_exec link_state_1 link_events_2.
Definition link_state_3 := link_exec link_state_2 link_events_3.
Definition link_state_4 := link_exec link_state_3 link_events_4.
Definition link_state_5 := link_exec link_state_4 link_events_5.

(** C86: two programs, once both have made two cycles and before anything has been received.
    From then on every byte written on one side is, in this order and once, read on the other
    side, ready to be read there, in the other module, on the line, in the output image or waiting
    in the own coupler; in both directions, whatever both programs and modules do and in any
    order. *)
Theorem C86_link : forall l r a0 b0 es1 a1 b1 es2 a2 b2,
  side_start l a0 -> side_start r b0 ->
  link_runs l r (a0, b0) es1 (a1, b1) ->
  (2 <= t_cycles a1)%nat -> (2 <= t_cycles b1)%nat -> t_offered a1 = [] -> t_offered b1 = [] ->
  link_runs l r (a1, b1) es2 (a2, b2) ->
  accounted l r a2 b2 /\ accounted r l b2 a2.
Proof. exact C86_all. Qed.
Print Assumptions C86_link.

(** C86: and the bytes arrive: after as many rounds of the left program as segments are
    outstanding, once the line has carried what the left module has taken over, and after a cycle
    of the right program with a fresh input image, all bytes written on the left are read or ready
    to be read on the right. *)
Theorem C86_link_progress : forall l r a0 b0 es1 a1 b1 es2 a2 b2 es3 a3 b3 rounds es4 a4 b4 es5 a5 b5 x input y z,
  side_start l a0 -> side_start r b0 ->
  link_runs l r (a0, b0) es1 (a1, b1) -> (2 <= t_cycles a1)%nat -> (2 <= t_cycles b1)%nat -> t_offered b1 = [] ->
  link_runs l r (a1, b1) es2 (a2, b2) ->
  link_runs l r (a2, b2) es3 (a3, b3) -> left_events es3 = concat rounds -> Forall plant_round rounds ->
  (outstanding (s_module l) (s_length l) (s_output l) a2 <= length rounds)%nat ->
  link_runs l r (a3, b3) es4 (a4, b4) -> (length (t_taken a3) <= length (concat (t_offered b4)))%nat ->
  link_runs l r (a4, b4) es5 (a5, b5) -> right_events es5 = x ++ [PInput input] ++ y ++ [PCycle] ++ z ->
  exists more, t_delivered b5 ++ readable_in (t_coupler b5) (s_module r) = t_written a2 ++ more.
Proof. exact C86_progress_all. Qed.
Print Assumptions C86_link_progress.

Example C86_example_starts : side_start link_left example_start /\ side_start link_right link_start.
Proof.
  split; [exact example_starts|].
  split.
  - exists link_config. split; [apply fits_config; reflexivity|vm_compute; reflexivity].
  - split.
    + split; [eexists; split; vm_compute; reflexivity|]. split; [reflexivity|]. split; [reflexivity|].
      intros [|j] m o off Hj [Hm _]; cbn in Hj; [lia|]. destruct j; discriminate.
    + split; [vm_compute; reflexivity|]. split; [apply fits_u16; reflexivity|].
      split; [reflexivity|]. split; [apply fits_u16; reflexivity|]. split; [vm_compute; reflexivity|].
      split; [|repeat split]. eexists. split; [vm_compute; reflexivity|]. vm_compute. auto.
Qed.
Example C86_example_runs :
  link_runs link_left link_right (example_start, link_start) link_events_1 link_state_1 /\
  link_runs link_left link_right link_state_1 link_events_2 link_state_2 /\
  link_runs link_left link_right link_state_2 link_events_3 link_state_3 /\
  link_runs link_left link_right link_state_3 link_events_4 link_state_4 /\
  link_runs link_left link_right link_state_4 link_events_5 link_state_5.
Proof. split; [|split; [|split; [|split]]]; apply link_exec_runs; vm_compute; reflexivity. Qed.
Example C86_example :
  (t_cycles (fst link_state_1), t_cycles (snd link_state_1)) = (2, 2)%nat /\
  t_offered (fst link_state_1) = [] /\ t_offered (snd link_state_1) = [] /\
  (t_written (fst link_state_2), on_line (fst link_state_2) (snd link_state_2)) = ([1; 2; 3; 4; 5; 6; 7; 8; 9], [1; 2; 3; 4; 5; 6]) /\
  outstanding 2 EightBytes 0x8010 (fst link_state_2) = 1%nat /\
  left_events link_events_3 = concat [link_round] /\ Forall plant_round [link_round] /\
  t_taken (fst link_state_3) = [1; 2; 3; 4; 5; 6; 7; 8; 9] /\
  t_offered (snd link_state_4) = [[1; 2; 3; 4; 5; 6]; [7; 8; 9]] /\
  t_delivered (snd link_state_5) = [1; 2; 3; 4; 5] /\
  readable_in (t_coupler (snd link_state_5)) 0 = [6; 7; 8; 9] /\
  t_written (snd link_state_5) = [21] /\ t_delivered (fst link_state_5) = [] /\
  readable_in (t_coupler (fst link_state_5)) 2 = [21].
Proof.
  do 6 (split; [vm_compute; reflexivity|]). split.
  - repeat constructor. exists [], [5; 0x0129; 0x0015; 0; 0], [], [], [], []. reflexivity.
  - vm_compute. auto 10.
Qed.
