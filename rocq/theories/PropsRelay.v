(** Property theorems C114: a program that forwards between two serial modules of its coupler. *)
From Coq Require Import ZArith List Bool Lia.
From Verif Require Import Base Facts F32 Types Lib Com Fbc SpecCodec SpecSerial SpecCoupler SpecImage SpecSystem SpecLink SpecRelay
  ProofsCoupler ProofsWitness ProofsPlant ProofsLink ProofsRelay PropsCoupler.
Import ListNotations.
Local Open Scope Z_scope.

(** C114: once two cycles have been made and before anything has been received, every byte offered
    by one of the two modules is from then on, in this order and once, taken over by the other
    module, in the output image, waiting in the coupler, held by the program, ready to be read or in
    the module that has received it; in both directions. *)
Theorem C114_gateway : forall l r s0 es1 s1 es2 s2, relay_start l r s0 -> relay_runs l r s0 es1 s1 ->
  (2 <= t_cycles (y_left s1))%nat -> t_offered (y_left s1) = [] -> t_offered (y_right s1) = [] ->
  relay_runs l r s1 es2 s2 ->
  carried l r (y_left s2) (y_right s2) (y_to_right s2) /\ carried r l (y_right s2) (y_left s2) (y_to_left s2).
Proof. exact C114_all. Qed.
Print Assumptions C114_gateway.

(** C114: and the bytes arrive: a cycle with a fresh input image, a read that is large enough, a
    write of all the program holds, and as many rounds as segments are then outstanding, with
    anything else in between. *)
Theorem C114_gateway_progress : forall l r s0 es1 s1 es2 s2 es3 s3 size s4 es4 s5 s6 es6 s7 x input y z rounds,
  relay_start l r s0 -> relay_runs l r s0 es1 s1 -> (2 <= t_cycles (y_left s1))%nat -> t_offered (y_left s1) = [] ->
  relay_runs l r s1 es2 s2 ->
  relay_runs l r s2 es3 s3 -> relay_left l r es3 = x ++ [PInput input] ++ y ++ [PCycle] ++ z ->
  relay_step l r s3 (FetchLeft size) s4 -> (length (readable_in (t_coupler (y_left s3)) (s_module l)) <= size)%nat ->
  relay_runs l r s4 es4 s5 -> relay_step l r s5 (SendRight (y_to_right s5)) s6 ->
  relay_runs l r s6 es6 s7 -> relay_right l r es6 = concat rounds -> Forall plant_round rounds ->
  (outstanding (s_module r) (s_length r) (s_output r) (y_right s6) <= length rounds)%nat ->
  exists more, t_taken (y_right s7) = concat (t_offered (y_left s2)) ++ more.
Proof. exact C114_progress_all. Qed.
Print Assumptions C114_gateway_progress.

(** Two serial modules; the left one receives six bytes and then three more, the right one two. *)
Definition relay_config : config :=
  mk_config [UR20_1COM_232_485_422; UR20_1COM_232_485_422] [0x8000; 0x0000; 0x8040; 0x0040]
    [[0; 1; 0; 0; 0; 0; 0; 0; 0; 0]; [0; 1; 0; 0; 0; 0; 0; 0; 0; 0]].
Definition relay_new : coupler := after no_coupler (coupler_new relay_config).
Definition relay_l : side := mk_side Debug 0 EightBytes 0 0x8000.
Definition relay_r : side := mk_side Debug 1 EightBytes 0x40 0x8040.
Definition relay_plant : plant :=
  mk_plant relay_new (repeat 0 8) (repeat 0 8) (repeat 0 8) (mk_rs_in false false 0 0 false []) [] [] [] [] 0.
Definition relay_0 : relay := mk_relay relay_plant relay_plant [] [].
Definition relay_next (s : relay) (es : list relay_event) : relay :=
  match relay_execs relay_l relay_r s es with Some s' => s' | None => relay_0 end.
Definition relay_events_1 : list relay_event := [Program PCycle; Program PCycle; Program POutput].
Definition relay_events_2 : list relay_event :=
  [LeftModule (POffer [1; 2; 3; 4; 5; 6]); RightModule (POffer [50; 51])].
Definition relay_events_3 : list relay_event :=
  [Program (PInput [0x0609; 0x0201; 0x0403; 0x0605; 0x0209; 0x3332; 0; 0]); Program PCycle; Program POutput].
Definition relay_events_4 : list relay_event :=
  [FetchRight 1; LeftModule (POffer [7; 8; 9]); SendRight [1; 2]; SendLeft [50]].
Definition relay_round (first second : Z) : list relay_event :=
  [Program (PInput [first; 0x0807; 0x0009; 0; second; 0x3332; 0; 0]); Program PCycle; Program POutput; RightModule PTake].
Definition relay_events_6 : list relay_event := relay_round 0x0311 0x0209 ++ LeftModule PTake :: relay_round 0x0331 0x0229.
Definition relay_1 := relay_next relay_0 relay_events_1.
Definition relay_2 := relay_next relay_1 relay_events_2.
Definition relay_3 := relay_next relay_2 relay_events_3.
Definition relay_4 := relay_next relay_3 [FetchLeft 10].
Definition relay_5 := relay_next relay_4 relay_events_4.
Definition relay_6 := relay_next relay_5 [SendRight [3; 4; 5; 6]].
Definition relay_7 := relay_next relay_6 relay_events_6.

Example C114_example_starts : relay_start relay_l relay_r relay_0.
Proof.
  split; [discriminate|]. split; [reflexivity|].
  assert (P : forall i ioff ooff, serial_at relay_new i EightBytes ioff ooff ->
    rs_in_from_bytes (in_part EightBytes ioff (repeat 0 8)) = Ok (mk_rs_in false false 0 0 false []) ->
    rs_out_from_bytes (out_part EightBytes ooff (repeat 0 8)) = rs_out_from_bytes (repeat 0 8) ->
    length (out_part EightBytes ooff (repeat 0 8)) = 8%nat -> plant_start i EightBytes ioff ooff relay_plant).
  { intros i ioff ooff H1 H2 H3 H4. split; [exists relay_config; split; [apply fits_config; reflexivity|vm_compute; reflexivity]|].
    split; [exact H1|]. split; [exact H2|]. split; [apply fits_u16; reflexivity|]. split; [reflexivity|].
    split; [apply fits_u16; reflexivity|]. split; [exact H4|]. split; [|repeat split].
    cbn [t_register relay_plant]. rewrite H3. eexists. split; [vm_compute; reflexivity|]. vm_compute. auto. }
  split; [|split].
  - apply P; try (vm_compute; reflexivity). split; [eexists; split; vm_compute; reflexivity|]. split; [reflexivity|]. split; [reflexivity|].
    intros [|[|j]] m o off Hj [Hm Ho] E; [lia| |destruct j; discriminate].
    vm_compute in Ho. apply Some_inj in Ho. subst o. apply Some_inj in E. subst off. vm_compute. lia.
  - apply P; try (vm_compute; reflexivity). split; [eexists; split; vm_compute; reflexivity|]. split; [reflexivity|]. split; [reflexivity|].
    intros [|[|j]] m o off Hj [Hm Ho] E; cbn in Hj; [lia|lia|destruct j; discriminate].
  - repeat split.
Qed.
Example C114_example_runs :
  relay_runs relay_l relay_r relay_0 relay_events_1 relay_1 /\ relay_runs relay_l relay_r relay_1 relay_events_2 relay_2 /\
  relay_runs relay_l relay_r relay_2 relay_events_3 relay_3 /\ relay_runs relay_l relay_r relay_3 [FetchLeft 10] relay_4 /\
  relay_runs relay_l relay_r relay_4 relay_events_4 relay_5 /\
  relay_runs relay_l relay_r relay_5 [SendRight (y_to_right relay_5)] relay_6 /\
  relay_runs relay_l relay_r relay_6 relay_events_6 relay_7.
Proof.
  repeat match goal with |- _ /\ _ => split end;
    (apply relay_exec_runs; [reflexivity|vm_compute; auto|vm_compute; reflexivity]).
Qed.
Example C114_example :
  t_cycles (y_left relay_1) = 2%nat /\ t_offered (y_left relay_1) = [] /\ t_offered (y_right relay_1) = [] /\
  t_offered (y_left relay_2) = [[1; 2; 3; 4; 5; 6]] /\ readable_in (t_coupler (y_left relay_3)) 0 = [1; 2; 3; 4; 5; 6] /\
  y_to_right relay_4 = [1; 2; 3; 4; 5; 6] /\ (y_to_right relay_5, y_to_left relay_5) = ([3; 4; 5; 6], []) /\
  readable_in (t_coupler (y_right relay_5)) 1 = [51] /\
  waiting_in (t_coupler (y_right relay_6)) 1 = [1; 2; 3; 4; 5; 6] /\
  outstanding 1 EightBytes 0x8040 (y_right relay_6) = 2%nat /\
  t_taken (y_right relay_7) = [1; 2; 3; 4; 5; 6] /\ readable_in (t_coupler (y_left relay_7)) 0 = [7; 8; 9] /\
  t_taken (y_left relay_7) = [50].
Proof. vm_compute. repeat match goal with |- _ /\ _ => split end; reflexivity. Qed.
Example C114_example_rounds :
  relay_left relay_l relay_r relay_events_3 =
    [] ++ [PInput [0x0609; 0x0201; 0x0403; 0x0605; 0x0209; 0x3332; 0; 0]] ++ [] ++ [PCycle] ++ [POutput] /\
  exists first second, relay_right relay_l relay_r relay_events_6 = concat [first; second] /\ Forall plant_round [first; second].
Proof.
  split; [reflexivity|].
  exists (relay_right relay_l relay_r (relay_round 0x0311 0x0209)), (relay_right relay_l relay_r (relay_round 0x0331 0x0229)).
  split; [reflexivity|]. constructor; [|constructor; [|constructor]]; exists []; eexists; exists [], [], [], []; reflexivity.
Qed.
