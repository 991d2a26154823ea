(** Property theorems C116: three programs in a row, of which the one in the middle forwards. *)
From Coq Require Import ZArith List Bool Lia.
From Verif Require Import Base Facts F32 Types Lib Com Fbc SpecCodec SpecSerial SpecCoupler SpecImage SpecSystem SpecLink SpecRelay SpecChain
  ProofsCoupler ProofsWitness ProofsPlant ProofsLink ProofsRelay ProofsChain PropsCoupler PropsSystem PropsLink PropsRelay.
Import ListNotations.
Local Open Scope Z_scope.

(** C116: once all programs have made two cycles and before anything has been received, every byte
    written at one end is from then on, in this order and once, at one of the places between the
    two ends; in both directions. *)
Theorem C116_chain : forall n s0 es1 s1 es2 s2, chain_start n s0 -> chain_runs n s0 es1 s1 -> chain_ready s1 -> chain_runs n s1 es2 s2 ->
  passed (hs_first n) (hs_left n) (hs_right n) (hs_last n)
    (h_first s2) (y_left (h_relay s2)) (y_to_right (h_relay s2)) (y_right (h_relay s2)) (h_last s2) /\
  passed (hs_last n) (hs_right n) (hs_left n) (hs_first n)
    (h_last s2) (y_right (h_relay s2)) (y_to_left (h_relay s2)) (y_left (h_relay s2)) (h_first s2).
Proof. exact C116_all. Qed.
Print Assumptions C116_chain.

(** C116: and the bytes arrive: as many rounds of the first program as segments are outstanding, the
    line carries them, a cycle of the program in the middle with a fresh input image, a read that is
    large enough, a write of all it holds, as many rounds of it as segments are then outstanding, the
    second line carries them, and a cycle of the last program with a fresh input image; with anything
    else in between. *)
Theorem C116_chain_progress : forall n s0 es1 s1 es2 s2 es3 s3 es4 s4 es5 s5 size s6 es6 s7 s8 es8 s9 es9 s10 es10 s11
    rounds x input y z rounds' x' input' y' z',
  chain_start n s0 -> chain_runs n s0 es1 s1 -> chain_ready s1 -> chain_runs n s1 es2 s2 ->
  chain_runs n s2 es3 s3 -> first_events es3 = concat rounds -> Forall plant_round rounds ->
  (outstanding (s_module (hs_first n)) (s_length (hs_first n)) (s_output (hs_first n)) (h_first s2) <= length rounds)%nat ->
  chain_runs n s3 es4 s4 -> (length (t_taken (h_first s3)) <= length (concat (t_offered (y_left (h_relay s4)))))%nat ->
  chain_runs n s4 es5 s5 -> relay_left (hs_left n) (hs_right n) (relay_events es5) = x ++ [PInput input] ++ y ++ [PCycle] ++ z ->
  chain_step n s5 (AtRelay (FetchLeft size)) s6 ->
  (length (readable_in (t_coupler (y_left (h_relay s5))) (s_module (hs_left n))) <= size)%nat ->
  chain_runs n s6 es6 s7 -> chain_step n s7 (AtRelay (SendRight (y_to_right (h_relay s7)))) s8 ->
  chain_runs n s8 es8 s9 -> relay_right (hs_left n) (hs_right n) (relay_events es8) = concat rounds' -> Forall plant_round rounds' ->
  (outstanding (s_module (hs_right n)) (s_length (hs_right n)) (s_output (hs_right n)) (y_right (h_relay s8)) <= length rounds')%nat ->
  chain_runs n s9 es9 s10 -> (length (t_taken (y_right (h_relay s9))) <= length (concat (t_offered (h_last s10))))%nat ->
  chain_runs n s10 es10 s11 -> last_events es10 = x' ++ [PInput input'] ++ y' ++ [PCycle] ++ z' ->
  exists more, t_delivered (h_last s11) ++ readable_in (t_coupler (h_last s11)) (s_module (hs_last n)) = t_written (h_first s2) ++ more.
Proof. exact C116_progress_all. Qed.
Print Assumptions C116_chain_progress.

(** The program of PropsRelay.v between two of the programs with one serial module of PropsLink.v;
    the first one writes eight bytes, the last one a byte. *)
Definition chain_n : chain_sides := mk_chain_sides link_right relay_l relay_r link_right.
Definition chain_0 : chain := mk_chain link_start relay_0 link_start.
Definition chain_next (s : chain) (es : list chain_event) : chain :=
  match chain_execs chain_n s es with Some s' => s' | None => chain_0 end.
Definition own_cycles : list plant_event := [PCycle; PCycle; POutput].
Definition chain_events_1 : list chain_event :=
  map AtFirst own_cycles ++ map (fun e => AtRelay (Program e)) own_cycles ++ map AtLast own_cycles.
Definition chain_events_2 : list chain_event :=
  [AtFirst (PWrite 0 [1; 2; 3; 4; 5; 6; 7; 8]); AtLast (PWrite 0 [50]); AtLast PCycle; AtLast POutput; AtLast PTake].
Definition first_round (status : Z) : list plant_event := [PInput [status; 0; 0; 0]; PCycle; POutput; PTake].
Definition chain_events_3 : list chain_event := map AtFirst (first_round 0 ++ first_round 0x20).
Definition chain_events_4 : list chain_event := map AtRelay
  [LeftModule (POffer [1; 2; 3; 4; 5; 6]); RightModule (POffer [50]);
   Program (PInput [0x0609; 0x0201; 0x0403; 0x0605; 0x0109; 0x0032; 0; 0]); Program PCycle; Program POutput; LeftModule (POffer [7; 8])].
Definition chain_events_5 : list chain_event := map AtRelay
  [Program (PInput [0x0211; 0x0807; 0; 0; 0x0109; 0x0032; 0; 0]); Program PCycle; Program POutput].
Definition chain_events_6 : list chain_event := [AtRelay (FetchRight 1); AtLast PCycle].
Definition middle_round (status : Z) : list relay_event :=
  [Program (PInput [0x0211; 0x0807; 0; 0; status; 0x0032; 0; 0]); Program PCycle; Program POutput; RightModule PTake].
Definition chain_events_8 : list chain_event := map AtRelay (middle_round 0x0109 ++ middle_round 0x0129).
Definition chain_events_9 : list chain_event := map AtLast
  [POffer [1; 2; 3; 4; 5; 6]; PInput [0x0629; 0x0201; 0x0403; 0x0605]; PCycle; POutput; POffer [7; 8]].
Definition chain_events_10 : list chain_event := map AtLast [PInput [0x0231; 0x0807; 0; 0]; PCycle; PRead 0 3].
Definition chain_1 := chain_next chain_0 chain_events_1.
Definition chain_2 := chain_next chain_1 chain_events_2.
Definition chain_3 := chain_next chain_2 chain_events_3.
Definition chain_4 := chain_next chain_3 chain_events_4.
Definition chain_5 := chain_next chain_4 chain_events_5.
Definition chain_6 := chain_next chain_5 [AtRelay (FetchLeft 20)].
Definition chain_7 := chain_next chain_6 chain_events_6.
Definition chain_8 := chain_next chain_7 [AtRelay (SendRight [1; 2; 3; 4; 5; 6; 7; 8])].
Definition chain_9 := chain_next chain_8 chain_events_8.
Definition chain_10 := chain_next chain_9 chain_events_9.
Definition chain_11 := chain_next chain_10 chain_events_10.

Example C116_example_starts : chain_start chain_n chain_0.
Proof. split; [exact (proj2 C86_example_starts)|]. split; [exact C114_example_starts|exact (proj2 C86_example_starts)]. Qed.
Example C116_example_runs :
  chain_runs chain_n chain_0 chain_events_1 chain_1 /\ chain_runs chain_n chain_1 chain_events_2 chain_2 /\
  chain_runs chain_n chain_2 chain_events_3 chain_3 /\ chain_runs chain_n chain_3 chain_events_4 chain_4 /\
  chain_runs chain_n chain_4 chain_events_5 chain_5 /\ chain_runs chain_n chain_5 [AtRelay (FetchLeft 20)] chain_6 /\
  chain_runs chain_n chain_6 chain_events_6 chain_7 /\
  chain_runs chain_n chain_7 [AtRelay (SendRight (y_to_right (h_relay chain_7)))] chain_8 /\
  chain_runs chain_n chain_8 chain_events_8 chain_9 /\ chain_runs chain_n chain_9 chain_events_9 chain_10 /\
  chain_runs chain_n chain_10 chain_events_10 chain_11.
Proof.
  repeat match goal with |- _ /\ _ => split end;
    (apply chain_exec_runs; [reflexivity|vm_compute; auto|vm_compute; reflexivity]).
Qed.
Example C116_example :
  chain_ready chain_1 /\ t_written (h_first chain_2) = [1; 2; 3; 4; 5; 6; 7; 8] /\
  outstanding 0 EightBytes 0x8000 (h_first chain_2) = 2%nat /\
  t_taken (h_first chain_3) = [1; 2; 3; 4; 5; 6; 7; 8] /\ on_line (h_first chain_3) (y_left (h_relay chain_3)) = [1; 2; 3; 4; 5; 6; 7; 8] /\
  t_offered (y_left (h_relay chain_4)) = [[1; 2; 3; 4; 5; 6]; [7; 8]] /\
  readable_in (t_coupler (y_left (h_relay chain_5))) 0 = [1; 2; 3; 4; 5; 6; 7; 8] /\
  y_to_right (h_relay chain_7) = [1; 2; 3; 4; 5; 6; 7; 8] /\ y_to_left (h_relay chain_7) = [50] /\
  outstanding 1 EightBytes 0x8040 (y_right (h_relay chain_8)) = 2%nat /\
  t_taken (y_right (h_relay chain_9)) = [1; 2; 3; 4; 5; 6; 7; 8] /\
  t_offered (h_last chain_10) = [[1; 2; 3; 4; 5; 6]; [7; 8]] /\
  t_delivered (h_last chain_11) = [1; 2; 3] /\ readable_in (t_coupler (h_last chain_11)) 0 = [4; 5; 6; 7; 8].
Proof.
  split; [vm_compute; repeat match goal with |- _ /\ _ => split end; try reflexivity; lia|].
  vm_compute. repeat match goal with |- _ /\ _ => split end; reflexivity.
Qed.
Example C116_example_rounds :
  (first_events chain_events_3 = concat [first_round 0; first_round 0x20] /\ Forall plant_round [first_round 0; first_round 0x20]) /\
  relay_left relay_l relay_r (relay_events chain_events_5) =
    [] ++ [PInput [0x0211; 0x0807; 0; 0; 0x0109; 0x0032; 0; 0]] ++ [] ++ [PCycle] ++ [POutput] /\
  (exists first second, relay_right relay_l relay_r (relay_events chain_events_8) = concat [first; second] /\
    Forall plant_round [first; second]) /\
  last_events chain_events_10 = [] ++ [PInput [0x0231; 0x0807; 0; 0]] ++ [] ++ [PCycle] ++ [PRead 0 3].
Proof.
  split; [|split; [reflexivity|split; [|reflexivity]]].
  - split; [reflexivity|]. constructor; [|constructor; [|constructor]]; exists []; eexists; exists [], [], [], []; reflexivity.
  - exists (relay_right relay_l relay_r (middle_round 0x0109)), (relay_right relay_l relay_r (middle_round 0x0129)).
    split; [reflexivity|]. constructor; [|constructor; [|constructor]]; exists []; eexists; exists [], [], [], []; reflexivity.
Qed.
