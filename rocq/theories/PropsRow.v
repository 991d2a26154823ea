(** Property theorems C117: a row of any number of programs. *)
From Coq Require Import ZArith List Bool Lia.
From Verif Require Import Base Facts F32 Types Lib Com Fbc SpecCodec SpecSerial SpecCoupler SpecImage SpecSystem SpecLink SpecRelay SpecChain SpecRow
  ProofsCoupler ProofsWitness ProofsPlant ProofsLink ProofsRelay ProofsChain ProofsRow PropsCoupler PropsSystem PropsLink PropsRelay.
Import ListNotations.
Local Open Scope Z_scope.

(** C117: once all programs have made two cycles and before anything has been received, every byte
    written at one end of the row is from then on, in this order and once, at one of the places
    along the row; in both directions and for any number of programs in between. *)
Theorem C117_row : forall n s0 es1 s1 es2 s2, row_start n s0 -> row_runs n s0 es1 s1 -> row_ready s1 -> row_runs n s1 es2 s2 ->
  let ys := combine (ws_relays n) (w_relays s2) in
  along (ws_first n) (w_first s2) ys (ws_last n) (w_last s2) (t_written (w_first s2)) /\
  along (ws_last n) (w_last s2) (rev (map mirror ys)) (ws_first n) (w_first s2) (t_written (w_last s2)).
Proof. exact C117_all. Qed.
Print Assumptions C117_row.

(** C117: and the bytes arrive: as many rounds of the first program as segments are outstanding, then
    all programs in between forward one after the other, the last line carries the bytes, and the last
    program makes a cycle with a fresh input image; with anything else in between. *)
Theorem C117_row_progress : forall n s0 es1 s1 es2 s2 es3 s3 s4 b4 es5 s5 es6 s6 rounds x input y z,
  row_start n s0 -> row_runs n s0 es1 s1 -> row_ready s1 -> row_runs n s1 es2 s2 ->
  row_runs n s2 es3 s3 -> of_first es3 = concat rounds -> Forall plant_round rounds ->
  (outstanding (s_module (ws_first n)) (s_length (ws_first n)) (s_output (ws_first n)) (w_first s2) <= length rounds)%nat ->
  all_forward n 0 (length (ws_relays n)) s3 s4 ->
  row_runs n s4 es5 s5 -> nth_error (left_ends s4) (length (ws_relays n)) = Some b4 ->
  (length (t_taken b4) <= length (concat (t_offered (w_last s5))))%nat ->
  row_runs n s5 es6 s6 -> of_last es6 = x ++ [PInput input] ++ y ++ [PCycle] ++ z ->
  exists more, t_delivered (w_last s6) ++ readable_in (t_coupler (w_last s6)) (s_module (ws_last n)) = t_written (w_first s2) ++ more.
Proof. exact C117_progress_all. Qed.
Print Assumptions C117_row_progress.

(** Two programs of PropsRelay.v between two programs of PropsLink.v; the first one writes three bytes. *)
Definition row_n : row_sides := mk_row_sides link_right [(relay_l, relay_r); (relay_l, relay_r)] link_right.
Definition row_0 : row := mk_row link_start [relay_0; relay_0] link_start.
Definition row_next (s : row) (es : list row_event) : row := match row_execs row_n s es with Some s' => s' | None => row_0 end.
Definition two_cycles : list plant_event := [PCycle; PCycle; POutput].
Definition row_events_1 : list row_event :=
  map OfFirst two_cycles ++ map (fun e => OfRelay 0 (Program e)) two_cycles ++ map (fun e => OfRelay 1 (Program e)) two_cycles ++ map OfLast two_cycles.
Definition row_events_2 : list row_event := [OfFirst (PWrite 0 [1; 2; 3])].
Definition row_round : list plant_event := [PInput [0; 0; 0; 0]; PCycle; POutput; PTake].
Definition row_events_3 : list row_event := map OfFirst row_round ++ [OfLast PCycle].
Definition arrived : list Z := [0x0309; 0x0201; 0x0003; 0; 0; 0; 0; 0].
Definition carry (k : nat) : list row_event := [OfRelay k (LeftModule (POffer [1; 2; 3]))].
Definition fresh (k : nat) : list row_event := [OfRelay k (Program (PInput arrived)); OfRelay k (Program PCycle)].
Definition rounds_of (k : nat) : list row_event :=
  [OfRelay k (Program (PInput arrived)); OfRelay k (Program PCycle); OfRelay k (Program POutput); OfRelay k (RightModule PTake)].
Definition row_events_6 : list row_event := map OfLast [PInput [0x0309; 0x0201; 0x0003; 0]; PCycle; PRead 0 1].
Definition row_1 := row_next row_0 row_events_1.
Definition row_2 := row_next row_1 row_events_2.
Definition row_3 := row_next row_2 row_events_3.
Definition after_carry (s : row) (k : nat) := row_next s (carry k).
Definition after_fresh (s : row) (k : nat) := row_next (after_carry s k) (fresh k).
Definition after_fetch (s : row) (k : nat) := row_next (after_fresh s k) [OfRelay k (FetchLeft 5)].
Definition after_send (s : row) (k : nat) := row_next (after_fetch s k) [OfRelay k (SendRight [1; 2; 3])].
Definition after_all (s : row) (k : nat) := row_next (after_send s k) (rounds_of k).
Definition row_4 := after_all (after_all row_3 0) 1.
Definition row_5 := row_next row_4 [OfLast (POffer [1; 2; 3])].
Definition row_6 := row_next row_5 row_events_6.

Example C117_example_starts : row_start row_n row_0.
Proof.
  split; [exact (proj2 C86_example_starts)|]. split; [|exact (proj2 C86_example_starts)].
  constructor; [exact C114_example_starts|]. constructor; [exact C114_example_starts|constructor].
Qed.
Lemma row_n_runs s es s' : Forall (fun y => shared (y_left y) (y_right y)) (w_relays s) -> row_execs row_n s es = Some s' -> row_runs row_n s es s'.
Proof. apply row_exec_runs. repeat constructor. Qed.
Ltac computed := apply row_n_runs; [vm_compute; repeat constructor|vm_compute; reflexivity].
Example C117_example_runs :
  row_runs row_n row_0 row_events_1 row_1 /\ row_runs row_n row_1 row_events_2 row_2 /\ row_runs row_n row_2 row_events_3 row_3 /\
  row_runs row_n row_4 [OfLast (POffer [1; 2; 3])] row_5 /\ row_runs row_n row_5 row_events_6 row_6.
Proof. repeat match goal with |- _ /\ _ => split end; computed. Qed.
Example C117_example_forwards : all_forward row_n 0 2 row_3 row_4.
Proof.
  assert (One : forall s, row_runs row_n s [] s) by constructor.
  assert (Step : forall s e s', row_runs row_n s [e] s' -> row_step row_n s e s')
    by (intros s e s' H; inversion H as [|? ? ? ? ? Hs Hr]; inversion Hr; subst; exact Hs).
  apply AF_next with (after_all row_3 0); [|apply AF_next with row_4; [|apply AF_done]].
  - exists relay_l, relay_r. eexists. exists (carry 0), (after_carry row_3 0). eexists. exists (fresh 0), (after_fresh row_3 0). eexists.
    exists 5%nat, (after_fetch row_3 0), [], (after_fetch row_3 0). eexists. exists (after_send row_3 0). eexists. exists (rounds_of 0).
    exists [], arrived, [], [], [relay_right relay_l relay_r (of_relay 0 (rounds_of 0))].
    split; [reflexivity|]. split; [vm_compute; reflexivity|]. split; [computed|]. split; [vm_compute; reflexivity|]. split; [vm_compute; lia|].
    split; [computed|]. split; [reflexivity|]. split; [apply Step; computed|]. split; [vm_compute; reflexivity|]. split; [vm_compute; lia|].
    split; [apply One|]. split; [vm_compute; reflexivity|]. split; [apply Step; computed|]. split; [vm_compute; reflexivity|].
    split; [computed|]. split; [reflexivity|]. split; [|vm_compute; lia].
    constructor; [|constructor]. exists []; eexists; exists [], [], [], []; reflexivity.
  - exists relay_l, relay_r. eexists. exists (carry 1), (after_carry (after_all row_3 0) 1). eexists. exists (fresh 1), (after_fresh (after_all row_3 0) 1). eexists.
    exists 5%nat, (after_fetch (after_all row_3 0) 1), [], (after_fetch (after_all row_3 0) 1). eexists. exists (after_send (after_all row_3 0) 1). eexists.
    exists (rounds_of 1), [], arrived, [], [], [relay_right relay_l relay_r (of_relay 1 (rounds_of 1))].
    split; [reflexivity|]. split; [vm_compute; reflexivity|]. split; [computed|]. split; [vm_compute; reflexivity|]. split; [vm_compute; lia|].
    split; [computed|]. split; [reflexivity|]. split; [apply Step; computed|]. split; [vm_compute; reflexivity|]. split; [vm_compute; lia|].
    split; [apply One|]. split; [vm_compute; reflexivity|]. split; [apply Step; computed|]. split; [vm_compute; reflexivity|].
    split; [computed|]. split; [reflexivity|]. split; [|vm_compute; lia].
    constructor; [|constructor]. exists []; eexists; exists [], [], [], []; reflexivity.
Qed.
Example C117_example :
  row_ready row_1 /\ t_written (w_first row_2) = [1; 2; 3] /\ outstanding 0 EightBytes 0x8000 (w_first row_2) = 1%nat /\
  of_first row_events_3 = concat [row_round] /\ Forall plant_round [row_round] /\ t_taken (w_first row_3) = [1; 2; 3] /\
  option_map t_taken (nth_error (left_ends row_4) 2) = Some [1; 2; 3] /\ t_offered (w_last row_5) = [[1; 2; 3]] /\
  of_last row_events_6 = [] ++ [PInput [0x0309; 0x0201; 0x0003; 0]] ++ [] ++ [PCycle] ++ [PRead 0 1] /\
  t_delivered (w_last row_6) = [1] /\ readable_in (t_coupler (w_last row_6)) 0 = [2; 3].
Proof.
  split; [vm_compute; repeat constructor|]. split; [vm_compute; reflexivity|]. split; [vm_compute; reflexivity|].
  split; [reflexivity|]. split; [constructor; [|constructor]; exists []; eexists; exists [], [], [], []; reflexivity|].
  vm_compute. repeat match goal with |- _ /\ _ => split end; reflexivity.
Qed.
