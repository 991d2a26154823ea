(** Specification of a network of digital control programs (C123). *)
From Coq Require Import ZArith List Bool.
From Verif Require Import Base F32 Types Lib Com Fbc SpecCodec SpecSerial SpecCoupler SpecImage SpecFeedback SpecKeep SpecIdle SpecOutcome SpecLossless SpecMachine.
Import ListNotations.
Local Open Scope Z_scope.

(** Programs, each with a rack of its own, numbered in some way.  [wire p n = Some (q, k)]: input [n] of program [p] is connected to
    output [k] of program [q]; the other inputs come from elsewhere. *)
Definition wiring : Type := nat -> nat -> option (nat * nat).
Definition at_index {A} (f : nat -> A) (p : nat) (a : A) : nat -> A := fun q => if Nat.eqb q p then a else f q.

(** The network without any coupler: a machine for each program, with a state, outputs and the commands of its next round.  A round of a
    machine reads its inputs from the outputs of the others, obeys the commands of its round before and computes the next ones.
    The machines make their rounds in any order.  The run shows which machine made a round and its outputs. *)
Record machine (state : Type) : Type := mk_machine { m_state : state; m_outs : list bool; m_commands : list (option bool) }.
Arguments mk_machine {state}. Arguments m_state {state}. Arguments m_outs {state}. Arguments m_commands {state}.
Definition wired {state} (wire : wiring) (p : nat) (x : list bool) (ms : nat -> machine state) : Prop :=
  forall n q k, (n < length x)%nat -> wire p n = Some (q, k) -> nth_error x n = nth_error (m_outs (ms q)) k.
Definition machine_round {state} (P : program state) (m : machine state) (x : list bool) : machine state :=
  mk_machine (fst (step P (m_state m) x)) (obey (m_outs m) (m_commands m)) (snd (step P (m_state m) x)).
Inductive machines {state} (wire : wiring) (P : nat -> program state) :
  (nat -> machine state) -> list (nat * list bool) -> list (list bool) -> Prop :=
| Machines_0 ms : machines wire P ms [] []
| Machines_S ms p x events outs :
    length x = length (sensors (P p)) -> wired wire p x ms ->
    machines wire P (at_index ms p (machine_round (P p) (ms p) x)) events outs ->
    machines wire P ms ((p, x) :: events) (m_outs (machine_round (P p) (ms p) x) :: outs).

(** The network with couplers.  A station is a program with its state and next commands, its coupler and its output registers.  A round is as
    in C120; the input image has the bits of the connected outputs. *)
Record station (state : Type) : Type := mk_station { t_state : state; t_commands : list (option bool); t_coupler : coupler; t_image : list Z }.
Arguments mk_station {state}. Arguments t_state {state}. Arguments t_commands {state}. Arguments t_coupler {state}. Arguments t_image {state}.
Definition connected {state} (wire : wiring) (P : nat -> program state) (in_offs out_offs : nat -> list Z) (p : nat) (input : list Z)
  (ts : nat -> station state) : Prop :=
  forall n q k a off a' off', wire p n = Some (q, k) ->
    nth_error (sensors (P p)) n = Some a -> nth_error (in_offs p) n = Some off ->
    nth_error (actors (P q)) k = Some a' -> nth_error (out_offs q) k = Some off' ->
    input_bit input off (a_channel a) = output_bit (t_image (ts q)) off' (a_channel a').
Inductive stations {state} (prof : profile) (wire : wiring) (P : nat -> program state) (in_offs out_offs : nat -> list Z) :
  (nat -> station state) -> list (nat * list Z) -> list (list Z) -> Prop :=
| Stations_0 ts : stations prof wire P in_offs out_offs ts [] []
| Stations_S ts p aside input c1 image1 bits events images :
    loops prof (t_coupler (ts p)) (t_image (ts p)) (requested_by (actors (P p)) (t_commands (ts p)) ++ aside ++ [Tick input]) c1 image1 ->
    between_ticks aside -> (forall a v, In (a, v) (requests aside) -> ~ In a (actors (P p))) ->
    connected wire P in_offs out_offs p input ts ->
    Forall2 (sees c1) (sensors (P p)) bits ->
    stations prof wire P in_offs out_offs
      (at_index ts p (mk_station (fst (step (P p) (t_state (ts p)) bits)) (snd (step (P p) (t_state (ts p)) bits)) c1 image1)) events images ->
    stations prof wire P in_offs out_offs ts ((p, input) :: events) (image1 :: images).

(** Every wire ends at an output that exists. *)
Definition ends {state} (wire : wiring) (P : nat -> program state) : Prop :=
  forall p n q k, wire p n = Some (q, k) -> (k < length (actors (P q)))%nat.
(** The station as a machine. *)
Definition as_machine {state} (P : program state) (out_offs : list Z) (t : station state) : machine state :=
  mk_machine (t_state t) (bits_at output_bit (t_image t) (actors P) out_offs) (t_commands t).
(** A station that is ready: its coupler can be in use, the channels are where the program expects them, and no request is pending for
    its outputs. *)
Definition ready {state} (prof : profile) (P : program state) (in_offs out_offs : list Z) (t : station state) : Prop :=
  reachable prof (t_coupler t) /\ Forall2 (sensor_at (t_coupler t)) (sensors P) in_offs /\ Forall2 (actor_at (t_coupler t)) (actors P) out_offs /\
  NoDup (actors P) /\ forall a, In a (actors P) -> requested (t_coupler t) a = None.

(** A station whose coupler has made a cycle, whose result is in the output registers. *)
Definition started {state} (prof : profile) (t : station state) : Prop :=
  exists c0 input0 output0, reachable prof c0 /\ byte_wide c0 /\ cycle prof c0 input0 output0 (t_coupler t) (Ok (t_image t)).
(** The wiring can be made: whatever the outputs are, there is an input image for each program that has the bits of the connected outputs
    and that the coupler of the program can read. *)
Definition can_be_wired {state} (wire : wiring) (P : nat -> program state) (in_offs out_offs : nat -> list Z) (ts : nat -> station state) : Prop :=
  forall (now : nat -> station state) p,
    exists input, Forall is_u16 input /\ inputs_readable (t_coupler (ts p)) input /\ connected wire P in_offs out_offs p input now.
