(** Specification of a network of digital control programs that are restarted and whose writes are interrupted (C124). *)
From Coq Require Import ZArith List Bool.
From Verif Require Import Base F32 Types Lib Com Fbc SpecCodec SpecSerial SpecCoupler SpecImage SpecFeedback SpecKeep SpecIdle SpecOutcome SpecLossless SpecMachine
  SpecOutage SpecNetwork.
Import ListNotations.
Local Open Scope Z_scope.

(** The network of C123 without any coupler, disturbed as in C122.  An event concerns one of the machines: a round whose outputs are all
    switched, a round of whose outputs some are switched, or a restart, which costs the commands that were to be obeyed next.  The other
    machines read the outputs as they are.  The run shows the outputs of that machine after each event. *)
Inductive troubled {state} (wire : wiring) (P : nat -> program state) :
  (nat -> machine state) -> list (nat * event state (list bool)) -> list (list bool) -> Prop :=
| Troubled_0 ms : troubled wire P ms [] []
| Troubled_whole ms p x events outs :
    length x = length (sensors (P p)) -> wired wire p x ms ->
    troubled wire P (at_index ms p (machine_round (P p) (ms p) x)) events outs ->
    troubled wire P ms ((p, Whole x) :: events) (m_outs (machine_round (P p) (ms p) x) :: outs)
| Troubled_broken ms p x some events outs :
    length x = length (sensors (P p)) -> wired wire p x ms ->
    some_of (m_outs (ms p)) (m_outs (machine_round (P p) (ms p) x)) some ->
    troubled wire P (at_index ms p (mk_machine (fst (step (P p) (m_state (ms p)) x)) some (snd (step (P p) (m_state (ms p)) x)))) events outs ->
    troubled wire P ms ((p, Broken x) :: events) (some :: outs)
| Troubled_restart ms p s events outs :
    troubled wire P (at_index ms p (mk_machine s (m_outs (ms p)) [])) events outs ->
    troubled wire P ms ((p, Restart s) :: events) (m_outs (ms p) :: outs).

(** The network with couplers; [new p] is the coupler of program [p] as it is when the program starts. *)
Inductive faulty {state} (prof : profile) (wire : wiring) (P : nat -> program state) (in_offs out_offs : nat -> list Z) (new : nat -> coupler) :
  (nat -> station state) -> list (nat * event state (list Z)) -> list (list Z) -> Prop :=
| Faulty_0 ts : faulty prof wire P in_offs out_offs new ts [] []
| Faulty_whole ts p aside input c1 image1 bits events images :
    loops prof (t_coupler (ts p)) (t_image (ts p)) (requested_by (actors (P p)) (t_commands (ts p)) ++ aside ++ [Tick input]) c1 image1 ->
    between_ticks aside -> (forall a v, In (a, v) (requests aside) -> ~ In a (actors (P p))) ->
    connected wire P in_offs out_offs p input ts ->
    Forall2 (sees c1) (sensors (P p)) bits ->
    faulty prof wire P in_offs out_offs new
      (at_index ts p (mk_station (fst (step (P p) (t_state (ts p)) bits)) (snd (step (P p) (t_state (ts p)) bits)) c1 image1)) events images ->
    faulty prof wire P in_offs out_offs new ts ((p, Whole input) :: events) (image1 :: images)
| Faulty_broken ts p aside input c1 image1 bits image' events images :
    loops prof (t_coupler (ts p)) (t_image (ts p)) (requested_by (actors (P p)) (t_commands (ts p)) ++ aside ++ [Tick input]) c1 image1 ->
    between_ticks aside -> (forall a v, In (a, v) (requests aside) -> ~ In a (actors (P p))) ->
    connected wire P in_offs out_offs p input ts ->
    Forall2 (sees c1) (sensors (P p)) bits ->
    partly (t_image (ts p)) image1 image' ->
    faulty prof wire P in_offs out_offs new
      (at_index ts p (mk_station (fst (step (P p) (t_state (ts p)) bits)) (snd (step (P p) (t_state (ts p)) bits)) c1 image')) events images ->
    faulty prof wire P in_offs out_offs new ts ((p, Broken input) :: events) (image' :: images)
| Faulty_restart ts p s events images :
    faulty prof wire P in_offs out_offs new (at_index ts p (mk_station s [] (new p) (t_image (ts p)))) events images ->
    faulty prof wire P in_offs out_offs new ts ((p, Restart s) :: events) (t_image (ts p) :: images).

(** A program whose coupler can be made, with the channels where it expects them. *)
Definition set_up {state} (P : program state) (in_offs out_offs : list Z) (new : coupler) : Prop :=
  (exists cfg, rust_config cfg /\ coupler_new cfg = Ok new) /\
  Forall2 (sensor_at new) (sensors P) in_offs /\ Forall2 (actor_at new) (actors P) out_offs /\ NoDup (actors P).

(** The stations that such a network can come to from the stations [ts0].  The devices have a fixed number of 16 bit registers. *)
Inductive comes_to {state} (prof : profile) (P : nat -> program state) (new : nat -> coupler) (ts0 : nat -> station state) :
  (nat -> station state) -> Prop :=
| Comes_start : comes_to prof P new ts0 ts0
| Comes_whole ts p aside input c1 image1 bits :
    comes_to prof P new ts0 ts ->
    loops prof (t_coupler (ts p)) (t_image (ts p)) (requested_by (actors (P p)) (t_commands (ts p)) ++ aside ++ [Tick input]) c1 image1 ->
    between_ticks aside -> Forall2 (sees c1) (sensors (P p)) bits ->
    comes_to prof P new ts0
      (at_index ts p (mk_station (fst (step (P p) (t_state (ts p)) bits)) (snd (step (P p) (t_state (ts p)) bits)) c1 image1))
| Comes_broken ts p aside input c1 image1 bits image' :
    comes_to prof P new ts0 ts ->
    loops prof (t_coupler (ts p)) (t_image (ts p)) (requested_by (actors (P p)) (t_commands (ts p)) ++ aside ++ [Tick input]) c1 image1 ->
    between_ticks aside -> Forall2 (sees c1) (sensors (P p)) bits ->
    partly (t_image (ts p)) image1 image' -> length image' = length (t_image (ts p)) -> Forall is_u16 image' ->
    comes_to prof P new ts0
      (at_index ts p (mk_station (fst (step (P p) (t_state (ts p)) bits)) (snd (step (P p) (t_state (ts p)) bits)) c1 image'))
| Comes_restart ts p s :
    comes_to prof P new ts0 ts ->
    comes_to prof P new ts0 (at_index ts p (mk_station s [] (new p) (t_image (ts p)))).
(** A rack and output registers with which a program can start. *)
Definition can_start (new : coupler) (image : list Z) : Prop :=
  byte_wide new /\ outputs_packed new /\ Forall is_u16 image /\ outputs_readable new image /\ presets_sendable new image.
