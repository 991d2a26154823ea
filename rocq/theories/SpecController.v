(** Specification of a control program that works with values of any kind (C121). *)
From Coq Require Import ZArith List Bool.
From Verif Require Import Base F32 Types Lib Com Fbc SpecCodec SpecSerial SpecCoupler SpecImage SpecFeedback SpecKeep SpecLossless SpecTerminal SpecWire.
Import ListNotations.
Local Open Scope Z_scope.

(** A channel, the module it belongs to and the place of the module in the image. *)
Record place : Type := mk_place { p_address : address; p_module : module; p_offset : Z }.

(** A program: the channels it watches, the channels it drives and what it computes in each round from its state and the values of
    the watched channels, which is its next state and a value for each of the driven channels. *)
Record controller (state : Type) : Type := mk_controller {
  watched : list place;
  driven : list place;
  control : state -> list channel_value -> state * list channel_value }.
Arguments watched {state}. Arguments driven {state}. Arguments control {state}.

(** What it is meant to do, without any coupler: the output registers of a round carry the values it computed before, and it
    computes the next ones from the physical values that are in the input registers. *)
Definition sent_as (image : list Z) (p : place) (v : channel_value) : Prop :=
  carries (p_module p) (a_channel (p_address p)) v (registers_at 0x0800 image (p_offset p)).
Definition read_as (image : list Z) (p : place) (v : channel_value) : Prop :=
  physical_input (p_module p) (a_channel (p_address p)) (registers_at 0 image (p_offset p)) v.
Inductive controls {state} (P : controller state) : state -> list channel_value -> list (list Z) -> list (list Z) -> Prop :=
| Controls_0 s values : controls P s values [] []
| Controls_S s values input image seen inputs images :
    Forall2 (sent_as image) (driven P) values -> Forall2 (read_as input) (watched P) seen ->
    controls P (fst (control P s seen)) (snd (control P s seen)) inputs images ->
    controls P s values (input :: inputs) (image :: images).

(** The program with a coupler.  A round: the program requests a value for each of its outputs, does other things that do not concern
    them (requests for other outputs, serial bytes, cycles with damaged images), makes a cycle with the input image that it read
    and the output image of the round before, looks at its inputs and computes the values of the next round. *)
Definition requested_values (ps : list place) (values : list channel_value) : list action :=
  map (fun pv => Request (p_address (fst pv)) (snd pv)) (combine ps values).
Definition shows (c : coupler) (p : place) (v : channel_value) : Prop := cell (inputs c) (a_module (p_address p)) (a_channel (p_address p)) = Some v.
Inductive control_rounds {state} (prof : profile) (P : controller state) :
  state -> list channel_value -> coupler -> list Z -> list (list Z) -> list (list Z) -> Prop :=
| Control_0 s values c image : control_rounds prof P s values c image [] []
| Control_S s values c image aside input c1 image1 seen inputs images :
    length values = length (driven P) ->
    loops prof c image (requested_values (driven P) values ++ aside ++ [Tick input]) c1 image1 ->
    between_ticks aside -> (forall a v, In (a, v) (requests aside) -> ~ In a (map p_address (driven P))) ->
    Forall2 (shows c1) (watched P) seen ->
    control_rounds prof P (fst (control P s seen)) (snd (control P s seen)) c1 image1 inputs images ->
    control_rounds prof P s values c image (input :: inputs) (image1 :: images).

(** The places are those of the coupler. *)
Definition watched_at (c : coupler) (p : place) : Prop :=
  exists o, module_at c (a_module (p_address p)) (p_module p) o /\ is_serial (p_module p) = false /\ mo_input o = Some (p_offset p) /\
    placed (p_offset p) (input_bytes (p_module p)) /\ (a_channel (p_address p) < shown_inputs (p_module p))%nat.
Definition driven_at (c : coupler) (p : place) : Prop :=
  exists o, alone c (a_module (p_address p)) (p_module p) o (p_offset p) /\ (a_channel (p_address p) < channels (p_module p))%nat.

(** Values that the driven channels accept. *)
Definition sendable (ps : list place) (values : list channel_value) : Prop :=
  Forall2 (fun p v => can_output (p_module p) v /\ rust_value v) ps values.
