(** Specification of a digital control program that is disturbed (C122). *)
From Coq Require Import ZArith List Bool.
From Verif Require Import Base F32 Types Lib Com Fbc SpecCodec SpecSerial SpecCoupler SpecImage SpecFeedback SpecKeep SpecIdle SpecOutcome SpecLossless SpecMachine.
Import ListNotations.
Local Open Scope Z_scope.

(** What can happen: a round whose output image arrives, a round whose output image arrives only in part (or not at all), and a restart of
    the program with some state. *)
Inductive event (state input : Type) : Type :=
| Whole (x : input)
| Broken (x : input)
| Restart (s : state).
Arguments Whole {state input}. Arguments Broken {state input}. Arguments Restart {state input}.
Definition with_input {state input input'} (f : input -> input') (e : event state input) : event state input' :=
  match e with Whole x => Whole (f x) | Broken x => Broken (f x) | Restart s => Restart s end.

(** Each of the states [after] is the one in [old] or the one in [new]. *)
Definition some_of (old new after : list bool) : Prop :=
  length after = length old /\
  forall n b, nth_error after n = Some b -> nth_error old n = Some b \/ nth_error new n = Some b.

(** What the program is meant to do, without any coupler (see [meant] for the undisturbed case): the outputs of the rounds.  After a round
    that arrives in part, each output has obeyed its command or kept its state.  A restart costs the commands that were to be
    obeyed next. *)
Inductive copes {state} (P : program state) : state -> list bool -> list (option bool) -> list (event state (list bool)) -> list (list bool) -> Prop :=
| Copes_0 s outs commands : copes P s outs commands [] []
| Copes_whole s outs commands x events later :
    copes P (fst (step P s x)) (obey outs commands) (snd (step P s x)) events later ->
    copes P s outs commands (Whole x :: events) (obey outs commands :: later)
| Copes_broken s outs commands x outs' events later :
    some_of outs (obey outs commands) outs' ->
    copes P (fst (step P s x)) outs' (snd (step P s x)) events later ->
    copes P s outs commands (Broken x :: events) (outs' :: later)
| Copes_restart s outs commands s' events later :
    copes P s' outs [] events later ->
    copes P s outs commands (Restart s' :: events) later.

(** The program with a coupler.  [image] are the output registers, [new] is the coupler as it is when the program starts.  A round is as in
    C120; each register of the returned image is written or not. *)
Definition partly (old new after : list Z) : Prop :=
  forall j, nth j after 0 = nth j old 0 \/ nth j after 0 = nth j new 0.
Inductive disturbed {state} (prof : profile) (P : program state) (new : coupler) :
  state -> list (option bool) -> coupler -> list Z -> list (event state (list Z)) -> list (list Z) -> Prop :=
| Disturbed_0 s commands c image : disturbed prof P new s commands c image [] []
| Disturbed_whole s commands c image aside input c1 image1 bits events images :
    loops prof c image (requested_by (actors P) commands ++ aside ++ [Tick input]) c1 image1 ->
    between_ticks aside -> (forall a v, In (a, v) (requests aside) -> ~ In a (actors P)) ->
    Forall2 (sees c1) (sensors P) bits ->
    disturbed prof P new (fst (step P s bits)) (snd (step P s bits)) c1 image1 events images ->
    disturbed prof P new s commands c image (Whole input :: events) (image1 :: images)
| Disturbed_broken s commands c image aside input c1 image1 bits image' events images :
    loops prof c image (requested_by (actors P) commands ++ aside ++ [Tick input]) c1 image1 ->
    between_ticks aside -> (forall a v, In (a, v) (requests aside) -> ~ In a (actors P)) ->
    Forall2 (sees c1) (sensors P) bits ->
    partly image image1 image' ->
    disturbed prof P new (fst (step P s bits)) (snd (step P s bits)) c1 image' events images ->
    disturbed prof P new s commands c image (Broken input :: events) (image' :: images)
| Disturbed_restart s commands c image s' events images :
    disturbed prof P new s' [] new image events images ->
    disturbed prof P new s commands c image (Restart s' :: events) images.

(** The couplers and output registers that a disturbed program can find itself with.  The device has a fixed number of 16 bit registers. *)
Inductive situation {state} (prof : profile) (P : program state) (new : coupler) (image0 : list Z) : coupler -> list Z -> Prop :=
| Situation_start : situation prof P new image0 new image0
| Situation_whole c image commands aside input c1 image1 :
    situation prof P new image0 c image ->
    loops prof c image (requested_by (actors P) commands ++ aside ++ [Tick input]) c1 image1 -> between_ticks aside ->
    situation prof P new image0 c1 image1
| Situation_broken c image commands aside input c1 image1 image' :
    situation prof P new image0 c image ->
    loops prof c image (requested_by (actors P) commands ++ aside ++ [Tick input]) c1 image1 -> between_ticks aside ->
    partly image image1 image' -> length image' = length image -> Forall is_u16 image' ->
    situation prof P new image0 c1 image'
| Situation_restart c image : situation prof P new image0 c image -> situation prof P new image0 new image.
(** The presets of the counters in an output image are ones that can be sent. *)
Definition presets_sendable (c : coupler) (image : list Z) : Prop :=
  forall i ch o off k, module_at c i (MFCNT ch) o -> mo_output o = Some off -> (k < 2)%nat -> preset_micros image off k <= 8388607.
