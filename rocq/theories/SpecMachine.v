(** Specification of a digital control program (C120). *)
From Coq Require Import ZArith List Bool.
From Verif Require Import Base F32 Types Lib Com Fbc SpecCodec SpecSerial SpecCoupler SpecImage SpecFeedback SpecKeep SpecLossless.
Import ListNotations.
Local Open Scope Z_scope.

(** A program: channels it reads, channels it switches and what it computes in each round from its state and the states of its
    inputs, which is its next state and a command for each of its outputs: on, off or no command. *)
Record program (state : Type) : Type := mk_program {
  sensors : list address;
  actors : list address;
  step : state -> list bool -> state * list (option bool) }.
Arguments sensors {state}. Arguments actors {state}. Arguments step {state}.

(** The outputs after commands. *)
Fixpoint obey (outs : list bool) (commands : list (option bool)) : list bool :=
  match outs, commands with
  | _ :: outs', Some b :: commands' => b :: obey outs' commands'
  | b :: outs', None :: commands' => b :: obey outs' commands'
  | _, _ => outs
  end.

(** What the program is meant to do, without any coupler: from a state, outputs and commands that are still to be obeyed, and the
    inputs of some rounds, the outputs of these rounds. *)
Fixpoint meant {state} (P : program state) (s : state) (outs : list bool) (commands : list (option bool)) (ins : list (list bool)) : list (list bool) :=
  match ins with
  | [] => []
  | x :: ins' => obey outs commands :: meant P (fst (step P s x)) (obey outs commands) (snd (step P s x)) ins'
  end.

(** The program with a coupler.  A round: the program requests its commands, does other things that do not concern its outputs
    (requests for other outputs, serial bytes, cycles with damaged images), makes a cycle with the input image that it read and the
    output image of the round before, looks at its inputs and computes the commands of the next round. *)
Definition requested_by (actors : list address) (commands : list (option bool)) : list action :=
  flat_map (fun ac => match snd ac with Some b => [Request (fst ac) (Bit b)] | None => [] end) (combine actors commands).
Definition sees (c : coupler) (a : address) (b : bool) : Prop := cell (inputs c) (a_module a) (a_channel a) = Some (Bit b).
Inductive rounds {state} (prof : profile) (P : program state) : state -> list (option bool) -> coupler -> list Z -> list (list Z) -> list (list Z) -> Prop :=
| Rounds_0 s commands c image : rounds prof P s commands c image [] []
| Rounds_S s commands c image aside input c1 image1 bits inputs images :
    loops prof c image (requested_by (actors P) commands ++ aside ++ [Tick input]) c1 image1 ->
    between_ticks aside -> (forall a v, In (a, v) (requests aside) -> ~ In a (actors P)) ->
    Forall2 (sees c1) (sensors P) bits ->
    rounds prof P (fst (step P s bits)) (snd (step P s bits)) c1 image1 inputs images ->
    rounds prof P s commands c image (input :: inputs) (image1 :: images).

(** Digital channels of a coupler and their places in the images. *)
Definition input_bit (image : list Z) (off : Z) (k : nat) : bool := bit (nth (Z.to_nat (off / 16)) image 0) (Z.to_nat (off mod 16) + k).
Definition sensor_at (c : coupler) (a : address) (off : Z) : Prop :=
  exists v ch o, module_at c (a_module a) (MDI v ch) o /\ mo_input o = Some off /\ placed off (input_bytes (MDI v ch)) /\ (a_channel a < channels (MDI v ch))%nat.
Definition actor_at (c : coupler) (a : address) (off : Z) : Prop :=
  exists m o n, alone c (a_module a) m o off /\ digital_outputs m = Some n /\ (a_channel a < n)%nat.
Definition bits_at (at_place : list Z -> Z -> nat -> bool) (image : list Z) (channels : list address) (offs : list Z) : list bool :=
  map (fun p => at_place image (snd p) (a_channel (fst p))) (combine channels offs).
