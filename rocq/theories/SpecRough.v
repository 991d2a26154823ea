(** Specification for C104: two programs connected by a serial line (C86), both with disturbed exchanges and interrupted writes (C102). *)
From Coq Require Import ZArith List Bool.
From Verif Require Import Base F32 Types Lib Com Fbc SpecCodec SpecSerial SpecCoupler SpecImage SpecSystem SpecLink SpecFault SpecOrdered.
Import ListNotations.
Local Open Scope Z_scope.

Definition rough_side_step (s : side) (t : plant) (e : torn_event) (t' : plant) : Prop :=
  torn_step (s_profile s) (s_module s) (s_length s) (s_input s) (s_output s) t e t' /\ header_last (s_length s) (s_output s) e.

(** A module offers only the next bytes on the line. *)
Definition rough_from_line (sender receiver : plant) (e : torn_event) : Prop :=
  match e with Disturbed (Undisturbed e') => from_line sender receiver e' | _ => True end.

(** Does a program forget something it has computed (as in C69)? *)
Definition side_forgets (s : side) (t : plant) (e : torn_event) : nat :=
  match e with Disturbed e' => forgotten (s_length s) (s_output s) t e' | PartlyWritten _ => 0 end.

Inductive rough_event : Set :=
| RoughLeft (e : torn_event)
| RoughRight (e : torn_event).

(** Histories, with the number of times the left and the right program forgot something. *)
Inductive rough_runs (l r : side) : plant * plant -> list rough_event -> plant * plant -> nat -> nat -> Prop :=
| RO_nil s : rough_runs l r s [] s 0 0
| RO_left a b e a' es s n m : rough_from_line b a e -> rough_side_step l a e a' -> rough_runs l r (a', b) es s n m ->
    rough_runs l r (a, b) (RoughLeft e :: es) s (side_forgets l a e + n) m
| RO_right a b e b' es s n m : rough_from_line a b e -> rough_side_step r b e b' -> rough_runs l r (a, b') es s n m ->
    rough_runs l r (a, b) (RoughRight e :: es) s n (side_forgets r b e + m).

Fixpoint rough_left (es : list rough_event) : list torn_event :=
  match es with
  | [] => []
  | RoughLeft e :: es' => e :: rough_left es'
  | RoughRight _ :: es' => rough_left es'
  end.
Fixpoint rough_right (es : list rough_event) : list torn_event :=
  match es with
  | [] => []
  | RoughRight e :: es' => e :: rough_right es'
  | RoughLeft _ :: es' => rough_right es'
  end.

(** Where the bytes written on side [a] are (as in C86), if the program of [a] has forgotten [n] images. *)
Definition rough_accounted (sa sb : side) (a b : plant) (n : nat) : Prop :=
  exists in_module,
    (in_module = [] \/ exists segs, t_offered b = segs ++ [in_module]) /\
    let there := t_delivered b ++ readable_in (t_coupler b) (s_module sb) ++ in_module ++ on_line a b ++
                 on_its_way (s_length sa) (s_output sa) a ++ waiting_in (t_coupler a) (s_module sa) in
    subsequence there (t_written a) /\ (length (t_written a) <= length there + n * payload_size (s_length sa))%nat /\
    (n = 0%nat -> t_written a = there).
