(** Specification of two programs, each with its own coupler and a serial module, whose serial
    modules are connected by a line (C86).  Each side is a plant as in SpecSystem.v; the line
    keeps the order of the bytes and loses none. *)
From Coq Require Import ZArith List Bool.
From Verif Require Import Base Types Lib Com Fbc SpecCodec SpecSerial SpecCoupler SpecImage SpecSystem.
Import ListNotations.
Local Open Scope Z_scope.

(** The build of a program, the position of its serial module, the length of the process data and
    the offsets. *)
Record side : Set := mk_side {
  s_profile : profile;
  s_module : nat;
  s_length : process_data_length;
  s_input : Z;
  s_output : Z }.

Definition side_start (s : side) (t : plant) : Prop :=
  plant_start (s_module s) (s_length s) (s_input s) (s_output s) t.
Definition side_step (s : side) (t : plant) (e : plant_event) (t' : plant) : Prop :=
  plant_step (s_profile s) (s_module s) (s_length s) (s_input s) (s_output s) t e t'.

(** The bytes on the line: the module of [a] has taken them over from its coupler, the module of
    [b] has not yet offered them to its coupler. *)
Definition on_line (a b : plant) : list Z := skipn (length (concat (t_offered b))) (t_taken a).

(** A module offers only the next bytes on the line. *)
Definition from_line (sender receiver : plant) (e : plant_event) : Prop :=
  match e with
  | POffer seg => exists rest, on_line sender receiver = seg ++ rest
  | _ => True
  end.

(** One of the two sides makes a step, in any order. *)
Inductive link_event : Set :=
| OnLeft (e : plant_event)
| OnRight (e : plant_event).
Inductive link_step (l r : side) : plant * plant -> link_event -> plant * plant -> Prop :=
| K_left a b e a' : from_line b a e -> side_step l a e a' -> link_step l r (a, b) (OnLeft e) (a', b)
| K_right a b e b' : from_line a b e -> side_step r b e b' -> link_step l r (a, b) (OnRight e) (a, b').
Inductive link_runs (l r : side) : plant * plant -> list link_event -> plant * plant -> Prop :=
| KR_nil s : link_runs l r s [] s
| KR_cons s e s1 es s2 : link_step l r s e s1 -> link_runs l r s1 es s2 -> link_runs l r s (e :: es) s2.

(** What happens on one side. *)
Fixpoint left_events (es : list link_event) : list plant_event :=
  match es with
  | [] => []
  | OnLeft e :: es' => e :: left_events es'
  | OnRight _ :: es' => left_events es'
  end.
Fixpoint right_events (es : list link_event) : list plant_event :=
  match es with
  | [] => []
  | OnRight e :: es' => e :: right_events es'
  | OnLeft _ :: es' => right_events es'
  end.

(** Where the bytes written on side [a] are: read by the program of [b], ready to be read there,
    in the module of [b] (at most the segment it has offered last), on the line, in the output
    image of [a], and waiting in the coupler of [a]. *)
Definition accounted (sa sb : side) (a b : plant) : Prop :=
  exists in_module,
    (in_module = [] \/ exists segs, t_offered b = segs ++ [in_module]) /\
    t_written a =
      t_delivered b ++ readable_in (t_coupler b) (s_module sb) ++ in_module ++ on_line a b ++
      on_its_way (s_length sa) (s_output sa) a ++ waiting_in (t_coupler a) (s_module sa).
