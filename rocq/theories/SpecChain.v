(** Specification of three programs in a row (C116): the serial module of the first is connected by a line to the left serial
    module of the second one, which forwards as in SpecRelay.v, and whose right serial module is connected by another line to
    the serial module of the third one. *)
From Coq Require Import ZArith List Bool.
From Verif Require Import Base Types Lib Com Fbc SpecCodec SpecSerial SpecCoupler SpecImage SpecSystem SpecLink SpecRelay.
Import ListNotations.
Local Open Scope Z_scope.

Record chain : Set := mk_chain {
  h_first : plant;
  h_relay : relay;
  h_last : plant }.
Record chain_sides : Set := mk_chain_sides {
  hs_first : side;
  hs_left : side;
  hs_right : side;
  hs_last : side }.

Definition chain_start (n : chain_sides) (s : chain) : Prop :=
  side_start (hs_first n) (h_first s) /\ relay_start (hs_left n) (hs_right n) (h_relay s) /\ side_start (hs_last n) (h_last s).

(** The modules of the program in the middle offer only the next bytes on their lines. *)
Definition from_lines (a b : plant) (s : relay) (e : relay_event) : Prop :=
  match e with
  | LeftModule e => from_line a (y_left s) e
  | RightModule e => from_line b (y_right s) e
  | _ => True
  end.

Inductive chain_event : Set :=
| AtFirst (e : plant_event)
| AtRelay (e : relay_event)
| AtLast (e : plant_event).
Inductive chain_step (n : chain_sides) : chain -> chain_event -> chain -> Prop :=
| H_first a s b e a' : from_line (y_left s) a e -> side_step (hs_first n) a e a' ->
    chain_step n (mk_chain a s b) (AtFirst e) (mk_chain a' s b)
| H_relay a s b e s' : from_lines a b s e -> relay_step (hs_left n) (hs_right n) s e s' ->
    chain_step n (mk_chain a s b) (AtRelay e) (mk_chain a s' b)
| H_last a s b e b' : from_line (y_right s) b e -> side_step (hs_last n) b e b' ->
    chain_step n (mk_chain a s b) (AtLast e) (mk_chain a s b').
Inductive chain_runs (n : chain_sides) : chain -> list chain_event -> chain -> Prop :=
| HR_nil s : chain_runs n s [] s
| HR_cons s e s1 es s2 : chain_step n s e s1 -> chain_runs n s1 es s2 -> chain_runs n s (e :: es) s2.

(** What happens at one place. *)
Definition first_events (es : list chain_event) : list plant_event :=
  flat_map (fun e => match e with AtFirst e => [e] | _ => [] end) es.
Definition relay_events (es : list chain_event) : list relay_event :=
  flat_map (fun e => match e with AtRelay e => [e] | _ => [] end) es.
Definition last_events (es : list chain_event) : list plant_event :=
  flat_map (fun e => match e with AtLast e => [e] | _ => [] end) es.

(** All programs have made two cycles, and nothing has been received. *)
Definition chain_ready (s : chain) : Prop :=
  (2 <= t_cycles (h_first s))%nat /\ (2 <= t_cycles (y_left (h_relay s)))%nat /\ (2 <= t_cycles (h_last s))%nat /\
  t_offered (h_first s) = [] /\ t_offered (y_left (h_relay s)) = [] /\ t_offered (y_right (h_relay s)) = [] /\
  t_offered (h_last s) = [].

(** Where the bytes written by the program of [a] are: with the program of [b], in its coupler, its module (at most the segment
    offered last) or on the line to it; in the output image of the program in the middle, waiting in its coupler, held by it,
    ready to be read, in its module [x] (at most the segment offered last) or on the line to it; in the output image of the
    first program, or waiting in its coupler. *)
Definition passed (sa sx sy sb : side) (a x : plant) (held : list Z) (y b : plant) : Prop :=
  exists in_b in_x,
    (in_b = [] \/ exists segs, t_offered b = segs ++ [in_b]) /\
    (in_x = [] \/ exists segs, t_offered x = segs ++ [in_x]) /\
    t_written a =
      t_delivered b ++ readable_in (t_coupler b) (s_module sb) ++ in_b ++ on_line y b ++
      on_its_way (s_length sy) (s_output sy) y ++ waiting_in (t_coupler y) (s_module sy) ++ held ++
      readable_in (t_coupler x) (s_module sx) ++ in_x ++ on_line a x ++
      on_its_way (s_length sa) (s_output sa) a ++ waiting_in (t_coupler a) (s_module sa).
