(** Specification of a row of any number of programs (C117): between the first and the last program, which have one serial
    module each, stand any number of programs that forward between two serial modules as in SpecRelay.v; a line connects
    each serial module with the one of the neighbour. *)
From Coq Require Import ZArith List Bool.
From Verif Require Import Base Types Lib Com Fbc SpecCodec SpecSerial SpecCoupler SpecImage SpecSystem SpecLink SpecRelay SpecChain.
Import ListNotations.
Local Open Scope Z_scope.

Record row : Set := mk_row {
  w_first : plant;
  w_relays : list relay;
  w_last : plant }.
Record row_sides : Set := mk_row_sides {
  ws_first : side;
  ws_relays : list (side * side);
  ws_last : side }.

Definition row_start (n : row_sides) (s : row) : Prop :=
  side_start (ws_first n) (w_first s) /\
  Forall2 (fun lr y => relay_start (fst lr) (snd lr) y) (ws_relays n) (w_relays s) /\
  side_start (ws_last n) (w_last s).

(** Line [k] connects entry [k] of these two lists. *)
Definition left_ends (s : row) : list plant := w_first s :: map y_right (w_relays s).
Definition right_ends (s : row) : list plant := map y_left (w_relays s) ++ [w_last s].

Definition replace_at {A} (k : nat) (x : A) (l : list A) : list A := firstn k l ++ x :: skipn (S k) l.

Inductive row_event : Set :=
| OfFirst (e : plant_event)
| OfRelay (k : nat) (e : relay_event)
| OfLast (e : plant_event).
Inductive row_step (n : row_sides) : row -> row_event -> row -> Prop :=
| W_first a ys b e a' x : nth_error (right_ends (mk_row a ys b)) 0 = Some x -> from_line x a e -> side_step (ws_first n) a e a' ->
    row_step n (mk_row a ys b) (OfFirst e) (mk_row a' ys b)
| W_relay a ys b k e l r y y' x z : nth_error (ws_relays n) k = Some (l, r) -> nth_error ys k = Some y ->
    nth_error (left_ends (mk_row a ys b)) k = Some x -> nth_error (right_ends (mk_row a ys b)) (S k) = Some z ->
    from_lines x z y e -> relay_step l r y e y' ->
    row_step n (mk_row a ys b) (OfRelay k e) (mk_row a (replace_at k y' ys) b)
| W_last a ys b e b' x : nth_error (left_ends (mk_row a ys b)) (length ys) = Some x -> from_line x b e -> side_step (ws_last n) b e b' ->
    row_step n (mk_row a ys b) (OfLast e) (mk_row a ys b').
Inductive row_runs (n : row_sides) : row -> list row_event -> row -> Prop :=
| WR_nil s : row_runs n s [] s
| WR_cons s e s1 es s2 : row_step n s e s1 -> row_runs n s1 es s2 -> row_runs n s (e :: es) s2.

(** What happens at one place. *)
Definition of_first (es : list row_event) : list plant_event := flat_map (fun e => match e with OfFirst e => [e] | _ => [] end) es.
Definition of_relay (k : nat) (es : list row_event) : list relay_event :=
  flat_map (fun e => match e with OfRelay j e => if Nat.eqb j k then [e] else [] | _ => [] end) es.
Definition of_last (es : list row_event) : list plant_event := flat_map (fun e => match e with OfLast e => [e] | _ => [] end) es.

(** All programs have made two cycles, and nothing has been received. *)
Definition settled (t : plant) : Prop := (2 <= t_cycles t)%nat /\ t_offered t = [].
Definition row_ready (s : row) : Prop :=
  settled (w_first s) /\ Forall (fun y => settled (y_left y) /\ settled (y_right y)) (w_relays s) /\ settled (w_last s).

(** Where [bytes] are that were written by the program of [a]: beyond the next program, with the next program, in its coupler,
    its module (at most the segment offered last), on the line to it, in the output image of [a] or waiting in the coupler of
    [a].  Beyond the last program nothing can be: its program has read the bytes. *)
Definition before (sa sx : side) (a x : plant) (in_x : list Z) : list Z :=
  readable_in (t_coupler x) (s_module sx) ++ in_x ++ on_line a x ++
  on_its_way (s_length sa) (s_output sa) a ++ waiting_in (t_coupler a) (s_module sa).
Definition last_segment (x : plant) (in_x : list Z) : Prop := in_x = [] \/ exists segs, t_offered x = segs ++ [in_x].
Fixpoint along (sa : side) (a : plant) (ys : list (side * side * relay)) (sb : side) (b : plant) (bytes : list Z) : Prop :=
  match ys with
  | [] => exists in_b, last_segment b in_b /\ bytes = t_delivered b ++ before sa sb a b in_b
  | (l, r, y) :: rest => exists beyond in_y, last_segment (y_left y) in_y /\ along r (y_right y) rest sb b beyond /\
      bytes = beyond ++ y_to_right y ++ before sa l a (y_left y) in_y
  end.

(** The row seen from its other end. *)
Definition mirror (y : side * side * relay) : side * side * relay :=
  (snd (fst y), fst (fst y), mk_relay (y_right (snd y)) (y_left (snd y)) (y_to_left (snd y)) (y_to_right (snd y))).

(** Program [k] forwards: line [k] carries all that the left end had taken over, program [k] gets a fresh input image and makes
    a cycle, reads all from its left module, writes all it holds to its right module, and makes as many rounds as segments are
    then outstanding; with anything else in between. *)
Definition forwards (n : row_sides) (k : nat) (s s' : row) : Prop :=
  exists l r a es1 s1 x1 es2 s2 y2 size s3 es3 s4 y4 s5 y5 es5 x input y z rounds,
    nth_error (ws_relays n) k = Some (l, r) /\ nth_error (left_ends s) k = Some a /\
    row_runs n s es1 s1 /\ nth_error (right_ends s1) k = Some x1 /\ (length (t_taken a) <= length (concat (t_offered x1)))%nat /\
    row_runs n s1 es2 s2 /\ relay_left l r (of_relay k es2) = x ++ [PInput input] ++ y ++ [PCycle] ++ z /\
    row_step n s2 (OfRelay k (FetchLeft size)) s3 /\ nth_error (w_relays s2) k = Some y2 /\
    (length (readable_in (t_coupler (y_left y2)) (s_module l)) <= size)%nat /\
    row_runs n s3 es3 s4 /\ nth_error (w_relays s4) k = Some y4 /\
    row_step n s4 (OfRelay k (SendRight (y_to_right y4))) s5 /\ nth_error (w_relays s5) k = Some y5 /\
    row_runs n s5 es5 s' /\ relay_right l r (of_relay k es5) = concat rounds /\ Forall plant_round rounds /\
    (outstanding (s_module r) (s_length r) (s_output r) (y_right y5) <= length rounds)%nat.
(** The programs from [k] up to before [m] forward one after the other. *)
Inductive all_forward (n : row_sides) : nat -> nat -> row -> row -> Prop :=
| AF_done k s : all_forward n k k s s
| AF_next k m s s1 s2 : forwards n k s s1 -> all_forward n (S k) m s1 s2 -> all_forward n k m s s2.
