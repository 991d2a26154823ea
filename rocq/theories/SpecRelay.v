(** Specification of a program that forwards what it receives from one serial module of its coupler
    to another one, in both directions (C114). *)
From Coq Require Import ZArith List Bool.
From Verif Require Import Base Types Lib Com Fbc SpecCodec SpecSerial SpecCoupler SpecImage SpecSystem SpecLink.
Import ListNotations.
Local Open Scope Z_scope.

(** The coupler and one of its serial modules form a plant as in SpecSystem.v, the coupler and the
    other one a second plant; the coupler and the images are the same in both.  The program holds
    bytes on their way to the right and to the left module. *)
Record relay : Set := mk_relay {
  y_left : plant;
  y_right : plant;
  y_to_right : list Z;
  y_to_left : list Z }.

Definition shared (a b : plant) : Prop :=
  t_coupler a = t_coupler b /\ t_latch a = t_latch b /\ t_image a = t_image b /\ t_register a = t_register b.

Definition relay_start (l r : side) (s : relay) : Prop :=
  s_module l <> s_module r /\ s_profile l = s_profile r /\
  side_start l (y_left s) /\ side_start r (y_right s) /\ shared (y_left s) (y_right s) /\
  y_to_right s = [] /\ y_to_left s = [].

(** What the program does has an effect in both plants. *)
Definition in_both (l r : side) (a b : plant) (e : plant_event) (a' b' : plant) : Prop :=
  side_step l a e a' /\ side_step r b e b' /\ shared a' b'.

(** What the program does with other modules, its cycles and the exchange of the process images. *)
Definition elsewhere (l r : side) (e : plant_event) : Prop :=
  match e with
  | PSet a _ => a_module a <> s_module l /\ a_module a <> s_module r
  | PRead j _ | PWrite j _ => j <> s_module l /\ j <> s_module r
  | PInput _ | PCycle | POutput => True
  | PTake | POffer _ | PClear | PStatus _ _ => False
  end.
(** What the serial modules do. *)
Definition by_module (e : plant_event) : Prop :=
  match e with PTake | POffer _ | PClear | PStatus _ _ => True | _ => False end.

(** The program reads from one serial module and writes what it has read to the other one. *)
Inductive relay_event : Set :=
| Program (e : plant_event)
| FetchLeft (size : nat)
| FetchRight (size : nat)
| SendRight (bytes : list Z)
| SendLeft (bytes : list Z)
| LeftModule (e : plant_event)
| RightModule (e : plant_event).

Inductive relay_step (l r : side) : relay -> relay_event -> relay -> Prop :=
| Y_program a b x y e a' b' : elsewhere l r e -> in_both l r a b e a' b' ->
    relay_step l r (mk_relay a b x y) (Program e) (mk_relay a' b' x y)
| Y_fetch_left a b x y size bytes a' b' : snd (coupler_read (t_coupler a) (s_module l) size) = Some bytes ->
    in_both l r a b (PRead (s_module l) size) a' b' ->
    relay_step l r (mk_relay a b x y) (FetchLeft size) (mk_relay a' b' (x ++ bytes) y)
| Y_fetch_right a b x y size bytes a' b' : snd (coupler_read (t_coupler b) (s_module r) size) = Some bytes ->
    in_both l r a b (PRead (s_module r) size) a' b' ->
    relay_step l r (mk_relay a b x y) (FetchRight size) (mk_relay a' b' x (y ++ bytes))
| Y_send_right a b bytes x y a' b' : in_both l r a b (PWrite (s_module r) bytes) a' b' ->
    relay_step l r (mk_relay a b (bytes ++ x) y) (SendRight bytes) (mk_relay a' b' x y)
| Y_send_left a b x bytes y a' b' : in_both l r a b (PWrite (s_module l) bytes) a' b' ->
    relay_step l r (mk_relay a b x (bytes ++ y)) (SendLeft bytes) (mk_relay a' b' x y)
| Y_left_module a b x y e a' : by_module e -> side_step l a e a' ->
    relay_step l r (mk_relay a b x y) (LeftModule e) (mk_relay a' b x y)
| Y_right_module a b x y e b' : by_module e -> side_step r b e b' ->
    relay_step l r (mk_relay a b x y) (RightModule e) (mk_relay a b' x y).
Inductive relay_runs (l r : side) : relay -> list relay_event -> relay -> Prop :=
| YR_nil s : relay_runs l r s [] s
| YR_cons s e s1 es s2 : relay_step l r s e s1 -> relay_runs l r s1 es s2 -> relay_runs l r s (e :: es) s2.

(** What happens to the coupler and one of the two modules. *)
Definition as_left (l r : side) (e : relay_event) : list plant_event :=
  match e with
  | Program e | LeftModule e => [e]
  | FetchLeft n => [PRead (s_module l) n]
  | FetchRight n => [PRead (s_module r) n]
  | SendRight b => [PWrite (s_module r) b]
  | SendLeft b => [PWrite (s_module l) b]
  | RightModule _ => []
  end.
Definition as_right (l r : side) (e : relay_event) : list plant_event :=
  match e with
  | Program e | RightModule e => [e]
  | FetchLeft n => [PRead (s_module l) n]
  | FetchRight n => [PRead (s_module r) n]
  | SendRight b => [PWrite (s_module r) b]
  | SendLeft b => [PWrite (s_module l) b]
  | LeftModule _ => []
  end.
Definition relay_left (l r : side) (es : list relay_event) : list plant_event := flat_map (as_left l r) es.
Definition relay_right (l r : side) (es : list relay_event) : list plant_event := flat_map (as_right l r) es.

(** Where the bytes offered by the module of [a] are: taken over by the module of [b], in the output
    image, waiting in the coupler to be sent, held by the program, ready to be read, and in the
    module of [a] (at most the segment it has offered last). *)
Definition carried (sa sb : side) (a b : plant) (held : list Z) : Prop :=
  exists in_module,
    (in_module = [] \/ exists segs, t_offered a = segs ++ [in_module]) /\
    concat (t_offered a) =
      t_taken b ++ on_its_way (s_length sb) (s_output sb) b ++ waiting_in (t_coupler b) (s_module sb) ++ held ++
      readable_in (t_coupler a) (s_module sa) ++ in_module.
