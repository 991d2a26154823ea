(** Specification for C105: the registers of a serial message change while they are read. *)
From Coq Require Import ZArith List Bool.
From Verif Require Import Base F32 Types Lib Com Fbc SpecCodec SpecSerial SpecCoupler SpecImage SpecSystem SpecFault SpecOrdered.
Import ListNotations.
Local Open Scope Z_scope.

(** The first register of the message of the module in an input image. *)
Definition in_header (ioff : Z) : nat := Z.to_nat (ioff / 16).

(** The input registers while the module presents what it presents in [t]. *)
Definition presented (l : process_data_length) (ioff : Z) (t : plant) (snapshot : list Z) : Prop :=
  Forall is_u16 snapshot /\ rs_in_from_bytes (in_part l ioff snapshot) = Ok (t_device t).

Definition module_event (e : plant_event) : bool :=
  match e with PTake | POffer _ | PClear | PStatus _ _ => true | _ => false end.

(** The module goes on working; the snapshots are the input registers at the different moments. *)
Inductive watched (prof : profile) (i : nat) (l : process_data_length) (ioff ooff : Z)
  : plant -> list plant_event -> list (list Z) -> plant -> Prop :=
| W_now t snapshot : presented l ioff t snapshot -> watched prof i l ioff ooff t [] [snapshot] t
| W_later t snapshot e t1 es snapshots t' : presented l ioff t snapshot ->
    module_event e = true -> plant_step prof i l ioff ooff t e t1 -> watched prof i l ioff ooff t1 es snapshots t' ->
    watched prof i l ioff ooff t (e :: es) (snapshot :: snapshots) t'.

Definition with_latch (t : plant) (input : list Z) : plant :=
  mk_plant (t_coupler t) input (t_image t) (t_register t) (t_device t)
    (t_written t) (t_taken t) (t_offered t) (t_delivered t) (t_cycles t).

(** Besides the events of C102, reading the input image may take so long that the module changes its registers meanwhile:
    each register of its message is as it was at one of the moments; the registers of other modules are arbitrary. *)
Inductive slow_event : Set :=
| Prompt (e : torn_event)
| SlowInput (es : list plant_event) (snapshots : list (list Z)) (input : list Z).

Inductive slow_step (prof : profile) (i : nat) (l : process_data_length) (ioff ooff : Z)
  : plant -> slow_event -> plant -> Prop :=
| S_prompt t e t' : torn_step prof i l ioff ooff t e t' -> slow_step prof i l ioff ooff t (Prompt e) t'
| S_slow_input t es snapshots t' input : watched prof i l ioff ooff t es snapshots t' ->
    Forall is_u16 input -> (forall s, In s snapshots -> length s = length input) ->
    (forall k, (k < message_registers l)%nat ->
       exists s, In s snapshots /\ nth_error input (in_header ioff + k) = nth_error s (in_header ioff + k)) ->
    slow_step prof i l ioff ooff t (SlowInput es snapshots input) (with_latch t' input).

(** Writing keeps the order of C102. *)
Definition writes_in_order (l : process_data_length) (ooff : Z) (e : slow_event) : Prop :=
  match e with Prompt e' => header_last l ooff e' | SlowInput _ _ _ => True end.
(** Reading: the first register of the message not after the others. *)
Definition header_first (ioff : Z) (e : slow_event) : Prop :=
  match e with
  | Prompt _ => True
  | SlowInput _ snapshots input =>
      exists s rest, snapshots = s :: rest /\ nth_error input (in_header ioff) = nth_error s (in_header ioff)
  end.

(** Histories, with the number of times something was forgotten (as in C69). *)
Inductive slow_runs (prof : profile) (i : nat) (l : process_data_length) (ioff ooff : Z)
  : plant -> list slow_event -> plant -> nat -> Prop :=
| SR_nil t : slow_runs prof i l ioff ooff t [] t 0
| SR_cons t e t1 es t2 n : slow_step prof i l ioff ooff t e t1 -> slow_runs prof i l ioff ooff t1 es t2 n ->
    slow_runs prof i l ioff ooff t (e :: es) t2
      (match e with Prompt (Disturbed e') => forgotten l ooff t e' | _ => 0 end + n).

(** The program reads an input image, at once or slowly. *)
Definition reads_input (e : slow_event) : Prop :=
  match e with Prompt (Disturbed (Undisturbed (PInput _))) | SlowInput _ _ _ => True | _ => False end.
