(** Specification of serial dialogues over a connection that delays and loses messages (C107, C108). *)
From Coq Require Import ZArith List Bool.
From Verif Require Import Base F32 Types Lib Com Fbc SpecCodec SpecSerial SpecCoupler SpecImage SpecSystem.
Import ListNotations.
Local Open Scope Z_scope.

(** The program talks to the coupler over a connection: input images travel from the coupler to the program,
    output images from the program to the coupler.  Any number of both may be under way at the same time; each list
    begins with the oldest message. *)
Record delayed : Set := mk_delayed {
  d_plant : plant;
  d_inputs : list (list Z);
  d_outputs : list (list Z) }.

Inductive delayed_event : Set :=
| DEvent (e : plant_event)          (* an event that needs no connection *)
| DRequest (input : list Z)         (* the coupler sends its input image *)
| DReceive                          (* the program receives the oldest input image *)
| DSubmit                           (* the program sends its output image *)
| DApply                            (* the coupler receives the oldest output image *)
| DLoseInput                        (* some input image under way gets lost *)
| DLoseOutput.                      (* some output image under way gets lost *)

(** Everything but the exchange of images, which takes time now. *)
Definition local (e : plant_event) : Prop :=
  match e with PInput _ | POutput => False | _ => True end.

Definition with_latch (t : plant) (input : list Z) : plant :=
  mk_plant (t_coupler t) input (t_image t) (t_register t) (t_device t)
    (t_written t) (t_taken t) (t_offered t) (t_delivered t) (t_cycles t).
Definition with_register (t : plant) (image : list Z) : plant :=
  mk_plant (t_coupler t) (t_latch t) (t_image t) image (t_device t)
    (t_written t) (t_taken t) (t_offered t) (t_delivered t) (t_cycles t).

Inductive delayed_step (prof : profile) (i : nat) (l : process_data_length) (ioff ooff : Z)
  : delayed -> delayed_event -> delayed -> Prop :=
| D_event t e t' qi qo : local e -> plant_step prof i l ioff ooff t e t' ->
    delayed_step prof i l ioff ooff (mk_delayed t qi qo) (DEvent e) (mk_delayed t' qi qo)
| D_request t input qi qo : Forall is_u16 input -> rs_in_from_bytes (in_part l ioff input) = Ok (t_device t) ->
    delayed_step prof i l ioff ooff (mk_delayed t qi qo) (DRequest input) (mk_delayed t (qi ++ [input]) qo)
| D_receive t input qi qo :
    delayed_step prof i l ioff ooff (mk_delayed t (input :: qi) qo) DReceive (mk_delayed (with_latch t input) qi qo)
| D_submit t qi qo :
    delayed_step prof i l ioff ooff (mk_delayed t qi qo) DSubmit (mk_delayed t qi (qo ++ [t_image t]))
| D_apply t image qi qo :
    delayed_step prof i l ioff ooff (mk_delayed t qi (image :: qo)) DApply (mk_delayed (with_register t image) qi qo)
| D_lose_input t a input b qo :
    delayed_step prof i l ioff ooff (mk_delayed t (a ++ input :: b) qo) DLoseInput (mk_delayed t (a ++ b) qo)
| D_lose_output t qi a image b :
    delayed_step prof i l ioff ooff (mk_delayed t qi (a ++ image :: b)) DLoseOutput (mk_delayed t qi (a ++ b)).

Inductive delayed_runs (prof : profile) (i : nat) (l : process_data_length) (ioff ooff : Z)
  : delayed -> list delayed_event -> delayed -> Prop :=
| DR_nil d : delayed_runs prof i l ioff ooff d [] d
| DR_cons d e d1 es d2 : delayed_step prof i l ioff ooff d e d1 -> delayed_runs prof i l ioff ooff d1 es d2 ->
    delayed_runs prof i l ioff ooff d (e :: es) d2.

(** The number of input images received and of output images applied during some events, and the absence of losses. *)
Definition receptions (es : list delayed_event) : nat :=
  length (filter (fun e => match e with DReceive => true | _ => false end) es).
Definition applications (es : list delayed_event) : nat :=
  length (filter (fun e => match e with DApply => true | _ => false end) es).
Definition nothing_lost (es : list delayed_event) : Prop := ~ In DLoseInput es /\ ~ In DLoseOutput es.

(** A stretch in which an input image is sent by the coupler and arrives, the program makes a cycle, sends its output
    image, this arrives and the module looks at it.  Any number of other images may be under way; anything may happen
    in between, only nothing gets lost while one of the two images is under way. *)
Inductive delayed_round (prof : profile) (i : nat) (l : process_data_length) (ioff ooff : Z)
  : delayed -> delayed -> Prop :=
| A_round d a d1 input b d2 c d3 e d4 f d5 g d6 h d7 :
    delayed_runs prof i l ioff ooff d a d1 ->
    delayed_runs prof i l ioff ooff d1 (DRequest input :: b) d2 ->
    nothing_lost b -> (length (d_inputs d1) < receptions b)%nat ->
    delayed_runs prof i l ioff ooff d2 c d3 ->
    delayed_step prof i l ioff ooff d3 (DEvent PCycle) d4 ->
    delayed_runs prof i l ioff ooff d4 e d5 ->
    delayed_runs prof i l ioff ooff d5 (DSubmit :: f) d6 ->
    nothing_lost f -> (length (d_outputs d5) < applications f)%nat ->
    delayed_runs prof i l ioff ooff d6 (g ++ DEvent PTake :: h) d7 ->
    delayed_round prof i l ioff ooff d d7.

Inductive delayed_rounds (prof : profile) (i : nat) (l : process_data_length) (ioff ooff : Z)
  : nat -> delayed -> delayed -> Prop :=
| ARS_nil d : delayed_rounds prof i l ioff ooff 0 d d
| ARS_cons n d d1 d2 : delayed_round prof i l ioff ooff d d1 -> delayed_rounds prof i l ioff ooff n d1 d2 ->
    delayed_rounds prof i l ioff ooff (S n) d d2.
