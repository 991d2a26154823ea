(** Specification of a control loop (C71): a program that hands the image returned by one cycle to the next one. *)
From Coq Require Import ZArith List Bool.
From Verif Require Import Base F32 Types Lib Com Fbc SpecCodec SpecSerial SpecCoupler SpecImage SpecFeedback.
Import ListNotations.
Local Open Scope Z_scope.

(** What the program does: it requests outputs, exchanges bytes with serial modules and makes cycles; now and then it
    may also get hold of incomplete or damaged images, with which a cycle fails. *)
Inductive action : Set :=
| Request (a : address) (v : channel_value)
| Receive (i size : nat)
| Send (i : nat) (buf : list Z)
| Tick (input : list Z)
| BadTick (input output : list Z).

(** The coupler and the output image before and after some actions. *)
Inductive loops (prof : profile) : coupler -> list Z -> list action -> coupler -> list Z -> Prop :=
| L_nil c image : loops prof c image [] c image
| L_request c image a v xs c' image' : rust_value v ->
    loops prof (fst (set_output c a v)) image xs c' image' ->
    loops prof c image (Request a v :: xs) c' image'
| L_receive c image i size xs c' image' :
    loops prof (fst (coupler_read c i size)) image xs c' image' ->
    loops prof c image (Receive i size :: xs) c' image'
| L_send c image i buf xs c' image' : Forall is_u8 buf ->
    loops prof (fst (coupler_write c i buf)) image xs c' image' ->
    loops prof c image (Send i buf :: xs) c' image'
| L_tick c image input c1 image1 xs c' image' : cycle prof c input image c1 (Ok image1) ->
    loops prof c1 image1 xs c' image' ->
    loops prof c image (Tick input :: xs) c' image'
| L_bad c image input output c1 xs c' image' : cycle prof c input output c1 (Err BufferLength) ->
    loops prof c1 image xs c' image' ->
    loops prof c image (BadTick input output :: xs) c' image'.

(** The requests among the actions, in order. *)
Fixpoint requests (xs : list action) : list (address * channel_value) :=
  match xs with
  | [] => []
  | Request a v :: xs' => (a, v) :: requests xs'
  | _ :: xs' => requests xs'
  end.

(** Actions without a successful cycle. *)
Definition between_ticks (xs : list action) : Prop := forall input, ~ In (Tick input) xs.

(** An output module that has its part of the output image for itself: it starts on a register (or has one byte
    only), and no later module has its output inside its bytes. *)
Definition alone (c : coupler) (i : nat) (m : module) (o : module_offset) (off : Z) : Prop :=
  module_at c i m o /\ mo_output o = Some off /\ is_serial m = false /\
  (off mod 16 = 0 \/ output_bytes m = 1%nat) /\
  forall j m' o' off', (i < j)%nat -> module_at c j m' o' -> mo_output o' = Some off' ->
    ~ (first_byte 0x0800 off <= first_byte 0x0800 off' < first_byte 0x0800 off + output_bytes m)%nat.
