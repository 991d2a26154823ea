(** Specification for C99: several programs that work with the same field bus coupler. *)
From Coq Require Import ZArith List Bool.
From Verif Require Import Base Types Lib Fbc SpecCodec SpecCoupler SpecStartup SpecTraffic.
Import ListNotations.
Local Open Scope Z_scope.

(** What happens; [p] is the number of a program. *)
Inductive event : Set :=
| Asks (p : nat) (a : address) (v : channel_value)
| Exchanges (p : nat)
| Misreads (p : nat)
| IsRefused (p : nat)
| Receives (p : nat) (i size : nat)
| Transmits (p : nat) (i : nat) (buf : list Z)
| Restarts (p : nat)
| InputsChange.

(** Program [p] now has the coupler object [c]. *)
Definition replace (cs : nat -> coupler) (p : nat) (c : coupler) : nat -> coupler := fun q => if Nat.eqb q p then c else cs q.

(** Each program has a coupler object of its own; they share the registers.
    - A program requests an output.
    - It exchanges data with the registers, while no other program does.
    - It gets hold of incomplete or damaged images, with which its cycle fails; nothing is written.
    - Its cycle fails because a value cannot be sent; nothing is written.
    - It receives or transmits bytes of serial modules.
    - It is stopped at any time and started again: a new coupler object is created from the registers.
    - The modules change the input registers. *)
Inductive together (prof : profile) (cs : nat -> coupler) (r : Z -> Z) : list event -> (nat -> coupler) -> (Z -> Z) -> Prop :=
| T_begin : together prof cs r [] cs r
| T_asks h cs1 r1 p a v : together prof cs r h cs1 r1 -> rust_value v ->
    together prof cs r (h ++ [Asks p a v]) (replace cs1 p (fst (set_output (cs1 p) a v))) r1
| T_exchanges h cs1 r1 p c r2 : together prof cs r h cs1 r1 -> exchange prof (cs1 p) r1 c r2 ->
    together prof cs r (h ++ [Exchanges p]) (replace cs1 p c) r2
| T_misreads h cs1 r1 p input output c : together prof cs r h cs1 r1 -> cycle prof (cs1 p) input output c (Err BufferLength) ->
    together prof cs r (h ++ [Misreads p]) (replace cs1 p c) r1
| T_refused h cs1 r1 p input output c : together prof cs r h cs1 r1 -> cycle prof (cs1 p) input output c (Err ChannelValueError) ->
    together prof cs r (h ++ [IsRefused p]) (replace cs1 p c) r1
| T_receives h cs1 r1 p i size : together prof cs r h cs1 r1 ->
    together prof cs r (h ++ [Receives p i size]) (replace cs1 p (fst (coupler_read (cs1 p) i size))) r1
| T_transmits h cs1 r1 p i buf : together prof cs r h cs1 r1 -> Forall is_u8 buf ->
    together prof cs r (h ++ [Transmits p i buf]) (replace cs1 p (fst (coupler_write (cs1 p) i buf))) r1
| T_restarts h cs1 r1 p c : together prof cs r h cs1 r1 -> start_up prof r1 = Ok c ->
    together prof cs r (h ++ [Restarts p]) (replace cs1 p c) r1
| T_inputs h cs1 r1 r2 : together prof cs r h cs1 r1 -> (forall a, ~ 0 <= a < 0x0800 -> r2 a = r1 a) ->
    together prof cs r (h ++ [InputsChange]) cs1 r2.

(** What the programs know about one channel: the request each of them has waiting, and the request sent last, if any. *)
Record board : Set := mk_board { waiting : nat -> option channel_value; in_force : option channel_value }.

Definition note (f : nat -> option channel_value) (p : nat) (v : option channel_value) : nat -> option channel_value :=
  fun q => if Nat.eqb q p then v else f q.

(** A request waits for the next exchange of its program, which puts it in force.  It is lost if the program is stopped or a value
    is refused. *)
Definition follow (a : address) (b : board) (e : event) : board :=
  match e with
  | Asks p a' v => if address_eqb a' a then mk_board (note (waiting b) p (Some v)) (in_force b) else b
  | Exchanges p => mk_board (note (waiting b) p None) (match waiting b p with Some v => Some v | None => in_force b end)
  | IsRefused p | Restarts p => mk_board (note (waiting b) p None) (in_force b)
  | Misreads _ | Receives _ _ _ | Transmits _ _ _ | InputsChange => b
  end.
Definition after_history (a : address) (h : list event) : board := fold_left (follow a) h (mk_board (fun _ => None) None).

(** What program [p] does. *)
Definition of_program (p : nat) (e : event) : bool :=
  match e with
  | Asks q _ _ | Exchanges q | Misreads q | IsRefused q | Receives q _ _ | Transmits q _ _ | Restarts q => Nat.eqb q p
  | InputsChange => false
  end.
Definition done_by (p : nat) (h : list event) : list event := filter (of_program p) h.

(** Bit [k] of the outputs of a digital module, register [k] of those of an analog module, and the preset of counter [k] of a
    counter module, in microseconds. *)
Definition wire_bit (register : Z -> Z) (off : Z) (k : nat) : bool := bit (register (off / 16)) (Z.to_nat (off mod 16) + k).
Definition wire_code (register : Z -> Z) (off : Z) (k : nat) : Z := register (off / 16 + Z.of_nat k).
Definition wire_preset (register : Z -> Z) (off : Z) (k : nat) : Z :=
  word32 (register (off / 16 + 2 * Z.of_nat k)) (register (off / 16 + 2 * Z.of_nat k + 1)).
(** The command in the control register of counter [k]: bit 8 to start, bit 9 to stop. *)
Definition wire_command (register : Z -> Z) (off : Z) (k : nat) : option command :=
  let control := register (off / 16 + 4 + Z.of_nat k) in
  if bit control 8 then Some Start else if bit control 9 then Some Stop else None.
