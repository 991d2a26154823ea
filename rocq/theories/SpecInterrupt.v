(** Specification for C100: writing an output image to the registers is interrupted. *)
From Coq Require Import ZArith List Bool.
From Verif Require Import Base Types Lib Com Fbc SpecCodec SpecSerial SpecCoupler SpecTerminal SpecWire SpecContract SpecStartup SpecTraffic SpecTogether.
Import ListNotations.
Local Open Scope Z_scope.

(** An exchange as in C98, but only some registers of the image are written: all of them, none, the first ones, or any others. *)
Definition interrupted_exchange (prof : profile) (c : coupler) (register : Z -> Z) (c' : coupler) (register' : Z -> Z) : Prop :=
  exists n k image, n <= 0x0800 /\ k <= 0x0800 /\
    cycle prof c (read_registers register ADDR_PACKED_PROCESS_INPUT_DATA n)
      (read_registers register ADDR_PACKED_PROCESS_OUTPUT_DATA k) c' (Ok image) /\
    forall a, register' a = register a \/ register' a = write_registers register ADDR_PACKED_PROCESS_OUTPUT_DATA image a.

(** Programs that work with the same registers; [asked] are the values requested so far.
    - A program calls a method of its coupler object; a cycle may get any images, and its result is not written.
    - It exchanges data with the registers; writing the image may be interrupted.
    - It is stopped and started again.
    - The modules change the input registers. *)
Inductive struggles (prof : profile) (cs : nat -> coupler) (r : Z -> Z)
  : list (address * channel_value) -> (nat -> coupler) -> (Z -> Z) -> Prop :=
| S_begin : struggles prof cs r [] cs r
| S_calls asked cs1 r1 p x c answer : struggles prof cs r asked cs1 r1 -> calls prof (cs1 p) x c answer ->
    struggles prof cs r (match x with SetOutput a v => (a, v) :: asked | _ => asked end) (replace cs1 p c) r1
| S_exchanges asked cs1 r1 p c r2 : struggles prof cs r asked cs1 r1 -> interrupted_exchange prof (cs1 p) r1 c r2 ->
    struggles prof cs r asked (replace cs1 p c) r2
| S_restarts asked cs1 r1 p c : struggles prof cs r asked cs1 r1 -> start_up prof r1 = Ok c ->
    struggles prof cs r asked (replace cs1 p c) r1
| S_inputs asked cs1 r1 r2 : struggles prof cs r asked cs1 r1 -> (forall a, ~ 0 <= a < 0x0800 -> r2 a = r1 a) ->
    struggles prof cs r asked cs1 r2.

(** Output registers that a program can work with: no serial message announces more bytes than there is room for, and no counter has a
    preset of more than 8.388607 s.  Registers that are all zero are such. *)
Definition ready_registers (c : coupler) (register : Z -> Z) : Prop :=
  forall i m o off, module_at c i m o -> mo_output o = Some off ->
    (forall l ch, m = MCOM l ch -> register (off / 16) / 256 <= Z.of_nat (payload_size l)) /\
    (forall ch k, m = MFCNT ch -> (k < 2)%nat -> wire_preset register off k <= 8388607).

(** Presets of a counter, in microseconds: the one found at the beginning, and those requested. *)
Definition known_preset (register : Z -> Z) (off : Z) (a : address) (asked : list (address * channel_value)) (x : Z) : Prop :=
  x = wire_preset register off (a_channel a) \/
  exists v p, In (a, v) asked /\ preset v = Some p /\ nanoseconds (fo_duration p) <= max_preset /\ x = nanoseconds (fo_duration p) / 1000.
