(** Specification of one module among others (C66): what concerns it of the calls to a coupler. *)
From Coq Require Import ZArith List Bool.
From Verif Require Import Base F32 Types Lib Com Fbc SpecCodec SpecSerial SpecCoupler SpecImage.
Import ListNotations.
Local Open Scope Z_scope.

(** Module [m] is number [i] of the coupler with offsets [o], on register boundaries (a module of one byte: on any
    byte), and no later module has its output inside the output bytes of this one. *)
Definition own_place (c : coupler) (i : nat) (m : module) (o : module_offset) : Prop :=
  module_at c i m o /\
  (forall off, mo_input o = Some off -> off mod 16 = 0 \/ input_bytes m = 1%nat) /\
  (forall off, mo_output o = Some off ->
     (off mod 16 = 0 \/ output_bytes m = 1%nat) /\
     forall j m' o' off', (i < j)%nat -> module_at c j m' o' -> mo_output o' = Some off' ->
       ~ (first_byte 0x0800 off <= first_byte 0x0800 off' < first_byte 0x0800 off + output_bytes m)%nat).

(** The bytes of a module in an image, if it has any. *)
Definition own_bytes (base : Z) (image : list Z) (off : option Z) (n : nat) : option (list Z) :=
  match off with Some off => Some (image_bytes image (first_byte base off) n) | None => None end.

(** What a module sees of a call: requests for its channels, reading, writing, and its bytes of the two images of a
    cycle; and of the answer: its bytes of the new output image and its rows of values (the values shown for the
    output of a serial module are left out, see C49 and C61). *)
Inductive own_call : Set :=
| OwnSet (channel : nat) (v : channel_value)
| OwnRead (size : nat)
| OwnWrite (buf : list Z)
| OwnCycle (input output : option (list Z)).
Inductive own_answer : Set :=
| OwnSetResult (r : outcome unit)
| OwnBytesRead (r : option (list Z))
| OwnBytesWritten (r : option nat)
| OwnCycleResult (image : option (list Z)) (shown_in shown_out : option (list channel_value)).

Definition own_part (i : nat) (m : module) (o : module_offset) (xa : call * answer) : list (own_call * own_answer) :=
  match xa with
  | (SetOutput a v, SetResult r) =>
      if Nat.eqb (a_module a) i then [(OwnSet (a_channel a) v, OwnSetResult r)] else []
  | (ReadFrom j n, BytesRead r) => if Nat.eqb j i then [(OwnRead n, OwnBytesRead r)] else []
  | (WriteTo j b, BytesWritten r) => if Nat.eqb j i then [(OwnWrite b, OwnBytesWritten r)] else []
  | (NextCycle input output, CycleResult (Ok image) ins outs) =>
      [(OwnCycle (own_bytes 0 input (mo_input o) (input_bytes m)) (own_bytes 0x0800 output (mo_output o) (output_bytes m)),
        OwnCycleResult (own_bytes 0x0800 image (mo_output o) (output_bytes m)) (nth_error ins i)
          (if is_serial m then None else nth_error outs i))]
  | _ => []
  end.
Definition view (i : nat) (m : module) (o : module_offset) (xs : list call) (answers : list answer)
  : list (own_call * own_answer) := flat_map (own_part i m o) (combine xs answers).

(** All cycles succeeded. *)
Definition all_succeeded (answers : list answer) : Prop :=
  forall r ins outs, In (CycleResult r ins outs) answers -> exists image, r = Ok image.
