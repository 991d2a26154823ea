(** Specification of disturbed communication (C65). *)
From Coq Require Import ZArith List Bool.
From Verif Require Import Base F32 Types Lib Com Fbc SpecCodec SpecSerial SpecCoupler SpecImage SpecOutcome.
Import ListNotations.
Local Open Scope Z_scope.

(** The answer of a cycle whose images were incomplete or damaged. *)
Definition unreadable (a : answer) : bool :=
  match a with CycleResult (Err BufferLength) _ _ => true | _ => false end.

(** The calls with other answers, and these answers. *)
Definition undisturbed (xs : list call) (answers : list answer) : list (call * answer) :=
  filter (fun xa => negb (unreadable (snd xa))) (combine xs answers).

(** Equal answers; [inputs] is compared after successful cycles only. *)
Definition alike_answer (a a' : answer) : Prop :=
  match a, a' with
  | CycleResult r ins outs, CycleResult r' ins' outs' =>
      r = r' /\ outs = outs' /\ forall image, r = Ok image -> ins = ins'
  | _, _ => a = a'
  end.

(** The offsets are what a coupler reports: on bit 0 or 8 of a register, outputs packed. *)
Definition well_placed (c : coupler) : Prop :=
  outputs_packed c /\
  forall i m o off, module_at c i m o -> mo_input o = Some off \/ mo_output o = Some off ->
    off mod 16 = 0 \/ off mod 16 = 8.
