(** Specification for C101: the input registers change while they are read. *)
From Coq Require Import ZArith List Bool.
From Verif Require Import Base Types Lib Fbc.
Import ListNotations.
Local Open Scope Z_scope.

(** The input image [mixed] was read in several steps, between which the registers changed: [snapshots] are the contents of the
    registers at the different times, and each register of [mixed] is that of one of the snapshots. *)
Definition read_over_time (snapshots : list (list Z)) (mixed : list Z) : Prop :=
  snapshots <> [] /\ (forall s, In s snapshots -> length s = length mixed) /\
  forall b w, nth_error mixed b = Some w -> exists s, In s snapshots /\ nth_error s b = Some w.

(** Modules each input of which is in a single register: all but the counters and the serial modules. *)
Definition one_register_each (m : module) : bool := match m with MFCNT _ | MCOM _ _ => false | _ => true end.
