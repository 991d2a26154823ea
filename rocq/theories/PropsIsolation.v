(** Property theorems C66: a module among others. *)
From Coq Require Import ZArith List Bool Lia.
From Verif Require Import Base Facts F32 Types Lib Com Fbc SpecCodec SpecSerial SpecCoupler SpecImage SpecIsolation
  ProofsWitness ProofsIsolation.
Import ListNotations.
Local Open Scope Z_scope.

(** C66: A module behaves the same in every coupler.  Take any two couplers, of any modules, in any two states in which
    a module of the same kind has the same requests and the same serial data; and any two sequences of calls whose
    cycles succeed.  If the module sees the same calls, it gives the same answers. *)
Theorem C66_module_isolation : forall prof c1 c2 i1 i2 m o1 o2 xs1 xs2 c1' c2' a1 a2,
  reachable prof c1 -> reachable prof c2 -> own_place c1 i1 m o1 -> own_place c2 i2 m o2 ->
  (forall k, requested c1 (mk_address i1 k) = requested c2 (mk_address i2 k)) -> serial c1 i1 = serial c2 i2 ->
  runs prof c1 xs1 c1' a1 -> runs prof c2 xs2 c2' a2 -> all_succeeded a1 -> all_succeeded a2 ->
  map fst (view i1 m o1 xs1 a1) = map fst (view i2 m o2 xs2 a2) ->
  map snd (view i1 m o1 xs1 a1) = map snd (view i2 m o2 xs2 a2).
Proof. exact C66_all. Qed.
Print Assumptions C66_module_isolation.

(** In particular from the start. *)
Theorem C66_from_the_start : forall prof cfg1 cfg2 c1 c2 i1 i2 m o1 o2 xs1 xs2 c1' c2' a1 a2,
  rust_config cfg1 -> rust_config cfg2 -> coupler_new cfg1 = Ok c1 -> coupler_new cfg2 = Ok c2 ->
  own_place c1 i1 m o1 -> own_place c2 i2 m o2 ->
  runs prof c1 xs1 c1' a1 -> runs prof c2 xs2 c2' a2 -> all_succeeded a1 -> all_succeeded a2 ->
  map fst (view i1 m o1 xs1 a1) = map fst (view i2 m o2 xs2 a2) ->
  map snd (view i1 m o1 xs1 a1) = map snd (view i2 m o2 xs2 a2).
Proof. exact C66_fresh_all. Qed.
Print Assumptions C66_from_the_start.

(** Digital outputs alone, and the same module behind inputs and other outputs, which are also set. *)
Definition alone_config : config := mk_config [UR20_4DO_P] [0x8000; 0xFFFF] [repeat 0 4].
Definition among_config : config :=
  mk_config [UR20_16DO_P; UR20_4DI_P; UR20_4DO_P] [0x8000; 0xFFFF; 0xFFFF; 0x0000; 0x8010; 0xFFFF] [[]; repeat 0 4; repeat 0 4].
Definition alone0 : coupler := after no_coupler (coupler_new alone_config).
Definition among0 : coupler := after no_coupler (coupler_new among_config).
Definition setting (c : coupler) (i k : nat) : coupler := fst (set_output c (mk_address i k) (Bit true)).
Definition cycling (c : coupler) (input output : list Z) : coupler := fst (next Debug as_is as_is c input output).
Definition alone1 : coupler := setting alone0 0 1.
Definition alone2 : coupler := cycling alone1 [] [4].
Definition among1 : coupler := setting among0 0 9.
Definition among2 : coupler := setting among1 2 1.
Definition among3 : coupler := cycling among2 [7] [0x00F0; 4].
Definition alone_calls : list call := [SetOutput (mk_address 0 1) (Bit true); NextCycle [] [4]].
Definition among_calls : list call :=
  [SetOutput (mk_address 0 9) (Bit true); SetOutput (mk_address 2 1) (Bit true); NextCycle [7] [0x00F0; 4]].
Definition alone_answers : list answer := [SetResult (Ok tt); CycleResult (Ok [6]) (inputs alone2) (outputs alone2)].
Definition among_answers : list answer :=
  [SetResult (Ok tt); SetResult (Ok tt); CycleResult (Ok [0x02F0; 6]) (inputs among3) (outputs among3)].
Definition four_outputs : module := MDO V_4DO_P (repeat false 4).
Definition alone_offset : module_offset := mk_offset None (Some 0x8000).
Definition among_offset : module_offset := mk_offset None (Some 0x8010).
Example C66_example :
  own_place alone0 0 four_outputs alone_offset /\ own_place among0 2 four_outputs among_offset /\
  runs Debug alone0 alone_calls alone2 alone_answers /\ runs Debug among0 among_calls among3 among_answers /\
  all_succeeded alone_answers /\ all_succeeded among_answers /\
  map fst (view 0 four_outputs alone_offset alone_calls alone_answers) =
  map fst (view 2 four_outputs among_offset among_calls among_answers) /\
  map snd (view 2 four_outputs among_offset among_calls among_answers) =
    [OwnSetResult (Ok tt); OwnCycleResult (Some [6]) (Some (repeat VNone 4)) (Some [Bit false; Bit false; Bit true; Bit false])].
Proof.
  split.
  { split; [split; reflexivity|]. split; [discriminate|]. intros off E. cbn in E. apply Some_inj in E. subst off. split; [left; reflexivity|].
    intros [|j] m' o' off' Hj [Hm _]; [lia|]. destruct j; discriminate. }
  split.
  { split; [split; reflexivity|]. split; [discriminate|]. intros off E. cbn in E. apply Some_inj in E. subst off. split; [left; reflexivity|].
    intros [|[|[|j]]] m' o' off' Hj [Hm _]; try lia. destruct j; discriminate. }
  split.
  { apply (Runs_cons Debug alone0 _ alone1); [exact (Calls_set Debug alone0 (mk_address 0 1) (Bit true) I)|].
    apply (Runs_cons Debug alone1 _ alone2); [apply Calls_next; [apply step_cycle; vm_compute; reflexivity|discriminate]|]. apply Runs_nil. }
  split.
  { apply (Runs_cons Debug among0 _ among1); [exact (Calls_set Debug among0 (mk_address 0 9) (Bit true) I)|].
    apply (Runs_cons Debug among1 _ among2); [exact (Calls_set Debug among1 (mk_address 2 1) (Bit true) I)|].
    apply (Runs_cons Debug among2 _ among3); [apply Calls_next; [apply step_cycle; vm_compute; reflexivity|discriminate]|]. apply Runs_nil. }
  split; [intros r ins outs [E|[E|[]]]; [discriminate|injection E; eauto]|].
  split; [intros r ins outs [E|[E|[E|[]]]]; [discriminate|discriminate|injection E; eauto]|].
  split; vm_compute; reflexivity.
Qed.
