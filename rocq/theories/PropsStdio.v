(** Property theorems C89: the provided methods of the reader and the writer of a serial module. *)
From Coq Require Import ZArith List Bool Lia.
From Verif Require Import Base F32 Types Lib Com Fbc SpecSerial SpecCoupler SpecStdio
  ProofsWitness ProofsStdio PropsLink.
Import ListNotations.
Local Open Scope Z_scope.

(** C89: [write_all] on the writer of a serial module ends, succeeds, is the same as one call of [write], and appends all bytes to
    those waiting to be sent. *)
Theorem C89_write_all : forall c i p buf, serial c i = Some p ->
  (exists c' r, write_all i c buf c' r) /\
  forall c' r, write_all i c buf c' r -> r = true /\ same_coupler c' (fst (coupler_write c i buf)) /\
    exists p', serial c' i = Some p' /\ queued p' = queued p ++ buf /\ buffered p' = buffered p.
Proof. exact C89_write_all_all. Qed.
Print Assumptions C89_write_all.

(** C89: [read_exact] gives the oldest bytes received if there are enough, and otherwise fails; then all bytes received are gone. *)
Theorem C89_read_exact : forall c i p size, serial c i = Some p ->
  (exists c' r, read_exact i c size c' r) /\
  forall c' r, read_exact i c size c' r ->
    r = (if Nat.leb size (length (buffered p)) then Some (firstn size (buffered p)) else None) /\
    same_coupler c' (fst (coupler_read c i size)) /\
    exists p', serial c' i = Some p' /\ buffered p' = skipn size (buffered p) /\ queued p' = queued p.
Proof. exact C89_read_exact_all. Qed.
Print Assumptions C89_read_exact.

(** C89: [read_to_end] ends and gives all bytes received, whatever buffers it uses, and leaves none. *)
Theorem C89_read_to_end : forall c i p size, serial c i = Some p -> (forall k, size k <> 0%nat) ->
  (exists c' bytes, read_to_end i size c c' bytes) /\
  forall c' bytes, read_to_end i size c c' bytes ->
    bytes = buffered p /\ same_coupler c' (fst (coupler_read c i (length (buffered p)))) /\
    exists p', serial c' i = Some p' /\ buffered p' = [] /\ queued p' = queued p.
Proof. exact C89_read_to_end_all. Qed.
Print Assumptions C89_read_to_end.

(** The right coupler of C86, which has received six bytes, with two bytes waiting to be sent. *)
Definition std_run (c : coupler) (input : list Z) : coupler := fst (next Debug as_is as_is c input [0; 0; 0; 0]).
Definition std2 : coupler := std_run (std_run link_new [0; 0; 0; 0]) [0; 0; 0; 0].
Definition std3 : coupler := std_run std2 [0x0629; 0x0201; 0x0403; 0x0605].
Definition std4 : coupler := fst (coupler_write std3 0 [21; 22]).
Definition std_processor (c : coupler) : processor := match serial c 0 with Some p => p | None => processor_new EightBytes end.
Example C89_example :
  serial std4 0 = Some (std_processor std4) /\ buffered (std_processor std4) = [1; 2; 3; 4; 5; 6] /\ queued (std_processor std4) = [21; 22] /\
  (exists c, read_exact 0 std4 4 c (Some [1; 2; 3; 4]) /\ read_exact 0 c 4 (fst (coupler_read (fst (coupler_read c 0 4)) 0 2)) None) /\
  (exists c, read_to_end 0 (fun k => S (S (k + k))) std4 c [1; 2; 3; 4; 5; 6]) /\
  write_all 0 std4 [23; 24; 25; 26; 27; 28; 29] (fst (coupler_write std4 0 [23; 24; 25; 26; 27; 28; 29])) true.
Proof.
  split; [vm_compute; reflexivity|]. split; [vm_compute; reflexivity|]. split; [vm_compute; reflexivity|]. split; [|split].
  - exists (fst (coupler_read std4 0 4)). split.
    + change (Some [1; 2; 3; 4]) with (option_map (app [1; 2; 3; 4]) (Some (@nil Z))).
      apply RE_more with (c1 := fst (coupler_read std4 0 4)); [discriminate|vm_compute; reflexivity|discriminate|apply RE_done].
    + change (@None (list Z)) with (option_map (app [5; 6]) (@None (list Z))).
      apply RE_more with (c1 := fst (coupler_read (fst (coupler_read std4 0 4)) 0 4)); [discriminate|vm_compute; reflexivity|discriminate|].
      apply RE_eof; [discriminate|vm_compute; reflexivity].
  - eexists. change [1; 2; 3; 4; 5; 6] with ([1; 2] ++ [3; 4; 5; 6] ++ []).
    apply RT_more with (c1 := fst (coupler_read std4 0 2)); [vm_compute; reflexivity|discriminate|].
    apply RT_more with (c1 := fst (coupler_read (fst (coupler_read std4 0 2)) 0 4)); [vm_compute; reflexivity|discriminate|].
    apply RT_done. vm_compute. reflexivity.
  - apply WA_more with (c1 := fst (coupler_write std4 0 [23; 24; 25; 26; 27; 28; 29])) (n := 7%nat);
      [discriminate|vm_compute; reflexivity|discriminate|apply WA_done].
Qed.
