(** Property theorems C124: a network of digital control programs with restarts and interrupted writes. *)
From Coq Require Import ZArith List Bool Lia.
From Verif Require Import Base F32 Types Lib Com Fbc SpecCodec SpecSerial SpecCoupler SpecImage SpecFeedback SpecKeep SpecIdle SpecOutcome SpecMachine SpecOutage SpecNetwork
  SpecFaults ProofsWitness SpecLossless ProofsOutage ProofsFaults PropsNetwork.
Import ListNotations.
Local Open Scope Z_scope.

(** C124: programs whose outputs are connected to inputs of others behave together like the machines they are written as, whichever of them are
    restarted and whichever writes are interrupted; a fault of one reaches the others only through the states of its outputs. *)
Theorem C124_network_copes : forall state prof wire (P : nat -> program state) in_offs out_offs new s image events images, ends wire P ->
  (forall p, set_up (P p) (in_offs p) (out_offs p) (new p)) ->
  faulty prof wire P in_offs out_offs new (fun p => mk_station (s p) [] (new p) (image p)) events images ->
  troubled wire P (fun p => mk_machine (s p) (bits_at output_bit (image p) (actors (P p)) (out_offs p)) [])
    (map (fun e => (fst e, with_input (fun x => bits_at input_bit x (sensors (P (fst e))) (in_offs (fst e))) (snd e))) events)
    (map (fun ei => bits_at output_bit (snd ei) (actors (P (fst (fst ei)))) (out_offs (fst (fst ei)))) (combine events images)).
Proof. exact C124_all. Qed.
Print Assumptions C124_network_copes.

(** Whatever has happened in the network, each program can make its next round. *)
Theorem C124_goes_on : forall state prof (P : nat -> program state) in_offs out_offs new s image ts,
  (forall p, set_up (P p) (in_offs p) (out_offs p) (new p)) -> (forall p, can_start (new p) (image p)) ->
  comes_to prof P new (fun p => mk_station (s p) [] (new p) (image p)) ts ->
  forall p input, Forall is_u16 input -> inputs_readable (new p) input ->
  exists c1 image1 bits, loops prof (t_coupler (ts p)) (t_image (ts p)) (requested_by (actors (P p)) (t_commands (ts p)) ++ [Tick input]) c1 image1 /\
    Forall2 (sees c1) (sensors (P p)) bits.
Proof. exact C124_goes_on_all. Qed.
Print Assumptions C124_goes_on.

(** The ring of C123.  The image with which program 0 switches its output on does not arrive, and the program is restarted; later an image of
    program 1 is interrupted after its only register, and this program is restarted. *)
Definition ring_faults : list (nat * event unit (list Z)) :=
  [(0%nat, Whole [0]); (0%nat, Broken [0]); (0%nat, Restart tt); (0%nat, Whole [0]); (0%nat, Whole [0]); (1%nat, Whole [2]); (1%nat, Broken [2]); (1%nat, Restart tt)].
Definition ring_after : list (list Z) := [[0]; [0]; [0]; [0]; [4]; [0]; [4]; [4]].

Ltac ring_wires :=
  intros [|n] q k a off a' off' Hw E1 E2 E3 E4; [|discriminate Hw]; injection Hw as <- <-; injection E1 as <-; injection E2 as <-; injection E3 as <-; injection E4 as <-;
    vm_compute; reflexivity.
Ltac ring_whole c image bits :=
  apply (Faulty_whole _ _ _ _ _ _ _ _ [] _ c image bits);
  [apply loop_computed; vm_compute; reflexivity|intros x []|intros a v []|ring_wires|apply Forall2_cons; [vm_compute; reflexivity|apply Forall2_nil]|].
Ltac ring_broken c image bits image' :=
  apply (Faulty_broken _ _ _ _ _ _ _ _ [] _ c image bits image');
  [apply loop_computed; vm_compute; reflexivity|intros x []|intros a v []|ring_wires|apply Forall2_cons; [vm_compute; reflexivity|apply Forall2_nil]| |].
Ltac ring_restart :=
  match goal with |- faulty ?prof ?w ?P ?i ?o ?n ?ts ((?p, Restart ?s) :: ?events) (_ :: ?images) =>
    change (faulty prof w P i o n ts ((p, Restart s) :: events) (t_image (ts p) :: images)); apply Faulty_restart end.
Example C124_example :
  ends ring_wire ring /\ (forall p, set_up (ring p) [0] [0x8000] ring_new) /\
  faulty Debug ring_wire ring (fun _ => [0]) (fun _ => [0x8000]) (fun _ => ring_new) (fun _ => mk_station tt [] ring_new [0]) ring_faults ring_after.
Proof.
  destruct C123_example as (He & Hr & _). split; [exact He|]. split.
  { intros p. destruct (Hr p) as (_ & R2 & R3 & R4 & _). split; [|split; [exact R2|split; [exact R3|exact R4]]].
    exists ring_config. split; [|vm_compute; reflexivity].
    split; [apply fits_u16; reflexivity|]. repeat (apply Forall_cons; [apply fits_u16; reflexivity|]). apply Forall_nil. }
  unfold ring_faults, ring_after.
  ring_whole ring_a1 [0] [false].
  ring_broken ring_a2 [4] [false] [0]; [intros j; left; reflexivity|].
  ring_restart.
  ring_whole ring_a1 [0] [false].
  ring_whole ring_a2 [4] [false].
  ring_whole ring_b1 [0] [true].
  ring_broken ring_b2 [4] [true] [4]; [intros j; right; reflexivity|].
  ring_restart.
  apply Faulty_0.
Qed.

(** The ring can start, and it can come to the situation after the lost image and the restart of program 0. *)
Example C124_goes_on_example : can_start ring_new [0] /\ inputs_readable ring_new [2] /\ exists ts,
  comes_to Debug ring (fun _ => ring_new) (fun _ => mk_station tt [] ring_new [0]) ts /\ t_coupler (ts 0%nat) = ring_new /\ t_commands (ts 1%nat) = [Some true].
Proof.
  assert (Ef : c_offsets ring_new = [mk_offset (Some 0) None; mk_offset None (Some 0x8000)]) by (vm_compute; reflexivity).
  assert (Em : exists ch0 ch1, c_modules ring_new = [MDI V_4DI_P ch0; MDO V_4DO_P ch1]).
  { do 2 eexists. vm_compute. reflexivity. }
  destruct Em as (ch0 & ch1 & Em).
  assert (K : forall i m o, module_at ring_new i m o ->
    (m = MDI V_4DI_P ch0 /\ o = mk_offset (Some 0) None) \/ (m = MDO V_4DO_P ch1 /\ o = mk_offset None (Some 0x8000))).
  { intros i m o [Hm Ho]. rewrite Em in Hm. rewrite Ef in Ho. destruct i as [|[|i]]; cbn [nth_error] in Hm, Ho; [| |destruct i; discriminate Ho];
      injection Hm as <-; injection Ho as <-; auto. }
  split; [split; [|split; [|split; [|split]]]|split].
  - intros i m o off Hat Eo. destruct (K _ _ _ Hat) as [[-> ->]|[-> ->]]; try discriminate Eo. injection Eo as <-. intros X. discriminate X.
  - unfold outputs_packed. rewrite Em, Ef. cbn. left. split; [reflexivity|exact I].
  - apply fits_u16. reflexivity.
  - intros i m o off Hat Eo. destruct (K _ _ _ Hat) as [[-> ->]|[-> ->]]; try discriminate Eo. injection Eo as <-.
    split; [split; [discriminate|]; split; [vm_compute; auto|]; split; vm_compute; discriminate|intros l ch X; discriminate X].
  - intros i ch o off k Hat Eo Hk. destruct (K _ _ _ Hat) as [[X _]|[X _]]; discriminate X.
  - intros i m o off Hat Eo. destruct (K _ _ _ Hat) as [[-> ->]|[-> ->]]; try discriminate Eo. injection Eo as <-.
    split; [split; [discriminate|]; split; [vm_compute; auto|]; split; vm_compute; discriminate|intros l ch X; discriminate X].
  - eexists. split.
    + eapply (Comes_restart _ _ _ _ _ 0%nat tt).
      eapply (Comes_broken _ _ _ _ _ 0%nat [] [0] ring_a2 [4] [false] [0]).
      * eapply (Comes_whole _ _ _ _ _ 1%nat [] [2] ring_b1 [0] [true]).
        -- eapply (Comes_whole _ _ _ _ _ 0%nat [] [0] ring_a1 [0] [false]); [apply Comes_start|apply loop_computed; vm_compute; reflexivity|intros x []|].
           apply Forall2_cons; [vm_compute; reflexivity|apply Forall2_nil].
        -- apply loop_computed; vm_compute; reflexivity.
        -- intros x [].
        -- apply Forall2_cons; [vm_compute; reflexivity|apply Forall2_nil].
      * apply loop_computed; vm_compute; reflexivity.
      * intros x [].
      * apply Forall2_cons; [vm_compute; reflexivity|apply Forall2_nil].
      * intros j. left. reflexivity.
      * reflexivity.
      * apply fits_u16. reflexivity.
    + split; reflexivity.
Qed.
