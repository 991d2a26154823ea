(** Property theorems C120: a digital control program computes what it is written to compute. *)
From Coq Require Import ZArith List Bool Lia.
From Verif Require Import Base F32 Types Lib Com Fbc SpecCodec SpecSerial SpecCoupler SpecImage SpecFeedback SpecKeep SpecOutcome SpecIdle SpecLossless SpecMachine
  ProofsWitness ProofsMachine.
Import ListNotations.
Local Open Scope Z_scope.

(** C120: the bits of the program's outputs in the images of the rounds are those that the program is meant to compute from the bits
    of its inputs, for every program, any number of rounds, whatever else is done in between and whatever is in the rest of the
    images. *)
Theorem C120_program : forall state prof (P : program state) s commands c image inputs images in_offs out_offs, reachable prof c ->
  Forall2 (sensor_at c) (sensors P) in_offs -> Forall2 (actor_at c) (actors P) out_offs -> NoDup (actors P) ->
  (forall a, In a (actors P) -> requested c a = None) ->
  rounds prof P s commands c image inputs images ->
  map (fun x => bits_at output_bit x (actors P) out_offs) images =
  meant P s (bits_at output_bit image (actors P) out_offs) commands (map (fun x => bits_at input_bit x (sensors P) in_offs) inputs).
Proof. exact C120_all. Qed.
Print Assumptions C120_program.

(** C120: after a successful cycle a program can make any number of rounds, with any input images that the coupler can read. *)
Theorem C120_goes_on : forall state prof (P : program state) c0 input0 output0 c image in_offs out_offs, reachable prof c0 -> byte_wide c0 ->
  cycle prof c0 input0 output0 c (Ok image) -> Forall2 (sensor_at c) (sensors P) in_offs -> Forall2 (actor_at c) (actors P) out_offs ->
  forall inputs s commands, Forall (fun input => Forall is_u16 input /\ inputs_readable c input) inputs ->
  exists images, rounds prof P s commands c image inputs images.
Proof. exact C120_goes_on_all. Qed.
Print Assumptions C120_goes_on.

(** A lamp that is switched on by button 0, off by button 1 and else left alone, and a second lamp that shows whether button 0 was
    pressed in the round before.  The buttons are in the upper byte of the register, behind another input module. *)
Definition lamps : program bool :=
  mk_program bool [mk_address 1 0; mk_address 1 1] [mk_address 2 3; mk_address 2 0]
    (fun was bits => match bits with
       | [on; off] => (on, [if off then Some false else if on then Some true else None; Some was])
       | _ => (was, [])
       end).
Definition lamps_config : config :=
  mk_config [UR20_4DI_P; UR20_4DI_P; UR20_4DO_P] [0xFFFF; 0; 0xFFFF; 8; 0x8000; 0xFFFF] [repeat 0 4; repeat 0 4; repeat 0 4].
Definition lamps_new : coupler := after no_coupler (coupler_new lamps_config).
Definition lamps_on : coupler := fst (next Debug as_is as_is lamps_new [0] [0]).
Definition lamps_inputs : list (list Z) := [[0x105]; [0x002]; [0x300]; [0x003]; [0x0F0]].

Example C120_example :
  reachable Debug lamps_new /\ byte_wide lamps_new /\ cycle Debug lamps_new [0] [0] lamps_on (Ok [0]) /\
  Forall2 (sensor_at lamps_on) (sensors lamps) [8; 8] /\ Forall2 (actor_at lamps_on) (actors lamps) [0x8000; 0x8000] /\ NoDup (actors lamps) /\
  (forall a, In a (actors lamps) -> requested lamps_on a = None) /\
  Forall (fun input => Forall is_u16 input /\ inputs_readable lamps_on input) lamps_inputs /\
  exists images, rounds Debug lamps false [] lamps_on [0] lamps_inputs images /\
    map (fun x => bits_at output_bit x (actors lamps) [0x8000; 0x8000]) images =
    [[false; false]; [true; false]; [true; true]; [false; false]; [false; true]].
Proof.
  assert (R0 : reachable Debug lamps_new) by (apply (start_reachable _ lamps_config); vm_compute; reflexivity).
  assert (C1 : cycle Debug lamps_new [0] [0] lamps_on (Ok [0])) by (apply step_cycle; vm_compute; reflexivity).
  assert (R1 : reachable Debug lamps_on) by (apply (cycle_reachable _ _ _ _ _ _ R0 C1); discriminate).
  assert (Ef : c_offsets lamps_on = [mk_offset (Some 0) None; mk_offset (Some 8) None; mk_offset None (Some 0x8000)]) by (vm_compute; reflexivity).
  assert (Ef0 : c_offsets lamps_new = c_offsets lamps_on) by (vm_compute; reflexivity).
  assert (Em : exists ch0 ch1 ch2, c_modules lamps_on = [MDI V_4DI_P ch0; MDI V_4DI_P ch1; MDO V_4DO_P ch2]).
  { do 3 eexists. vm_compute. reflexivity. }
  destruct Em as (ch0 & ch1 & ch2 & Em).
  assert (B : byte_wide lamps_new).
  { intros i m o off [_ Ho] E. rewrite Ef0, Ef in Ho. destruct i as [|[|[|[|i]]]]; try discriminate Ho; injection Ho as <-; try discriminate E.
    injection E as <-. intros X. discriminate X. }
  assert (S : Forall2 (sensor_at lamps_on) (sensors lamps) [8; 8]).
  { assert (K : forall k, (k < 4)%nat -> sensor_at lamps_on (mk_address 1 k) 8).
    { intros k Hk. exists V_4DI_P, ch1, (mk_offset (Some 8) None). split; [split; [rewrite Em|rewrite Ef]; reflexivity|].
      split; [reflexivity|]. split; [right; split; reflexivity|exact Hk]. }
    apply Forall2_cons; [apply K; lia|]. apply Forall2_cons; [apply K; lia|]. apply Forall2_nil. }
  assert (A : Forall2 (actor_at lamps_on) (actors lamps) [0x8000; 0x8000]).
  { assert (K : forall k, (k < 4)%nat -> actor_at lamps_on (mk_address 2 k) 0x8000).
    { intros k Hk. exists (MDO V_4DO_P ch2), (mk_offset None (Some 0x8000)), 4%nat. split; [|split; [reflexivity|exact Hk]].
      split; [split; [rewrite Em|rewrite Ef]; reflexivity|]. split; [reflexivity|]. split; [reflexivity|]. split; [left; reflexivity|].
      intros j m' o' off' Hj [_ Ho] E. rewrite Ef in Ho. cbn [a_module] in Hj. destruct j as [|[|[|j]]]; try lia; cbn [nth_error] in Ho; [..|destruct j; discriminate Ho];
        injection Ho as <-; discriminate E. }
    apply Forall2_cons; [apply K; lia|]. apply Forall2_cons; [apply K; lia|]. apply Forall2_nil. }
  assert (D : NoDup (actors lamps)).
  { constructor; [intros [X|[]]; discriminate X|]. constructor; [intros []|constructor]. }
  assert (Q : forall a, In a (actors lamps) -> requested lamps_on a = None).
  { intros a [<-|[<-|[]]]; vm_compute; reflexivity. }
  assert (I : Forall (fun input => Forall is_u16 input /\ inputs_readable lamps_on input) lamps_inputs).
  { assert (K : forall w, 0 <= w < 65536 -> Forall is_u16 [w] /\ inputs_readable lamps_on [w]).
    { intros w Hw. split; [constructor; [exact Hw|constructor]|]. intros i m o off [Hm Ho] E. rewrite Em in Hm. rewrite Ef in Ho.
      destruct i as [|[|[|i]]]; cbn [nth_error] in Hm, Ho; [| | |destruct i; discriminate Ho]; injection Ho as <-; try discriminate E;
        injection E as <-; injection Hm as <-; (split; [split; [discriminate|]; split; [vm_compute; auto|]; split; vm_compute; discriminate|intros l ch X; discriminate X]). }
    repeat (apply Forall_cons; [apply K; lia|]). apply Forall_nil. }
  split; [exact R0|]. split; [exact B|]. split; [exact C1|]. split; [exact S|]. split; [exact A|]. split; [exact D|]. split; [exact Q|]. split; [exact I|].
  destruct (C120_goes_on _ _ lamps _ _ _ _ _ _ _ R0 B C1 S A lamps_inputs false [] I) as [images HR].
  exists images. split; [exact HR|]. rewrite (C120_program _ _ _ _ _ _ _ _ _ _ _ R1 S A D Q HR). vm_compute. reflexivity.
Qed.
