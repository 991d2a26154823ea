(** Property theorems C122: a digital control program copes with restarts and interrupted writes. *)
From Coq Require Import ZArith List Bool Lia.
From Verif Require Import Base F32 Types Lib Fcnt Com Fbc SpecCodec SpecSerial SpecCoupler SpecImage SpecFeedback SpecKeep SpecOutcome SpecIdle SpecMachine SpecOutage
  ProofsWitness SpecLossless ProofsOutage.
Import ListNotations.
Local Open Scope Z_scope.

(** C122: however often the program is restarted and whatever part of an output image arrives, each of its outputs obeys the commands or keeps
    its state: an output image that arrives takes all commands of its round, one that arrives in part takes some of them, a restart
    costs those of the next round, and nothing else is ever switched. *)
Theorem C122_copes : forall state prof cfg new (P : program state) s image events images in_offs out_offs, rust_config cfg -> coupler_new cfg = Ok new ->
  Forall2 (sensor_at new) (sensors P) in_offs -> Forall2 (actor_at new) (actors P) out_offs -> NoDup (actors P) ->
  disturbed prof P new s [] new image events images ->
  copes P s (bits_at output_bit image (actors P) out_offs) []
    (map (with_input (fun x => bits_at input_bit x (sensors P) in_offs)) events)
    (map (fun x => bits_at output_bit x (actors P) out_offs) images).
Proof. exact C122_all. Qed.
Print Assumptions C122_copes.

(** There is always a next round, whatever has happened before: an image that arrived in part can be read back like a whole one. *)
Theorem C122_goes_on : forall state prof cfg new (P : program state) image0 c image in_offs out_offs, rust_config cfg -> coupler_new cfg = Ok new ->
  Forall2 (sensor_at new) (sensors P) in_offs -> Forall2 (actor_at new) (actors P) out_offs ->
  byte_wide new -> outputs_packed new -> Forall is_u16 image0 -> outputs_readable new image0 -> presets_sendable new image0 ->
  situation prof P new image0 c image ->
  forall commands input, Forall is_u16 input -> inputs_readable new input ->
  exists c1 image1 bits, loops prof c image (requested_by (actors P) commands ++ [Tick input]) c1 image1 /\ Forall2 (sees c1) (sensors P) bits.
Proof. exact C122_goes_on_all. Qed.
Print Assumptions C122_goes_on.

(** A lamp that is switched on by button 0, off by button 1 and else left alone, and a second lamp that shows whether button 0 was
    pressed in the round before.  The first lamp is on when the program starts.  The image of the second round does not arrive, the
    program is restarted, and later the image with which the lamp is to be switched off does not arrive; it is switched off in the round after
    that, as the button is still pressed. *)
Definition lights : program bool :=
  mk_program bool [mk_address 1 0; mk_address 1 1] [mk_address 2 3; mk_address 2 0]
    (fun was bits => match bits with
       | [on; off] => (on, [if off then Some false else if on then Some true else None; Some was])
       | _ => (was, [])
       end).
Definition lights_config : config :=
  mk_config [UR20_4DI_P; UR20_4DI_P; UR20_4DO_P] [0xFFFF; 0; 0xFFFF; 8; 0x8000; 0xFFFF] [repeat 0 4; repeat 0 4; repeat 0 4].
Definition lights_new : coupler := after no_coupler (coupler_new lights_config).
Definition lights_run (c : coupler) (commands : list (option bool)) (input image : list Z) : coupler :=
  fst (next Debug as_is as_is (set_all c (requests (requested_by (actors lights) commands))) input image).
Definition lights_1 : coupler := lights_run lights_new [] [0x100] [8].
Definition lights_2 : coupler := lights_run lights_1 [Some true; Some false] [0] [8].
Definition lights_3 : coupler := lights_run lights_new [] [0x200] [8].
Definition lights_4 : coupler := lights_run lights_3 [Some false; Some true] [0x200] [8].
Definition lights_5 : coupler := lights_run lights_4 [Some false; Some false] [0] [8].
Definition lights_events : list (event bool (list Z)) := [Whole [0x100]; Broken [0]; Restart true; Whole [0x200]; Broken [0x200]; Whole [0]].
Definition lights_images : list (list Z) := [[8]; [8]; [8]; [8]; [0]].

Example C122_example :
  rust_config lights_config /\ coupler_new lights_config = Ok lights_new /\
  Forall2 (sensor_at lights_new) (sensors lights) [8; 8] /\ Forall2 (actor_at lights_new) (actors lights) [0x8000; 0x8000] /\ NoDup (actors lights) /\
  disturbed Debug lights lights_new false [] lights_new [8] lights_events lights_images.
Proof.
  assert (E : coupler_new lights_config = Ok lights_new) by (vm_compute; reflexivity).
  assert (Ef : c_offsets lights_new = [mk_offset (Some 0) None; mk_offset (Some 8) None; mk_offset None (Some 0x8000)]) by (vm_compute; reflexivity).
  assert (Em : exists ch0 ch1 ch2, c_modules lights_new = [MDI V_4DI_P ch0; MDI V_4DI_P ch1; MDO V_4DO_P ch2]).
  { do 3 eexists. vm_compute. reflexivity. }
  destruct Em as (ch0 & ch1 & ch2 & Em).
  split. { split; [apply fits_u16; reflexivity|]. repeat (apply Forall_cons; [apply fits_u16; reflexivity|]). apply Forall_nil. }
  split; [exact E|]. split.
  { assert (K : forall k, (k < 4)%nat -> sensor_at lights_new (mk_address 1 k) 8).
    { intros k Hk. exists V_4DI_P, ch1, (mk_offset (Some 8) None). split; [split; [rewrite Em|rewrite Ef]; reflexivity|].
      split; [reflexivity|]. split; [right; split; reflexivity|exact Hk]. }
    apply Forall2_cons; [apply K; lia|]. apply Forall2_cons; [apply K; lia|]. apply Forall2_nil. }
  split.
  { assert (K : forall k, (k < 4)%nat -> actor_at lights_new (mk_address 2 k) 0x8000).
    { intros k Hk. exists (MDO V_4DO_P ch2), (mk_offset None (Some 0x8000)), 4%nat. split; [|split; [reflexivity|exact Hk]].
      split; [split; [rewrite Em|rewrite Ef]; reflexivity|]. split; [reflexivity|]. split; [reflexivity|]. split; [left; reflexivity|].
      intros j m' o' off' Hj [_ Ho] Eo. rewrite Ef in Ho. cbn [a_module] in Hj. destruct j as [|[|[|j]]]; try lia; cbn [nth_error] in Ho; [..|destruct j; discriminate Ho];
        injection Ho as <-; discriminate Eo. }
    apply Forall2_cons; [apply K; lia|]. apply Forall2_cons; [apply K; lia|]. apply Forall2_nil. }
  split. { constructor; [intros [X|[]]; discriminate X|]. constructor; [intros []|constructor]. }
  assert (N : forall a v, In (a, v) (requests []) -> ~ In a (actors lights)) by (intros a v []).
  assert (B : between_ticks []) by (intros x []).
  assert (O : forall old new, partly old new old) by (intros old new j; left; reflexivity).
  apply (Disturbed_whole _ _ _ _ _ _ _ [] [0x100] lights_1 [8] [true; false]);
    [apply loop_computed; vm_compute; reflexivity|exact B|exact N|repeat (apply Forall2_cons; [vm_compute; reflexivity|]); apply Forall2_nil|].
  cbn [step lights fst snd].
  apply (Disturbed_broken _ _ _ _ _ _ _ [] [0] lights_2 [8] [false; false] [8]);
    [apply loop_computed; vm_compute; reflexivity|exact B|exact N|repeat (apply Forall2_cons; [vm_compute; reflexivity|]); apply Forall2_nil|apply O|].
  apply Disturbed_restart.
  apply (Disturbed_whole _ _ _ _ _ _ _ [] [0x200] lights_3 [8] [false; true]);
    [apply loop_computed; vm_compute; reflexivity|exact B|exact N|repeat (apply Forall2_cons; [vm_compute; reflexivity|]); apply Forall2_nil|].
  cbn [step lights fst snd].
  apply (Disturbed_broken _ _ _ _ _ _ _ [] [0x200] lights_4 [1] [false; true] [8]);
    [apply loop_computed; vm_compute; reflexivity|exact B|exact N|repeat (apply Forall2_cons; [vm_compute; reflexivity|]); apply Forall2_nil|apply O|].
  cbn [step lights fst snd].
  apply (Disturbed_whole _ _ _ _ _ _ _ [] [0] lights_5 [0] [false; false]);
    [apply loop_computed; vm_compute; reflexivity|exact B|exact N|repeat (apply Forall2_cons; [vm_compute; reflexivity|]); apply Forall2_nil|].
  apply Disturbed_0.
Qed.

(** A rack with counters.  A preset is requested in the first round, and only one of its two registers arrives. *)
Definition meters : program unit := mk_program unit [mk_address 0 1] [mk_address 1 2] (fun _ bits => (tt, map Some bits)).
Definition meters_config : config :=
  mk_config [UR20_4DI_P; UR20_4DO_P; UR20_2FCNT_100] [0xFFFF; 0x0000; 0x8000; 0xFFFF; 0x8010; 0x0010] [repeat 0 4; repeat 0 4; repeat 0 2].
Definition meters_new : coupler := after no_coupler (coupler_new meters_config).
Definition meters_preset : channel_value := FcntOut (mk_fcnt_out (duration_from_nanos (0x12FFFF * 1000)) None).
Definition meters_1 : coupler := fst (next Debug as_is as_is (set_all meters_new [(mk_address 2 0, meters_preset)]) (repeat 2 11) [0; 0x7F; 0; 0; 0; 0; 0]).
Example C122_goes_on_example :
  rust_config meters_config /\ coupler_new meters_config = Ok meters_new /\
  Forall2 (sensor_at meters_new) (sensors meters) [0] /\ Forall2 (actor_at meters_new) (actors meters) [0x8000] /\
  byte_wide meters_new /\ outputs_packed meters_new /\ Forall is_u16 [0; 0x7F; 0; 0; 0; 0; 0] /\ outputs_readable meters_new [0; 0x7F; 0; 0; 0; 0; 0] /\
  presets_sendable meters_new [0; 0x7F; 0; 0; 0; 0; 0] /\
  situation Debug meters meters_new [0; 0x7F; 0; 0; 0; 0; 0] meters_1 [0; 0x7F; 0xFFFF; 0; 0; 0; 0] /\ inputs_readable meters_new (repeat 2 11).
Proof.
  assert (E : coupler_new meters_config = Ok meters_new) by (vm_compute; reflexivity).
  assert (Ef : c_offsets meters_new = [mk_offset (Some 0) None; mk_offset None (Some 0x8000); mk_offset (Some 16) (Some 0x8010)]) by (vm_compute; reflexivity).
  assert (Em : exists ch0 ch1 ch2, c_modules meters_new = [MDI V_4DI_P ch0; MDO V_4DO_P ch1; MFCNT ch2]).
  { do 3 eexists. vm_compute. reflexivity. }
  destruct Em as (ch0 & ch1 & ch2 & Em).
  assert (K : forall i m o, module_at meters_new i m o ->
    (m = MDI V_4DI_P ch0 /\ o = mk_offset (Some 0) None) \/ (m = MDO V_4DO_P ch1 /\ o = mk_offset None (Some 0x8000)) \/ (m = MFCNT ch2 /\ o = mk_offset (Some 16) (Some 0x8010))).
  { intros i m o [Hm Ho]. rewrite Em in Hm. rewrite Ef in Ho. destruct i as [|[|[|i]]]; cbn [nth_error] in Hm, Ho; [| | |destruct i; discriminate Ho];
      injection Hm as <-; injection Ho as <-; auto. }
  split. { split; [apply fits_u16; reflexivity|]. repeat (apply Forall_cons; [apply fits_u16; reflexivity|]). apply Forall_nil. }
  split; [exact E|]. split.
  { apply Forall2_cons; [|apply Forall2_nil]. exists V_4DI_P, ch0, (mk_offset (Some 0) None). split; [split; [rewrite Em|rewrite Ef]; reflexivity|].
    split; [reflexivity|]. split; [left; reflexivity|]. cbn. lia. }
  split.
  { apply Forall2_cons; [|apply Forall2_nil]. exists (MDO V_4DO_P ch1), (mk_offset None (Some 0x8000)), 4%nat. split; [|split; [reflexivity|cbn; lia]].
    split; [split; [rewrite Em|rewrite Ef]; reflexivity|]. split; [reflexivity|]. split; [reflexivity|]. split; [left; reflexivity|].
    intros j m' o' off' Hj Hat Eo. destruct (K _ _ _ Hat) as [[-> ->]|[[-> ->]|[-> ->]]]; try discriminate Eo; injection Eo as <-.
    - destruct Hat as [_ Ho]. rewrite Ef in Ho. cbn [a_module] in Hj. destruct j as [|[|[|j]]]; try lia; [discriminate Ho|destruct j; discriminate Ho].
    - cbn. lia. }
  split. { intros i m o off Hat Eo. destruct (K _ _ _ Hat) as [[-> ->]|[[-> ->]|[-> ->]]]; try discriminate Eo; injection Eo as <-; intros X; discriminate X. }
  split. { unfold outputs_packed. rewrite Em, Ef. cbn. left. split; [reflexivity|]. left. split; [reflexivity|exact I]. }
  split; [apply fits_u16; reflexivity|].
  split. { intros i m o off Hat Eo. destruct (K _ _ _ Hat) as [[-> ->]|[[-> ->]|[-> ->]]]; try discriminate Eo; injection Eo as <-;
    (split; [split; [discriminate|]; split; [vm_compute; auto|]; split; vm_compute; discriminate|intros l ch X; discriminate X]). }
  split. { intros i ch o off k Hat Eo Hk. destruct (K _ _ _ Hat) as [[X _]|[[X _]|[_ ->]]]; try discriminate X. injection Eo as <-.
    destruct k as [|[|k]]; [| |lia]; vm_compute; discriminate. }
  split.
  { apply (Situation_broken _ _ _ _ meters_new [0; 0x7F; 0; 0; 0; 0; 0] [] [Request (mk_address 2 0) meters_preset] (repeat 2 11) meters_1 [0; 0x12; 0xFFFF; 0; 0; 0; 0]).
    - constructor.
    - apply L_request; [vm_compute; intuition discriminate|]. apply (L_tick _ _ _ _ meters_1 [0; 0x12; 0xFFFF; 0; 0; 0; 0]); [apply step_cycle; vm_compute; reflexivity|constructor].
    - intros x [X|[]]. discriminate X.
    - intros j. destruct j as [|[|[|j]]]; [left|left|right|left]; reflexivity.
    - reflexivity.
    - apply fits_u16. reflexivity. }
  intros i m o off Hat Eo. destruct (K _ _ _ Hat) as [[-> ->]|[[-> ->]|[-> ->]]]; try discriminate Eo; injection Eo as <-;
    (split; [split; [discriminate|]; split; [vm_compute; auto|]; split; vm_compute; discriminate|intros l ch X; discriminate X]).
Qed.
