(** Property theorems C121: a control program that works with values of any kind. *)
From Coq Require Import ZArith SpecFloat List Bool Lia.
From Verif Require Import Base F32 Types Lib Analog Com Fbc SpecCodec SpecSerial SpecCoupler SpecAnalog SpecImage SpecFeedback SpecKeep SpecOutcome SpecIdle SpecTerminal SpecWire SpecController
  ProofsWitness SpecLossless ProofsController.
Import ListNotations.
Local Open Scope Z_scope.

(** C121: in every round the registers of the driven channels carry the values the program computed in the round before, and it
    computes the next ones from the physical values of the watched channels. *)
Theorem C121_program : forall state prof (P : controller state) s values c image inputs images, reachable prof c ->
  Forall (watched_at c) (watched P) -> Forall (driven_at c) (driven P) -> NoDup (map p_address (driven P)) ->
  (forall p, In p (driven P) -> requested c (p_address p) = None) ->
  control_rounds prof P s values c image inputs images -> controls P s values inputs images.
Proof. exact C121_all. Qed.
Print Assumptions C121_program.

(** C121: after a successful cycle a program that computes only values its outputs accept can make any number of rounds, with any
    input images that the coupler can read. *)
Theorem C121_goes_on : forall state prof (P : controller state) c0 input0 output0 c image, reachable prof c0 -> byte_wide c0 ->
  cycle prof c0 input0 output0 c (Ok image) -> Forall (watched_at c) (watched P) -> Forall (driven_at c) (driven P) ->
  (forall s input seen, Forall is_u16 input -> Forall2 (read_as input) (watched P) seen -> sendable (driven P) (snd (control P s seen))) ->
  forall inputs s values, sendable (driven P) values -> Forall (fun input => Forall is_u16 input /\ inputs_readable c input) inputs ->
  exists images, control_rounds prof P s values c image inputs images.
Proof. exact C121_goes_on_all. Qed.
Print Assumptions C121_goes_on.

(** A heating that is switched on below 5 mA, off above 10 mA and else left as it is, and a display of the measured current. *)
Definition heating_config : config :=
  mk_config [UR20_4AI_UI_16; UR20_4DO_P; UR20_4AO_UI_16] [0xFFFF; 0; 0x8000; 0xFFFF; 0x8010; 0xFFFF]
    [[0; 0; 0; 1; 0; 0; 0; 0; 0]; repeat 0 4; [0; 0; 0; 1; 0; 0; 0; 0; 0; 0; 0; 0]].
Definition heating_new : coupler := after no_coupler (coupler_new heating_config).
Definition heating_module (i : nat) : module := nth i (c_modules heating_new) MSIL.
Definition heating_offsets : list module_offset := [mk_offset (Some 0) None; mk_offset None (Some 0x8000); mk_offset None (Some 0x8010)].
Definition heating : controller bool :=
  mk_controller bool [mk_place (mk_address 0 0) (heating_module 0) 0]
    [mk_place (mk_address 1 3) (heating_module 1) 0x8000; mk_place (mk_address 2 0) (heating_module 2) 0x8010]
    (fun on seen => match seen with
       | [Decimal32 x] => let on' := if SFltb x (f32_of_Z 5) then true else if SFltb (f32_of_Z 10) x then false else on in
                          (on', [Bit on'; Decimal32 x])
       | _ => (false, [Bit false; Disabled])
       end).
Definition heating_zero : list Z := repeat 0 5.
Definition heating_run (c : coupler) (values : list channel_value) (input image : list Z) : coupler :=
  fst (next Debug as_is as_is (set_all c (pairs (driven heating) values)) input image).
Definition heating_seen (c : coupler) : list channel_value := match cell (inputs c) 0 0 with Some v => [v] | None => [] end.
Definition heating_0 : coupler := fst (next Debug as_is as_is heating_new [0; 0; 0; 0] heating_zero).
Definition heating_values_0 : list channel_value := [Bit false; Disabled].
Definition heating_1 : coupler := heating_run heating_0 heating_values_0 [4000; 1; 2; 3] heating_zero.
Definition heating_values_1 : list channel_value := snd (control heating false (heating_seen heating_1)).
Definition heating_2 : coupler := heating_run heating_1 heating_values_1 [6000; 0; 0; 0] heating_zero.
Definition heating_values_2 : list channel_value := snd (control heating true (heating_seen heating_2)).
Definition heating_3 : coupler := heating_run heating_2 heating_values_2 [10000; 7; 7; 7] [8; 4000; 0; 0; 0].
Definition heating_values_3 : list channel_value := snd (control heating true (heating_seen heating_3)).
Definition heating_4 : coupler := heating_run heating_3 heating_values_3 [6000; 0; 0; 0] [8; 6000; 0; 0; 0].

Definition rust_valueb (v : channel_value) : bool := match v with Decimal32 x => f32_valid x | Bit _ | Disabled => true | _ => false end.
Lemma rust_valuesb_ok values : forallb rust_valueb values = true -> Forall rust_value values.
Proof.
  intros H. apply Forall_forall. intros v Hv. pose proof (proj1 (forallb_forall _ _) H v Hv) as E.
  destruct v; try discriminate E; try exact I. exact E.
Qed.
Lemma shown_one c v : cell (inputs c) 0 0 = Some v -> Forall2 (shows c) (watched heating) (heating_seen c).
Proof.
  intros H. unfold heating_seen. rewrite H. apply Forall2_cons; [exact H|apply Forall2_nil].
Qed.

Example C121_example :
  reachable Debug heating_new /\ byte_wide heating_new /\ cycle Debug heating_new [0; 0; 0; 0] heating_zero heating_0 (Ok heating_zero) /\
  Forall (watched_at heating_0) (watched heating) /\ Forall (driven_at heating_0) (driven heating) /\ NoDup (map p_address (driven heating)) /\
  (forall p, In p (driven heating) -> requested heating_0 (p_address p) = None) /\
  (forall s input seen, Forall is_u16 input -> Forall2 (read_as input) (watched heating) seen -> sendable (driven heating) (snd (control heating s seen))) /\
  sendable (driven heating) heating_values_0 /\
  control_rounds Debug heating false heating_values_0 heating_0 heating_zero
    [[4000; 1; 2; 3]; [6000; 0; 0; 0]; [10000; 7; 7; 7]; [6000; 0; 0; 0]]
    [heating_zero; [8; 4000; 0; 0; 0]; [8; 6000; 0; 0; 0]; [0; 10000; 0; 0; 0]].
Proof.
  assert (R0 : reachable Debug heating_new) by (apply (start_reachable _ heating_config); vm_compute; reflexivity).
  assert (Em : c_modules heating_0 = c_modules heating_new) by (vm_compute; reflexivity).
  assert (Ef0 : c_offsets heating_new = heating_offsets) by (vm_compute; reflexivity).
  assert (Ef : c_offsets heating_0 = heating_offsets) by (vm_compute; reflexivity).
  split; [exact R0|]. split.
  { intros i m o off [_ Ho] E. rewrite Ef0 in Ho. destruct i as [|[|[|[|i]]]]; try discriminate Ho; injection Ho as <-; try discriminate E;
      injection E as <-; intros X; discriminate X. }
  split; [apply step_cycle; vm_compute; reflexivity|]. split.
  { constructor; [|constructor]. exists (mk_offset (Some 0) None). split; [split; [rewrite Em|rewrite Ef]; vm_compute; reflexivity|].
    split; [reflexivity|]. split; [reflexivity|]. split; [left; reflexivity|]. vm_compute. lia. }
  split.
  { constructor; [|constructor; [|constructor]].
    - exists (mk_offset None (Some 0x8000)). split; [|vm_compute; lia].
      split; [split; [rewrite Em|rewrite Ef]; vm_compute; reflexivity|]. split; [reflexivity|]. split; [reflexivity|]. split; [left; reflexivity|].
      cbn [p_address a_module]. intros j m' o' off' Hj [_ Ho] E. rewrite Ef in Ho. destruct j as [|[|[|j]]]; try lia; cbn [nth_error heating_offsets] in Ho; [|destruct j; discriminate Ho].
      injection Ho as <-. injection E as <-.
      cbn [p_offset p_module]. change (first_byte 0x0800 0x8010) with 2%nat. change (first_byte 0x0800 0x8000) with 0%nat. change (output_bytes (heating_module 1)) with 1%nat. lia.
    - exists (mk_offset None (Some 0x8010)). split; [|vm_compute; lia].
      split; [split; [rewrite Em|rewrite Ef]; vm_compute; reflexivity|]. split; [reflexivity|]. split; [reflexivity|]. split; [left; reflexivity|].
      cbn [p_address a_module]. intros j m' o' off' Hj [_ Ho] E. rewrite Ef in Ho. destruct j as [|[|[|j]]]; try lia; cbn [nth_error heating_offsets] in Ho. destruct j; discriminate Ho. }
  split.
  { constructor; [intros [X|[]]; discriminate X|]. constructor; [intros []|constructor]. }
  split.
  { intros p [<-|[<-|[]]]; vm_compute; reflexivity. }
  split.
  { assert (K : forall b v, v = Disabled \/ (exists x, v = Decimal32 x /\ f32_valid x = true) -> sendable (driven heating) [Bit b; v]).
    { intros b v Hv. apply Forall2_cons; [split; [exists b; reflexivity|exact I]|]. apply Forall2_cons; [|apply Forall2_nil].
      destruct Hv as [->|(x & -> & Hx)]; (split; [vm_compute|]); [left; reflexivity|exact I|right; exists x; reflexivity|exact Hx]. }
    intros s input seen Hu H. inversion H as [|p v ? l Hv Hl]; subst. inversion Hl; subst.
    destruct Hv as (r & f & _ & Hv). unfold physical_analog in Hv. destruct (base_span r) as [[base span]|].
    - destruct Hv as (x & -> & _ & _ & (q & _ & [Hx _]) & _). apply K. right. exists x. split; [reflexivity|exact Hx].
    - subst v. apply K. left. reflexivity. }
  split.
  { apply Forall2_cons; [split; [exists false; reflexivity|exact I]|]. apply Forall2_cons; [split; [left; reflexivity|exact I]|apply Forall2_nil]. }
  apply round_computed with (c1 := heating_1) (seen := heating_seen heating_1);
    [vm_compute; reflexivity|apply rust_valuesb_ok; vm_compute; reflexivity|vm_compute; reflexivity|vm_compute; reflexivity|vm_compute; reflexivity|eapply shown_one; vm_compute; reflexivity|].
  assert (E1 : fst (control heating false (heating_seen heating_1)) = true) by (vm_compute; reflexivity). rewrite E1.
  fold heating_values_1.
  apply round_computed with (c1 := heating_2) (seen := heating_seen heating_2);
    [vm_compute; reflexivity|apply rust_valuesb_ok; vm_compute; reflexivity|vm_compute; reflexivity|vm_compute; reflexivity|vm_compute; reflexivity|eapply shown_one; vm_compute; reflexivity|].
  assert (E2 : fst (control heating true (heating_seen heating_2)) = true) by (vm_compute; reflexivity). rewrite E2.
  fold heating_values_2.
  apply round_computed with (c1 := heating_3) (seen := heating_seen heating_3);
    [vm_compute; reflexivity|apply rust_valuesb_ok; vm_compute; reflexivity|vm_compute; reflexivity|vm_compute; reflexivity|vm_compute; reflexivity|eapply shown_one; vm_compute; reflexivity|].
  fold heating_values_3.
  apply round_computed with (c1 := heating_4) (seen := heating_seen heating_4);
    [vm_compute; reflexivity|apply rust_valuesb_ok; vm_compute; reflexivity|vm_compute; reflexivity|vm_compute; reflexivity|vm_compute; reflexivity|eapply shown_one; vm_compute; reflexivity|].
  constructor.
Qed.
