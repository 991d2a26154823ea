(** Property theorem C48: idle cycles. *)
From Coq Require Import ZArith List Bool.
From Verif Require Import Base Facts F32 Types Lib Com Fbc SpecCodec SpecSerial SpecCoupler SpecImage SpecAnalog SpecIdle
  ProofsWitness ProofsIdle.
Import ListNotations.
Local Open Scope Z_scope.

(** C48 does not hold as stated: with format S7 an analog output that nobody writes can move by one unit
    from one cycle to the next (register 1387 of a 0..20 mA channel becomes 1386, then 1385). *)
Theorem C48_refuted : exists prof c input output c' image c'' image', reachable prof c /\ byte_wide c /\
  cycle prof c input output c' (Ok image) /\ settled c' /\ idles prof c' input image c'' [image'] /\ image' <> image.
Proof. exact C48_drift. Qed.
Print Assumptions C48_refuted.

(** C48, as far as it holds: when every analog output uses format S5 (or is disabled), every image of any
    number of idle cycles is the image they started from, and the coupler stays idle. *)
Theorem C48_idle_stable_partial : forall prof c input output c' image c'' images, reachable prof c -> exact_outputs c ->
  cycle prof c input output c' (Ok image) -> settled c' -> idles prof c' input image c'' images ->
  Forall (fun i => i = image) images /\ settled c''.
Proof. exact C48_all. Qed.
Print Assumptions C48_idle_stable_partial.

(** Idle cycles do not fail either: if the input image can be decoded and no wide module starts in the middle
    of a register, the cycle after a successful one succeeds. *)
Theorem C48_idle_succeeds : forall prof c input output c' image input' ins' c'' r, reachable prof c ->
  cycle prof c input output c' (Ok image) -> settled c' -> byte_wide c -> nothing_received prof c' input input' ->
  process_input_data prof (infos c') input' = Ok ins' ->
  cycle prof c' input' image c'' r -> exists image', r = Ok image'.
Proof. exact C48_total. Qed.
Print Assumptions C48_idle_succeeds.

(** A coupler with four digital outputs, four analog outputs in format S5 and a serial module. *)
Definition idle_config : config :=
  mk_config [UR20_4DO_P; UR20_4AO_UI_16; UR20_1COM_232_485_422]
    [0x8000; 0xFFFF; 0x8010; 0xFFFF; 0x8050; 0x0000]
    [repeat 0 4; repeat 0 12; [0; 1; 0; 0; 0; 0; 0; 0; 0; 0]].
Definition idle_input : list Z := [0x04F1; 0; 0xABCD; 0].
Definition idle_run (c : coupler) (output : list Z) : coupler := fst (next Debug as_is as_is c idle_input output).
Definition idle_new : coupler := after no_coupler (coupler_new idle_config).
Definition z9 : list Z := repeat 0 9.
Definition idle_start : coupler :=
  fst (set_output (fst (set_output (idle_run (idle_run (idle_run idle_new z9) z9) z9)
    (mk_address 0 2) (Bit true))) (mk_address 1 3) (Decimal32 (f32_of_Z 7))).
Definition idle_image : list Z := [4; 0; 0; 0; 5734; 64; 0; 0; 0].
Definition idle1 : coupler := idle_run idle_start z9.
Definition idle2 : coupler := idle_run idle1 idle_image.
Definition idle3 : coupler := idle_run idle2 idle_image.
Lemma idle_reachable : reachable Debug idle_start.
Proof.
  assert (S : forall c r, reachable Debug c -> snd (next Debug as_is as_is c idle_input z9) = r -> (forall p, r <> Panic p) ->
              reachable Debug (idle_run c z9)).
  { intros c r Hc Hs Hp. apply (cycle_reachable _ c idle_input z9 _ r Hc); [|exact Hp]. apply step_cycle; [reflexivity..|].
    unfold idle_run. rewrite <- Hs. apply surjective_pairing. }
  unfold idle_start. apply R_set; [apply R_set; [|exact I]|vm_compute; reflexivity].
  refine (S _ _ _ eq_refl _); [|intros p; vm_compute; discriminate].
  refine (S _ _ _ eq_refl _); [|intros p; vm_compute; discriminate].
  refine (S _ _ _ eq_refl _); [|intros p; vm_compute; discriminate].
  apply (start_reachable _ idle_config); vm_compute; reflexivity.
Qed.
Lemma same_input prof c input : nothing_received prof c input input.
Proof. intros rows rows' i r r' H H' C1 C2. rewrite H in H'. injection H' as <-. rewrite C1 in C2. injection C2 as <-. reflexivity. Qed.
Example C48_example : reachable Debug idle_start /\ exact_outputs idle_start /\ byte_wide idle_start /\
  cycle Debug idle_start idle_input z9 idle1 (Ok idle_image) /\ settled idle1 /\
  idles Debug idle1 idle_input idle_image idle3 [idle_image; idle_image].
Proof.
  split; [exact idle_reachable|].
  split. { intros [|[|[|[|i]]]] m k r f Hm; vm_compute in Hm; try discriminate; injection Hm as <-; try discriminate.
           intros H. do 4 (destruct k as [|k]; [injection H as <- <-; left; reflexivity|]). destruct k; discriminate. }
  split. { intros [|[|[|[|i]]]] m o off [Hm Ho] Eo E; vm_compute in Ho; try (injection Ho as <-; cbn in Eo; injection Eo as <-; discriminate).
           all: discriminate. }
  split; [apply step_cycle; vm_compute; reflexivity|].
  split. { split; [intros a; reflexivity|]. intros [|[|[|[|i]]]] p H; vm_compute in H; try discriminate. injection H as <-. split; reflexivity. }
  apply (Idles_S Debug idle1 idle_input idle_image idle_input idle2 idle_image).
  - apply same_input.
  - apply step_cycle; vm_compute; reflexivity.
  - apply (Idles_S Debug idle2 idle_input idle_image idle_input idle3 idle_image); [apply same_input|apply step_cycle; vm_compute; reflexivity|constructor].
Qed.
