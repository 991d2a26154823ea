(** Property theorems C72: a control loop that has made one successful cycle goes on. *)
From Coq Require Import ZArith List Bool Lia.
From Verif Require Import Base Facts F32 Types Lib Com Fbc SpecCodec SpecSerial SpecCoupler SpecImage SpecAnalog SpecOutcome SpecIdle
  SpecSteady ProofsWitness ProofsCoupler ProofsOutcome ProofsSteady PropsFeedback.
Import ListNotations.
Local Open Scope Z_scope.

(** C72: Once a cycle has returned an image, a cycle that is given this image succeeds exactly when the input image
    can be decoded and the pending requests can be sent, whatever the program has done in between - set outputs,
    exchanged serial bytes, made cycles with other images that may have failed (none of them can panic). *)
Theorem C72_loop_goes_on : forall prof c0 input0 output0 c1 image cs c2 ans input c3 r,
  reachable prof c0 -> byte_wide c0 -> cycle prof c0 input0 output0 c1 (Ok image) ->
  runs prof c1 cs c2 ans -> cycle prof c2 input image c3 r ->
  (exists image', r = Ok image') <-> inputs_readable c2 input /\ requests_accepted c2.
Proof. exact C72_steady_all. Qed.
Print Assumptions C72_loop_goes_on.

(** C72: A request that cannot be sent costs one cycle. The cycle after it, with the last image returned, succeeds
    again, together with all acceptable requests made since. *)
Theorem C72_loop_recovers : forall prof c0 input0 output0 c1 image cs c2 ans input c3 r reqs input' image' c4 r',
  reachable prof c0 -> byte_wide c0 -> cycle prof c0 input0 output0 c1 (Ok image) ->
  runs prof c1 cs c2 ans -> cycle prof c2 input image c3 r -> inputs_readable c2 input ->
  image' = image \/ r = Ok image' ->
  acceptable c3 reqs -> Forall (fun av => rust_value (snd av)) reqs ->
  cycle prof (set_all c3 reqs) input' image' c4 r' -> inputs_readable c3 input' ->
  exists image'', r' = Ok image''.
Proof. exact C72_recovers_all. Qed.
Print Assumptions C72_loop_recovers.

(** C72: The loop can be started with an image of zeros that is long enough. *)
Theorem C72_blank_start : forall prof c input n c' r, reachable prof c -> outputs_packed c -> outputs_within c n ->
  cycle prof c input (blank n) c' r ->
  (exists image, r = Ok image) <-> inputs_readable c input /\ requests_accepted c.
Proof. exact C72_first_all. Qed.
Print Assumptions C72_blank_start.

(** Digital outputs, a counter and analog outputs: the first cycle with zeros, an unsuitable request for a counter, and
    the cycle after it, with a request for a digital output. *)
Definition steady_1 : coupler := feed_run feed_new (blank 11).
Definition steady_image : list Z := blank 11.
Definition steady_2 : coupler := fst (set_output steady_1 (mk_address 1 0) (Bit true)).
Definition steady_3 : coupler := feed_run steady_2 steady_image.
Definition steady_reqs : list (address * channel_value) := [(mk_address 0 0, Bit true); (mk_address 7 7, Bit true)].
Definition steady_4 : coupler := feed_run (set_all steady_3 steady_reqs) steady_image.
Example C72_example : reachable Debug feed_new /\ byte_wide feed_new /\ outputs_packed feed_new /\ outputs_within feed_new 11 /\
  cycle Debug feed_new feed_input (blank 11) steady_1 (Ok steady_image) /\
  runs Debug steady_1 [SetOutput (mk_address 1 0) (Bit true)] steady_2 [SetResult (Ok tt)] /\
  cycle Debug steady_2 feed_input steady_image steady_3 (Err ChannelValueError) /\
  inputs_readable steady_2 feed_input /\ ~ requests_accepted steady_2 /\
  acceptable steady_3 steady_reqs /\
  cycle Debug (set_all steady_3 steady_reqs) feed_input steady_image steady_4 (Ok (1 :: blank 10)).
Proof.
  assert (Hcases : forall c, c_modules c = c_modules feed_new -> c_offsets c = c_offsets feed_new -> forall i m o, module_at c i m o ->
    (i = 0%nat /\ m = MDO V_4DO_P (repeat false 4) /\ o = mk_offset None (Some 0x8000)) \/
    (i = 1%nat /\ m = nth 1 (c_modules feed_new) MSIL /\ o = mk_offset (Some 0) (Some 0x8010)) \/
    (i = 2%nat /\ m = nth 2 (c_modules feed_new) MSIL /\ o = mk_offset None (Some 0x8070))).
  { intros c E1 E2 i m o [Hm Ho]. rewrite E1 in Hm. rewrite E2 in Ho. destruct i as [|[|[|[|i]]]]; try discriminate; vm_compute in Ho;
      apply Some_inj in Ho; subst o; [left|right; left|right; right]; (split; [reflexivity|]; split; [|reflexivity]);
      vm_compute in Hm; apply Some_inj in Hm; subst m; reflexivity. }
  split; [apply (start_reachable _ feed_config); vm_compute; reflexivity|].
  split. { intros i m o off Hat E H8. destruct (Hcases feed_new eq_refl eq_refl i m o Hat) as [(_ & _ & ->)|[(_ & _ & ->)|(_ & _ & ->)]];
             cbn in E; apply Some_inj in E; subst off; discriminate. }
  split. { vm_compute. left. split; [reflexivity|]. left. split; [reflexivity|]. left. split; [reflexivity|]. exact I. }
  split. { intros i m o off Hat E. destruct (Hcases feed_new eq_refl eq_refl i m o Hat) as [(_ & -> & ->)|[(_ & -> & ->)|(_ & -> & ->)]];
             cbn in E; apply Some_inj in E; subst off; vm_compute; split; discriminate. }
  split; [apply step_cycle; vm_compute; reflexivity|].
  split. { apply (Runs_cons Debug steady_1 _ steady_2); [|constructor].
           exact (Calls_set Debug steady_1 (mk_address 1 0) (Bit true) I). }
  split; [apply step_cycle; vm_compute; reflexivity|].
  split. { intros i m o off Hat E. destruct (Hcases steady_2 eq_refl eq_refl i m o Hat) as [(_ & -> & ->)|[(_ & -> & ->)|(_ & -> & ->)]];
             cbn in E; try discriminate. apply Some_inj in E. subst off. split; [|intros l ch H; discriminate].
           split; [vm_compute; discriminate|]. split; [left; reflexivity|]. vm_compute. split; discriminate. }
  split. { intros H. specialize (H 1%nat (nth 1 (c_modules feed_new) MSIL) (mk_offset (Some 0) (Some 0x8010)) 0%nat (Bit true)).
           destruct H as (f & Hf & _); [split; vm_compute; reflexivity|discriminate|reflexivity|vm_compute; reflexivity|discriminate]. }
  split. { intros a v m o [Hi|[Hi|[]]] Hat _ _; apply (f_equal fst) in Hi as Ha; apply (f_equal snd) in Hi; cbn in Ha, Hi; subst a v;
             destruct (Hcases steady_3 eq_refl eq_refl _ m o Hat) as [(E & -> & ->)|[(E & -> & ->)|(E & -> & ->)]]; try discriminate.
           exists true. reflexivity. }
  apply step_cycle; vm_compute; reflexivity.
Qed.
