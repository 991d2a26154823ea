(** Lemmas for C75. *)
From Coq Require Import ZArith List Bool Lia.
From Verif Require Import Base Facts F32 Types Lib Util Digital Analog Fcnt Com Fbc Defaults SpecCatalogue SpecParams SpecCodec SpecDefault
  ProofsCatalogue ProofsParams.
Import ListNotations.
Local Open Scope Z_scope.

Definition default_ok (t : module_type) : Prop :=
  match module_default t, param_bounds t, standard_registers t with
  | Some m, Some b, Some regs => length regs = length b /\ in_range b regs /\ Forall is_u16 regs /\ module_from_params t regs = Ok m
  | None, None, None => True
  | _, _, _ => False
  end.

Lemma default_ok_all t : default_ok t.
Proof.
  destruct t; unfold default_ok; cbn [module_default param_bounds standard_registers]; try exact I;
    (split; [vm_compute; reflexivity|]; split; [vm_compute; repeat split; discriminate|]; split; [|vm_compute; reflexivity]);
    cbn [concat repeat app]; repeat (apply Forall_cons; [split; [discriminate|reflexivity]|]); apply Forall_nil.
Qed.

Lemma C75_configured_all : forall t,
  (module_default t = None <-> param_bounds t = None) /\ (standard_registers t = None <-> param_bounds t = None) /\
  forall m, module_default t = Some m -> exists bounds regs, param_bounds t = Some bounds /\ standard_registers t = Some regs /\
    length regs = length bounds /\ in_range bounds regs /\ Forall is_u16 regs /\ module_from_params t regs = Ok m.
Proof.
  intros t. pose proof (default_ok_all t) as H. unfold default_ok in H.
  destruct (module_default t) as [m|], (param_bounds t) as [b|], (standard_registers t) as [regs|]; try contradiction.
  - split; [split; discriminate|]. split; [split; discriminate|]. intros m' E. apply Some_inj in E. subst m'. exists b, regs. auto 10.
  - split; [split; reflexivity|]. split; [split; reflexivity|]. discriminate.
Qed.

Lemma traverse_all {A B} (f : A -> outcome B) (P : B -> Prop) l r : (forall a b, In a l -> f a = Ok b -> P b) -> traverse f l = Ok r -> Forall P r.
Proof.
  intros Hf H. apply traverse_ok in H. induction H as [|a b l r Hab H IH]; constructor.
  - apply (Hf a b); [left; reflexivity|exact Hab].
  - apply IH. intros x y Hx. apply Hf. right. exact Hx.
Qed.

Lemma index_repeat {A} (a p : A) n i : index (repeat a n) i = Ok p -> p = a.
Proof. intros H. apply index_ok in H. apply nth_error_In in H. apply repeat_spec in H. exact H. Qed.

Lemma C75_inputs_all : forall t m data values, module_default t = Some m -> analog_input t ->
  mod_process_input_data m data = Ok values -> Forall (fun v => v = Disabled) values.
Proof.
  intros t m data values Hd Ht H. unfold analog_input in Ht. cbn [In] in Ht.
  destruct Ht as [<-|[<-|[<-|[<-|[<-|[<-|[]]]]]]]; cbn [module_default] in Hd; apply Some_inj in Hd; subst m; cbn [mod_process_input_data] in H.
  - unfold ai_ui_process_input_data in H. destruct (negb _); [discriminate|]. destruct (negb _); [discriminate|].
    eapply traverse_all; [|exact H]. intros i v _ E. apply bind_ok in E. destruct E as (d & _ & E). apply bind_ok in E.
    destruct E as (p & Ep & E). apply index_repeat in Ep. subst p. apply Ok_inj in E. subst v. reflexivity.
  - unfold ai_ui_diag_process_input_data in H. destruct (negb _); [discriminate|]. destruct (negb _); [discriminate|].
    eapply traverse_all; [|exact H]. intros i v _ E. apply bind_ok in E. destruct E as (d & _ & E). apply bind_ok in E.
    destruct E as (p & Ep & E). apply index_repeat in Ep. subst p. apply Ok_inj in E. subst v. reflexivity.
  - unfold ai_ui_process_input_data in H. destruct (negb _); [discriminate|]. destruct (negb _); [discriminate|].
    eapply traverse_all; [|exact H]. intros i v _ E. apply bind_ok in E. destruct E as (d & _ & E). apply bind_ok in E.
    destruct E as (p & Ep & E). apply index_repeat in Ep. subst p. apply Ok_inj in E. subst v. reflexivity.
  - unfold ai_i_process_input_data in H. destruct (negb _); [discriminate|]. destruct (negb _); [discriminate|].
    eapply traverse_all; [|exact H]. intros i v _ E. apply bind_ok in E. destruct E as (d & _ & E). apply bind_ok in E.
    destruct E as (p & Ep & E). apply index_repeat in Ep. subst p. apply Ok_inj in E. subst v. reflexivity.
  - unfold rtd_process_input_data in H. destruct (negb _); [discriminate|]. destruct (negb _); [discriminate|].
    eapply traverse_all; [|exact H]. intros i v _ E. apply bind_ok in E. destruct E as (d & _ & E). apply bind_ok in E.
    destruct E as (p & Ep & E). apply index_repeat in Ep. subst p. apply Ok_inj in E. subst v. reflexivity.
  - unfold tc_process_input_data in H. destruct (negb _); [discriminate|]. apply Ok_inj in H. subst values.
    apply Forall_forall. intros v Hv. apply in_map_iff in Hv. destruct Hv as ([d p] & <- & Hin). apply in_combine_r in Hin.
    apply repeat_spec in Hin. subst p. reflexivity.
Qed.

Lemma C75_outputs_all : forall t m prof, module_default t = Some m -> analog_output t ->
  (forall data values, mod_process_output_data m data = Ok values -> Forall (fun v => v = Disabled) values) /\
  (forall values data, mod_process_output_values prof m values = Ok data -> Forall (fun w => w = 0) data).
Proof.
  intros t m prof Hd Ht. unfold analog_output in Ht. cbn [In] in Ht.
  destruct Ht as [<-|[<-|[]]]; cbn [module_default] in Hd; apply Some_inj in Hd; subst m;
    cbn [mod_process_output_data mod_process_output_values]; split; intros x y H;
    unfold ao_process_output_data, ao_process_output_values, ao_diag_process_output_data, ao_diag_process_output_values in H;
    (destruct (negb _); [discriminate|]); try (destruct (negb _); [discriminate|]);
    (eapply traverse_all; [|exact H]); intros [i v] b _ E; apply bind_ok in E; destruct E as (p & Ep & E); apply index_repeat in Ep; subst p.
  - apply Ok_inj in E. subst b. reflexivity.
  - unfold value_to_u16 in E. destruct v; try discriminate; apply Ok_inj in E; subst b; reflexivity.
  - apply Ok_inj in E. subst b. reflexivity.
  - unfold value_to_u16 in E. destruct v; try discriminate; apply Ok_inj in E; subst b; reflexivity.
Qed.

Lemma C75_messages_all : forall prof l,
  rs_out_to_bytes rs_out_default l = Ok (repeat 0 (message_size l)) /\
  rs_in_from_bytes (repeat 0 (message_size l)) = Ok rs_in_default /\
  rs_out_from_bytes (repeat 0 (message_size l)) = Ok rs_out_default /\
  forall m, module_default UR20_2FCNT_100 = Some m ->
    mod_process_output_values prof m [FcntOut fcnt_out_default; FcntOut fcnt_out_default] = Ok (repeat 0 6) /\
    mod_process_output_data m (repeat 0 6) = Ok [FcntOut fcnt_out_default; FcntOut fcnt_out_default].
Proof.
  intros prof l. split; [destruct l; reflexivity|]. split; [destruct l; reflexivity|]. split; [destruct l; reflexivity|].
  intros m Hm. apply Some_inj in Hm. subst m. destruct prof; vm_compute; auto.
Qed.
