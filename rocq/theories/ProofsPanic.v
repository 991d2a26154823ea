(** Proofs of C43: exactly when a cycle panics. *)
From Coq Require Import ZArith List Bool Lia ZifyBool ZifyNat.
From Verif Require Import Base Facts F32 Types Lib Util Com Fbc SpecCodec SpecSerial SpecCoupler SpecImage SpecOutcome
  ProofsCodec ProofsAddr ProofsModule ProofsImage ProofsLayout ProofsLoop ProofsCycle ProofsCoupler ProofsOutcome.
Import ListNotations.
Local Open Scope Z_scope.
Ltac Zify.zify_post_hook ::= Z.div_mod_to_equations.

Lemma traverse_panic {A B} (f : A -> outcome B) l p : traverse f l = Panic p <->
  exists i a, nth_error l i = Some a /\ f a = Panic p /\
    forall j a', (j < i)%nat -> nth_error l j = Some a' -> exists b, f a' = Ok b.
Proof.
  induction l as [|x l IH]; cbn [traverse].
  - split; [discriminate|]. intros (i & a & H & _). destruct i; discriminate.
  - destruct (f x) as [b|e|q] eqn:E; cbn [bind].
    + transitivity (traverse f l = Panic p).
      { destruct (traverse f l); cbn [bind]; split; intros H; try discriminate; auto. }
      rewrite IH. split.
      * intros (i & a & H1 & H2 & H3). exists (S i), a. split; [exact H1|]. split; [exact H2|].
        intros [|j] a' Hj Ha; cbn [nth_error] in Ha; [apply Some_inj in Ha; subst; eauto|]. apply (H3 j); [lia|exact Ha].
      * intros (i & a & H1 & H2 & H3). destruct i as [|i]; cbn [nth_error] in H1.
        { apply Some_inj in H1. subst. congruence. }
        exists i, a. split; [exact H1|]. split; [exact H2|]. intros j a' Hj Ha. apply (H3 (S j)); [lia|exact Ha].
    + split; [discriminate|]. intros (i & a & H1 & H2 & H3). exfalso. destruct i as [|i]; cbn [nth_error] in H1.
      { apply Some_inj in H1. subst. congruence. }
      destruct (H3 0%nat x) as (b & Hb); [lia|reflexivity|congruence].
    + split.
      * intros H. exists 0%nat, x. split; [reflexivity|]. split; [congruence|]. intros j a' Hj. lia.
      * intros (i & a & H1 & H2 & H3). destruct i as [|i]; cbn [nth_error] in H1.
        { apply Some_inj in H1. subst. congruence. }
        destruct (H3 0%nat x) as (b & Hb); [lia|reflexivity|congruence].
Qed.

Lemma low_overflows m o off data : is_u16 off -> mo_output o = Some off -> off < 0x8000 ->
  output_row Debug (m, o) data = Panic ArithmeticOverflow.
Proof.
  intros Hu Eo Hl. unfold output_row. cbn [fst snd]. rewrite Eo. unfold prepare_raw_data_to_process.
  rewrite to_register_address_eq by exact Hu. unfold sub_u16, arith, is_u16 in *.
  replace ((0 <=? off / 16 - 2048) && (off / 16 - 2048 <? 65536)) with false by lia. reflexivity.
Qed.

Lemma high_row m o data : complete m -> offsets_u16 (m, o) -> (forall off, mo_output o = Some off -> 0x8000 <= off) ->
  no_panic (output_row Debug (m, o) data).
Proof.
  intros Hc [_ HO] Hh. cbn [snd] in HO. unfold output_row. cbn [fst snd]. destruct (mo_output o) as [off|]; [|exact I].
  specialize (HO off eq_refl). specialize (Hh off eq_refl). apply bind_no_panic.
  - apply prepare_no_panic; [exact HO|lia|right; lia].
  - intros raw _. apply complete_outputs. exact Hc.
Qed.

(** The condition, in terms of the modules in the order of the coupler. *)
Definition first_low (c : coupler) (output : list Z) : Prop :=
  exists i m o off, module_at c i m o /\ mo_output o = Some off /\ off < 0x8000 /\
    forall j m' o' off', (j < i)%nat -> module_at c j m' o' -> mo_output o' = Some off' ->
      readable 0x0800 output off' (output_bytes m') /\ announces_fitting 0x0800 output off' m'.

Lemma outputs_panic c output p : coupler_ok c -> Forall is_u16 output ->
  process_output_data Debug (infos c) output = Panic p <-> p = ArithmeticOverflow /\ first_low c output.
Proof.
  intros Hok Hu. rewrite process_output_rows, traverse_panic. split.
  - intros (i & (m & o) & Hi & Hp & Hb). pose proof Hi as Hat. apply infos_at in Hat.
    destruct (mo_output o) as [off|] eqn:Eo.
    2:{ unfold output_row in Hp. cbn [fst snd] in Hp. rewrite Eo in Hp. discriminate. }
    destruct (ok_off c Hok i m o Hat) as [O1 O2]. cbn [snd] in O2. pose proof (O2 off Eo) as Hoff.
    destruct (Z_lt_ge_dec off 0x8000) as [Hl|Hg].
    + rewrite (low_overflows m o off output Hoff Eo Hl) in Hp. split; [congruence|]. exists i, m, o, off.
      split; [exact Hat|]. split; [exact Eo|]. split; [exact Hl|]. intros j m' o' off' Hj Hatj Eo'.
      pose proof Hatj as Hij. apply infos_at in Hij. destruct (Hb j _ Hj Hij) as (b & Hrow).
      destruct (ok_off c Hok j m' o' Hatj) as [P1 P2]. cbn [snd] in P2.
      assert (Hh : 0x8000 <= off').
      { destruct (Z_lt_ge_dec off' 0x8000) as [Hlt|]; [|lia]. exfalso.
        rewrite (low_overflows m' o' off' output (P2 off' Eo') Eo' Hlt) in Hrow. discriminate. }
      apply (out_row_iff Debug m' o' output (ok_complete c j m' o' Hok Hij) (conj P1 P2) Hu); [|eauto|exact Eo'].
      intros off0 E0. rewrite Eo' in E0. apply Some_inj in E0. lia.
    + exfalso. assert (Hn : no_panic (output_row Debug (m, o) output)).
      { apply high_row; [exact (ok_complete c i m o Hok Hi)|split; assumption|].
        intros off0 E0. rewrite Eo in E0. apply Some_inj in E0. lia. }
      rewrite Hp in Hn. exact Hn.
  - intros (-> & i & m & o & off & Hat & Eo & Hl & Hb). exists i, (m, o). split; [apply infos_at; exact Hat|].
    destruct (ok_off c Hok i m o Hat) as [O1 O2]. cbn [snd] in O2.
    split; [exact (low_overflows m o off output (O2 off Eo) Eo Hl)|].
    intros j (m' & o') Hj Hij. pose proof Hij as Hatj. apply infos_at in Hatj.
    apply (out_row_iff Debug m' o' output (ok_complete c j m' o' Hok Hij) (ok_off c Hok j m' o' Hatj) Hu).
    + intros off' Eo'. destruct (Hb j m' o' off' Hj Hatj Eo') as [(_ & _ & H & _) _]. lia.
    + intros off' Eo'. exact (Hb j m' o' off' Hj Hatj Eo').
Qed.

Lemma C43_exact_all : forall c input output c' r, reachable Debug c -> cycle Debug c input output c' r ->
  (exists p, r = Panic p) <->
  inputs_readable c input /\
  exists i m o off, module_at c i m o /\ mo_output o = Some off /\ off < 0x8000 /\
    forall j m' o' off', (j < i)%nat -> module_at c j m' o' -> mo_output o' = Some off' ->
      readable 0x0800 output off' (output_bytes m') /\ announces_fitting 0x0800 output off' m'.
Proof.
  intros c input output c' r Hr H. apply reachable_ok in Hr. assert (Hui : Forall is_u16 input) by apply H.
  assert (Huo : Forall is_u16 output) by apply H. fold (first_low c output).
  pose proof (inputs_iff Debug c input Hr Hui) as HI. rewrite <- HI.
  pose proof (decode_inputs_no_panic Debug c input Hr) as Hni.
  pose proof (fun p => outputs_panic c output p Hr Huo) as HP.
  destruct (cycle_inv _ _ _ _ _ _ Hr H) as [(_ & Hn & _ & Hpn & _)|[(ins & Ei & _ & Hn & _ & Hpn & _)|(ins & outs & sent & E1 & E2 & E3 & E4 & _ & _ & _ & _ & E7)]].
  - split.
    + intros (p & Er). apply Hpn in Er. rewrite Er in Hni. destruct Hni.
    + intros ((ins & Ei) & _). destruct (Hn ins Ei).
  - split.
    + intros (p & Er). apply Hpn, HP in Er. split; [eauto|apply Er].
    + intros (_ & Hf). exists ArithmeticOverflow. apply Hpn, HP. auto.
  - split.
    + intros (p & Er). exfalso. rewrite E3 in Er. revert Er. apply C51_wire.
      * exact (infos_off c Hr).
      * intros i m o off Hi Ho _. pose proof (infos_off c Hr i m o off Hi Ho) as Hu. apply infos_at in Hi.
        destruct (E7 i m o Hi) as (iv & ov & _ & _ & _ & Hro & _).
        eapply output_row_exists_nonzero; eassumption.
      * eapply sent_wire; eassumption.
    + intros (_ & Hf). destruct (HP ArithmeticOverflow) as [_ Hx]. rewrite Hx in E2 by auto. discriminate.
Qed.

(** A cycle that panics has replaced the inputs and nothing else. *)
Lemma C43_state_all : forall prof c input output c' p, reachable prof c -> cycle prof c input output c' (Panic p) ->
  prof = Debug /\ p = ArithmeticOverflow /\
  (exists ins, process_input_data prof (infos c) input = Ok ins /\ inputs c' = ins) /\
  outputs c' = outputs c /\ (forall a, requested c' a = requested c a) /\ (forall i, serial c' i = serial c i) /\
  (forall i m o, module_at c' i m o <-> module_at c i m o).
Proof.
  intros prof c input output c' p Hr H. pose proof (reachable_ok _ _ Hr) as Hok.
  assert (Hd : prof = Debug).
  { destruct prof; [reflexivity|]. exfalso. exact (C43_partial_all Release c input output c' _ Hr (or_introl eq_refl) H p eq_refl). }
  subst prof. split; [reflexivity|]. assert (Huo : Forall is_u16 output) by apply H.
  pose proof (decode_inputs_no_panic Debug c input Hok) as Hni.
  destruct (proj1 (C43_exact_all _ _ _ _ _ Hr H) (ex_intro _ p eq_refl)) as [_ Hf]. fold (first_low c output) in Hf.
  pose proof (proj2 (outputs_panic c output ArithmeticOverflow Hok Huo) (conj eq_refl Hf)) as Hpan.
  destruct (cycle_inv _ _ _ _ _ _ Hok H) as [(_ & Hn & _ & Hpn & _)|[(ins & Ei & -> & Hn & _ & Hpn & _)|(ins & outs & sent & E1 & E2 & _)]].
  - exfalso. destruct (Hpn p) as [_ Hx]. rewrite Hx in Hni by reflexivity. exact Hni.
  - split; [destruct (Hpn p) as [_ Hx]; rewrite Hx in Hpan by reflexivity; congruence|].
    split; [exists ins; split; [exact Ei|reflexivity]|]. repeat split; auto; apply H0.
  - congruence.
Qed.
