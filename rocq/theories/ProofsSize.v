(** Proofs about the size of the output image (C90). *)
From Coq Require Import ZArith List Bool Lia ZifyBool ZifyNat.
From Verif Require Import Base Facts F32 Types Lib Com Fbc SpecCodec SpecSerial SpecCoupler SpecImage SpecOutcome SpecSize
  ProofsModule ProofsImage ProofsLayout ProofsCycle ProofsCoupler ProofsIdle ProofsOutcome ProofsSteady ProofsMemory.
Import ListNotations.
Local Open Scope Z_scope.
Ltac Zify.zify_post_hook ::= Z.div_mod_to_equations.

Lemma lays_length ps out image : lays ps out image -> forall ms,
  Forall2 (fun mo p => fst p = snd mo /\ (mo_output (snd mo) <> None -> length (snd p) = registers (output_bytes (fst mo)))) ms ps ->
  length image = (length out + list_sum (map added_registers ms))%nat.
Proof.
  induction 1 as [out|o d ps out image Eo _ IH|o d off ps out image Eo E El _ IH|o w d off ps out last image Eo E El _ IH];
    intros ms HF; inversion HF as [|(m & o') p ms' ps' [E1 E2] HF']; subst; cbn [fst snd] in *; subst;
    cbn [map]; rewrite ?Nat.add_0_r; try reflexivity; rewrite (IH _ HF');
    match goal with |- context [list_sum (?a :: ?l)] => change (list_sum (a :: l)) with (a + list_sum l)%nat end;
    unfold added_registers at 2; cbn [fst snd]; rewrite Eo; try reflexivity.
  - rewrite E. cbn [Z.eqb]. rewrite app_length, E2 by congruence. lia.
  - rewrite E. cbn [Z.eqb]. rewrite !app_length. cbn [length]. lia.
Qed.

Lemma image_length prof c input output c' image : coupler_ok c -> cycle prof c input output c' (Ok image) -> length image = output_registers c.
Proof.
  intros Hok H. destruct (ok_cycle _ _ _ _ _ _ Hok H) as (ins & outs & sent & E1 & E2 & E3 & E4 & E4' & _ & _ & E7).
  assert (Huo : Forall is_u16 output) by apply H.
  pose proof (sent_wire _ _ _ _ _ _ _ _ Hok Huo E4 E7) as Hw.
  destruct (process_lays _ _ _ _ (off_all c Hok) E3) as (_ & ps & Lps & HL & Hps).
  rewrite (lays_length _ _ _ HL (infos c)); [reflexivity|]. apply Forall2_from_nth; [lia|].
  intros i (m & o) (o' & d) Hm Hp. destruct (Hps i m o Hm) as (d' & Hp' & Hn & Henc). rewrite Hp in Hp'.
  apply Some_inj, pair_inj in Hp'. destruct Hp' as [-> <-]. split; [reflexivity|]. cbn [fst snd]. intros Ho.
  destruct (Henc Ho) as (vs & Hvs & Hev).
  assert (Hwv : Forall wire_value vs) by (exact (proj1 (Forall_forall _ _) Hw _ (nth_error_In _ _ Hvs))).
  destruct (encoded_words _ _ _ _ Hwv Hev) as [-> _]. rewrite <- registers_count. symmetry. apply words_count.
  destruct (mo_output o) as [off|] eqn:Eo; [|congruence]. apply infos_at in Hm.
  destruct (E7 i m o Hm) as (iv & ov & _ & _ & _ & Hro & _).
  eapply output_row_exists_nonzero; [exact Hro|exact Eo| |exact Huo]. destruct (ok_off c Hok i m o Hm) as [_ Y]. exact (Y off Eo).
Qed.

Lemma packed_length L : forall l n, packed n l -> (n <= L)%nat ->
  (forall m o off, In (m, o) l -> mo_output o = Some off -> off / 16 - 0x0800 + Z.of_nat (registers (output_bytes m)) <= Z.of_nat L) ->
  (n + list_sum (map added_registers l) <= L)%nat.
Proof.
  induction l as [|(m & o) l IH]; intros n HP Hn HL; cbn [map]; [cbn; lia|].
  match goal with |- context [list_sum (?a :: ?l)] => change (list_sum (a :: l)) with (a + list_sum l)%nat end.
  assert (HL' : forall m o off, In (m, o) l -> mo_output o = Some off -> off / 16 - 0x0800 + Z.of_nat (registers (output_bytes m)) <= Z.of_nat L).
  { intros m' o' off Hin. apply HL. right. exact Hin. }
  cbn [packed] in HP. unfold added_registers at 1. cbn [fst snd]. destruct (mo_output o) as [off|] eqn:Eo; [|apply (IH n HP Hn HL')].
  pose proof (HL m o off (or_introl eq_refl) Eo) as R. destruct HP as [[-> HP]|(-> & Hp & HP)].
  - replace (16 * (2048 + Z.of_nat n) mod 16 =? 0) with true by (symmetry; lia). specialize (IH _ HP). 
    assert ((n + registers (output_bytes m)) + list_sum (map added_registers l) <= L)%nat by (apply IH; [lia|exact HL']). lia.
  - replace ((16 * (2048 + Z.of_nat n - 1) + 8) mod 16 =? 0) with false by (symmetry; lia). apply (IH n HP Hn HL').
Qed.

Lemma C90_read_back_all : forall prof c input output c' image, reachable prof c -> cycle prof c input output c' (Ok image) ->
  (length image <= length output)%nat.
Proof.
  intros prof c input output c' image Hr H. destruct (proj1 (C59_all _ _ _ _ _ _ Hr H) (ex_intro _ _ eq_refl)) as (_ & HR & _ & _ & HP).
  pose proof (reachable_ok _ _ Hr) as Hok. rewrite (image_length _ _ _ _ _ _ Hok H). apply (packed_length (length output) _ 0%nat HP); [lia|].
  intros m o off Hin Eo. apply In_nth_error in Hin. destruct Hin as (i & Hi). apply infos_at in Hi.
  destruct (HR i m o off Hi Eo) as [(_ & _ & _ & X) _]. exact X.
Qed.

Lemma C90_size_all : forall prof c xs c' answers image ins outs, reachable prof c -> runs prof c xs c' answers ->
  In (CycleResult (Ok image) ins outs) answers -> length image = output_registers c /\ Forall is_u16 image.
Proof.
  intros prof c xs c' answers image ins outs Hr H. induction H as [c|c x c1 a xs c2 xa Hc H IH]; intros Hin; [destruct Hin|].
  assert (R1 : runs prof c [x] c1 [a]) by (econstructor; [exact Hc|constructor]).
  destruct Hin as [->|Hin].
  - inversion Hc; subst. pose proof (reachable_ok _ _ Hr) as Hok.
    match goal with C : cycle _ _ _ _ _ _ |- _ => split; [exact (image_length _ _ _ _ _ _ Hok C)|exact (image_u16 _ _ _ _ _ _ Hok C)] end.
  - destruct (IH (runs_reachable _ _ _ _ _ Hr R1) Hin) as [E U]. split; [|exact U]. rewrite E.
    destruct (runs_static _ _ _ _ _ R1) as [S1 S2]. unfold output_registers. rewrite S1, S2. reflexivity.
Qed.
