(** Proof of C39 for modules with 16 channels in the middle of a register. *)
From Coq Require Import ZArith List Bool Lia ZifyBool ZifyNat Permutation.
From Verif Require Import Base Facts F32 Types Lib Util Digital Analog Fcnt Com Fbc
  SpecCodec ProofsCodec SpecSerial SpecCoupler SpecImage ProofsImage ProofsModule ProofsLayout ProofsLoop ProofsCycle ProofsCoupler
  ProofsDigital.
Import ListNotations.
Local Open Scope Z_scope.
Ltac Zify.zify_post_hook ::= Z.div_mod_to_equations.

Lemma image_first_byte prof ms values image i m o off : 
  (forall j m' o' off', nth_error ms j = Some (m', o') -> mo_output o' = Some off' -> is_u16 off') ->
  process_output_values prof ms values = Ok image ->
  nth_error ms i = Some (m, o) -> mo_output o = Some off -> off mod 16 = 8 ->
  (forall j m' o' off', (i < j)%nat -> nth_error ms j = Some (m', o') -> mo_output o' = Some off' ->
     first_byte 0x0800 off' <> first_byte 0x0800 off) ->
  exists vs d, nth_error values i = Some vs /\ mod_process_output_values prof m vs = Ok d /\
    nth_error (bytes_of_words image) (first_byte 0x0800 off) = nth_error (bytes_of_words d) 0.
Proof.
  intros Hoff H Hi Eo H8 Hlater.
  destruct (C40_all prof ms values image Hoff H) as (Hl & datas & Hld & Hown & Hcov & Hord & Htwice).
  pose proof (nth_error_Some_lt _ _ _ Hi) as Hlt.
  destruct (nth_error_lt_Some datas i) as (d & Hd); [lia|].
  destruct (Hown i m o d off Hi Hd Eo) as ((vs & Hv & He) & Hlow & Hbit & Hb).
  exists vs, d. split; [exact Hv|]. split; [exact He|].
  specialize (Hb 0%nat). rewrite H8, Nat.add_0_r in Hb. cbn [Z.eqb] in Hb. apply Hb; [lia|].
  intros j m' o' d' Hij Hj Hd' (off' & Eo' & Hc').
  destruct (Hown j m' o' d' off' Hj Hd' Eo') as (_ & Hlow' & Hbit' & _).
  assert (Hbit8 : off' mod 16 = 8).
  { eapply (Htwice i j m o d m' o' d' off' (first_byte 0x0800 off)); eauto.
    - exists off. split; [exact Eo|]. rewrite H8. cbn [Z.eqb]. lia.
    - exists off'. split; [exact Eo'|exact Hc']. }
  rewrite Hbit8 in Hc'. cbn [Z.eqb] in Hc'. apply (Hlater j m' o' off' Hij Hj Eo'). lia.
Qed.

Lemma C39_mid_all : forall prof c input output c' image, reachable prof c ->
  cycle prof c input output c' (Ok image) ->
  forall i m o off, module_at c i m o -> digital_outputs m = Some 16%nat -> mo_output o = Some off -> off mod 16 = 8 ->
  (forall j m' o' off', (i < j)%nat -> module_at c j m' o' -> mo_output o' = Some off' ->
     first_byte 0x0800 off' <> first_byte 0x0800 off) ->
  (forall k, (k < 8)%nat ->
    (forall v, requested c (mk_address i k) = Some v -> switches v = Some (output_bit image off k)) /\
    (requested c (mk_address i k) = None -> output_bit image off k = output_bit output off k)) /\
  (forall k, (8 <= k < 16)%nat -> cell (outputs c') i k = Some (Bit false)).
Proof.
  intros prof c input output c' image Hr H i m o off Hat Hd Eo H8 Hov.
  pose proof (reachable_ok _ _ Hr) as Hok. destruct (digital_not_serial m 16 Hd) as (Hns & Hn & Hob).
  assert (Huo : Forall is_u16 output) by apply H.
  destruct (ok_cycle _ _ _ _ _ _ Hok H) as (ins & outs & sent & E1 & E2 & E3 & E4 & E4' & _ & _ & E5).
  destruct (E5 i m o Hat) as (iv & ov & Hiv & Hov' & Hri & Hro & Hc).
  destruct Hc as [row S1 S2 S3 S4 S5 S6 S7 S8 S9|l ch rin rout p0 p' rs last -> _ _ _ _ _ _ _|l ch -> _]; try discriminate.
  pose proof (proj2 (infos_at c i m o) Hat) as Hinf.
  pose proof (infos_off c Hok i m o off Hinf Eo) as Hu.
  destruct (C40_all prof (infos c) sent image (infos_off c Hok) E3) as (_ & datas & Ld & C40 & _).
  assert (Hge : 0x8000 <= off).
  { destruct (nth_error datas i) as [d0|] eqn:Ed.
    - destruct (C40 i m o d0 off Hinf Ed Eo) as (_ & A & _); auto.
    - apply nth_error_None in Ed. apply nth_error_Some_lt in Hinf. lia. }
  destruct (image_first_byte prof (infos c) sent image i m o off (infos_off c Hok) E3 Hinf Eo H8) as (vs & d & Hvs & He & Himg).
  { intros j m1 o1 off1 Hj Hj1. apply (Hov j m1 o1 off1 Hj). apply infos_at. exact Hj1. }
  rewrite S2 in Hvs. apply Some_inj in Hvs. subst vs.
  assert (Hob2 : output_bytes m = 2%nat) by lia.
  destruct (C42_shift_out_all prof (infos c) output outs i m o off Huo Hu Hge E2 Hinf Eo H8) as (Hlen & words & row' & Hwu & Hwords & Hrow & Hdec); [lia|].
  rewrite Hob2 in Hlen, Hwords. change (2 - 1)%nat with 1%nat in Hlen, Hwords.
  rewrite Hov' in Hrow. apply Some_inj in Hrow. subst row'.
  destruct (C13_all m 16) as [_ C13]. destruct (C13 Hd) as (C13a & C13b & _).
  assert (Hw1 : exists w, words = [w]).
  { destruct words as [|w [|w' ws]]; [| eauto |]; rewrite C13a in Hdec by (cbn [length]; lia); discriminate. }
  destruct Hw1 as (w & ->). destruct (C13b w) as (vs & Hvs & Lvs & Bvs). rewrite Hdec in Hvs. apply Ok_inj in Hvs. subst vs.
  destruct (image_bytes output (first_byte 2048 off) 1) as [|b0 [|b1 bl]] eqn:Eib; cbn [length] in Hlen; [lia| |lia].
  cbn [bytes_of_words flat_map app] in Hwords. injection Hwords as Hlo Hhi.
  destruct (C14_all prof m 16 Hd) as (C14a & C14b & _).
  assert (Lrow : length row = 16%nat).
  { destruct (Nat.eq_dec (length row) 16) as [E|E]; [exact E|]. rewrite C14a in He by (left; exact E). discriminate. }
  assert (Hsw : Forall (fun v => switches v <> None) row).
  { apply Forall_forall. intros v Hv Hno. rewrite C14a in He; [discriminate|]. right. intros HF.
    rewrite Forall_forall in HF. exact (HF v Hv Hno). }
  destruct (C14b row Lrow Hsw) as (w' & He' & Hw' & Bw & _). rewrite He in He'. apply Ok_inj in He'. subst d.
  assert (Hsmall : 0 <= w < 256).
  { inversion Hwu as [|? ? Hw0 _]. subst. unfold is_u16 in Hw0. lia. }
  assert (Hrow : forall k, (k < 16)%nat -> nth_error row k = match requested c (mk_address i k) with Some v => Some v | None => Some (Bit (bit w k)) end).
  { intros k Hk. rewrite S4. destruct (requested c (mk_address i k)); [reflexivity|]. apply Bvs. exact Hk. }
  split.
  - intros k Hk.
    assert (Hdiv : Nat.div k 8 = 0%nat) by lia. assert (Hmod : Nat.modulo k 8 = k) by lia.
    assert (Bimg : output_bit image off k = bit w' k).
    { cbn [bytes_of_words flat_map app nth_error] in Himg.
      rewrite (output_bit_byte image off k (w' mod 256) Hge (or_intror H8)); [| |lia].
      - rewrite Hmod. symmetry. change (w' mod 256) with (nth 0 (bytes_of_words [w']) 0).
        pose proof (byte_bit [w'] 0 (w' mod 256) k eq_refl Hk) as B. exact B.
      - rewrite Hdiv, Nat.add_0_r. exact Himg. }
    assert (Bout : output_bit output off k = bit w k).
    { rewrite (output_bit_byte output off k b0 Hge (or_intror H8)); [| |lia].
      - rewrite Hmod. rewrite <- Hlo. symmetry. exact (byte_bit [w] 0 (w mod 256) k eq_refl Hk).
      - rewrite Hdiv. eapply (image_bytes_nth output _ 1 0 [b0] b0); [exact Eib|lia|reflexivity]. }
    specialize (Hrow k ltac:(lia)). split.
    + intros v Hv. rewrite Hv in Hrow. rewrite Bimg.
      assert (Hne : switches v <> None). { rewrite Forall_forall in Hsw. apply Hsw. eapply nth_error_In. exact Hrow. }
      destruct (switches v) as [b|] eqn:Es; [|congruence]. rewrite (Bw k v b Hrow Es). reflexivity.
    + intros Hv. rewrite Hv in Hrow. rewrite Bimg, Bout. exact (Bw k _ _ Hrow eq_refl).
  - intros k Hk. unfold cell. rewrite S9. rewrite (Bvs k) by lia. f_equal. f_equal.
    unfold bit. destruct (Z.eq_dec w 0) as [->|Hw0]; [apply Z.testbit_0_l|].
    apply Z.bits_above_log2; [lia|]. assert (Z.log2 w < 8) by (apply Z.log2_lt_pow2; lia). lia.
Qed.
