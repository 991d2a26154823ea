(** Proof of C39: digital output requests in the process image. *)
From Coq Require Import ZArith List Bool Lia ZifyBool ZifyNat Permutation.
From Verif Require Import Base Facts F32 Types Lib Util Digital Analog Fcnt Com Fbc
  SpecCodec ProofsCodec SpecSerial SpecCoupler SpecImage ProofsImage ProofsModule ProofsLayout ProofsLoop ProofsCycle ProofsCoupler.
Import ListNotations.
Local Open Scope Z_scope.
Ltac Zify.zify_post_hook ::= Z.div_mod_to_equations.

Lemma byte_bit img : forall b x j, nth_error (bytes_of_words img) b = Some x -> (j < 8)%nat ->
  bit (nth (Nat.div b 2) img 0) (8 * (Nat.modulo b 2) + j) = bit x j.
Proof.
  induction img as [|w img IH]; intros b x j H Hj.
  - destruct b; discriminate.
  - unfold bytes_of_words in H. cbn [flat_map app] in H. destruct b as [|[|b]]; cbn [nth_error] in H.
    + apply Some_inj in H. subst x. cbn [Nat.div Nat.modulo]. change (Nat.div 0 2) with 0%nat. change (Nat.modulo 0 2) with 0%nat.
      cbn [nth Nat.mul Nat.add]. unfold bit. change 256 with (2 ^ 8). rewrite Z.mod_pow2_bits_low by lia. reflexivity.
    + apply Some_inj in H. subst x. change (Nat.div 1 2) with 0%nat. change (Nat.modulo 1 2) with 1%nat. cbn [nth].
      unfold bit. change 256 with (2 ^ 8). rewrite Z.div_pow2_bits by lia. f_equal. lia.
    + replace (Nat.div (S (S b)) 2) with (S (Nat.div b 2)) by lia.
      replace (Nat.modulo (S (S b)) 2) with (Nat.modulo b 2) by lia. cbn [nth]. apply IH; assumption.
Qed.

Lemma output_bit_byte img off k x : 0x8000 <= off -> (off mod 16 = 0 \/ off mod 16 = 8) ->
  nth_error (bytes_of_words img) (first_byte 0x0800 off + Nat.div k 8) = Some x ->
  (off mod 16 + Z.of_nat k < 16) ->
  output_bit img off k = bit x (Nat.modulo k 8).
Proof.
  intros H0 H1 H2 H3. unfold output_bit.
  rewrite <- (byte_bit img _ x (Nat.modulo k 8) H2) by lia. unfold first_byte in *. f_equal; [f_equal|]; lia.
Qed.

Lemma nth_error_firstn_lt {A} (l : list A) : forall n k, (k < n)%nat -> nth_error (firstn n l) k = nth_error l k.
Proof. induction l as [|x l IH]; intros [|n] [|k] H; try lia; try reflexivity. cbn. apply IH. lia. Qed.
Lemma nth_error_skipn {A} (l : list A) : forall d k, nth_error (skipn d l) k = nth_error l (d + k).
Proof. induction l as [|x l IH]; intros [|d] k; try reflexivity; [destruct k; reflexivity|apply IH]. Qed.

Lemma image_bytes_nth img first n k l x : image_bytes img first n = l -> (k < n)%nat -> nth_error l k = Some x ->
  nth_error (bytes_of_words img) (first + k) = Some x.
Proof.
  intros H Hk Hx. subst l. unfold image_bytes in Hx. rewrite nth_error_firstn_lt in Hx by exact Hk.
  rewrite nth_error_skipn in Hx. exact Hx.
Qed.

Lemma words_of_bytes_nth words bytes k x : words_of_bytes words bytes -> nth_error bytes k = Some x ->
  nth_error (bytes_of_words words) k = Some x.
Proof.
  intros [_ [H|H]] Hx; rewrite H; [exact Hx|]. rewrite nth_error_app1; [exact Hx|].
  apply nth_error_Some. congruence.
Qed.

Lemma digital_not_serial m n : digital_outputs m = Some n -> is_serial m = false /\ channels m = n /\
  ((n <= 8)%nat /\ output_bytes m = 1%nat \/ n = 16%nat /\ output_bytes m = 2%nat).
Proof. destruct m as [|v p| | | | | | | | | | | |]; try discriminate; try destruct v; intros H; apply Some_inj in H; subst n; cbn; repeat split; lia. Qed.

Lemma C39_partial_all : forall prof c input output c' image, reachable prof c ->
  cycle prof c input output c' (Ok image) ->
  forall i m o n off, module_at c i m o -> digital_outputs m = Some n -> mo_output o = Some off ->
  (off mod 16 = 0 \/ (n <= 8)%nat) ->
  (forall j m' o' off', (i < j)%nat -> module_at c j m' o' -> mo_output o' = Some off' ->
     ~ (first_byte 0x0800 off <= first_byte 0x0800 off' < first_byte 0x0800 off + output_bytes m)%nat) ->
  forall k, (k < n)%nat ->
    (forall v, requested c (mk_address i k) = Some v -> switches v = Some (output_bit image off k)) /\
    (requested c (mk_address i k) = None -> output_bit image off k = output_bit output off k).
Proof.
  intros prof c input output c' image Hr H i m o n off Hat Hd Eo Hb Hov k Hk.
  pose proof (reachable_ok _ _ Hr) as Hok. destruct (digital_not_serial m n Hd) as (Hns & Hn & Hob).
  assert (Huo : Forall is_u16 output) by apply H.
  destruct (ok_cycle _ _ _ _ _ _ Hok H) as (ins & outs & sent & E1 & E2 & E3 & E4 & E4' & _ & _ & E5).
  pose proof (sent_wire _ _ _ _ _ _ _ _ Hok Huo E4 E5) as Hw.
  destruct (E5 i m o Hat) as (iv & ov & Hiv & Hov' & Hri & Hro & Hc).
  destruct Hc as [row S1 S2 S3 S4 S5 S6|l ch rin rout p0 p' rs last -> _ _ _ _ _ _ _|l ch -> _]; try discriminate.
  pose proof (proj2 (infos_at c i m o) Hat) as Hinf.
  pose proof (infos_off c Hok i m o off Hinf Eo) as Hu.
  destruct (C40_all prof (infos c) sent image (infos_off c Hok) E3) as (_ & datas & Ld & C40 & _).
  assert (Hoff : 0x8000 <= off /\ (off mod 16 = 0 \/ off mod 16 = 8)).
  { destruct (nth_error datas i) as [d0|] eqn:Ed.
    - destruct (C40 i m o d0 off Hinf Ed Eo) as (_ & A & [B|[B _]] & _); auto.
    - apply nth_error_None in Ed. apply nth_error_Some_lt in Hinf. lia. }
  destruct Hoff as [Hge Hbit].
  assert (Hside : off mod 16 = 0 \/ output_bytes m = 1%nat) by lia.
  destruct (C42_enc_wire prof (infos c) sent image i m o off (infos_off c Hok) Hw E3 Hinf Eo Hside) as (vs & d & Hvs & He & Himg).
  { intros j m1 o1 off1 Hj Hj1. apply (Hov j m1 o1 off1 Hj). apply infos_at. exact Hj1. }
  rewrite S2 in Hvs. apply Some_inj in Hvs. subst vs.
  destruct (C42_out_all prof (infos c) output outs i m o off Huo Hu Hge E2 Hinf Eo Hside) as (Hlen & words & row' & Hwords & Hrow & Hdec).
  rewrite Hov' in Hrow. apply Some_inj in Hrow. subst row'.
  destruct (C13_all m n) as [_ C13]. destruct (C13 Hd) as (C13a & C13b & _).
  assert (Hw1 : exists w, words = [w]).
  { destruct words as [|w [|w' ws]]; [| eauto |]; rewrite C13a in Hdec by (cbn [length]; lia); discriminate. }
  destruct Hw1 as (w & ->). destruct (C13b w) as (vs & Hvs & Lvs & Bvs). rewrite Hdec in Hvs. apply Ok_inj in Hvs. subst vs.
  destruct (C14_all prof m n Hd) as (C14a & C14b & _).
  assert (Lrow : length row = n).
  { destruct (Nat.eq_dec (length row) n) as [E|E]; [exact E|]. rewrite C14a in He by (left; exact E). discriminate. }
  assert (Hsw : Forall (fun v => switches v <> None) row).
  { apply Forall_forall. intros v Hv Hno. rewrite C14a in He; [discriminate|]. right. intros HF.
    rewrite Forall_forall in HF. exact (HF v Hv Hno). }
  destruct (C14b row Lrow Hsw) as (w' & He' & Hw' & Bw & _). rewrite He in He'. apply Ok_inj in He'. subst d.
  (* the bit in the image *)
  assert (Hkb : (Nat.div k 8 < output_bytes m)%nat) by lia.
  assert (Hcut : forall w0, bit (nth (Nat.div k 8) (bytes_of_words [w0]) 0) (Nat.modulo k 8) = bit w0 k).
  { intros w0. destruct (nth_error (bytes_of_words [w0]) (Nat.div k 8)) as [x|] eqn:Ex.
    - rewrite (nth_error_nth _ _ _ Ex). rewrite <- (byte_bit [w0] _ x (Nat.modulo k 8) Ex) by lia.
      replace (Nat.div (Nat.div k 8) 2) with 0%nat by lia. cbn [nth]. f_equal. lia.
    - apply nth_error_None in Ex. cbn [bytes_of_words flat_map app length] in Ex. lia. }
  assert (Hl2 : forall w0, nth_error (bytes_of_words [w0]) (Nat.div k 8) = Some (nth (Nat.div k 8) (bytes_of_words [w0]) 0)).
  { intros w0. apply nth_error_nth'. cbn [bytes_of_words flat_map app length]. lia. }
  assert (Bimg : output_bit image off k = bit w' k).
  { rewrite <- (Hcut w'). apply output_bit_byte; try assumption; [|lia].
    eapply image_bytes_nth; [exact Himg|exact Hkb|]. rewrite nth_error_firstn_lt by exact Hkb. apply Hl2. }
  assert (Bout : output_bit output off k = bit w k).
  { rewrite <- (Hcut w). apply output_bit_byte; try assumption; [|lia].
    eapply image_bytes_nth; [reflexivity|exact Hkb|].
    destruct (nth_error (image_bytes output (first_byte 2048 off) (output_bytes m)) (Nat.div k 8)) as [x|] eqn:Ex.
    - rewrite <- Hl2. symmetry. rewrite <- Ex. rewrite Ex. eapply words_of_bytes_nth; eassumption.
    - apply nth_error_None in Ex. lia. }
  assert (Hrow : nth_error row k = match requested c (mk_address i k) with Some v => Some v | None => Some (Bit (bit w k)) end).
  { rewrite S4. destruct (requested c (mk_address i k)); [reflexivity|]. apply Bvs. exact Hk. }
  split.
  - intros v Hv. rewrite Hv in Hrow. rewrite Bimg.
    assert (Hne : switches v <> None). { rewrite Forall_forall in Hsw. apply Hsw. eapply nth_error_In. exact Hrow. }
    destruct (switches v) as [b|] eqn:Es; [|congruence]. rewrite (Bw k v b Hrow Es). reflexivity.
  - intros Hv. rewrite Hv in Hrow. rewrite Bimg, Bout. exact (Bw k _ _ Hrow eq_refl).
Qed.
