(** Proofs for C71: outputs of a control loop keep what was requested last. *)
From Coq Require Import ZArith Reals List Bool Lia ZifyBool ZifyNat.
From Verif Require Import Base Facts F32 Types Lib Util Digital Analog Fcnt Com Fbc
  SpecCodec SpecSerial SpecCoupler SpecImage SpecAnalog SpecOutcome SpecFeedback SpecGlitch SpecKeep ProofsAddr ProofsCodec ProofsFcnt ProofsSerialCodec
  ProofsModule ProofsImage ProofsLayout ProofsDigital ProofsSerial ProofsLoop ProofsCycle ProofsCoupler ProofsFloat ProofsAnalog
  ProofsReadback ProofsWitness ProofsOrder ProofsGlitch ProofsIdle ProofsOutcome ProofsFeedback.
Import ListNotations.
Local Open Scope Z_scope.
Ltac Zify.zify_post_hook ::= Z.div_mod_to_equations.

(** ** One cycle *)
Lemma tick_row : forall prof c input output c1 image, reachable prof c -> cycle prof c input output c1 (Ok image) ->
  forall i m o off, alone c i m o off -> forall k, (k < channels m)%nat ->
  exists outs0 ov old, process_output_data prof (infos c) output = Ok outs0 /\ nth_error outs0 i = Some ov /\
    nth_error ov k = Some old /\ cell (outputs c1) i k = Some old /\ requested c1 (mk_address i k) = None /\
    forall outs, Forall is_u16 image -> process_output_data prof (infos c) image = Ok outs ->
    exists row w, nth_error outs i = Some row /\ nth_error row k = Some w /\
      shown_for m k (match requested c (mk_address i k) with Some v => v | None => old end) w /\
      (requested c (mk_address i k) = None -> exact_channel m k -> w = old).
Proof.
  intros prof c input output c1 image Hr H1 i m o off (Hat & Hoff & Hs & Hal & Hlater) k Hk.
  pose proof (reachable_ok _ _ Hr) as Hok.
  assert (Hui : Forall is_u16 output) by apply H1.
  pose proof (proj1 (C59_all _ _ _ _ _ _ Hr H1) (ex_intro _ image eq_refl)) as (_ & Ro & _).
  destruct (Ro i m o off Hat Hoff) as ((Hz & _ & Hbase & _) & _).
  assert (Hinf : nth_error (infos c) i = Some (m, o)) by (apply infos_at; exact Hat).
  assert (Hu : is_u16 off) by (exact (infos_off c Hok i m o off Hinf Hoff)).
  destruct (ok_cycle _ _ _ _ _ _ Hok H1) as (ins0 & outs0 & sent & E1 & E2 & E3 & E4 & E4' & _ & _ & E5).
  pose proof (sent_wire _ _ _ _ _ _ _ _ Hok Hui E4 E5) as Hw.
  destruct (C42_enc_wire prof (infos c) sent image i m o off (infos_off c Hok) Hw E3 Hinf Hoff Hal) as (new & d & Hnew & He & Himg).
  { intros j m' o' off' Hj Hj'. apply (Hlater j m' o' off' Hj). apply infos_at. exact Hj'. }
  destruct (C54_all _ _ _ _ _ _ Hr H1 ins0 outs0 E1 E2) as (_ & _ & S1). destruct (S1 i m o Hat) as (iv1 & ov1 & _ & Hov1 & P1 & _).
  destruct (P1 Hs) as [_ Q1].
  destruct (E5 i m o Hat) as (iv & ov & Hiv & Hov & Hri & Hro & Hc). rewrite Hov1 in Hov. apply Some_inj in Hov. subst ov1.
  destruct Hc as [row' T1 T2 T3 T4 T5 T6|l ch rin rout p0 p' rs last -> _ _ _ _ _ _ _|l ch -> _]; try discriminate.
  rewrite T2 in Hnew. apply Some_inj in Hnew. subst row'.
  pose proof (out_row_length _ _ _ _ Hro) as Lov. cbn [fst] in Lov.
  destruct (nth_error_lt_Some ov k) as (old & Hold); [lia|].
  exists outs0, ov, old. split; [exact E2|]. split; [exact Hov1|]. split; [exact Hold|].
  split; [unfold cell; rewrite Q1; exact Hold|].
  destruct (C38_all _ _ _ _ _ _ Hr H1) as (rb & sent' & _ & _ & _ & _ & C38).
  destruct (C38 i m (proj1 Hat) Hs) as (_ & _ & _ & _ & _ & _ & _ & Hn). split; [apply Hn|].
  intros outs Hum Eo.
  destruct (C42_out_all prof (infos c) image outs i m o off Hum Hu ltac:(lia) Eo Hinf Hoff Hal) as (_ & words & row & Hwo & Hrow & Hd).
  rewrite Himg in Hwo.
  pose proof (output_length _ _ _ Hd) as Lrow. destruct (nth_error_lt_Some row k) as (w & Hwk); [lia|].
  exists row, w. split; [exact Hrow|]. split; [exact Hwk|].
  assert (Hwn : Forall wire_value new) by (rewrite Forall_forall in Hw; apply Hw; eapply nth_error_In; exact T2).
  assert (Hcm : complete m) by (apply (complete_at c i); [exact Hok|apply Hat]).
  assert (Hv : nth_error new k = Some (match requested c (mk_address i k) with Some v => v | None => old end)).
  { rewrite T4. destruct (requested c (mk_address i k)); [reflexivity|exact Hold]. }
  destruct (shown_row prof m new d words row Hcm Hz Hs Hwn He Hwo Hd k _ w Hv Hwk) as [A B].
  split; [exact A|]. intros En Hx. rewrite En in B.
  destruct (C42_out_all prof (infos c) output outs0 i m o off Hui Hu ltac:(lia) E2 Hinf Hoff Hal) as (_ & raw & ov' & [Hraw _] & Hov' & Hd').
  rewrite Hov1 in Hov'. apply Some_inj in Hov'. subst ov'. exact (B raw ov Hraw Hd' Hold Hx).
Qed.

(** ** What is requested, in force and shown for one channel *)

Definition newest {A} (new old : option A) : option A := match new with Some _ => new | None => old end.

Record track : Set := mk_track { k_pending : option channel_value; k_force : option channel_value; k_shown : option channel_value }.
Definition tracks (a : address) (t : track) (x : action) : track :=
  match x with
  | Request b v => if address_eqb b a then mk_track (Some v) (k_force t) (k_shown t) else t
  | Tick _ => mk_track None (newest (k_pending t) (k_force t)) (k_force t)
  | _ => t
  end.

Fixpoint last_for (a : address) (l : list (address * channel_value)) : option channel_value :=
  match l with
  | [] => None
  | (b, v) :: l' => newest (last_for a l') (if address_eqb b a then Some v else None)
  end.

Lemma last_for_app a l1 : forall l2, last_for a (l1 ++ l2) = newest (last_for a l2) (last_for a l1).
Proof.
  induction l1 as [|(b & v) l1 IH]; intros l2; cbn [app last_for].
  - destruct (last_for a l2); reflexivity.
  - rewrite IH. destruct (last_for a l2); [reflexivity|]. reflexivity.
Qed.

Lemma last_for_latest l a r : latest l a r -> last_for a l = r.
Proof.
  assert (N : forall l, (forall v, ~ In (a, v) l) -> last_for a l = None).
  { clear. induction l as [|(b & v) l IH]; intros H; [reflexivity|]. cbn [last_for].
    rewrite IH by (intros w Hw; apply (H w); right; exact Hw). cbn [newest].
    destruct (address_eqb_spec b a) as [->|_]; [|reflexivity]. exfalso. apply (H v). left. reflexivity. }
  intros H. inversion H as [l' a' H' E1 E2 E3|l1 l2 a' v H' E1 E2 E3]; subst.
  - apply N. exact H'.
  - rewrite last_for_app. cbn [last_for]. rewrite N by exact H'. cbn [newest].
    destruct (address_eqb_spec a a); [reflexivity|congruence].
Qed.

Lemma tracks_total a xs : forall t,
  newest (k_pending (fold_left (tracks a) xs t)) (k_force (fold_left (tracks a) xs t)) =
  newest (last_for a (requests xs)) (newest (k_pending t) (k_force t)).
Proof.
  induction xs as [|x xs IH]; intros t; [reflexivity|]. cbn [fold_left]. rewrite IH.
  destruct x as [b v| | | |]; cbn [tracks requests last_for]; try reflexivity.
  - destruct (address_eqb_spec b a) as [->|N]; cbn [k_pending k_force].
    + destruct (last_for a (requests xs)); reflexivity.
    + destruct (last_for a (requests xs)); reflexivity.
Qed.

Lemma tracks_quiet a xs : between_ticks xs -> forall t,
  k_force (fold_left (tracks a) xs t) = k_force t /\ k_shown (fold_left (tracks a) xs t) = k_shown t.
Proof.
  intros H. induction xs as [|x xs IH]; intros t; [auto|]. cbn [fold_left].
  destruct (IH ltac:(intros input Hi; apply (H input); right; exact Hi) (tracks a t x)) as [-> ->].
  destruct x as [b v| | |input|]; cbn [tracks]; auto.
  - destruct (address_eqb b a); auto.
  - exfalso. apply (H input). left. reflexivity.
Qed.

(** ** The invariant *)
Record keeps (prof : profile) (i : nat) (m : module) (o : module_offset) (off : Z) (k : nat) (bit0 : bool)
  (t : track) (c : coupler) (image : list Z) : Prop := mk_keeps {
  kp_reach : reachable prof c;
  kp_alone : alone c i m o off;
  kp_pending : requested c (mk_address i k) = k_pending t;
  kp_force : exact_channel m k -> forall v, k_force t = Some v ->
    forall outs, Forall is_u16 image -> process_output_data prof (infos c) image = Ok outs ->
    exists row w, nth_error outs i = Some row /\ nth_error row k = Some w /\ shown_for m k v w;
  kp_shown : exact_channel m k -> forall v, k_shown t = Some v ->
    exists w, cell (outputs c) i k = Some w /\ shown_for m k v w;
  kp_bit : forall n, digital_outputs m = Some n -> (k < n)%nat ->
    match k_force t with Some v => switches v = Some (output_bit image off k) | None => output_bit image off k = bit0 end }.

Lemma alone_static c c' i m o off : c_modules c' = c_modules c -> c_offsets c' = c_offsets c -> alone c i m o off -> alone c' i m o off.
Proof. intros E1 E2. unfold alone, module_at. rewrite E1, E2. auto. Qed.

Lemma keeps_other prof i m o off k bit0 t t' c c' image : keeps prof i m o off k bit0 t c image -> reachable prof c' ->
  c_modules c' = c_modules c -> c_offsets c' = c_offsets c -> outputs c' = outputs c ->
  requested c' (mk_address i k) = k_pending t' -> k_force t' = k_force t -> k_shown t' = k_shown t ->
  keeps prof i m o off k bit0 t' c' image.
Proof.
  intros [K1 K2 K3 K4 K5 K6] Hr E1 E2 E3 E4 E5 E6. constructor; auto.
  - exact (alone_static _ _ _ _ _ _ E1 E2 K2).
  - rewrite E5. unfold infos. rewrite E1, E2. exact K4.
  - rewrite E6, E3. exact K5.
  - rewrite E5. exact K6.
Qed.

Lemma keeps_loops prof i m o off k bit0 xs : forall t c image c' image', (k < channels m)%nat ->
  keeps prof i m o off k bit0 t c image -> loops prof c image xs c' image' ->
  keeps prof i m o off k bit0 (fold_left (tracks (mk_address i k)) xs t) c' image'.
Proof.
  induction xs as [|x xs IH]; intros t c image c' image' Hk K H; [inversion H; subst; exact K|].
  pose proof K as [K1 K2 K3 K4 K5 K6]. cbn [fold_left].
  inversion H as [|? ? a v ? ? ? Hv H'|? ? j size ? ? ? H'|? ? j buf ? ? ? Hb H'|? ? input c1 image1 ? ? ? Hc H'
                  |? ? input output c1 ? ? ? Hc H']; subst; refine (IH _ _ _ _ _ Hk _ H').
  - destruct (set_static c a v) as (_ & S2 & S3 & S4 & _). cbn [tracks].
    assert (Hva : valid_address c (mk_address i k)).
    { destruct K2 as ((Hm & _) & _). exists m. cbn [a_module a_channel]. auto. }
    destruct (address_eqb_spec a (mk_address i k)) as [->|N].
    + eapply keeps_other; [exact K|apply R_set; assumption|assumption..| | |]; try reflexivity.
      rewrite set_requested by exact Hva. destruct (address_eqb_spec (mk_address i k) (mk_address i k)); [reflexivity|congruence].
    + eapply keeps_other; [exact K|apply R_set; assumption|assumption..| | |]; try reflexivity.
      destruct (valid_address_dec c a) as [Ha|Ha].
      * rewrite set_requested by exact Ha. destruct (address_eqb_spec a (mk_address i k)); [congruence|exact K3].
      * rewrite set_output_invalid by exact Ha. exact K3.
  - destruct (read_static c j size) as (S1 & S2 & S3 & S4 & S5 & _). cbn [tracks].
    eapply keeps_other; [exact K|apply R_read; assumption|assumption..| | |]; try reflexivity.
    unfold requested in *. rewrite S5. exact K3.
  - destruct (write_static c j buf) as (S1 & S2 & S3 & S4 & S5 & _). cbn [tracks].
    eapply keeps_other; [exact K|apply R_write; assumption|assumption..| | |]; try reflexivity.
    unfold requested in *. rewrite S5. exact K3.
  - assert (Hr1 : reachable prof c1) by (apply (cycle_reachable _ c input image _ (Ok image1) K1 Hc); discriminate).
    destruct (cycle_static _ _ _ _ _ _ Hc) as [M1 M2].
    destruct (tick_row _ _ _ _ _ _ K1 Hc i m o off K2 k Hk) as (outs0 & ov & old & E1 & E2 & E3 & E4 & E5 & E6).
    assert (Hui : Forall is_u16 image) by apply Hc.
    cbn [tracks]. constructor; cbn [k_pending k_force k_shown].
    + exact Hr1.
    + exact (alone_static _ _ _ _ _ _ M1 M2 K2).
    + exact E5.
    + intros Hx v Hv outs Hum Ho. unfold infos in Ho. rewrite M1, M2 in Ho.
      destruct (E6 outs Hum Ho) as (row & w & G1 & G2 & G3 & G4). exists row, w. split; [exact G1|]. split; [exact G2|].
      rewrite K3 in G3, G4. destruct (k_pending t) as [v'|] eqn:Ep; cbn [newest] in Hv.
      * apply Some_inj in Hv. subst v'. exact G3.
      * specialize (G4 eq_refl Hx). subst w. destruct (K4 Hx v Hv outs0 Hui E1) as (row0 & w0 & F1 & F2 & F3).
        rewrite E2 in F1. apply Some_inj in F1. subst row0. rewrite E3 in F2. apply Some_inj in F2. subst w0. exact F3.
    + intros Hx v Hv. destruct (K4 Hx v Hv outs0 Hui E1) as (row0 & w0 & F1 & F2 & F3).
      rewrite E2 in F1. apply Some_inj in F1. subst row0. rewrite E3 in F2. apply Some_inj in F2. subst w0.
      exists old. split; [exact E4|exact F3].
    + intros n Hn Hkn. destruct K2 as (Hat & Hoff & Hs & Hal & Hlater).
      assert (Hside : off mod 16 = 0 \/ (n <= 8)%nat).
      { destruct Hal as [Hal|Hal]; [left; exact Hal|right].
        destruct (digital_not_serial m n Hn) as (_ & _ & Hob). lia. }
      destruct (C39_partial_all _ _ _ _ _ _ K1 Hc i m o n off Hat Hn Hoff Hside Hlater k Hkn) as (B1 & B2).
      specialize (K6 n Hn Hkn). rewrite K3 in B1, B2. destruct (k_pending t) as [v'|]; cbn [newest].
      * apply B1. reflexivity.
      * rewrite (B2 eq_refl). exact K6.
  - assert (Hr1 : reachable prof c1) by (apply (cycle_reachable _ c input output _ (Err BufferLength) K1 Hc); discriminate).
    destruct (short_cycle _ _ _ _ _ (reachable_ok _ _ K1) Hc) as (ins & ->). cbn [tracks].
    eapply keeps_other; [exact K|exact Hr1|reflexivity..|exact K3|reflexivity|reflexivity].
Qed.

Lemma loops_app prof xs1 : forall c image xs2 c' image', loops prof c image (xs1 ++ xs2) c' image' ->
  exists c1 image1, loops prof c image xs1 c1 image1 /\ loops prof c1 image1 xs2 c' image'.
Proof.
  induction xs1 as [|x xs1 IH]; intros c image xs2 c' image' H; cbn [app] in H.
  - exists c, image. split; [constructor|exact H].
  - inversion H as [|? ? a v ? ? ? Hv H'|? ? j size ? ? ? H'|? ? j buf ? ? ? Hb H'|? ? input c1 image1 ? ? ? Hc H'
                  |? ? input output c1 ? ? ? Hc H']; subst; destruct (IH _ _ _ _ _ H') as (c2 & image2 & A & B);
      exists c2, image2; (split; [econstructor; eassumption|exact B]).
Qed.

Definition nothing : track := mk_track None None None.

Lemma keeps_start prof i m o off k c image : reachable prof c -> alone c i m o off -> requested c (mk_address i k) = None ->
  keeps prof i m o off k (output_bit image off k) nothing c image.
Proof. intros Hr Ha Hn. constructor; auto; try (intros _ v E; discriminate); intros n _ _; reflexivity. Qed.

Lemma C71_digital_all : forall prof c0 image0 before input after c image i m o off n k,
  reachable prof c0 -> alone c0 i m o off -> digital_outputs m = Some n -> (k < n)%nat ->
  requested c0 (mk_address i k) = None ->
  loops prof c0 image0 (before ++ [Tick input] ++ after) c image -> between_ticks after ->
  (forall v, latest (requests before) (mk_address i k) (Some v) -> switches v = Some (output_bit image off k)) /\
  (latest (requests before) (mk_address i k) None -> output_bit image off k = output_bit image0 off k).
Proof.
  intros prof c0 image0 before input after c image i m o off n k Hr Ha Hn Hk Hq H Hb.
  assert (Hkc : (k < channels m)%nat) by (destruct (digital_not_serial m n Hn) as (_ & Hx & _); rewrite Hx; exact Hk).
  pose proof (keeps_loops prof i m o off k _ _ nothing c0 image0 c image Hkc (keeps_start _ _ _ _ _ _ _ image0 Hr Ha Hq) H) as [_ _ _ _ _ K].
  specialize (K n Hn Hk). rewrite !fold_left_app in K. cbn [fold_left tracks] in K.
  destruct (tracks_quiet (mk_address i k) after Hb (mk_track None
     (newest (k_pending (fold_left (tracks (mk_address i k)) before nothing)) (k_force (fold_left (tracks (mk_address i k)) before nothing)))
     (k_force (fold_left (tracks (mk_address i k)) before nothing)))) as [E _].
  rewrite E in K. cbn [k_force] in K. rewrite tracks_total in K. cbn [newest nothing k_pending k_force] in K.
  split.
  - intros v Hl. apply last_for_latest in Hl. rewrite Hl in K. exact K.
  - intros Hl. apply last_for_latest in Hl. rewrite Hl in K. exact K.
Qed.

Lemma C71_shown_all : forall prof c0 image0 before input1 mid input2 after c image i m o off k v,
  reachable prof c0 -> alone c0 i m o off -> (k < channels m)%nat -> exact_channel m k ->
  requested c0 (mk_address i k) = None ->
  loops prof c0 image0 (before ++ [Tick input1] ++ mid ++ [Tick input2] ++ after) c image ->
  between_ticks mid -> between_ticks after ->
  latest (requests before) (mk_address i k) (Some v) ->
  exists w, cell (outputs c) i k = Some w /\ shown_for m k v w.
Proof.
  intros prof c0 image0 before input1 mid input2 after c image i m o off k v Hr Ha Hk Hx Hq H Hm Hb Hl.
  pose proof (keeps_loops prof i m o off k _ _ nothing c0 image0 c image Hk (keeps_start _ _ _ _ _ _ _ image0 Hr Ha Hq) H) as [_ _ _ _ K _].
  apply (K Hx). rewrite !fold_left_app. cbn [fold_left tracks].
  destruct (tracks_quiet (mk_address i k) after Hb (mk_track None
    (newest (k_pending (fold_left (tracks (mk_address i k)) mid (mk_track None
     (newest (k_pending (fold_left (tracks (mk_address i k)) before nothing)) (k_force (fold_left (tracks (mk_address i k)) before nothing)))
     (k_force (fold_left (tracks (mk_address i k)) before nothing)))))
     (k_force (fold_left (tracks (mk_address i k)) mid (mk_track None
     (newest (k_pending (fold_left (tracks (mk_address i k)) before nothing)) (k_force (fold_left (tracks (mk_address i k)) before nothing)))
     (k_force (fold_left (tracks (mk_address i k)) before nothing))))))
     (k_force (fold_left (tracks (mk_address i k)) mid (mk_track None
     (newest (k_pending (fold_left (tracks (mk_address i k)) before nothing)) (k_force (fold_left (tracks (mk_address i k)) before nothing)))
     (k_force (fold_left (tracks (mk_address i k)) before nothing))))))) as [_ E].
  rewrite E. cbn [k_shown].
  destruct (tracks_quiet (mk_address i k) mid Hm (mk_track None
     (newest (k_pending (fold_left (tracks (mk_address i k)) before nothing)) (k_force (fold_left (tracks (mk_address i k)) before nothing)))
     (k_force (fold_left (tracks (mk_address i k)) before nothing)))) as [E' _].
  rewrite E'. cbn [k_force]. rewrite tracks_total. cbn [newest nothing k_pending k_force].
  apply last_for_latest in Hl. rewrite Hl. reflexivity.
Qed.
