(** Proofs of C66: a module behaves the same in every coupler. *)
From Coq Require Import ZArith List Bool Lia ZifyBool ZifyNat.
From Verif Require Import Base Facts F32 Types Lib Util Com Fbc SpecCodec SpecSerial SpecCoupler SpecImage SpecOutcome SpecIsolation
  ProofsAddr ProofsCodec ProofsModule ProofsImage ProofsLayout ProofsLoop ProofsCycle ProofsCoupler ProofsNew ProofsSerialCodec ProofsOrder ProofsOutcome ProofsMemory ProofsSystem.
Import ListNotations.
Local Open Scope Z_scope.

Lemma even_bytes l : exists k, length (bytes_of_words l) = (2 * k)%nat.
Proof. exists (length l). apply bytes_of_words_length. Qed.

(** Words are determined by their bytes. *)
Lemma words_unique w1 w2 bytes : words_of_bytes w1 bytes -> words_of_bytes w2 bytes -> w1 = w2.
Proof.
  intros [U1 H1] [U2 H2]. apply bytes_of_words_inj; [exact U1|exact U2|].
  destruct (even_bytes w1) as (k1 & K1). destruct (even_bytes w2) as (k2 & K2).
  destruct H1 as [H1|H1], H2 as [H2|H2]; try congruence;
    rewrite H1 in K1; rewrite H2 in K2; rewrite app_length in *; cbn [length] in *; lia.
Qed.

Section pair.
  Variables (prof : profile) (c1 c2 : coupler) (i1 i2 : nat) (m : module) (o1 o2 : module_offset).
  Hypothesis (Ok1 : coupler_ok c1) (Ok2 : coupler_ok c2).
  Hypothesis (P1 : own_place c1 i1 m o1) (P2 : own_place c2 i2 m o2).
  Hypothesis Rq : forall k, requested c1 (mk_address i1 k) = requested c2 (mk_address i2 k).
  Hypothesis Sr : serial c1 i1 = serial c2 i2.

  Lemma in_rows in1 in2 vs1 vs2 : Forall is_u16 in1 -> Forall is_u16 in2 ->
    process_input_data prof (infos c1) in1 = Ok vs1 -> process_input_data prof (infos c2) in2 = Ok vs2 ->
    own_bytes 0 in1 (mo_input o1) (input_bytes m) = own_bytes 0 in2 (mo_input o2) (input_bytes m) ->
    nth_error vs1 i1 = nth_error vs2 i2.
  Proof.
    intros U1 U2 E1 E2 Eb. destruct P1 as (A1 & I1 & _). destruct P2 as (A2 & I2 & _).
    destruct (ok_off c1 Ok1 i1 m o1 A1) as [F1 _]. destruct (ok_off c2 Ok2 i2 m o2 A2) as [F2 _]. cbn [snd] in F1, F2.
    pose proof A1 as N1. pose proof A2 as N2. apply infos_at in N1, N2.
    unfold own_bytes in Eb. destruct (mo_input o1) as [off1|] eqn:M1, (mo_input o2) as [off2|] eqn:M2; try discriminate.
    - apply Some_inj in Eb.
      destruct (C42_in_all prof _ _ _ _ _ _ _ U1 (F1 _ eq_refl) E1 N1 M1 (I1 _ eq_refl)) as (_ & w1 & r1 & W1 & R1 & D1).
      destruct (C42_in_all prof _ _ _ _ _ _ _ U2 (F2 _ eq_refl) E2 N2 M2 (I2 _ eq_refl)) as (_ & w2 & r2 & W2 & R2 & D2).
      rewrite Eb in W1. rewrite (words_unique _ _ _ W1 W2) in D1. congruence.
    - rewrite process_input_rows in E1, E2.
      destruct (traverse_row_at _ _ _ _ _ E1 N1) as (r1 & R1 & D1). destruct (traverse_row_at _ _ _ _ _ E2 N2) as (r2 & R2 & D2).
      unfold input_row in D1, D2. cbn [fst snd] in D1, D2. rewrite M1 in D1. rewrite M2 in D2. congruence.
  Qed.

  Lemma out_rows out1 out2 vs1 vs2 : Forall is_u16 out1 -> Forall is_u16 out2 ->
    (forall off, mo_output o1 = Some off -> 0x8000 <= off) -> (forall off, mo_output o2 = Some off -> 0x8000 <= off) ->
    process_output_data prof (infos c1) out1 = Ok vs1 -> process_output_data prof (infos c2) out2 = Ok vs2 ->
    own_bytes 0x0800 out1 (mo_output o1) (output_bytes m) = own_bytes 0x0800 out2 (mo_output o2) (output_bytes m) ->
    nth_error vs1 i1 = nth_error vs2 i2.
  Proof.
    intros U1 U2 G1 G2 E1 E2 Eb. destruct P1 as (A1 & _ & I1). destruct P2 as (A2 & _ & I2).
    destruct (ok_off c1 Ok1 i1 m o1 A1) as [_ F1]. destruct (ok_off c2 Ok2 i2 m o2 A2) as [_ F2]. cbn [snd] in F1, F2.
    pose proof A1 as N1. pose proof A2 as N2. apply infos_at in N1, N2.
    unfold own_bytes in Eb. destruct (mo_output o1) as [off1|] eqn:M1, (mo_output o2) as [off2|] eqn:M2; try discriminate.
    - apply Some_inj in Eb.
      destruct (C42_out_all prof _ _ _ _ _ _ _ U1 (F1 _ eq_refl) (G1 _ eq_refl) E1 N1 M1 (proj1 (I1 _ eq_refl))) as (_ & w1 & r1 & W1 & R1 & D1).
      destruct (C42_out_all prof _ _ _ _ _ _ _ U2 (F2 _ eq_refl) (G2 _ eq_refl) E2 N2 M2 (proj1 (I2 _ eq_refl))) as (_ & w2 & r2 & W2 & R2 & D2).
      rewrite Eb in W1. rewrite (words_unique _ _ _ W1 W2) in D1. congruence.
    - rewrite process_output_rows in E1, E2.
      destruct (traverse_row_at _ _ _ _ _ E1 N1) as (r1 & R1 & D1). destruct (traverse_row_at _ _ _ _ _ E2 N2) as (r2 & R2 & D2).
      unfold output_row in D1, D2. cbn [fst snd] in D1, D2. rewrite M1 in D1. rewrite M2 in D2. congruence.
  Qed.

  Lemma same_offsets b1 b2 base n : own_bytes base b1 (mo_output o1) n = own_bytes base b2 (mo_output o2) n ->
    (mo_output o1 = None <-> mo_output o2 = None).
  Proof. unfold own_bytes. destruct (mo_output o1), (mo_output o2); try discriminate; split; congruence. Qed.
  Lemma same_offsets_in b1 b2 base n : own_bytes base b1 (mo_input o1) n = own_bytes base b2 (mo_input o2) n ->
    (mo_input o1 = None <-> mo_input o2 = None).
  Proof. unfold own_bytes. destruct (mo_input o1), (mo_input o2); try discriminate; split; congruence. Qed.

  Lemma module_step in1 out1 in2 out2 c1' c2' image1 image2 :
    reachable prof c1 -> reachable prof c2 ->
    cycle prof c1 in1 out1 c1' (Ok image1) -> cycle prof c2 in2 out2 c2' (Ok image2) ->
    own_bytes 0 in1 (mo_input o1) (input_bytes m) = own_bytes 0 in2 (mo_input o2) (input_bytes m) ->
    own_bytes 0x0800 out1 (mo_output o1) (output_bytes m) = own_bytes 0x0800 out2 (mo_output o2) (output_bytes m) ->
    own_bytes 0x0800 image1 (mo_output o1) (output_bytes m) = own_bytes 0x0800 image2 (mo_output o2) (output_bytes m) /\
    nth_error (inputs c1') i1 = nth_error (inputs c2') i2 /\
    (is_serial m = false -> nth_error (outputs c1') i1 = nth_error (outputs c2') i2) /\
    (forall k, requested c1' (mk_address i1 k) = requested c2' (mk_address i2 k)) /\ serial c1' i1 = serial c2' i2.
  Proof.
    intros R1 R2 H1 H2 Bi Bo. pose proof P1 as (A1 & _ & I1). pose proof P2 as (A2 & _ & I2).
    assert (Ui1 : Forall is_u16 in1) by apply H1. assert (Uo1 : Forall is_u16 out1) by apply H1.
    assert (Ui2 : Forall is_u16 in2) by apply H2. assert (Uo2 : Forall is_u16 out2) by apply H2.
    destruct (proj1 (C59_all _ _ _ _ _ _ R1 H1) (ex_intro _ image1 eq_refl)) as (_ & _ & _ & _ & K1).
    destruct (proj1 (C59_all _ _ _ _ _ _ R2 H2) (ex_intro _ image2 eq_refl)) as (_ & _ & _ & _ & K2).
    assert (G1 : forall off, mo_output o1 = Some off -> 0x8000 <= off) by (intros off E; exact (packed_all c1 K1 i1 m o1 off A1 E)).
    assert (G2 : forall off, mo_output o2 = Some off -> 0x8000 <= off) by (intros off E; exact (packed_all c2 K2 i2 m o2 off A2 E)).
    destruct (ok_cycle _ _ _ _ _ _ Ok1 H1) as (ins1 & outs1 & sent1 & Ei1 & Eo1 & Es1 & L1 & _ & _ & _ & M1).
    destruct (ok_cycle _ _ _ _ _ _ Ok2 H2) as (ins2 & outs2 & sent2 & Ei2 & Eo2 & Es2 & L2 & _ & _ & _ & M2).
    pose proof (sent_wire _ _ _ _ _ _ _ _ Ok1 Uo1 L1 M1) as W1. pose proof (sent_wire _ _ _ _ _ _ _ _ Ok2 Uo2 L2 M2) as W2.
    pose proof (in_rows in1 in2 ins1 ins2 Ui1 Ui2 Ei1 Ei2 Bi) as Ri.
    pose proof (out_rows out1 out2 outs1 outs2 Uo1 Uo2 G1 G2 Eo1 Eo2 Bo) as Ro.
    pose proof (same_offsets _ _ _ _ Bo) as So. pose proof (same_offsets_in _ _ _ _ Bi) as Si.
    destruct (M1 i1 m o1 A1) as (iv & ov & Hiv & Hov & _ & _ & C). destruct (M2 i2 m o2 A2) as (iv' & ov' & Hiv' & Hov' & _ & _ & C').
    rewrite Hiv, Hiv' in Ri. rewrite Hov, Hov' in Ro. apply Some_inj in Ri, Ro. subst iv' ov'.
    assert (K : nth_error sent1 i1 = nth_error sent2 i2 /\ (forall j, requested c1' (mk_address i1 j) = requested c2' (mk_address i2 j)) /\
        serial c1' i1 = serial c2' i2 /\ nth_error (inputs c1') i1 = nth_error (inputs c2') i2 /\
        (is_serial m = false -> nth_error (outputs c1') i1 = nth_error (outputs c2') i2)).
    { destruct C as [row S1 S2 S3 S4 S5 S6 S7 S8 S9|l ch rin rout p p' rs last E0 -> -> Q1 Q2 Q3 O1 O2 T1 T2 T3 T4 T5 T6 T7
                     |l ch E0 V1 V2 V3 V4 V5 V6 V7];
      destruct C' as [row' S1' S2' S3' S4' S5' S6' S7' S8' S9'|l' ch' rin' rout' q q' rs' last' E1 E2 E3 Q1' Q2' Q3' O1' O2' T1' T2' T3' T4' T5' T6' T7'
                     |l' ch' E1 V1' V2' V3' V4' V5' V6' V7'];
        try (exfalso; subst; discriminate); try (exfalso; congruence).
      - split. { rewrite S2, S2'. f_equal. apply nth_error_ext. intros j. rewrite S4, S4', Rq. reflexivity. }
        split; [intros j; rewrite S5, S5'; reflexivity|]. split; [congruence|]. split; [congruence|]. intros; congruence.
      - injection E2 as <-. injection E3 as <-. rewrite <- Sr, T1 in T1'. apply Some_inj in T1'. subst q.
        rewrite <- Rq, T2 in T2'. apply Ok_inj, pair_inj in T2'. destruct T2' as [<- <-].
        split; [congruence|]. split; [intros j; rewrite T5, T5'; reflexivity|]. split; [congruence|]. split; [congruence|].
        intros Hser. subst m. discriminate.
      - exfalso. destruct V1' as [[N _]|[N _]]; [apply Si in N|apply So in N]; contradiction.
      - exfalso. destruct V1 as [[N _]|[N _]]; [apply Si in N|apply So in N]; contradiction.
      - split; [congruence|]. split; [intros j; rewrite V5, V5', Rq; reflexivity|]. split; [rewrite V4, V4'; apply Sr|].
        split; [congruence|]. intros; congruence. }
    destruct K as (Ks & Kr & Kp & Ki & Ko). split; [|auto].
    pose proof A1 as N1. pose proof A2 as N2. apply infos_at in N1, N2.
    unfold own_bytes in *. destruct (mo_output o1) as [off1|] eqn:F1, (mo_output o2) as [off2|] eqn:F2; try discriminate; [|reflexivity].
    destruct (I1 _ eq_refl) as [J1 J1']. destruct (I2 _ eq_refl) as [J2 J2'].
    destruct (C42_enc_wire prof _ _ _ _ _ _ _ (infos_off c1 Ok1) W1 Es1 N1 F1 J1) as (v1 & d1 & V1 & D1 & B1).
    { intros j m' o' off' Hj Hat. apply infos_at in Hat. exact (J1' j m' o' off' Hj Hat). }
    destruct (C42_enc_wire prof _ _ _ _ _ _ _ (infos_off c2 Ok2) W2 Es2 N2 F2 J2) as (v2 & d2 & V2 & D2 & B2).
    { intros j m' o' off' Hj Hat. apply infos_at in Hat. exact (J2' j m' o' off' Hj Hat). }
    f_equal. rewrite B1, B2. congruence.
  Qed.
End pair.

(** The state of a module in a coupler is changed by its own calls only. *)
Lemma place_calls prof c i m o x c' a : own_place c i m o -> calls prof c x c' a -> own_place c' i m o.
Proof.
  intros H Hx. pose proof (calls_modules _ _ _ _ _ Hx) as E1. pose proof (calls_offsets _ _ _ _ _ Hx) as E2.
  unfold own_place, module_at in *. rewrite E1, E2. exact H.
Qed.

Lemma other_call prof c i m o x c' a : calls prof c x c' a -> own_part i m o (x, a) = [] ->
  (forall r ins outs, a = CycleResult r ins outs -> exists image, r = Ok image) ->
  (forall k, requested c' (mk_address i k) = requested c (mk_address i k)) /\ serial c' i = serial c i.
Proof.
  intros H E Hs. destruct H as [c a v Hv|c j n|c j b Hb|c input output c' r Hc _]; cbn [own_part] in E.
  - destruct (Nat.eqb_spec (a_module a) i) as [|Hn]; [discriminate|].
    destruct (valid_address_dec c a) as [V|V].
    + rewrite (set_output_valid c a v V). split; [|reflexivity]. intros k. unfold requested. cbn [fst c_write].
      rewrite (map_get_insert address_eqb address_eqb_spec). destruct (address_eqb_spec a (mk_address i k)) as [->|]; [|reflexivity].
      contradiction Hn. reflexivity.
    + rewrite (set_output_invalid c a v V). split; reflexivity.
  - destruct (Nat.eqb_spec j i) as [|Hn]; [discriminate|]. unfold coupler_read.
    destruct (map_get Nat.eqb j (c_processors c)) as [p|]; [|split; reflexivity].
    destruct (processor_read p n). split; [reflexivity|]. unfold serial, with_processors. cbn [fst c_processors].
    rewrite (map_get_insert Nat.eqb Nat.eqb_spec). destruct (Nat.eqb_spec j i); [contradiction|reflexivity].
  - destruct (Nat.eqb_spec j i) as [|Hn]; [discriminate|]. unfold coupler_write.
    destruct (map_get Nat.eqb j (c_processors c)) as [p|]; [|split; reflexivity].
    destruct (processor_write p b). split; [reflexivity|]. unfold serial, with_processors. cbn [fst c_processors].
    rewrite (map_get_insert Nat.eqb Nat.eqb_spec). destruct (Nat.eqb_spec j i); [contradiction|reflexivity].
  - destruct (Hs r _ _ eq_refl) as (image & ->). discriminate.
Qed.

Lemma own_part_one i m o x a : own_part i m o (x, a) = [] \/ exists y b, own_part i m o (x, a) = [(y, b)].
Proof.
  destruct x, a; cbn [own_part]; auto.
  - destruct (Nat.eqb (a_module a0) i); eauto.
  - destruct (Nat.eqb i0 i); eauto.
  - destruct (Nat.eqb i0 i); eauto.
  - destruct r; eauto.
Qed.

Lemma valid_own c i m o k : module_at c i m o -> (valid_address c (mk_address i k) <-> (k < channels m)%nat).
Proof.
  intros [Hm _]. unfold valid_address. cbn [a_module a_channel]. split.
  - intros (m' & E & H). rewrite Hm in E. apply Some_inj in E. subst m'. exact H.
  - eauto.
Qed.

(** The same call to the module in both couplers. *)
Lemma both_step prof c1 c2 i1 i2 m o1 o2 x1 x2 c1' c2' a1 a2 y b1 b2 :
  reachable prof c1 -> reachable prof c2 -> own_place c1 i1 m o1 -> own_place c2 i2 m o2 ->
  (forall k, requested c1 (mk_address i1 k) = requested c2 (mk_address i2 k)) -> serial c1 i1 = serial c2 i2 ->
  calls prof c1 x1 c1' a1 -> calls prof c2 x2 c2' a2 ->
  own_part i1 m o1 (x1, a1) = [(y, b1)] -> own_part i2 m o2 (x2, a2) = [(y, b2)] ->
  b1 = b2 /\ (forall k, requested c1' (mk_address i1 k) = requested c2' (mk_address i2 k)) /\ serial c1' i1 = serial c2' i2.
Proof.
  intros R1 R2 P1 P2 Rq Sr H1 H2 E1 E2.
  destruct H1 as [c1 a v Hv|c1 j n|c1 j b Hb|c1 in1 out1 c1' r Hc Hp];
    destruct H2 as [c2 a' v' Hv'|c2 j' n'|c2 j' b' Hb'|c2 in2 out2 c2' r' Hc' Hp']; cbn [own_part] in E1, E2;
    repeat match goal with H : (if Nat.eqb ?x ?y then _ else _) = _ |- _ => destruct (Nat.eqb_spec x y); [|discriminate] end;
    try (exfalso; congruence); try (exfalso; destruct r; congruence); try (exfalso; destruct r'; congruence).
  - destruct a as [i k], a' as [i' k']. cbn [a_module a_channel] in *. subst i i'.
    injection E1 as <- <-. injection E2 as -> -> <-. destruct P1 as (A1 & _), P2 as (A2 & _).
    pose proof (valid_own _ _ _ _ k A1) as V1. pose proof (valid_own _ _ _ _ k A2) as V2.
    destruct (Nat.ltb_spec k (channels m)) as [L|L].
    + apply V1 in L as L1. apply V2 in L as L2. rewrite (set_output_valid _ _ _ L1), (set_output_valid _ _ _ L2). cbn [fst snd].
      split; [reflexivity|]. split; [|exact Sr]. intros k'. unfold requested in *. cbn [c_write].
      rewrite !(map_get_insert address_eqb address_eqb_spec).
      destruct (address_eqb_spec (mk_address i1 k) (mk_address i1 k')) as [E|N], (address_eqb_spec (mk_address i2 k) (mk_address i2 k')) as [E'|N'];
        try reflexivity; try (exfalso; congruence). apply Rq.
    + assert (L1 : ~ valid_address c1 (mk_address i1 k)) by (rewrite V1; lia). assert (L2 : ~ valid_address c2 (mk_address i2 k)) by (rewrite V2; lia).
      rewrite (set_output_invalid _ _ _ L1), (set_output_invalid _ _ _ L2). cbn [fst snd]. auto.
  - subst j j'. injection E1 as <- <-. injection E2 as -> <-. unfold coupler_read. unfold serial in Sr. rewrite <- Sr.
    destruct (map_get Nat.eqb i1 (c_processors c1)) as [p|] eqn:Ep; [|cbn [fst snd]; unfold serial; rewrite Ep; auto].
    destruct (processor_read p n). cbn [fst snd]. split; [reflexivity|]. split; [exact Rq|]. unfold serial, with_processors. cbn [c_processors].
    rewrite !(map_get_insert Nat.eqb Nat.eqb_spec), !Nat.eqb_refl. reflexivity.
  - subst j j'. injection E1 as <- <-. injection E2 as -> <-. unfold coupler_write. unfold serial in Sr. rewrite <- Sr.
    destruct (map_get Nat.eqb i1 (c_processors c1)) as [p|] eqn:Ep; [|cbn [fst snd]; unfold serial; rewrite Ep; auto].
    destruct (processor_write p b). cbn [fst snd]. split; [reflexivity|]. split; [exact Rq|]. unfold serial, with_processors. cbn [c_processors].
    rewrite !(map_get_insert Nat.eqb Nat.eqb_spec), !Nat.eqb_refl. reflexivity.
  - destruct r as [image1| |]; try discriminate. destruct r' as [image2| |]; try discriminate.
    injection E1 as <- <-. injection E2 as Bi Bo <-.
    destruct (module_step prof c1 c2 i1 i2 m o1 o2 (reachable_ok _ _ R1) (reachable_ok _ _ R2) P1 P2 Rq Sr in1 out1 in2 out2 c1' c2' image1 image2
                R1 R2 Hc Hc' (eq_sym Bi) (eq_sym Bo)) as (K1 & K2 & K3 & K4 & K5).
    split; [|auto]. f_equal; [exact K1|exact K2|]. destruct (is_serial m); [reflexivity|auto].
Qed.

Lemma view_cons i m o x xs a xa : view i m o (x :: xs) (a :: xa) = own_part i m o (x, a) ++ view i m o xs xa.
Proof. reflexivity. Qed.

Lemma C66_runs prof m o1 o2 i1 i2 : forall n xs1 xs2 c1 c2 c1' c2' a1 a2, (length xs1 + length xs2 < n)%nat ->
  reachable prof c1 -> reachable prof c2 -> own_place c1 i1 m o1 -> own_place c2 i2 m o2 ->
  (forall k, requested c1 (mk_address i1 k) = requested c2 (mk_address i2 k)) -> serial c1 i1 = serial c2 i2 ->
  runs prof c1 xs1 c1' a1 -> runs prof c2 xs2 c2' a2 -> all_succeeded a1 -> all_succeeded a2 ->
  map fst (view i1 m o1 xs1 a1) = map fst (view i2 m o2 xs2 a2) ->
  map snd (view i1 m o1 xs1 a1) = map snd (view i2 m o2 xs2 a2).
Proof.
  induction n as [|n IH]; [lia|]. intros xs1 xs2 c1 c2 c1' c2' a1 a2 Hn R1 R2 P1 P2 Rq Sr H1 H2 S1 S2 E.
  assert (T : forall xa (a : answer), all_succeeded (a :: xa) -> all_succeeded xa /\ forall r ins outs, a = CycleResult r ins outs -> exists image, r = Ok image).
  { intros xa a H. split; [intros r ins outs Hi; apply (H r ins outs); right; exact Hi|]. intros r ins outs ->. apply (H r ins outs). left. reflexivity. }
  destruct H1 as [c1|c1 x1 d1 e1 xs1 c1' xa1 Hx1 Hxs1].
  - destruct H2 as [c2|c2 x2 d2 e2 xs2 c2' xa2 Hx2 Hxs2]; [reflexivity|].
    destruct (T _ _ S2) as [S2' F2]. rewrite view_cons in *.
    destruct (own_part_one i2 m o2 x2 e2) as [Z|(y & b & Z)]; rewrite Z in *; [|discriminate]. cbn [app] in *.
    destruct (other_call _ _ _ _ _ _ _ _ Hx2 Z F2) as [Q1 Q2].
    refine (IH [] xs2 c1 d2 c1 c2' [] xa2 _ R1 (calls_reachable _ _ _ _ _ R2 Hx2) P1 (place_calls _ _ _ _ _ _ _ _ P2 Hx2) _ _ (Runs_nil _ _) Hxs2 S1 S2' E).
    + cbn [length] in *. lia.
    + intros k. rewrite Q1. apply Rq.
    + rewrite Q2. exact Sr.
  - destruct (T _ _ S1) as [S1' F1]. rewrite view_cons in *.
    destruct (own_part_one i1 m o1 x1 e1) as [Z|(y & b & Z)]; rewrite Z in *.
    { cbn [app] in *. destruct (other_call _ _ _ _ _ _ _ _ Hx1 Z F1) as [Q1 Q2].
      refine (IH xs1 xs2 d1 c2 c1' c2' xa1 a2 _ (calls_reachable _ _ _ _ _ R1 Hx1) R2 (place_calls _ _ _ _ _ _ _ _ P1 Hx1) P2 _ _ Hxs1 H2 S1' S2 E).
      + cbn [length] in *. lia.
      + intros k. rewrite Q1. apply Rq.
      + rewrite Q2. exact Sr. }
    destruct H2 as [c2|c2 x2 d2 e2 xs2 c2' xa2 Hx2 Hxs2]; [discriminate|].
    destruct (T _ _ S2) as [S2' F2]. rewrite view_cons in *.
    destruct (own_part_one i2 m o2 x2 e2) as [Z'|(y' & b' & Z')]; rewrite Z' in *.
    { cbn [app] in *. destruct (other_call _ _ _ _ _ _ _ _ Hx2 Z' F2) as [Q1 Q2].
      assert (V : view i1 m o1 (x1 :: xs1) (e1 :: xa1) = (y, b) :: view i1 m o1 xs1 xa1) by (rewrite view_cons, Z; reflexivity).
      rewrite <- V in *.
      refine (IH (x1 :: xs1) xs2 c1 d2 c1' c2' (e1 :: xa1) xa2 _ R1 (calls_reachable _ _ _ _ _ R2 Hx2) P1 (place_calls _ _ _ _ _ _ _ _ P2 Hx2) _ _ (Runs_cons _ _ _ _ _ _ _ _ Hx1 Hxs1) Hxs2 S1 S2' E).
      + cbn [length] in *. lia.
      + intros k. rewrite Q1. apply Rq.
      + rewrite Q2. exact Sr. }
    cbn [app map fst snd] in *. injection E as E0 E. subst y'.
    destruct (both_step _ _ _ _ _ _ _ _ _ _ _ _ _ _ _ _ _ R1 R2 P1 P2 Rq Sr Hx1 Hx2 Z Z') as (-> & Q1 & Q2). f_equal.
    refine (IH xs1 xs2 d1 d2 c1' c2' xa1 xa2 _ (calls_reachable _ _ _ _ _ R1 Hx1) (calls_reachable _ _ _ _ _ R2 Hx2)
             (place_calls _ _ _ _ _ _ _ _ P1 Hx1) (place_calls _ _ _ _ _ _ _ _ P2 Hx2) Q1 Q2 Hxs1 Hxs2 S1' S2' E).
    cbn [length] in *. lia.
Qed.

Lemma C66_all : forall prof c1 c2 i1 i2 m o1 o2 xs1 xs2 c1' c2' a1 a2,
  reachable prof c1 -> reachable prof c2 -> own_place c1 i1 m o1 -> own_place c2 i2 m o2 ->
  (forall k, requested c1 (mk_address i1 k) = requested c2 (mk_address i2 k)) -> serial c1 i1 = serial c2 i2 ->
  runs prof c1 xs1 c1' a1 -> runs prof c2 xs2 c2' a2 -> all_succeeded a1 -> all_succeeded a2 ->
  map fst (view i1 m o1 xs1 a1) = map fst (view i2 m o2 xs2 a2) ->
  map snd (view i1 m o1 xs1 a1) = map snd (view i2 m o2 xs2 a2).
Proof.
  intros prof c1 c2 i1 i2 m o1 o2 xs1 xs2 c1' c2' a1 a2. apply (C66_runs prof m o1 o2 i1 i2 (S (length xs1 + length xs2))). lia.
Qed.

Lemma new_serial cfg c i m : rust_config cfg -> coupler_new cfg = Ok c -> nth_error (c_modules c) i = Some m ->
  serial c i = match m with MCOM l _ => Some (processor_new l) | _ => None end.
Proof.
  intros Hcfg H Hm. pose proof (new_ok _ _ Hcfg H) as Hok.
  destruct (is_serial m) eqn:E.
  - destruct m; try discriminate. destruct (ok_com c Hok i _ _ Hm) as (p & Hp). rewrite Hp. f_equal. exact (new_processor _ _ _ _ _ _ H Hm Hp).
  - rewrite (proj2 (not_serial_none c i m Hok Hm) E). destruct m; try reflexivity. discriminate.
Qed.

Lemma C66_fresh_all : forall prof cfg1 cfg2 c1 c2 i1 i2 m o1 o2 xs1 xs2 c1' c2' a1 a2,
  rust_config cfg1 -> rust_config cfg2 -> coupler_new cfg1 = Ok c1 -> coupler_new cfg2 = Ok c2 ->
  own_place c1 i1 m o1 -> own_place c2 i2 m o2 ->
  runs prof c1 xs1 c1' a1 -> runs prof c2 xs2 c2' a2 -> all_succeeded a1 -> all_succeeded a2 ->
  map fst (view i1 m o1 xs1 a1) = map fst (view i2 m o2 xs2 a2) ->
  map snd (view i1 m o1 xs1 a1) = map snd (view i2 m o2 xs2 a2).
Proof.
  intros prof cfg1 cfg2 c1 c2 i1 i2 m o1 o2 xs1 xs2 c1' c2' a1 a2 G1 G2 N1 N2 P1 P2.
  apply (C66_all prof c1 c2); auto.
  - exact (R_new _ _ _ G1 N1).
  - exact (R_new _ _ _ G2 N2).
  - intros k. rewrite (new_requests _ _ N1), (new_requests _ _ N2). reflexivity.
  - destruct P1 as ([Hm1 _] & _), P2 as ([Hm2 _] & _).
    rewrite (new_serial _ _ _ _ G1 N1 Hm1), (new_serial _ _ _ _ G2 N2 Hm2). reflexivity.
Qed.
