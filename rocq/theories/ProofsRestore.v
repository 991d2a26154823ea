(** Proofs about saving and restoring outputs (C91). *)
From Coq Require Import ZArith List Bool Lia ZifyBool ZifyNat.
From Verif Require Import Base Facts F32 Types Lib Util Digital Analog Fcnt Com Fbc SpecCodec SpecSerial SpecCoupler SpecImage SpecOutcome SpecAnalog SpecFeedback SpecKeep SpecRestore
  ProofsCodec ProofsSerialCodec ProofsModule ProofsImage ProofsLayout ProofsCycle ProofsCoupler ProofsIdle ProofsOutcome ProofsFeedback ProofsSteady ProofsMemory ProofsEqual ProofsLoop ProofsWitness.
Import ListNotations.
Local Open Scope Z_scope.
Ltac Zify.zify_post_hook ::= Z.div_mod_to_equations.

(** *** Values read back are values that a program can hold *)

Definition sendable (v : channel_value) : Prop := match v with Bytes _ | ComRsIn _ | FcntIn _ => False | _ => True end.
Lemma sendable_repeat n : Forall sendable (repeat VNone n).
Proof. induction n; cbn [repeat]; constructor; [exact I|assumption]. Qed.

Lemma output_sendable m raw vs : mod_process_output_data m raw = Ok vs -> Forall sendable vs.
Proof.
  intros H. destruct m as [v ch|v ch| |ch|ch|ch|u ch|f ch|v f ch|f ch|u ch|ch|l ch| ];
    cbn [mod_process_output_data] in H; unfold default_process_data in H.
  all: try (destruct raw; [|discriminate]; apply Ok_inj in H; subst vs; apply sendable_repeat).
  1-3: unfold do_process_output_data in H; destruct (negb _); [discriminate|];
    apply bind_ok in H; destruct H as (w & _ & H); apply Ok_inj in H; subst vs;
    apply Forall_forall; intros x Hx; apply in_map_iff in Hx; destruct Hx as (k & <- & _); exact I.
  - unfold ao_process_output_data in H. destruct (negb _); [discriminate|].
    apply (traverse_each _ sendable _ _) with (2 := H). intros (i & w) v _ Hw.
    apply bind_ok in Hw. destruct Hw as (p & _ & Hw). apply Ok_inj in Hw. subst v.
    unfold analog_value. match goal with |- context [match ?x with _ => _ end] => destruct x end; exact I.
  - unfold ao_diag_process_output_data in H. destruct (negb _); [discriminate|].
    apply (traverse_each _ sendable _ _) with (2 := H). intros (i & w) v _ Hw.
    apply bind_ok in Hw. destruct Hw as (p & _ & Hw). apply Ok_inj in Hw. subst v.
    unfold analog_value. match goal with |- context [match ?x with _ => _ end] => destruct x end; exact I.
  - unfold ai_ui_diag_process_output_data in H. destruct raw; [|discriminate]. apply Ok_inj in H. subst vs. repeat constructor.
  - unfold fcnt_process_output_data in H. destruct (negb _) eqn:E; [discriminate|].
    apply (traverse_each _ sendable _ _) with (2 := H). intros i v _ Hw.
    repeat (apply bind_ok in Hw; destruct Hw as (? & _ & Hw)). apply Ok_inj in Hw. subst v. exact I.
  - unfold com_process_output_data in H. apply bind_ok in H. destruct H as (o & Ho & H). apply Ok_inj in H. subst vs. repeat constructor.
Qed.

Lemma out_row_rust prof mo data ov : Forall is_u16 data -> (forall off, mo_output (snd mo) = Some off -> is_u16 off) ->
  output_row prof mo data = Ok ov -> Forall rust_value ov.
Proof.
  intros Hd Hoff H. pose proof (out_row_wire _ _ _ _ Hd Hoff H) as Hw.
  assert (Forall clean_value ov /\ Forall sendable ov) as [Hc Hs].
  { unfold output_row in H. destruct (mo_output (snd mo)) as [off|] eqn:Eo.
    - apply bind_ok in H. destruct H as (raw & Hp & H). destruct (prepare_any _ _ _ _ _ _ (Hoff off eq_refl) Hd Hp) as (_ & Hu).
      split; [exact (output_clean _ _ _ Hu H)|exact (output_sendable _ _ _ H)].
    - apply Ok_inj in H. subst ov. split; [apply clean_repeat|apply sendable_repeat]. }
  rewrite Forall_forall in *. intros v Hv. specialize (Hw v Hv). specialize (Hc v Hv). specialize (Hs v Hv).
  destruct v; try exact I; try contradiction; [exact (proj1 Hc)|exact Hw|exact Hw].
Qed.

(** *** Several requests *)

Lemma set_all_sure reqs : forall c a v, valid_address c a -> In (a, v) reqs -> (forall w, In (a, w) reqs -> w = v) ->
  requested (set_all c reqs) a = Some v.
Proof.
  induction reqs as [|(b & w) reqs IH]; intros c a v Hv Hin Hu; [destruct Hin|]. cbn [set_all].
  assert (Hv' : valid_address (fst (set_output c b w)) a) by (exact (proj2 (set_all_valid [(b, w)] c a) Hv)).
  assert (Dec : In (a, v) reqs \/ (forall x, ~ In (a, x) reqs)).
  { clear - Hu. assert (Hu' : forall x, In (a, x) reqs -> x = v) by (intros x Hx; apply Hu; right; exact Hx). clear Hu.
    induction reqs as [|(b' & w') reqs IH]; [right; intros x []|].
    destruct IH as [H|H]; [intros x Hx; apply Hu'; right; exact Hx|left; right; exact H|].
    destruct (address_eqb_spec b' a) as [->|N].
    - left. left. f_equal. apply Hu'. left. reflexivity.
    - right. intros x [E|Hx]; [apply pair_inj in E; tauto|exact (H x Hx)]. }
  destruct Dec as [H|H].
  - apply IH; [exact Hv'|exact H|]. intros x Hx. apply Hu. right. exact Hx.
  - destruct Hin as [E|Hin]; [|elim (H _ Hin)]. apply pair_inj in E. destruct E as [-> ->].
    rewrite set_all_other by exact H. rewrite set_requested by exact Hv. destruct (address_eqb_spec a a); congruence.
Qed.

(** *** Two images whose modules encode the same data, but for some of them *)

Section Two.
Variable P : nat -> Prop.
Definition like (p q : module_offset * list Z) : Prop :=
  fst q = fst p /\ length (snd q) = length (snd p) /\
  (snd q = snd p \/ forall off b, mo_output (fst p) = Some off ->
     (first_byte 0x0800 off <= b < first_byte 0x0800 off + (if (off mod 16 =? 0)%Z then 2 * length (snd p) else 1))%nat -> P b).
Definition agree (out out' : list Z) : Prop :=
  length out' = length out /\ forall b, ~ P b -> nth_error (bytes_of_words out') b = nth_error (bytes_of_words out) b.

Lemma bytes_app a b : bytes_of_words (a ++ b) = bytes_of_words a ++ bytes_of_words b.
Proof. apply flat_map_app. Qed.

Lemma agree_app out out' d d' : agree out out' -> length d' = length d ->
  (forall b, ~ P (2 * length out + b)%nat -> nth_error (bytes_of_words d') b = nth_error (bytes_of_words d) b) -> agree (out ++ d) (out' ++ d').
Proof.
  intros [L A] Ld Hd. split; [rewrite !app_length; lia|]. intros b Hb. rewrite !bytes_app.
  destruct (Nat.ltb_spec b (2 * length out)).
  - rewrite !nth_error_app1 by (rewrite bytes_of_words_length; lia). apply A. exact Hb.
  - rewrite !nth_error_app2 by (rewrite bytes_of_words_length; lia). rewrite !bytes_of_words_length, L. apply Hd.
    replace (2 * length out + (b - 2 * length out))%nat with b by lia. exact Hb.
Qed.

Lemma lays_agree ps out image : lays ps out image -> forall qs out' image', lays qs out' image' -> Forall2 like ps qs ->
  (forall o d off, In (o, d) ps -> mo_output o = Some off -> is_u16 off) -> agree out out' -> agree image image'.
Proof.
  induction 1 as [out|o d ps out image Eo _ IH|o d off ps out image Eo E El _ IH|o w d off ps out last image Eo E El _ IH];
    intros qs out' image' HQ HF HU HA; inversion HF as [|x (o' & d') ps' qs' HL HF']; subst.
  - inversion HQ; subst. exact HA.
  - destruct HL as (HL & _). cbn [fst] in HL. subst o'. inversion HQ; subst; try congruence.
    match goal with H : lays qs' out' image' |- _ => exact (IH _ _ _ H HF' (fun o d off Hin => HU o d off (or_intror Hin)) HA) end.
  - destruct HL as (HL & Ld & Hd). cbn [fst snd] in *. subst o'. pose proof (HU o d off (or_introl eq_refl) Eo) as U.
    inversion HQ; subst; try congruence.
    match goal with H : lays qs' (out' ++ d') image' |- _ =>
      apply (IH _ _ _ H HF' (fun o d off Hin => HU o d off (or_intror Hin))) end.
    apply agree_app; [exact HA|exact Ld|]. intros b Hb. destruct Hd as [->|Hd]; [reflexivity|].
    destruct (Nat.ltb_spec b (2 * length d)) as [Hlt|Hge].
    + elim Hb. apply (Hd off _ Eo). unfold is_u16 in U. rewrite (first_word off (length out)) by lia. rewrite E. cbn [Z.eqb]. lia.
    + rewrite !(proj2 (nth_error_None _ _)); [reflexivity| |]; rewrite bytes_of_words_length; lia.
  - destruct HL as (HL & Ld & Hd). cbn [fst snd] in *. subst o'. pose proof (HU o (w :: d) off (or_introl eq_refl) Eo) as U.
    inversion HQ; subst; try congruence.
    match goal with H : mo_output o = Some ?x |- _ => assert (x = off) by congruence; subst x end.
    match goal with H : lays qs' (?t ++ [?a]) image' |- _ =>
      apply (IH _ _ _ H HF' (fun o d off Hin => HU o d off (or_intror Hin))) end.
    destruct HA as [L A]. rewrite !app_length in L. cbn [length] in L.
    assert (Lt : length out0 = length out) by lia. apply agree_app.
    + split; [exact Lt|]. intros b Hb. specialize (A b Hb). rewrite !bytes_app in A.
      destruct (Nat.ltb_spec b (2 * length out)).
      * rewrite !nth_error_app1 in A by (rewrite bytes_of_words_length; lia). exact A.
      * rewrite !(proj2 (nth_error_None _ _)); [reflexivity| |]; rewrite bytes_of_words_length; lia.
    + reflexivity.
    + intros b Hb. specialize (A _ Hb). rewrite !bytes_app in A.
      rewrite !nth_error_app2 in A by (rewrite bytes_of_words_length; lia). rewrite !bytes_of_words_length, Lt in A.
      replace (2 * length out + b - 2 * length out)%nat with b in A by lia.
      cbn [bytes_of_words flat_map app] in A |- *. destruct b as [|[|b]]; cbn [nth_error] in A |- *.
      * apply Some_inj in A. f_equal. lia.
      * destruct Hd as [Hd|Hd]; [injection Hd as Hd _; subst; f_equal; lia|]. elim Hb. apply (Hd off _ Eo). unfold is_u16 in U.
        rewrite (first_byte8 off (length out)) by lia. rewrite E. cbn [Z.eqb]. lia.
      * reflexivity.
Qed.
End Two.

(** *** Restoring *)

Lemma saved_rows prof c input output c' image : coupler_ok c -> nothing_requested c -> cycle prof c input output c' (Ok image) ->
  exists sent, process_output_values prof (infos c) sent = Ok image /\ Forall (Forall wire_value) sent /\
    forall i m o, module_at c i m o -> is_serial m = false -> mo_output o <> None ->
      exists row d, nth_error sent i = Some row /\ nth_error (outputs c') i = Some row /\ length row = channels m /\ Forall rust_value row /\
        mod_process_output_values prof m row = Ok d /\ output_bytes m <> 0%nat.
Proof.
  intros Hok Hn H. destruct (ok_cycle _ _ _ _ _ _ Hok H) as (ins & outs & sent & E1 & E2 & E3 & E4 & E4' & _ & _ & E7).
  assert (Huo : Forall is_u16 output) by apply H.
  pose proof (sent_wire _ _ _ _ _ _ _ _ Hok Huo E4 E7) as Hw.
  exists sent. split; [exact E3|]. split; [exact Hw|]. intros i m o Hat Hs Ho.
  destruct (E7 i m o Hat) as (iv & ov & _ & _ & _ & Hro & Hc). destruct (ok_off c Hok i m o Hat) as [_ O1]. cbn [snd] in O1.
  destruct Hc as [row S1 S2 S3 S4 S5 S6 S6' S7 S8|l ch rin rout p0 p' rs last -> _ _ _ _ _ _ _|l ch -> _]; try discriminate Hs.
  assert (row = ov) as ->. { apply nth_error_ext. intros j. rewrite S4, (Hn i m o j Hat Hs Ho). reflexivity. }
  destruct (process_lays _ _ _ _ (off_all c Hok) E3) as (_ & ps & _ & _ & Hps).
  destruct (Hps i m o (proj2 (infos_at c i m o) Hat)) as (d & _ & _ & Henc). destruct (Henc Ho) as (vs & Hvs & Hev).
  rewrite S2 in Hvs. apply Some_inj in Hvs. subst vs.
  exists ov, d. split; [exact S2|]. split; [exact S8|]. split; [exact (out_row_length _ _ _ _ Hro)|].
  split; [exact (out_row_rust _ (m, o) _ _ Huo O1 Hro)|]. split; [exact Hev|].
  destruct (mo_output o) as [off|] eqn:Eo; [|congruence]. exact (output_row_exists_nonzero _ _ _ _ _ _ Hro Eo (O1 off eq_refl) Huo).
Qed.

Lemma saved_requested prof c1 in1 out1 c1' image1 c2 reqs : coupler_ok c1 -> nothing_requested c1 -> cycle prof c1 in1 out1 c1' (Ok image1) ->
  c_modules c2 = c_modules c1 -> c_offsets c2 = c_offsets c1 -> saves c1' reqs ->
  forall i m o k, module_at c1 i m o -> is_serial m = false -> mo_output o <> None -> (k < channels m)%nat ->
  requested (set_all c2 reqs) (mk_address i k) = cell (outputs c1') i k /\ cell (outputs c1') i k <> None.
Proof.
  intros Hok Hn H M1 M2 [Hs1 Hs2] i m o k Hat Hs Ho Hk.
  destruct (saved_rows _ _ _ _ _ _ Hok Hn H) as (sent & _ & _ & HS). destruct (HS i m o Hat Hs Ho) as (row & d & _ & Hrow & Lr & _).
  destruct (nth_error_lt_Some row k) as (v & Hv); [lia|].
  assert (Hc : cell (outputs c1') i k = Some v) by (unfold cell; rewrite Hrow; exact Hv).
  rewrite Hc. split; [|discriminate].
  assert (Hat' : module_at c1' i m o) by (apply (at_static _ _ _ _ _ _ i m o H); exact Hat).
  apply set_all_sure.
  - exists m. cbn [a_module a_channel]. rewrite M1. split; [apply Hat|exact Hk].
  - exact (Hs2 i m o k v Hat' Hs Ho Hc).
  - intros w Hw. destruct (Hs1 _ _ Hw) as [Hw' _]. cbn [a_module a_channel] in Hw'. congruence.
Qed.

Lemma saves_rust prof c input output c' image reqs : reachable prof c -> nothing_requested c -> cycle prof c input output c' (Ok image) ->
  saves c' reqs -> Forall (fun av => rust_value (snd av)) reqs.
Proof.
  intros Hr Hn H [Hs1 _]. pose proof (reachable_ok _ _ Hr) as Hok. apply Forall_forall. intros (a & v) Hin. cbn [snd].
  destruct (Hs1 a v Hin) as (Hc & m & Hm & Hs). destruct (cycle_static _ _ _ _ _ _ H) as [M1 M2]. rewrite M1 in Hm.
  destruct (module_exists c (a_module a) Hok) as (m' & o & Hat). { eapply nth_error_Some_lt. exact Hm. }
  assert (m' = m) as -> by (destruct Hat as [Hm' _]; congruence).
  destruct (ok_cycle _ _ _ _ _ _ Hok H) as (ins & outs & sent & E1 & E2 & E3 & E4 & E4' & _ & _ & E7).
  assert (Huo : Forall is_u16 output) by apply H.
  destruct (E7 _ m o Hat) as (iv & ov & _ & _ & _ & Hro & Hcy). destruct (ok_off c Hok _ m o Hat) as [_ O1]. cbn [snd] in O1.
  destruct Hcy as [row S1 S2 S3 S4 S5 S6 S6' S7 S8|l ch rin rout p0 p' rs last -> _ _ _ _ _ _ _|l ch -> _]; try discriminate Hs.
  pose proof (out_row_rust _ (m, o) _ _ Huo O1 Hro) as HR. unfold cell in Hc. rewrite S8 in Hc.
  rewrite Forall_forall in HR. apply HR. eapply nth_error_In. exact Hc.
Qed.

Lemma C91_restore_all : forall prof c1 in1 out1 c1' image1 c2 reqs in2 out2 c2' r, reachable prof c1 -> nothing_requested c1 ->
  cycle prof c1 in1 out1 c1' (Ok image1) ->
  reachable prof c2 -> c_modules c2 = c_modules c1 -> c_offsets c2 = c_offsets c1 -> saves c1' reqs ->
  cycle prof (set_all c2 reqs) in2 out2 c2' r ->
  ((exists image2, r = Ok image2) <-> inputs_readable c2 in2 /\ outputs_readable c2 out2) /\
  forall image2, r = Ok image2 -> length image2 = length image1 /\
    forall b, ~ in_serial_part c1 b -> nth_error (bytes_of_words image2) b = nth_error (bytes_of_words image1) b.
Proof.
  intros prof c1 in1 out1 c1' image1 c2 reqs in2 out2 c2' r Hr1 Hn H1 Hr2 M1 M2 Hsv H2.
  pose proof (reachable_ok _ _ Hr1) as Hok1. pose proof (saves_rust _ _ _ _ _ _ _ Hr1 Hn H1 Hsv) as HRV.
  set (c2s := set_all c2 reqs) in *. assert (Hr2s : reachable prof c2s) by (apply set_all_reach; assumption).
  pose proof (reachable_ok _ _ Hr2s) as Hok2.
  destruct (set_all_static reqs c2) as (_ & _ & T1 & T2 & _). fold c2s in T1, T2.
  assert (Hat : forall i m o, module_at c2s i m o <-> module_at c1 i m o) by (intros i m o; unfold module_at; rewrite T1, T2, M1, M2; reflexivity).
  assert (Hinf : infos c2s = infos c1) by (unfold infos; rewrite T1, T2, M1, M2; reflexivity).
  destruct (saved_rows _ _ _ _ _ _ Hok1 Hn H1) as (sent1 & P1 & W1 & HS).
  pose proof (saved_requested _ _ _ _ _ _ c2 reqs Hok1 Hn H1 M1 M2 Hsv) as HQ. fold c2s in HQ.
  split.
  - rewrite (C59_all _ _ _ _ _ _ Hr2s H2). unfold cycle_possible, inputs_readable, outputs_readable, module_at. rewrite T1, T2.
    split; [tauto|]. intros [I1 I2]. split; [exact I1|]. split; [exact I2|]. split; [|split].
    + intros i m o k v Hm Ho Hs Hq. apply Hat in Hm. destruct (HS i m o Hm Hs Ho) as (row & d & R1 & R2 & R3 & R4 & R5 & R6).
      destruct (ok_req _ Hok2 _ _ Hq) as (_ & m' & Hm' & Hk). cbn [a_module a_channel] in Hm', Hk.
      assert (m' = m) as ->. { destruct (proj2 (Hat i m o) Hm) as [X _]. congruence. }
      destruct (HQ i m o k Hm Hs Ho Hk) as [X _]. rewrite Hq in X. symmetry in X. unfold cell in X. rewrite R2 in X.
      apply (encode_accepts prof m row d v); [apply rust_wires; exact R4|exact R6|exact Hs| |exact R5|eapply nth_error_In; exact X].
      destruct Hm as [Hm _]. eapply complete_at; eassumption.
    + intros i ch o off k Hm Ho Hk Hq. exfalso. apply Hat in Hm.
      destruct (HQ i _ o k Hm eq_refl ltac:(congruence) Hk) as [X Y]. congruence.
    + pose proof (proj1 (C59_all _ _ _ _ _ _ Hr1 H1) (ex_intro _ _ eq_refl)) as (_ & _ & _ & _ & X).
      unfold outputs_packed in *. rewrite T1, T2, M1, M2. exact X.
  - intros image2 ->.
    destruct (ok_cycle _ _ _ _ _ _ Hok2 H2) as (ins & outs & sent & E1 & E2 & E3 & E4 & E4' & _ & _ & E7).
    assert (Huo : Forall is_u16 out2) by apply H2. pose proof (sent_wire _ _ _ _ _ _ _ _ Hok2 Huo E4 E7) as Hw.
    destruct (process_lays _ _ _ _ (off_all c1 Hok1) P1) as (_ & ps & Lps & HL & Hps).
    destruct (process_lays _ _ _ _ (off_all c2s Hok2) E3) as (_ & qs & Lqs & HLq & Hqs). rewrite Hinf in Lqs, Hqs.
    apply (lays_agree (in_serial_part c1) ps [] image1 HL qs [] image2 HLq); [| |split; reflexivity].
    + apply Forall2_from_nth; [lia|]. intros i (o & d) (o' & d') Hp Hq.
      destruct (nth_error_lt_Some (infos c1) i) as ((m & o1) & Hm). { rewrite <- Lps. eapply nth_error_Some_lt. exact Hp. }
      destruct (Hps i m o1 Hm) as (d1 & Hp1 & Hnn & Henc). rewrite Hp in Hp1. apply Some_inj, pair_inj in Hp1. destruct Hp1 as [<- <-].
      destruct (Hqs i m o Hm) as (d1 & Hq1 & Hnn' & Henc'). rewrite Hq in Hq1. apply Some_inj, pair_inj in Hq1. destruct Hq1 as [-> <-].
      apply infos_at in Hm. unfold like. cbn [fst snd]. split; [reflexivity|].
      destruct (mo_output o) as [off|] eqn:Eo; [|rewrite Hnn, Hnn' by reflexivity; auto].
      destruct Henc as (vs & Hvs & Hev); [congruence|]. destruct Henc' as (vs' & Hvs' & Hev'); [congruence|].
      destruct (encoded_words prof m vs d) as (L1 & _); [exact (proj1 (Forall_forall _ _) W1 _ (nth_error_In _ _ Hvs))|exact Hev|].
      destruct (encoded_words prof m vs' d') as (L2 & _); [exact (proj1 (Forall_forall _ _) Hw _ (nth_error_In _ _ Hvs'))|exact Hev'|].
      split; [congruence|]. destruct (is_serial m) eqn:Hs.
      * right. intros off' b E Hb. apply Some_inj in E. subst off'. exists i, m, o, off. split; [exact Hm|]. split; [exact Hs|]. split; [exact Eo|].
        destruct m as [v ch|v ch| |ch|ch|ch|u ch|f ch|v f ch|f ch|u ch|ch|l ch| ]; try discriminate Hs. rewrite L1 in Hb.
        destruct (off mod 16 =? 0); destruct l; cbn [output_words output_bytes message_size] in *; lia.
      * left. assert (Ho : mo_output o <> None) by congruence.
        destruct (HS i m o Hm Hs Ho) as (row & d0 & R1 & R2 & R3 & _). rewrite R1 in Hvs. apply Some_inj in Hvs. subst vs.
        destruct (E7 i m o (proj2 (Hat i m o) Hm)) as (iv & ov & _ & _ & _ & Hro & Hc).
        destruct Hc as [row2 S1 S2 S3 S4 S5 S6 S6' S7 S8|l ch rin rout p0 p' rs last -> _ _ _ _ _ _ _|l ch -> _]; try discriminate Hs.
        rewrite S2 in Hvs'. apply Some_inj in Hvs'. subst vs'. pose proof (out_row_length _ _ _ _ Hro) as Lo. cbn [fst] in Lo.
        assert (row2 = row) as ->; [|congruence].
        apply nth_error_ext. intros j. destruct (Nat.ltb_spec j (channels m)) as [Hj|Hj].
        -- destruct (HQ i m o j Hm Hs Ho Hj) as [X Y]. rewrite S4, X. unfold cell in *. rewrite R2 in *.
           destruct (nth_error row j); [reflexivity|congruence].
        -- rewrite !(proj2 (nth_error_None _ _)); [reflexivity|lia|lia].
    + intros o d off Hin Eo. apply In_nth_error in Hin. destruct Hin as (i & Hp).
      destruct (nth_error_lt_Some (infos c1) i) as ((m & o1) & Hm). { rewrite <- Lps. eapply nth_error_Some_lt. exact Hp. }
      destruct (Hps i m o1 Hm) as (d1 & Hp1 & _). rewrite Hp in Hp1. apply Some_inj, pair_inj in Hp1. destruct Hp1 as [<- <-].
      apply infos_at in Hm. destruct (ok_off c1 Hok1 i m o Hm) as [_ Y]. exact (Y off Eo).
Qed.

Lemma C91_shown_all : forall prof c1 in1 out1 c1' image1 c2 reqs in2 out2 c2' image2 in3 c3 image3, reachable prof c1 -> nothing_requested c1 ->
  cycle prof c1 in1 out1 c1' (Ok image1) ->
  reachable prof c2 -> c_modules c2 = c_modules c1 -> c_offsets c2 = c_offsets c1 -> saves c1' reqs ->
  cycle prof (set_all c2 reqs) in2 out2 c2' (Ok image2) -> cycle prof c2' in3 image2 c3 (Ok image3) ->
  forall i m o off, alone c1 i m o off -> forall k, (k < channels m)%nat -> exists old w,
    cell (outputs c1') i k = Some old /\ cell (outputs c3) i k = Some w /\ shown_for m k old w /\ (exact_channel m k -> w = old).
Proof.
  intros prof c1 in1 out1 c1' image1 c2 reqs in2 out2 c2' image2 in3 c3 image3 Hr1 Hn H1 Hr2 M1 M2 Hsv H2 H3 i m o off (Hat & Hoff & Hs & Hal & Hlater) k Hk.
  pose proof (reachable_ok _ _ Hr1) as Hok1. pose proof (saves_rust _ _ _ _ _ _ _ Hr1 Hn H1 Hsv) as HRV.
  assert (Ho : mo_output o <> None) by congruence.
  destruct (saved_requested _ _ _ _ _ _ c2 reqs Hok1 Hn H1 M1 M2 Hsv i m o k Hat Hs Ho Hk) as [HQ HQ'].
  set (c2s := set_all c2 reqs) in *. assert (Hr2s : reachable prof c2s) by (apply set_all_reach; assumption).
  destruct (set_all_static reqs c2) as (_ & _ & T1 & T2 & _). fold c2s in T1, T2.
  assert (Hats : forall j m o, module_at c2s j m o <-> module_at c1 j m o) by (intros j m' o'; unfold module_at; rewrite T1, T2, M1, M2; reflexivity).
  assert (Hr2' : reachable prof c2') by (apply (cycle_reachable _ c2s in2 out2 _ (Ok image2) Hr2s H2); discriminate).
  destruct (ok_cycle _ _ _ _ _ _ (reachable_ok _ _ Hr2') H3) as (ins3 & outs3 & sent3 & F1 & F2 & _).
  destruct (C63_all _ _ _ _ _ _ _ _ _ _ _ Hr2s H2 H3 F1 F2 i m o off (proj2 (Hats i m o) Hat) Hs Hoff Hal) with (k := k) as (old2 & w & _ & Hw & Hsh & _);
    [intros j m' o' off' Hj Hj'; apply (Hlater j m' o' off' Hj); apply Hats; exact Hj'|exact Hk|].
  destruct (cell (outputs c1') i k) as [old|] eqn:Ec; [|congruence]. rewrite HQ in Hsh.
  exists old, w. split; [reflexivity|]. split; [exact Hw|]. split; [exact Hsh|]. intros Hx.
  pose proof (reachable_ok _ _ Hr2s) as Hok2.
  destruct (ok_cycle _ _ _ _ _ _ Hok2 H2) as (ins & outs & sent & E1 & E2 & E3 & E4 & E4' & _ & _ & E7).
  assert (Huo : Forall is_u16 out2) by apply H2. pose proof (sent_wire _ _ _ _ _ _ _ _ Hok2 Huo E4 E7) as HW.
  assert (Hinf : nth_error (infos c2s) i = Some (m, o)) by (apply infos_at, Hats; exact Hat).
  assert (Hu : is_u16 off) by (exact (infos_off c2s Hok2 i m o off Hinf Hoff)).
  pose proof (proj1 (C59_all _ _ _ _ _ _ Hr1 H1) (ex_intro _ image1 eq_refl)) as (_ & Ro & _).
  destruct (Ro i m o off Hat Hoff) as ((Hz & _ & Hbase & _) & _).
  destruct (C42_enc_wire prof (infos c2s) sent image2 i m o off (infos_off c2s Hok2) HW E3 Hinf Hoff Hal) as (new & d & Hnew & He & Himg).
  { intros j m' o' off' Hj Hj'. apply (Hlater j m' o' off' Hj). apply Hats, infos_at. exact Hj'. }
  assert (Hinf' : nth_error (infos c2') i = Some (m, o)) by (rewrite (infos_static _ _ _ _ _ _ H2); exact Hinf).
  destruct (C42_out_all prof (infos c2') image2 outs3 i m o off ltac:(apply H3) Hu ltac:(lia) F2 Hinf' Hoff Hal) as (_ & words & row & Hwo & Hrow & Hd).
  rewrite Himg in Hwo.
  destruct (C54_all _ _ _ _ _ _ Hr2' H3 ins3 outs3 F1 F2) as (_ & _ & S2).
  destruct (S2 i m o ltac:(apply infos_at; exact Hinf')) as (iv2 & ov2 & _ & Hov2 & P2 & _).
  destruct (P2 Hs) as [_ Q2]. rewrite Hrow in Hov2. apply Some_inj in Hov2. subst ov2. unfold cell in Hw. rewrite Q2 in Hw.
  destruct (E7 i m o ltac:(apply Hats; exact Hat)) as (iv & ov & Hiv & Hov & Hri & Hro & Hc).
  destruct Hc as [row' S1 S2' S3 S4 S5 S6|l ch rin rout p0 p' rs last -> _ _ _ _ _ _ _|l ch -> _]; try discriminate Hs.
  rewrite S2' in Hnew. apply Some_inj in Hnew. subst row'.
  assert (Hv : nth_error new k = Some old) by (rewrite S4, HQ; reflexivity).
  assert (Hwn : Forall wire_value new) by (rewrite Forall_forall in HW; apply HW; eapply nth_error_In; exact S2').
  assert (Hcm : complete m) by (apply (complete_at c1 i); [exact Hok1|apply Hat]).
  destruct (shown_row prof m new d words row Hcm Hz Hs Hwn He Hwo Hd k old w Hv Hw) as [_ B].
  destruct (ok_cycle _ _ _ _ _ _ Hok1 H1) as (ins1 & outs1 & sent1 & G1 & G2 & _).
  assert (Hinf1 : nth_error (infos c1) i = Some (m, o)) by (apply infos_at; exact Hat).
  destruct (C42_out_all prof (infos c1) out1 outs1 i m o off ltac:(apply H1) Hu ltac:(lia) G2 Hinf1 Hoff Hal) as (_ & raw & ov1 & [Hraw _] & Hov1 & Hd1).
  destruct (C54_all _ _ _ _ _ _ Hr1 H1 ins1 outs1 G1 G2) as (_ & _ & S1'). destruct (S1' i m o Hat) as (iv1 & ov1' & _ & Hov1' & P1 & _).
  destruct (P1 Hs) as [_ Q1]. rewrite Hov1 in Hov1'. apply Some_inj in Hov1'. subst ov1'. unfold cell in Ec. rewrite Q1 in Ec.
  exact (B raw ov1 Hraw Hd1 Ec Hx).
Qed.

(** *** Such requests exist *)

Definition save_all (c : coupler) : list (address * channel_value) :=
  flat_map (fun i => match nth_error (c_modules c) i, nth_error (outputs c) i with
                     | Some m, Some row => if is_serial m then [] else map (fun k => (mk_address i k, nth k row VNone)) (seq 0 (length row))
                     | _, _ => [] end) (seq 0 (length (c_modules c))).

Lemma save_all_saves c : saves c (save_all c).
Proof.
  split.
  - intros a v H. apply in_flat_map in H. destruct H as (i & _ & H).
    destruct (nth_error (c_modules c) i) as [m|] eqn:Em; [|destruct H]. destruct (nth_error (outputs c) i) as [row|] eqn:Er; [|destruct H].
    destruct (is_serial m) eqn:Es; [destruct H|]. apply in_map_iff in H. destruct H as (k & E & Hk). apply pair_inj in E. destruct E as [<- <-].
    apply in_seq in Hk. cbn [a_module a_channel]. split; [|eauto]. unfold cell. rewrite Er. apply nth_error_nth'. lia.
  - intros i m o k v [Em _] Hs _ Hc. apply in_flat_map. exists i. split.
    + apply in_seq. apply nth_error_Some_lt in Em. lia.
    + unfold cell in Hc. destruct (nth_error (outputs c) i) as [row|] eqn:Er; [|discriminate]. rewrite Em, Hs. apply in_map_iff. exists k.
      rewrite (nth_error_nth _ _ VNone Hc). split; [reflexivity|]. apply in_seq. apply nth_error_Some_lt in Hc. lia.
Qed.
