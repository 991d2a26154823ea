(** Proofs for C92. *)
From Coq Require Import ZArith Reals List Bool Lia ZifyBool ZifyNat.
From Verif Require Import Base Facts F32 Types Lib Util Digital Analog Fcnt Com Fbc SpecCodec SpecCoupler SpecAnalog SpecResolution SpecSerial SpecImage
  SpecLossless SpecTerminal SpecKinds ProofsCodec ProofsSerialCodec ProofsModule ProofsImage ProofsDigital ProofsCycle ProofsLoop ProofsCoupler ProofsTerminal.
Import ListNotations.
Local Open Scope Z_scope.
Ltac Zify.zify_post_hook ::= Z.div_mod_to_equations.

Lemma near_number x r : nearest x r -> number (Decimal32 x).
Proof. intros (_ & F & _). exists x. auto. Qed.
Lemma within_number e x r : within e x r -> number (Decimal32 x).
Proof. intros (_ & F & _). exists x. auto. Qed.

Lemma analog_kind r f w v : physical_analog r f w v -> match r with UI_Disabled => v = Disabled | _ => number v end.
Proof.
  unfold physical_analog. destruct r; cbn [base_span]; try (intros H; exact H);
    intros (x & -> & (_ & _ & (q & _ & N) & _)); exact (near_number _ _ N).
Qed.

Lemma word32_u32 a b : is_u16 a -> is_u16 b -> is_u32 (word32 a b).
Proof. unfold is_u16, is_u32, word32. lia. Qed.

Lemma reg_any data k : Forall is_u16 data -> is_u16 (reg data k).
Proof.
  intros H. unfold reg. destruct (nth_in_or_default k data 0) as [Hi| ->]; [|unfold is_u16; lia].
  rewrite Forall_forall in H. exact (H _ Hi).
Qed.

Lemma input_kinds m o off k data v : mo_input o = Some off -> Forall is_u16 data -> physical_input m k data v -> input_kind m o k v.
Proof.
  intros Eo Hu. unfold input_kind. rewrite Eo.
  destruct m as [w ch|w ch| |ch|ch|ch|t ch|f ch|w f ch|f ch|t ch|ch|l ch| ]; cbn [physical_input]; try (intros []; fail).
  - intros ->. eexists. reflexivity.
  - intros (p & Hp & H). cbn [measures]. rewrite Hp. destruct (rtd_measurement_range p); cbn [full_resistance] in *; try exact H;
      destruct H as (x & -> & H); first [exact (within_number _ _ _ H)|exact (near_number _ _ H)].
  - intros (r & g & E & H). cbn [measures]. rewrite E. apply analog_kind in H. destruct r; exact H.
  - intros (r & g & E & H). cbn [measures]. rewrite E. apply analog_kind in H. destruct r; exact H.
  - intros (r & g & E & H). cbn [measures]. rewrite E. apply analog_kind in H. destruct r; exact H.
  - intros (p & Hp & H). cbn [measures]. rewrite Hp. destruct (tc_measurement_range p); cbn [full_microvolts] in *; try exact H.
    all: first [destruct H as (x & -> & H); left; exact (near_number _ _ H)
               |destruct H as [(_ & ->)|(_ & x & -> & H)]; [right; reflexivity|left; exact (within_number _ _ _ H)]].
  - intros (i & -> & E & _ & _ & H). exists i. split; [reflexivity|]. split.
    + rewrite E. apply word32_u32; apply reg_any; exact Hu.
    + intros d Hd. apply H. exact Hd.
  - intros ->. eexists. reflexivity.
Qed.

Lemma output_kinds m o off k data v : mo_output o = Some off -> Forall is_u16 data -> physical_output m k data v -> output_kind m o k v.
Proof.
  intros Eo Hu. unfold output_kind. rewrite Eo.
  destruct m as [w ch|w ch| |ch|ch|ch|t ch|f ch|w f ch|f ch|t ch|ch|l ch| ]; cbn [physical_output]; try (intros []; fail).
  1-3: intros ->; eexists; reflexivity.
  1-2: intros (r & g & E & H); rewrite E; apply analog_kind in H; destruct r; exact H.
  intros (d & Hd & _ & ->). eexists. split; [reflexivity|exact Hd].
Qed.

(** *** Rows *)

Lemma com_in_size prof l ch o off data iv : Forall is_u16 data -> is_u16 off -> mo_input o = Some off ->
  input_row prof (MCOM l ch, o) data = Ok iv ->
  exists rin, iv = [ComRsIn rin] /\ good_in rin /\ (length (ri_data rin) <= payload_size l)%nat.
Proof.
  intros Hd Ho Eo H. unfold input_row in H. cbn [fst snd] in H. rewrite Eo in H. apply bind_ok in H. destruct H as (raw & Hp & H).
  destruct (prepare_any _ _ _ _ _ _ Ho Hd Hp) as (Hl & Hu).
  cbn [mod_process_input_data] in H. unfold com_process_input_data in H.
  apply bind_ok in H. destruct H as (rin & Hr & H). apply Ok_inj in H. subst iv.
  exists rin. split; [reflexivity|]. rewrite words_to_bytes_spec in Hr.
  pose proof (bytes_of_words_u8 raw Hu) as Hb.
  assert (Hml : length (bytes_of_words raw) = message_size l).
  { rewrite bytes_of_words_length, Hl. destruct l; reflexivity. }
  destruct (rs_in_decode _ Hb) as [(i' & s & d & E & Ha & Hm)|(_ & E)]; rewrite E in Hr; [|discriminate].
  apply Ok_inj in Hr. subst i'. destruct Hm as (_ & _ & E1 & E2 & _ & E3).
  split.
  - unfold good_in, decoded_in, counter. rewrite E1, E2, E3. split; [lia|]. eapply announces_data; eassumption.
  - rewrite E3. destruct Ha as (rest & Ea). rewrite Ea in Hml. cbn [length] in Hml. rewrite app_length in Hml. destruct l; cbn [message_size payload_size] in *; lia.
Qed.

Lemma shown_in_kind l rin : good_in rin -> (length (ri_data rin) <= payload_size l)%nat -> shown_in rin = VNone \/ segment l (shown_in rin).
Proof.
  intros [_ Hu] Hl. unfold shown_in. destruct (_ && _) eqn:E; [|left; reflexivity]. right. exists (ri_data rin).
  split; [reflexivity|]. split; [|split; assumption]. intros Hn. rewrite Hn in E. cbn in E. lia.
Qed.
Lemma shown_out_kind l last rout : good_out l rout -> shown_out last rout = VNone \/ segment l (shown_out last rout).
Proof.
  intros [(_ & _ & Hl) Hu]. unfold shown_out. destruct (_ && _) eqn:E; [|left; reflexivity]. right. exists (ro_data rout).
  split; [reflexivity|]. split; [|split; assumption]. intros Hn. rewrite Hn in E. cbn in E. lia.
Qed.

Lemma in_row_kind prof c i m o data iv k v : coupler_ok c -> module_at c i m o -> Forall is_u16 data -> input_row prof (m, o) data = Ok iv ->
  nth_error iv k = Some v -> input_kind m o k v.
Proof.
  intros Hc Hat Hd H Hv. destruct (ok_off c Hc i m o Hat) as (Ho & _).
  assert (Hm : complete m) by (apply (ok_complete c i m o Hc); apply infos_at; exact Hat).
  destruct (mo_input o) as [off|] eqn:Eo.
  - destruct (is_serial m) eqn:Es.
    + destruct m as [| | | | | | | | | | | |l ch| ]; try discriminate.
      destruct (com_in_size _ _ _ _ _ _ _ Hd (Ho off Eo) Eo H) as (rin & -> & [[G1 G2] _] & G3).
      destruct k as [|k]; [|destruct k; discriminate]. apply Some_inj in Hv. subst v. unfold input_kind. rewrite Eo. right. right. exists rin. auto.
    + unfold input_row in H. cbn [fst snd] in H. rewrite Eo in H. apply bind_ok in H. destruct H as (raw & Hp & H).
      destruct (prepare_any _ _ _ _ _ _ (Ho off Eo) Hd Hp) as (Hl & Hu).
      exact (input_kinds _ _ _ _ _ _ Eo Hu (input_terminal m raw iv k v Hm Hu Hl Es H Hv)).
  - unfold input_row in H. cbn [fst snd] in H. rewrite Eo in H. apply Ok_inj in H. subst iv. unfold input_kind. rewrite Eo.
    apply nth_error_In in Hv. apply repeat_spec in Hv. exact Hv.
Qed.

Lemma out_row_kind prof c i m o data ov k v : coupler_ok c -> module_at c i m o -> Forall is_u16 data -> output_row prof (m, o) data = Ok ov ->
  nth_error ov k = Some v -> output_kind m o k v.
Proof.
  intros Hc Hat Hd H Hv. destruct (ok_off c Hc i m o Hat) as (_ & Ho).
  assert (Hm : complete m) by (apply (ok_complete c i m o Hc); apply infos_at; exact Hat).
  destruct (mo_output o) as [off|] eqn:Eo.
  - destruct (is_serial m) eqn:Es.
    + destruct m as [| | | | | | | | | | | |l ch| ]; try discriminate.
      destruct (com_out_row prof l ch o data ov Hd Ho H) as [(E & _)|(_ & rout & -> & [(G1 & G2 & G3) _])]; [congruence|].
      destruct k as [|k]; [|destruct k; discriminate]. apply Some_inj in Hv. subst v. unfold output_kind. rewrite Eo. right. right. exists rout. auto.
    + unfold output_row in H. cbn [fst snd] in H. rewrite Eo in H. apply bind_ok in H. destruct H as (raw & Hp & H).
      destruct (prepare_any _ _ _ _ _ _ (Ho off Eo) Hd Hp) as (Hl & Hu).
      exact (output_kinds _ _ _ _ _ _ Eo Hu (output_terminal m raw ov k v Hm Hu Hl Es H Hv)).
  - unfold output_row in H. cbn [fst snd] in H. rewrite Eo in H. apply Ok_inj in H. subst ov. unfold output_kind. rewrite Eo.
    apply nth_error_In in Hv. apply repeat_spec in Hv. exact Hv.
Qed.

(** *** Histories *)

Definition kinds (c : coupler) : Prop := forall i m o k v, module_at c i m o ->
  (cell (inputs c) i k = Some v -> input_kind m o k v) /\ (cell (outputs c) i k = Some v -> output_kind m o k v).

Lemma cycle_serial prof c input output c' image i l ch o : reachable prof c -> cycle prof c input output c' (Ok image) ->
  module_at c i (MCOM l ch) o -> mo_input o <> None -> mo_output o <> None -> forall k v,
  (cell (inputs c') i k = Some v -> v = VNone \/ segment l v) /\ (cell (outputs c') i k = Some v -> v = VNone \/ segment l v).
Proof.
  intros Hr H Hat Hi Ho k v. pose proof (reachable_ok _ _ Hr) as Hok. pose proof H as (Hui & Huo & _).
  destruct (cycle_inv _ _ _ _ _ _ Hok H) as [(_ & _ & _ & _ & Hn)|[(ins & _ & _ & _ & _ & _ & Hn)|(ins & outs & sent & E1 & E2 & _ & _ & _ & _ & _ & _ & E4)]].
  1,2: exfalso; exact (Hn image eq_refl).
  destruct (E4 i _ o Hat) as (iv & ov & _ & _ & R1 & R2 & M).
  destruct M as [row S1|l0 ch0 rin rout p0 p' rs last Em -> -> G1 G2 G3 _ _ S1 S2 S3 S4 S5 S6 S7|l0 ch0 _ S1].
  - discriminate.
  - assert (El : l0 = l) by congruence. subst l0. clear Em.
    destruct (mo_input o) as [off|] eqn:Eo; [|congruence].
    destruct (ok_off c Hok i _ o Hat) as (Hoff & _).
    destruct (com_in_size _ _ _ _ _ _ _ Hui (Hoff off Eo) Eo R1) as (rin' & E & _ & G4).
    assert (rin' = rin) by congruence. subst rin'. unfold cell.
    pose proof (shown_in_kind l rin G1 G4) as K1. pose proof (shown_out_kind l last rout G2) as K2.
    rewrite S6, S7. split; intros Hv; (destruct k as [|k]; [|destruct k; discriminate]); apply Some_inj in Hv; subst v; assumption.
  - destruct S1 as [(S1 & _)|(S1 & _)]; congruence.
Qed.

Lemma cycle_kinds prof c input output c' r : coupler_ok c -> kinds c -> cycle prof c input output c' r -> kinds c'.
Proof.
  intros Hok Hk H i m o k v Hat. pose proof H as (Hui & Huo & _).
  assert (Hat0 : module_at c i m o). { destruct (cycle_static _ _ _ _ _ _ H) as [A B]. unfold module_at in *. rewrite A, B in Hat. exact Hat. }
  destruct (cycle_inv _ _ _ _ _ _ Hok H) as [(-> & _)|[(ins & E1 & -> & _)|(ins & outs & sent & E1 & _ & _ & _ & E2 & E3 & _ & _ & E4)]].
  - exact (Hk i m o k v Hat0).
  - split; [|exact (proj2 (Hk i m o k v Hat0))]. unfold cell, inputs. cbn [c_in_values]. rewrite process_input_rows in E1.
    pose proof Hat0 as Hi. apply infos_at in Hi. destruct (traverse_row_at _ _ _ _ _ E1 Hi) as (row & -> & Hrow).
    intros Hv. exact (in_row_kind _ _ _ _ _ _ _ _ _ Hok Hat0 Hui Hrow Hv).
  - destruct (E4 i m o Hat0) as (iv & ov & _ & _ & R1 & R2 & M). unfold cell.
    destruct M as [row S1 S2 S3 S4 S5 S6 S6' S7 S8|l ch rin rout p0 p' rs last -> -> -> G1 G2 G3 Gi Go S1 S2 S3 S4 S5 S6 S7
                   |l ch -> S1 S2 S3 S4 S5 S6 S7].
    + rewrite S7, S8. split; intros Hv; [exact (in_row_kind _ _ _ _ _ _ _ _ _ Hok Hat0 Hui R1 Hv)|exact (out_row_kind _ _ _ _ _ _ _ _ _ Hok Hat0 Huo R2 Hv)].
    + unfold input_kind, output_kind. destruct (mo_input o) as [off|] eqn:Eo; [|congruence]. destruct (mo_output o) as [off'|]; [|congruence].
      destruct (ok_off c Hok i _ o Hat0) as (Hoff & _).
      destruct (com_in_size _ _ _ _ _ _ _ Hui (Hoff off Eo) Eo R1) as (rin' & E & _ & G4).
      assert (rin' = rin) by congruence. subst rin'.
      pose proof (shown_in_kind l rin G1 G4) as K1. pose proof (shown_out_kind l last rout G2) as K2.
      rewrite S6, S7. split; intros Hv; (destruct k as [|k]; [|destruct k; discriminate]); apply Some_inj in Hv; subst v; tauto.
    + rewrite S6, S7. split; intros Hv; [exact (in_row_kind _ _ _ _ _ _ _ _ _ Hok Hat0 Hui R1 Hv)|exact (out_row_kind _ _ _ _ _ _ _ _ _ Hok Hat0 Huo R2 Hv)].
Qed.

Lemma kinds_static c c' : inputs c' = inputs c /\ outputs c' = outputs c /\ c_modules c' = c_modules c /\
  c_offsets c' = c_offsets c /\ True -> kinds c -> kinds c'.
Proof. intros (H1 & H2 & H3 & H4 & _) H. unfold kinds, module_at in *. rewrite H1, H2, H3, H4. exact H. Qed.

Lemma reachable_kinds prof c : reachable prof c -> kinds c.
Proof.
  induction 1 as [cfg c Hr Hc|c a v Hr IH Hv|c i n Hr IH|c i buf Hr IH Hb|c oi oo input output c' r Hr IH Hi Ho Hui Huo Hn _].
  - unfold coupler_new in Hc. apply bind_ok in Hc. destruct Hc as (u & _ & Hc).
    apply bind_ok in Hc. destruct Hc as (offs & _ & Hc). apply bind_ok in Hc. destruct Hc as ((ms & ps) & _ & Hc).
    apply Ok_inj in Hc. subst c. intros i m o k v _. unfold cell, inputs, outputs. cbn [c_in_values c_out_values]. destruct i; split; discriminate.
  - eapply kinds_static; [|exact IH]. destruct (set_static c a v) as (H1 & H2 & H3 & H4 & _). auto.
  - eapply kinds_static; [|exact IH]. destruct (read_static c i n) as (H1 & H2 & H3 & H4 & _). auto.
  - eapply kinds_static; [|exact IH]. destruct (write_static c i buf) as (H1 & H2 & H3 & H4 & _). auto.
  - exact (cycle_kinds _ _ _ _ _ _ (reachable_ok _ _ Hr) IH (cycle_of_next _ _ _ _ _ _ _ _ Hi Ho Hui Huo Hn)).
Qed.

Lemma C92_inputs_all : forall prof c i m o k v, reachable prof c -> module_at c i m o -> cell (inputs c) i k = Some v -> input_kind m o k v.
Proof. intros prof c i m o k v R Hat Hv. exact (proj1 (reachable_kinds _ _ R i m o k v Hat) Hv). Qed.
Lemma C92_outputs_all : forall prof c i m o k v, reachable prof c -> module_at c i m o -> cell (outputs c) i k = Some v -> output_kind m o k v.
Proof. intros prof c i m o k v R Hat Hv. exact (proj2 (reachable_kinds _ _ R i m o k v Hat) Hv). Qed.
