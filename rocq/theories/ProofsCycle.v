(** Cycles of a coupler: the invariant of reachable couplers, and what a cycle does to each
    module. *)
From Coq Require Import ZArith List Bool Lia ZifyBool ZifyNat Permutation.
From Verif Require Import Base Facts F32 Types Lib Util Digital Analog Fcnt Com Fbc
  SpecCodec SpecSerial SpecCoupler SpecImage ProofsAddr ProofsCodec ProofsFcnt ProofsSerialCodec
  ProofsSerial ProofsParams ProofsNew ProofsModule ProofsImage ProofsLayout ProofsLoop.
Import ListNotations.
Local Open Scope Z_scope.
Ltac Zify.zify_post_hook ::= Z.div_mod_to_equations.

(** *** Decoded rows *)

Lemma prepare_any prof off base n data raw : is_u16 off -> Forall is_u16 data ->
  prepare_raw_data_to_process prof off base n data = Ok raw ->
  length raw = word_count n /\ Forall is_u16 raw.
Proof.
  intros Ho Hd H. unfold prepare_raw_data_to_process in H.
  rewrite to_register_address_eq in H by exact Ho. apply bind_ok in H. destruct H as (s & _ & H).
  fold (word_count n) in H. cbv zeta in H.
  destruct (Nat.ltb_spec (length data) (Z.to_nat s + word_count n)) as [Hl|Hl]; [discriminate|].
  apply bind_ok in H. destruct H as (out & Hs & H). unfold slice in Hs.
  replace (Nat.leb (Z.to_nat s) (Z.to_nat s + word_count n) && Nat.leb (Z.to_nat s + word_count n) (length data))
    with true in Hs by lia.
  replace (Z.to_nat s + word_count n - Z.to_nat s)%nat with (word_count n) in Hs by lia.
  apply Ok_inj in Hs.
  assert (Hol : length out = word_count n).
  { subst out. rewrite firstn_length, skipn_length. lia. }
  assert (Hou : Forall is_u16 out) by (subst out; apply Forall_firstn_skipn; exact Hd).
  set (k := Z.to_nat (off mod 16)) in H.
  assert (Hk : (k < 16)%nat) by (unfold is_u16 in Ho; subst k; lia). clearbody k.
  pose proof (word_count_pos n) as Hp.
  do 16 (destruct k as [|k]; [first [discriminate
    | apply Ok_inj in H; subst raw; split; assumption
    | destruct (shift_spec out Hou) as (raw' & Hs' & Hl' & Hu' & _);
      [intros E; rewrite E in Hol; cbn [length] in Hol; lia|];
      rewrite Hs' in H; apply Ok_inj in H; subst raw'; split; [lia|assumption]]|]). lia.
Qed.

Lemma wire_repeat n : Forall wire_value (repeat VNone n).
Proof. induction n; cbn [repeat]; constructor; [exact I|assumption]. Qed.

Lemma output_data_wire m raw vs : Forall is_u16 raw -> mod_process_output_data m raw = Ok vs ->
  Forall wire_value vs.
Proof.
  intros Hu H. destruct m as [v ch|v ch| |ch|ch|ch|u ch|f ch|v f ch|f ch|u ch|ch|l ch| ];
    cbn [mod_process_output_data] in H; unfold default_process_data in H.
  all: try (destruct raw; [|discriminate]; apply Ok_inj in H; subst vs; apply wire_repeat).
  1-3: unfold do_process_output_data in H; destruct (negb _); [discriminate|];
    apply bind_ok in H; destruct H as (w & _ & H); apply Ok_inj in H; subst vs;
    apply Forall_forall; intros x Hx; apply in_map_iff in Hx; destruct Hx as (k & <- & _); exact I.
  - unfold ao_process_output_data in H. destruct (negb _); [discriminate|].
    apply traverse_ok in H. revert H. generalize (enumerate raw). intros l H.
    induction H as [|(i & w) v l r Hw _ IH]; constructor; [|exact IH].
    apply bind_ok in Hw. destruct Hw as (p & _ & Hw). apply Ok_inj in Hw. subst v.
    unfold analog_value. match goal with |- context [match ?x with _ => _ end] => destruct x end; exact I.
  - unfold ao_diag_process_output_data in H. destruct (negb _); [discriminate|].
    apply traverse_ok in H. revert H. generalize (enumerate raw). intros l H.
    induction H as [|(i & w) v l r Hw _ IH]; constructor; [|exact IH].
    apply bind_ok in Hw. destruct Hw as (p & _ & Hw). apply Ok_inj in Hw. subst v.
    unfold analog_value. match goal with |- context [match ?x with _ => _ end] => destruct x end; exact I.
  - unfold ai_ui_diag_process_output_data in H. destruct raw; [|discriminate]. apply Ok_inj in H. subst vs.
    repeat constructor.
  - unfold fcnt_process_output_data in H. destruct (negb _) eqn:E; [discriminate|]. apply check_length in E.
    destruct raw as [|w0 [|w1 [|w2 [|w3 [|w4 [|w5 [|w6 raw]]]]]]]; try discriminate E.
    cbn [traverse seq Nat.mul Nat.add index nth_error bind] in H. apply Ok_inj in H. subst vs.
    assert (Hw : is_u16 w0 /\ is_u16 w1 /\ is_u16 w2 /\ is_u16 w3).
    { repeat match goal with Hx : Forall _ (_ :: _) |- _ => inversion Hx; clear Hx; subst end. auto. }
    destruct Hw as (W0 & W1 & W2 & W3).
    constructor; [|constructor; [|constructor]]; cbn [wire_value fo_duration];
      rewrite u32_of_words_spec by assumption; unfold duration_from_nanos, valid_duration, word32, is_u64, is_u16 in *;
      cbn [d_secs d_nanos]; lia.
  - unfold com_process_output_data in H. apply bind_ok in H. destruct H as (o & Ho & H).
    apply Ok_inj in H. subst vs. rewrite words_to_bytes_spec in Ho.
    pose proof (bytes_of_words_u8 raw Hu) as Hb.
    destruct (rs_out_decode _ Hb) as [(o' & s & d & E & Ha & Hm)|(_ & E)]; rewrite E in Ho; [|discriminate].
    apply Ok_inj in Ho. subst o'. constructor; [|constructor]. cbn [wire_value].
    destruct Hm as (_ & _ & _ & E1 & E2 & _ & E3). unfold in_counters, is_usize. rewrite E1, E2, E3.
    split; [lia|]. destruct Ha as (rest & Ha). rewrite Ha in Hb.
    inversion Hb as [|? ? _ Hb1]; subst. inversion Hb1 as [|? ? _ Hb2]; subst.
    apply Forall_app in Hb2. tauto.
Qed.

(** Rows of the serial module. *)
Definition good_in (i : rs_in) : Prop := decoded_in i /\ Forall is_u8 (ri_data i).
Definition good_out (l : process_data_length) (o : rs_out) : Prop := encodable l o /\ Forall is_u8 (ro_data o).

Lemma announces_data bytes s d : Forall is_u8 bytes -> announces bytes s d -> Forall is_u8 d.
Proof.
  intros Hb (rest & ->). inversion Hb as [|? ? _ Hb1]; subst. inversion Hb1 as [|? ? _ Hb2]; subst.
  apply Forall_app in Hb2. tauto.
Qed.

Lemma com_in_row prof l ch o data iv : Forall is_u16 data ->
  (forall off, mo_input o = Some off -> is_u16 off) ->
  input_row prof (MCOM l ch, o) data = Ok iv ->
  (mo_input o = None /\ iv = [VNone]) \/
  (mo_input o <> None /\ exists rin, iv = [ComRsIn rin] /\ good_in rin).
Proof.
  intros Hd Hoff H. unfold input_row in H. cbn [fst snd] in H.
  destruct (mo_input o) as [off|] eqn:Eo.
  - right. split; [discriminate|]. apply bind_ok in H. destruct H as (raw & Hp & H).
    destruct (prepare_any _ _ _ _ _ _ (Hoff off eq_refl) Hd Hp) as (_ & Hu).
    cbn [mod_process_input_data] in H. unfold com_process_input_data in H.
    apply bind_ok in H. destruct H as (rin & Hr & H). apply Ok_inj in H. subst iv.
    exists rin. split; [reflexivity|]. rewrite words_to_bytes_spec in Hr.
    pose proof (bytes_of_words_u8 raw Hu) as Hb.
    destruct (rs_in_decode _ Hb) as [(i' & s & d & E & Ha & Hm)|(_ & E)]; rewrite E in Hr; [|discriminate].
    apply Ok_inj in Hr. subst i'. destruct Hm as (_ & _ & E1 & E2 & _ & E3).
    unfold good_in, decoded_in, counter. rewrite E1, E2, E3. split; [lia|]. eapply announces_data; eassumption.
  - left. split; [reflexivity|]. apply Ok_inj in H. subst iv. reflexivity.
Qed.

Lemma com_out_row prof l ch o data ov : Forall is_u16 data ->
  (forall off, mo_output o = Some off -> is_u16 off) ->
  output_row prof (MCOM l ch, o) data = Ok ov ->
  (mo_output o = None /\ ov = [VNone]) \/
  (mo_output o <> None /\ exists rout, ov = [ComRsOut rout] /\ good_out l rout).
Proof.
  intros Hd Hoff H. unfold output_row in H. cbn [fst snd] in H.
  destruct (mo_output o) as [off|] eqn:Eo.
  - right. split; [discriminate|]. apply bind_ok in H. destruct H as (raw & Hp & H).
    destruct (prepare_any _ _ _ _ _ _ (Hoff off eq_refl) Hd Hp) as (Hl & Hu).
    cbn [mod_process_output_data] in H. unfold com_process_output_data in H.
    apply bind_ok in H. destruct H as (rout & Hr & H). apply Ok_inj in H. subst ov.
    exists rout. split; [reflexivity|]. rewrite words_to_bytes_spec in Hr.
    pose proof (bytes_of_words_u8 raw Hu) as Hb.
    assert (Hml : length (bytes_of_words raw) = message_size l).
    { rewrite bytes_of_words_length, Hl. destruct l; reflexivity. }
    split; [eapply C32_all; eassumption|].
    destruct (rs_out_decode _ Hb) as [(i' & s & d & E & Ha & Hm)|(_ & E)]; rewrite E in Hr; [|discriminate].
    apply Ok_inj in Hr. subst i'. destruct Hm as (_ & _ & _ & _ & _ & _ & E3). rewrite E3.
    eapply announces_data; eassumption.
  - left. split; [reflexivity|]. apply Ok_inj in H. subst ov. reflexivity.
Qed.

Lemma out_row_length prof mo data ov : output_row prof mo data = Ok ov -> length ov = channels (fst mo).
Proof.
  unfold output_row. destruct (mo_output (snd mo)) as [off|].
  - intros H. apply bind_ok in H. destruct H as (raw & _ & H). eapply output_length. exact H.
  - intros H. apply Ok_inj in H. subst ov. apply repeat_length.
Qed.

Lemma out_row_wire prof mo data ov : Forall is_u16 data ->
  (forall off, mo_output (snd mo) = Some off -> is_u16 off) ->
  output_row prof mo data = Ok ov -> Forall wire_value ov.
Proof.
  intros Hd Hoff. unfold output_row. destruct (mo_output (snd mo)) as [off|] eqn:Eo.
  - intros H. apply bind_ok in H. destruct H as (raw & Hp & H).
    destruct (prepare_any _ _ _ _ _ _ (Hoff off eq_refl) Hd Hp) as (_ & Hu).
    eapply output_data_wire; eassumption.
  - intros H. apply Ok_inj in H. subst ov. apply wire_repeat.
Qed.

Lemma in_row_length prof mo data iv : complete (fst mo) -> input_row prof mo data = Ok iv ->
  length iv = match mo_input (snd mo) with Some _ => input_width (fst mo) | None => channels (fst mo) end.
Proof.
  intros Hc. unfold input_row. destruct (mo_input (snd mo)) as [off|].
  - intros H. apply bind_ok in H. destruct H as (raw & _ & H). eapply input_length; eassumption.
  - intros H. apply Ok_inj in H. subst iv. apply repeat_length.
Qed.

(** *** The invariant *)

Definition proc_ok (l : process_data_length) (p : processor) : Prop :=
  p_process_data_len p = l /\
  Forall (fun c => (length c <= payload_size l)%nat /\ Forall is_u8 c) (p_out_data p) /\
  Forall is_u8 (p_in_data p).

Record coupler_ok (c : coupler) : Prop := {
  ok_len : length (c_offsets c) = length (c_modules c);
  ok_off : forall i m o, module_at c i m o -> offsets_u16 (m, o);
  ok_mod : forall i m, nth_error (c_modules c) i = Some m ->
             exists t regs, Forall is_u16 regs /\ module_from_params t regs = Ok m;
  ok_proc : forall i p, serial c i = Some p ->
              exists l ch, nth_error (c_modules c) i = Some (MCOM l ch) /\ proc_ok l p;
  ok_com : forall i l ch, nth_error (c_modules c) i = Some (MCOM l ch) -> exists p, serial c i = Some p;
  ok_req : forall a v, requested c a = Some v ->
             rust_value v /\ exists m, nth_error (c_modules c) (a_module a) = Some m /\ (a_channel a < channels m)%nat }.

Lemma infos_at c i m o : nth_error (infos c) i = Some (m, o) <-> module_at c i m o.
Proof.
  unfold infos, module_at. rewrite nth_error_combine.
  destruct (nth_error (c_modules c) i), (nth_error (c_offsets c) i); split; intros H;
    try discriminate; try (destruct H; congruence).
  apply Some_inj, pair_inj in H. destruct H as [-> ->]. auto.
Qed.

Lemma infos_length c : coupler_ok c -> length (infos c) = length (c_modules c).
Proof. intros H. unfold infos. rewrite combine_length, (ok_len c H). lia. Qed.

Lemma module_exists c i : coupler_ok c -> (i < length (c_modules c))%nat -> exists m o, module_at c i m o.
Proof.
  intros H Hi. destruct (nth_error_lt_Some (c_modules c) i Hi) as (m & Hm).
  destruct (nth_error_lt_Some (c_offsets c) i) as (o & Ho). { rewrite (ok_len c H). exact Hi. }
  exists m, o. split; assumption.
Qed.

(** *** Processors *)

Lemma write_proc_ok l p data : proc_ok l p -> Forall is_u8 data -> proc_ok l (fst (processor_write p data)).
Proof.
  intros (H1 & H2 & H3) Hd. unfold proc_ok, processor_write. cbn [fst p_process_data_len p_out_data p_in_data].
  split; [exact H1|]. split; [|exact H3]. apply Forall_app. split; [exact H2|]. rewrite H1.
  change (user_data_len l) with (payload_size l).
  pose proof (chunks_spec (payload_size l) data (payload_pos l)) as Hs.
  pose proof (segmented_sizes _ _ _ (payload_pos l) Hs) as Hz.
  pose proof (segmented_concat _ _ _ Hs) as Hc.
  apply Forall_forall. intros c Hin. rewrite Forall_forall in Hz. specialize (Hz c Hin). split; [lia|].
  rewrite Forall_forall in *. intros b Hb. apply Hd. rewrite <- Hc. apply in_concat. eauto.
Qed.

Lemma fed_ok l p r : proc_ok l p -> (forall v, r = Some v -> rust_value v) -> proc_ok l (fed p r).
Proof.
  intros Hp Hr. unfold fed. destruct r as [v|]; [|exact Hp]. destruct v; try exact Hp.
  apply write_proc_ok; [exact Hp|]. exact (Hr _ eq_refl).
Qed.

Lemma any_stage p : exists k, p_init_state p = stage k.
Proof. destruct (p_init_state p); [exists 0%nat|exists 1%nat|exists 2%nat]; reflexivity. Qed.

Lemma next_proc_ok prof l p i o p' r : proc_ok l p -> good_in i -> good_out l o ->
  processor_next prof p i o = Ok (p', r) -> proc_ok l p' /\ good_out l r.
Proof.
  intros (H1 & H2 & H3) ((G1 & G2) & G3) ((O1 & O2 & O3) & O4) H.
  destruct (any_stage p) as (k & Hk).
  destruct (next_cases _ _ _ _ _ _ _ Hk H) as (_ & E1 & E2 & _ & Lo & Hi).
  unfold proc_ok, good_out, encodable. rewrite E1.
  destruct (Nat.ltb_spec k 2) as [Hlt|Hge].
  - destruct (Lo Hlt) as (_ & _ & _ & E3 & E4 & E5 & E6 & _). rewrite E2, E3, E4, E5, E6.
    repeat match goal with |- _ /\ _ => split end; auto. cbn [length]. lia.
  - destruct (Hi Hge) as (_ & _ & _ & Hq & Hr1 & Hr2).
    assert (Hin : Forall is_u8 (p_in_data p')).
    { destruct (ri_data_available i) eqn:Ea.
      - destruct (Z.eq_dec (p_last_rx_cnt p) (ri_rx_cnt i)) as [El|El].
        + destruct Hr2 as [-> _]; [right; exact El|exact H3].
        + destruct Hr1 as [-> _]; [reflexivity|exact El|]. apply Forall_app. auto.
      - destruct Hr2 as [-> _]; [left; reflexivity|exact H3]. }
    destruct Hq as [(Q1 & Q2 & Q3 & _)|(c & Q1 & Q2 & Q3 & _)].
    + rewrite E2, Q1, Q2, Q3. repeat match goal with |- _ /\ _ => split end; auto.
    + rewrite inc_cnt_counter in Q3 by exact G2. apply Ok_inj in Q3.
      rewrite Q1 in H2. inversion H2 as [|? ? [C1 C2] C3]; subst.
      rewrite E2. repeat match goal with |- _ /\ _ => split end; auto; try exact G1.
      rewrite <- Q3. unfold counter, succ4. lia.
Qed.

(** *** What a cycle does to a module *)

Inductive module_cycle (prof : profile) (c c' : coupler) (sent : list (list channel_value))
  (i : nat) (m : module) (o : module_offset) (iv ov : list channel_value) : Prop :=
| MC_plain row : is_serial m = false -> nth_error sent i = Some row ->
    length row = length ov ->
    (forall j, nth_error row j = match requested c (mk_address i j) with Some v => Some v | None => nth_error ov j end) ->
    (forall j, requested c' (mk_address i j) = None) ->
    serial c' i = None -> serial c i = None ->
    nth_error (inputs c') i = Some iv -> nth_error (outputs c') i = Some ov ->
    module_cycle prof c c' sent i m o iv ov
| MC_com l ch rin rout p p' rs last : m = MCOM l ch -> iv = [ComRsIn rin] -> ov = [ComRsOut rout] ->
    good_in rin -> good_out l rout -> good_out l rs ->
    mo_input o <> None -> mo_output o <> None ->
    serial c i = Some p ->
    processor_next prof (fed p (requested c (mk_address i 0))) rin rout = Ok (p', rs) ->
    serial c' i = Some p' -> nth_error sent i = Some [ComRsOut rs] ->
    (forall j, requested c' (mk_address i j) = None) ->
    nth_error (inputs c') i = Some [shown_in rin] ->
    nth_error (outputs c') i = Some [shown_out last rout] ->
    module_cycle prof c c' sent i m o iv ov
| MC_idle l ch : m = MCOM l ch ->
    ((mo_input o = None /\ iv = [VNone]) \/ (mo_output o = None /\ ov = [VNone])) ->
    nth_error sent i = Some ov -> length ov = 1%nat -> serial c' i = serial c i ->
    (forall j, requested c' (mk_address i j) = requested c (mk_address i j)) ->
    nth_error (inputs c') i = Some iv -> nth_error (outputs c') i = Some ov ->
    module_cycle prof c c' sent i m o iv ov.

Lemma not_serial_none c i m : coupler_ok c -> nth_error (c_modules c) i = Some m ->
  (serial c i = None <-> is_serial m = false).
Proof.
  intros Hok Hm. split; intros H.
  - destruct m; try reflexivity. destruct (ok_com c Hok i _ _ Hm) as (p & Hp). congruence.
  - destruct (serial c i) as [p|] eqn:E; [|reflexivity].
    destruct (ok_proc c Hok i p E) as (l & ch & Hm' & _). rewrite Hm in Hm'. apply Some_inj in Hm'. subst m. discriminate.
Qed.

Lemma cycle_spec prof ord_in ord_out c input output ins outs :
  coupler_ok c -> hash_order ord_in -> hash_order ord_out ->
  Forall is_u16 input -> Forall is_u16 output ->
  process_input_data prof (infos c) input = Ok ins ->
  process_output_data prof (infos c) output = Ok outs ->
  exists c' sent,
    next prof ord_in ord_out c input output = (c', process_output_values prof (infos c) sent) /\
    (exists s ins' outs',
       next_loop prof (enumerate (combine ins outs))
         (mk_loop (c_write c) (c_processors c) (c_last_tx_cnt c) outs [] []) = Ok s /\
       keys_ok s /\ patch (ord_in (l_in_bytes s)) ins = Ok ins' /\ patch (ord_out (l_out_bytes s)) outs = Ok outs' /\
       c' = mk_coupler ins' outs' (l_write s) (c_modules c) (c_offsets c) (l_processors s) (l_last_tx_cnt s) /\
       sent = l_next_out s) /\
    c_modules c' = c_modules c /\ c_offsets c' = c_offsets c /\
    length sent = length (c_modules c) /\ length (inputs c') = length (c_modules c) /\
    length (outputs c') = length (c_modules c) /\
    (forall a, (length (c_modules c) <= a_module a)%nat -> requested c' a = requested c a) /\
    (forall i, (length (c_modules c) <= i)%nat -> serial c' i = serial c i) /\
    forall i m o, module_at c i m o -> exists iv ov,
      nth_error ins i = Some iv /\ nth_error outs i = Some ov /\
      input_row prof (m, o) input = Ok iv /\ output_row prof (m, o) output = Ok ov /\
      module_cycle prof c c' sent i m o iv ov.
Proof.
  intros Hok Hin Hout Hui Huo Ei Eo.
  pose proof Ei as Ei'. rewrite process_input_rows in Ei'. pose proof Eo as Eo'. rewrite process_output_rows in Eo'.
  pose proof (traverse_length _ _ _ Ei') as Li. pose proof (traverse_length _ _ _ Eo') as Lo.
  rewrite infos_length in Li, Lo by exact Hok.
  (* rows *)
  assert (Hrows : forall i m o, module_at c i m o -> exists iv ov,
            nth_error ins i = Some iv /\ nth_error outs i = Some ov /\
            input_row prof (m, o) input = Ok iv /\ output_row prof (m, o) output = Ok ov).
  { intros i m o Hm. apply infos_at in Hm.
    destruct (traverse_row_at _ _ _ _ _ Ei' Hm) as (iv & Hiv & Hri).
    destruct (traverse_row_at _ _ _ _ _ Eo' Hm) as (ov & Hov & Hro). eauto 10. }
  set (s0 := mk_loop (c_write c) (c_processors c) (c_last_tx_cnt c) outs [] []).
  assert (Hcomb : forall i iv ov, nth_error (combine ins outs) i = Some (iv, ov) <->
            nth_error ins i = Some iv /\ nth_error outs i = Some ov).
  { intros i iv ov. rewrite nth_error_combine.
    destruct (nth_error ins i), (nth_error outs i); split; intros H; try discriminate; try (destruct H; congruence).
    apply Some_inj, pair_inj in H. destruct H as [-> ->]. auto. }
  (* the loop *)
  destruct (next_loop_exists prof (combine ins outs) 0 s0) as (s' & Hloop).
  { intros i iv ov Hi. apply Hcomb in Hi. destruct Hi as [Hiv Hov]. cbn [Nat.add s0 l_next_out l_processors].
    split; [exists ov; auto|]. intros p Hp.
    destruct (ok_proc c Hok i p Hp) as (l & ch & Hm & _).
    destruct (nth_error_lt_Some (c_offsets c) i) as (o & Ho).
    { rewrite (ok_len c Hok). eapply nth_error_Some_lt. exact Hm. }
    assert (Hat : module_at c i (MCOM l ch) o) by (split; assumption).
    destruct (Hrows i _ _ Hat) as (iv' & ov' & Hiv' & Hov' & Hri & Hro).
    rewrite Hiv in Hiv'. rewrite Hov in Hov'. apply Some_inj in Hiv', Hov'. subst iv' ov'.
    destruct (ok_off c Hok i _ _ Hat) as [O1 O2].
    destruct (com_in_row _ _ _ _ _ _ Hui O1 Hri) as [[_ ->]|(_ & rin & -> & Hg)];
    destruct (com_out_row _ _ _ _ _ _ Huo O2 Hro) as [[_ ->]|(_ & rout & -> & _)]; cbn [length];
    (split; [lia|]); (split; [lia|]); intros r Hr; cbn [nth_error] in Hr; try discriminate;
      apply Some_inj in Hr; injection Hr as <-; apply Hg. }
  pose proof (next_loop_spec prof (combine ins outs) 0 s0 s' Hloop) as (HL & HK & HF & HO).
  destruct HK as [K1 K2]. { split; constructor. }
  (* the entries of a module after the loop *)
  assert (Hown : forall i m o, module_at c i m o -> exists iv ov s1 s2,
            nth_error ins i = Some iv /\ nth_error outs i = Some ov /\
            input_row prof (m, o) input = Ok iv /\ output_row prof (m, o) output = Ok ov /\
            agree i s0 s1 /\ own prof i iv ov s1 s2 /\ agree i s2 s').
  { intros i m o Hm. destruct (Hrows i m o Hm) as (iv & ov & Hiv & Hov & Hri & Hro).
    destruct (HO i iv ov) as (s1 & s2 & A & B & D). { apply Hcomb. auto. }
    cbn [Nat.add] in *. destruct (next_step_spec _ _ _ _ _ _ B) as (Ow & _).
    exists iv, ov, s1, s2. auto 10. }
  (* which byte entries exist *)
  assert (Hbytes : forall i, match map_get Nat.eqb i (l_in_bytes s'), map_get Nat.eqb i (l_out_bytes s') with
            | None, None => True
            | Some _, Some _ => exists l ch rin rout o, module_at c i (MCOM l ch) o /\
                nth_error ins i = Some [ComRsIn rin] /\ nth_error outs i = Some [ComRsOut rout]
            | _, _ => False end).
  { intros i. destruct (Nat.ltb_spec i (length (c_modules c))) as [Hi|Hi].
    - destruct (module_exists c i Hok Hi) as (m & o & Hm).
      destruct (Hown i m o Hm) as (iv & ov & s1 & s2 & Hiv & Hov & Hri & Hro & (A1 & A2 & A3 & A4 & A5) & Ow & (B1 & B2 & B3 & B4 & B5)).
      cbn [s0 l_next_out l_write l_processors l_in_bytes l_out_bytes map_get] in A1, A2, A3, A4, A5.
      destruct Ow as [p rin rout p' rs h t P1 P2 P3 P4 P5 P6 P7 P8 P9 P10 P11|p P1 P2 P3|P1 P2 P3 P4 P5 P6 P7].
      + rewrite B4, B5, P9, P10. rewrite A3 in P1.
        destruct (ok_proc c Hok i p P1) as (l & ch & Hm' & _).
        destruct Hm as [Hm Hmo]. rewrite Hm in Hm'. apply Some_inj in Hm'. subst m.
        exists l, ch, rin, rout, o. split; [split; assumption|].
        assert (Hat : module_at c i (MCOM l ch) o) by (split; assumption).
        destruct (ok_off c Hok i _ _ Hat) as [O1 O2].
        destruct (com_in_row _ _ _ _ _ _ Hui O1 Hri) as [[_ ->]|(_ & rin' & -> & Hg)]; [discriminate P2|].
        destruct (com_out_row _ _ _ _ _ _ Huo O2 Hro) as [[_ ->]|(_ & rout' & -> & _)]; [discriminate P3|].
        cbn [nth_error] in P2, P3. apply Some_inj in P2, P3. injection P2 as ->. injection P3 as ->. auto.
      + subst s2. rewrite B4, B5, A4, A5. exact I.
      + rewrite B4, B5, P5, P6, A4, A5. exact I.
    - destruct (HF i) as (_ & _ & _ & A4 & A5). { right. rewrite combine_length. lia. }
      rewrite A4, A5. exact I. }
  (* patches *)
  destruct (get_permutation _ _ K1 (Hin (l_in_bytes s'))) as (K1' & G1).
  destruct (get_permutation _ _ K2 (Hout (l_out_bytes s'))) as (K2' & G2).
  destruct (patch_exists (ord_in (l_in_bytes s')) ins) as (ins' & Hpi).
  { intros i v Hv. apply (map_get_nodup_in Nat.eqb Nat.eqb_spec) in Hv; [|exact K1']. rewrite G1 in Hv.
    specialize (Hbytes i). rewrite Hv in Hbytes. destruct (map_get Nat.eqb i (l_out_bytes s')); [|contradiction].
    destruct Hbytes as (l & ch & rin & rout & o & _ & Hx & _). eauto. }
  destruct (patch_exists (ord_out (l_out_bytes s')) outs) as (outs' & Hpo).
  { intros i v Hv. apply (map_get_nodup_in Nat.eqb Nat.eqb_spec) in Hv; [|exact K2']. rewrite G2 in Hv.
    specialize (Hbytes i). rewrite Hv in Hbytes. destruct (map_get Nat.eqb i (l_in_bytes s')); [|contradiction].
    destruct Hbytes as (l & ch & rin & rout & o & _ & _ & Hx). eauto. }
  destruct (patch_spec _ _ _ K1' Hpi) as (LPi & PI). destruct (patch_spec _ _ _ K2' Hpo) as (LPo & PO).
  exists (mk_coupler ins' outs' (l_write s') (c_modules c) (c_offsets c) (l_processors s') (l_last_tx_cnt s')),
         (l_next_out s').
  split.
  { unfold next. rewrite Ei, Eo. unfold enumerate. fold s0. rewrite Hloop, Hpi, Hpo. reflexivity. }
  split.
  { exists s', ins', outs'. split; [exact Hloop|]. split; [split; assumption|]. auto. }
  cbn [c_modules c_offsets inputs outputs c_in_values c_out_values].
  split; [reflexivity|]. split; [reflexivity|].
  split. { rewrite HL. exact Lo. }
  split; [lia|]. split; [lia|].
  split.
  { intros a Ha. destruct a as [am ac]. cbn [a_module] in Ha.
    destruct (HF am) as (_ & A2 & _). { right. rewrite combine_length. lia. }
    unfold requested. cbn [c_write]. apply A2. }
  split.
  { intros i Hi. destruct (HF i) as (_ & _ & A3 & _). { right. rewrite combine_length. lia. } exact A3. }
  intros i m o Hm. pose proof (Hbytes i) as Hb.
  destruct (Hown i m o Hm) as (iv & ov & s1 & s2 & Hiv & Hov & Hri & Hro & (A1 & A2 & A3 & A4 & A5) & Ow & (B1 & B2 & B3 & B4 & B5)).
  exists iv, ov. split; [exact Hiv|]. split; [exact Hov|]. split; [exact Hri|]. split; [exact Hro|].
  cbn [s0 l_next_out l_write l_processors l_in_bytes l_out_bytes map_get] in A1, A2, A3, A4, A5.
  pose proof (PI i) as PIi. pose proof (PO i) as POi. rewrite G1, Hiv in PIi. rewrite G2, Hov in POi.
  pose proof (ok_off c Hok i m o Hm) as Hoffs.
  destruct Hm as [Hm Hmo].
  destruct Ow as [p rin rout p' rs h t P1 P2 P3 P4 P5 P6 P7 P8 P9 P10 P11|p P1 P2 P3|P1 P2 P3 P4 P5 P6 P7].
  - rewrite A3 in P1. destruct (ok_proc c Hok i p P1) as (l & ch & Hm' & Hpok).
    rewrite Hm in Hm'. apply Some_inj in Hm'. subst m. destruct Hoffs as [O1 O2].
    destruct (com_in_row _ _ _ _ _ _ Hui O1 Hri) as [[_ ->]|(Hni & rin' & -> & Hg)]; [discriminate P2|].
    destruct (com_out_row _ _ _ _ _ _ Huo O2 Hro) as [[_ ->]|(Hno & rout' & -> & Hgo)]; [discriminate P3|].
    cbn [nth_error] in P2, P3. apply Some_inj in P2, P3. injection P2 as ->. injection P3 as ->.
    rewrite A1, Hov in P5. apply Some_inj in P5. injection P5 as <- <-.
    rewrite A2 in P4. rewrite B4, P9 in PIi. rewrite B5, P10 in POi.
    assert (Hfed : proc_ok l (fed p (requested c (mk_address i 0)))).
    { apply fed_ok; [exact Hpok|]. intros v Hv. apply (ok_req c Hok _ _ Hv). }
    destruct (next_proc_ok _ _ _ _ _ _ _ Hfed Hg Hgo P4) as (_ & Hgs).
    eapply (MC_com prof c _ _ i _ o _ _ l ch rin rout p p' rs (l_last_tx_cnt s1)); eauto.
    + unfold serial. cbn [c_processors]. rewrite B3. exact P8.
    + rewrite B1. exact P6.
    + intros j. unfold requested. cbn [c_write]. rewrite B2, P7. destruct (Nat.eqb_spec j 0) as [_|Hj]; [reflexivity|].
      rewrite A2. destruct (map_get address_eqb (mk_address i j) (c_write c)) as [v|] eqn:E; [|reflexivity].
      exfalso. destruct (ok_req c Hok _ _ E) as (_ & m' & Hm' & Hj'). cbn [a_module a_channel] in *.
      rewrite Hm in Hm'. apply Some_inj in Hm'. subst m'. unfold channels in Hj'. cbn [mod_type channel_count] in Hj'. lia.
  - subst s2. rewrite A3 in P1. destruct (ok_proc c Hok i p P1) as (l & ch & Hm' & Hpok).
    rewrite Hm in Hm'. apply Some_inj in Hm'. subst m. destruct Hoffs as [O1 O2].
    rewrite B4, A4 in PIi. rewrite B5, A5 in POi.
    eapply (MC_idle prof c _ _ i _ o _ _ l ch); eauto.
    + destruct (com_in_row _ _ _ _ _ _ Hui O1 Hri) as [[Hx ->]|(Hni & rin' & -> & Hg)]; [auto|].
      destruct (com_out_row _ _ _ _ _ _ Huo O2 Hro) as [[Hx ->]|(Hno & rout' & -> & Hgo)]; [auto|].
      exfalso. apply (P2 rin' rout'). auto.
    + rewrite B1, A1. exact Hov.
    + apply out_row_length in Hro. exact Hro.
    + unfold serial. cbn [c_processors]. rewrite B3. exact A3.
    + intros j. unfold requested. cbn [c_write]. rewrite B2. apply A2.
  - rewrite A3 in P1. rewrite B4, P5, A4 in PIi. rewrite B5, P6, A5 in POi.
    destruct (P2 ov) as (row & N1 & N2 & N3). { rewrite A1. exact Hov. }
    pose proof (proj1 (not_serial_none c i m Hok Hm) P1) as Hser.
    assert (Hlen : length ov = channels m) by (apply out_row_length in Hro; exact Hro).
    assert (Hval : forall j v, map_get address_eqb (mk_address i j) (c_write c) = Some v -> (j < length ov)%nat).
    { intros j v Hv. destruct (ok_req c Hok _ _ Hv) as (_ & m' & Hm' & Hj'). cbn [a_module a_channel] in *.
      rewrite Hm in Hm'. apply Some_inj in Hm'. subst m'. lia. }
    eapply (MC_plain prof c _ _ i m o iv ov row); eauto.
    + rewrite B1. exact N1.
    + intros j. rewrite N3, A2. unfold requested. destruct (Nat.ltb_spec j (length ov)) as [Hj|Hj]; [reflexivity|].
      destruct (map_get address_eqb (mk_address i j) (c_write c)) as [v|] eqn:E; [|reflexivity].
      specialize (Hval j v E). lia.
    + intros j. unfold requested. cbn [c_write]. rewrite B2, P3, A2.
      destruct (Nat.ltb_spec j (length ov)) as [Hj|Hj]; [reflexivity|].
      destruct (map_get address_eqb (mk_address i j) (c_write c)) as [v|] eqn:E; [|reflexivity].
      specialize (Hval j v E). lia.
    + unfold serial. cbn [c_processors]. rewrite B3. exact P4.
Qed.

(** *** All reachable couplers satisfy the invariant *)

Lemma same_parts_ok c c' : coupler_ok c -> c_modules c' = c_modules c -> c_offsets c' = c_offsets c ->
  (forall i p, serial c' i = Some p -> exists l ch, nth_error (c_modules c) i = Some (MCOM l ch) /\ proc_ok l p) ->
  (forall i l ch, nth_error (c_modules c) i = Some (MCOM l ch) -> exists p, serial c' i = Some p) ->
  (forall a v, requested c' a = Some v -> rust_value v /\ exists m,
     nth_error (c_modules c) (a_module a) = Some m /\ (a_channel a < channels m)%nat) ->
  coupler_ok c'.
Proof.
  intros Hok Hm Ho H1 H2 H3. split.
  - rewrite Hm, Ho. apply ok_len. exact Hok.
  - intros i m o Hat. apply (ok_off c Hok i). unfold module_at in *. rewrite <- Hm, <- Ho. exact Hat.
  - rewrite Hm. apply ok_mod. exact Hok.
  - rewrite Hm. exact H1.
  - rewrite Hm. exact H2.
  - rewrite Hm. exact H3.
Qed.

Lemma new_ok cfg c : rust_config cfg -> coupler_new cfg = Ok c -> coupler_ok c.
Proof.
  intros [Ho Hp] H.
  assert (Hlen : length (cfg_params cfg) = length (cfg_modules cfg) /\
                 length (cfg_offsets cfg) = (2 * length (cfg_modules cfg))%nat).
  { unfold coupler_new in H. apply bind_ok in H. destruct H as (u & Hv & _). unfold validate in Hv.
    destruct (Nat.eqb_spec (length (cfg_modules cfg)) (length (cfg_params cfg))) as [E1|E1]; [|discriminate].
    destruct (Nat.eqb_spec (length (cfg_modules cfg) * 2) (length (cfg_offsets cfg))) as [E2|E2]; [|discriminate]. lia. }
  destruct Hlen as [L1 L2]. destruct (coupler_new_closed cfg L1 L2) as (offs & Hoffs & Lo & Hc).
  rewrite Hc in H. apply bind_ok in H. destruct H as (ms & Hms & H). apply Ok_inj in H. subst c. clear Hc.
  pose proof (traverse_length _ _ _ Hms) as Lm. rewrite enumerate_length in Lm.
  assert (Hget : forall i, map_get Nat.eqb i (processors_from 0 ms []) =
            match nth_error ms i with Some (MCOM l _) => Some (processor_new l) | _ => None end).
  { intros i. rewrite processors_from_get. cbn [Nat.leb]. rewrite Nat.sub_0_r. cbn [map_get]. reflexivity. }
  split; cbn [c_modules c_offsets].
  - lia.
  - intros i m o [Hm Hmo]. cbn [c_modules c_offsets] in *.
    unfold offsets_of_process_data in Hoffs. destruct (traverse_row _ _ _ _ _ Hoffs Hmo) as (k & _ & Hk).
    apply bind_ok in Hk. destruct Hk as (a & Ha & Hk). apply bind_ok in Hk. destruct Hk as (b & Hb & Hk).
    apply Ok_inj in Hk. subst o. apply index_ok in Ha, Hb. rewrite Forall_forall in Ho.
    apply nth_error_In, Ho in Ha. apply nth_error_In, Ho in Hb.
    split; cbn [snd mo_input mo_output]; intros off Hoff; unfold word_to_offset in Hoff.
    + destruct (_ =? _); [discriminate|]. apply Some_inj in Hoff. subst off. exact Ha.
    + destruct (_ =? _); [discriminate|]. apply Some_inj in Hoff. subst off. exact Hb.
  - intros i m Hm. destruct (traverse_row _ _ _ _ _ Hms Hm) as ((k & t) & _ & Hk). unfold build in Hk.
    cbn [fst snd] in Hk. apply bind_ok in Hk. destruct Hk as (regs & Hr & Hk). apply index_ok in Hr.
    exists t, regs. split; [|exact Hk]. rewrite Forall_forall in Hp. apply Hp. eapply nth_error_In. exact Hr.
  - intros i p Hp'. unfold serial in Hp'. cbn [c_processors] in Hp'. rewrite Hget in Hp'.
    destruct (nth_error ms i) as [m|]; [|discriminate]. destruct m; try discriminate. apply Some_inj in Hp'. subst p.
    exists l, ch. split; [reflexivity|]. split; [reflexivity|]. split; constructor.
  - intros i l ch Hm. exists (processor_new l). unfold serial. cbn [c_processors]. rewrite Hget, Hm. reflexivity.
  - intros a v Hv. discriminate.
Qed.

Lemma complete_at c i m : coupler_ok c -> nth_error (c_modules c) i = Some m -> complete m.
Proof.
  intros Hok Hm. destruct (ok_mod c Hok i m Hm) as (t & regs & _ & Hb). eapply built_complete. exact Hb.
Qed.

Lemma valid_addr_spec c a : is_valid_addr c a =
  Ok (match nth_error (c_modules c) (a_module a) with Some m => Nat.ltb (a_channel a) (channels m) | None => false end).
Proof.
  unfold is_valid_addr. destruct (Nat.ltb_spec (a_module a) (length (c_modules c))) as [H|H].
  - destruct (nth_error_lt_Some _ _ H) as (m & Hm). rewrite Hm.
    assert (Hi : index (c_modules c) (a_module a) = Ok m) by (apply index_ok; exact Hm). rewrite Hi. reflexivity.
  - apply nth_error_None in H. rewrite H. reflexivity.
Qed.

Lemma set_ok c a v : coupler_ok c -> rust_value v -> coupler_ok (fst (set_output c a v)).
Proof.
  intros Hok Hv. unfold set_output. rewrite valid_addr_spec.
  destruct (nth_error (c_modules c) (a_module a)) as [m|] eqn:Em; [|exact Hok].
  destruct (Nat.ltb_spec (a_channel a) (channels m)) as [Hlt|Hge]; [|exact Hok].
  apply (same_parts_ok c); try reflexivity; cbn [fst].
  - exact Hok.
  - exact (ok_proc c Hok).
  - exact (ok_com c Hok).
  - intros a' v' H. unfold requested in H. cbn [c_write] in H.
    rewrite (map_get_insert address_eqb address_eqb_spec) in H.
    destruct (address_eqb_spec a a') as [->|Hne].
    + apply Some_inj in H. subst v'. split; [exact Hv|]. eauto.
    + apply (ok_req c Hok). exact H.
Qed.

Lemma with_proc_ok c i p p' : coupler_ok c -> serial c i = Some p ->
  (forall l, proc_ok l p -> proc_ok l p') ->
  coupler_ok (with_processors c (map_insert Nat.eqb i p' (c_processors c))).
Proof.
  intros Hok Hp Hstep. apply (same_parts_ok c); try reflexivity.
  - exact Hok.
  - intros k q Hq. unfold serial, with_processors in Hq. cbn [c_processors] in Hq.
    rewrite (map_get_insert Nat.eqb Nat.eqb_spec) in Hq. destruct (Nat.eqb_spec i k) as [->|Hne].
    + apply Some_inj in Hq. subst q. destruct (ok_proc c Hok k p Hp) as (l & ch & Hm & Hpo). eauto.
    + apply (ok_proc c Hok). exact Hq.
  - intros k l ch Hm. unfold serial, with_processors. cbn [c_processors].
    rewrite (map_get_insert Nat.eqb Nat.eqb_spec). destruct (Nat.eqb i k); [eauto|]. apply (ok_com c Hok k l ch Hm).
  - exact (ok_req c Hok).
Qed.

Lemma read_ok c i n : coupler_ok c -> coupler_ok (fst (coupler_read c i n)).
Proof.
  intros Hok. unfold coupler_read. destruct (map_get Nat.eqb i (c_processors c)) as [p|] eqn:E; [|exact Hok].
  destruct (processor_read p n) as (p' & bytes) eqn:Er. cbn [fst].
  apply (with_proc_ok c i p); [exact Hok|exact E|]. intros l (H1 & H2 & H3).
  pose proof (read_spec p n) as (_ & R2 & R3 & _ & _ & R6). rewrite Er in R2, R3, R6. cbn [fst] in R2, R3, R6.
  unfold proc_ok. rewrite R2, R3, R6. split; [exact H1|]. split; [exact H2|].
  rewrite <- (firstn_skipn n (p_in_data p)), Forall_app in H3. tauto.
Qed.

Lemma write_ok c i buf : coupler_ok c -> Forall is_u8 buf -> coupler_ok (fst (coupler_write c i buf)).
Proof.
  intros Hok Hb. unfold coupler_write. destruct (map_get Nat.eqb i (c_processors c)) as [p|] eqn:E; [|exact Hok].
  destruct (processor_write p buf) as (p' & n) eqn:Er. cbn [fst].
  apply (with_proc_ok c i p); [exact Hok|exact E|]. intros l Hpo.
  pose proof (write_proc_ok l p buf Hpo Hb) as Hw. rewrite Er in Hw. exact Hw.
Qed.

(** Cycles whose images do not decode. *)
Lemma next_input_error prof ord_in ord_out c input output :
  (forall ins, process_input_data prof (infos c) input <> Ok ins) ->
  exists r, next prof ord_in ord_out c input output = (c, r) /\ (forall w, r <> Ok w) /\
    (forall e, process_input_data prof (infos c) input = Err e <-> r = Err e) /\
    (forall p, process_input_data prof (infos c) input = Panic p <-> r = Panic p).
Proof.
  intros H. unfold next. destruct (process_input_data prof (infos c) input) as [ins|e|p].
  - exfalso. exact (H ins eq_refl).
  - exists (Err e). split; [reflexivity|]. split; [discriminate|]. split; intros x; split; congruence.
  - exists (Panic p). split; [reflexivity|]. split; [discriminate|]. split; intros x; split; congruence.
Qed.

Lemma next_output_error prof ord_in ord_out c input output ins :
  process_input_data prof (infos c) input = Ok ins ->
  (forall outs, process_output_data prof (infos c) output <> Ok outs) ->
  exists r, next prof ord_in ord_out c input output =
      (mk_coupler ins (c_out_values c) (c_write c) (c_modules c) (c_offsets c) (c_processors c) (c_last_tx_cnt c), r) /\
    (forall w, r <> Ok w) /\
    (forall e, process_output_data prof (infos c) output = Err e <-> r = Err e) /\
    (forall p, process_output_data prof (infos c) output = Panic p <-> r = Panic p).
Proof.
  intros Hi H. unfold next. rewrite Hi. destruct (process_output_data prof (infos c) output) as [outs|e|p].
  - exfalso. exact (H outs eq_refl).
  - exists (Err e). split; [reflexivity|]. split; [discriminate|]. split; intros x; split; congruence.
  - exists (Panic p). split; [reflexivity|]. split; [discriminate|]. split; intros x; split; congruence.
Qed.

Lemma decoded_ok prof ord_in ord_out c input output ins outs c' r :
  coupler_ok c -> hash_order ord_in -> hash_order ord_out ->
  Forall is_u16 input -> Forall is_u16 output ->
  process_input_data prof (infos c) input = Ok ins ->
  process_output_data prof (infos c) output = Ok outs ->
  next prof ord_in ord_out c input output = (c', r) -> coupler_ok c'.
Proof.
  intros Hok Hi Ho Hui Huo Ei Eo H.
  destruct (cycle_spec prof ord_in ord_out c input output ins outs Hok Hi Ho Hui Huo Ei Eo)
    as (c1 & sent & Hn & _ & Hm & Hof & Ls & _ & _ & Hreq & Hser & Hmod).
  rewrite Hn in H. apply pair_inj in H. destruct H as [<- _].
  apply (same_parts_ok c); auto.
  - intros i p Hp. destruct (Nat.ltb_spec i (length (c_modules c))) as [Hlt|Hge].
    + destruct (module_exists c i Hok Hlt) as (m & o & Hat).
      destruct (Hmod i m o Hat) as (iv & ov & _ & _ & _ & _ & Hc).
      destruct Hc as [row S1 S2 S3 S4 S5 S6|l ch rin rout p0 p' rs last -> -> -> G1 G2 G3 _ _ S1 S2 S3 S4 S5 S6 S7
                     |l ch -> S1 S2 S3 S4 S5 S6 S7].
      * congruence.
      * rewrite S3 in Hp. apply Some_inj in Hp. subst p'. exists l, ch. split; [apply Hat|].
        destruct (ok_proc c Hok i p0 S1) as (l' & ch' & Hm' & Hpo). destruct Hat as [Hat _].
        rewrite Hat in Hm'. apply Some_inj in Hm'. injection Hm' as <- <-.
        refine (proj1 (next_proc_ok _ l _ _ _ _ _ _ G1 G2 S2)). apply fed_ok; [exact Hpo|].
        intros v Hv. apply (ok_req c Hok _ _ Hv).
      * rewrite S4 in Hp. apply (ok_proc c Hok). exact Hp.
    + rewrite (Hser i Hge) in Hp. apply (ok_proc c Hok). exact Hp.
  - intros i l ch Hcom. pose proof (nth_error_Some_lt _ _ _ Hcom) as Hlt.
    destruct (module_exists c i Hok Hlt) as (m & o & Hat). pose proof Hat as Hat'. destruct Hat' as [Hat' _].
    rewrite Hcom in Hat'. apply Some_inj in Hat'. subst m.
    destruct (Hmod i _ o Hat) as (iv & ov & _ & _ & _ & _ & Hc).
    destruct Hc as [row S1 S2 S3 S4 S5 S6|l' ch' rin rout p0 p' rs last S0 -> -> G1 G2 G3 _ _ S1 S2 S3 S4 S5 S6 S7
                   |l' ch' S0 S1 S2 S3 S4 S5 S6 S7].
    + discriminate.
    + eauto.
    + rewrite S4. apply (ok_com c Hok i l ch Hcom).
  - intros a v Hv. destruct (Nat.ltb_spec (a_module a) (length (c_modules c))) as [Hlt|Hge].
    + destruct (module_exists c (a_module a) Hok Hlt) as (m & o & Hat).
      destruct (Hmod (a_module a) m o Hat) as (iv & ov & _ & _ & _ & _ & Hc).
      replace a with (mk_address (a_module a) (a_channel a)) in Hv by (destruct a; reflexivity).
      destruct Hc as [row S1 S2 S3 S4 S5 S6|l ch rin rout p0 p' rs last -> -> -> G1 G2 G3 _ _ S1 S2 S3 S4 S5 S6 S7
                     |l ch -> S1 S2 S3 S4 S5 S6 S7].
      * rewrite S5 in Hv. discriminate.
      * rewrite S5 in Hv. discriminate.
      * rewrite S5 in Hv. apply (ok_req c Hok) in Hv. destruct a. exact Hv.
    + rewrite (Hreq a Hge) in Hv. apply (ok_req c Hok). exact Hv.
Qed.

Lemma next_coupler_ok prof ord_in ord_out c input output c' r :
  coupler_ok c -> hash_order ord_in -> hash_order ord_out ->
  Forall is_u16 input -> Forall is_u16 output ->
  next prof ord_in ord_out c input output = (c', r) -> coupler_ok c'.
Proof.
  intros Hok Hi Ho Hui Huo H.
  destruct (process_input_data prof (infos c) input) as [ins|e|p] eqn:Ei.
  2,3: unfold next in H; rewrite Ei in H; apply pair_inj in H; destruct H as [<- _]; exact Hok.
  destruct (process_output_data prof (infos c) output) as [outs|e|p] eqn:Eo.
  2,3: unfold next in H; rewrite Ei, Eo in H; apply pair_inj in H; destruct H as [<- _];
    apply (same_parts_ok c); try reflexivity; [exact Hok|exact (ok_proc c Hok)|exact (ok_com c Hok)|exact (ok_req c Hok)].
  exact (decoded_ok _ _ _ _ _ _ _ _ _ _ Hok Hi Ho Hui Huo Ei Eo H).
Qed.

Lemma reachable_ok prof c : reachable prof c -> coupler_ok c.
Proof.
  induction 1 as [cfg c Hr Hc|c a v _ IH Hv|c i n _ IH|c i buf _ IH Hb|c oi oo input output c' r _ IH Hi Ho Hui Huo Hn _].
  - eapply new_ok; eassumption.
  - apply set_ok; assumption.
  - apply read_ok. exact IH.
  - apply write_ok; assumption.
  - exact (next_coupler_ok _ _ _ _ _ _ _ _ IH Hi Ho Hui Huo Hn).
Qed.
