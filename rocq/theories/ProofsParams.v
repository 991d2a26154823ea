(** Proofs for the module parameters: C09, C10, C12. *)
From Coq Require Import ZArith List Bool Lia ZifyBool ZifyNat.
From Verif Require Import Base Facts F32 Types Lib Util Digital Analog Fcnt Com Fbc SpecParams.
Import ListNotations.
Local Open Scope Z_scope.
Ltac Zify.zify_post_hook ::= Z.div_mod_to_equations.

Lemma enum_cases {A} (V : list (A * Z)) (code : A -> Z) (b : Z) d :
  forallb (fun v => (code (fst v) =? snd v) && (snd v <=? b)) V = true ->
  forallb (fun n => existsb (fun v => snd v =? n) V) (map Z.of_nat (seq 0 (S (Z.to_nat b)))) = true ->
  is_u16 d ->
  (exists x, enum_param V d = Ok x /\ code x = d /\ d <= b) \/
  (enum_param V d = Err ChannelParameter /\ ~ d <= b).
Proof.
  intros H1 H2 Hd. unfold enum_param, from_u16.
  destruct (find (fun v => snd v =? d) V) as [[x c]|] eqn:Hf; cbn [option_map fst ok_or].
  - left. apply find_some in Hf. destruct Hf as [Hin Hc]. cbn [snd] in Hc.
    pose proof (proj1 (forallb_forall _ _) H1 _ Hin) as H. cbn [fst snd] in H.
    exists x. split; [reflexivity|]. lia.
  - right. split; [reflexivity|]. intros Hle. unfold is_u16 in Hd.
    assert (Hin : In d (map Z.of_nat (seq 0 (S (Z.to_nat b))))).
    { apply in_map_iff. exists (Z.to_nat d). split; [lia|]. apply in_seq. lia. }
    pose proof (proj1 (forallb_forall _ _) H2 _ Hin) as H. apply existsb_exists in H.
    destruct H as (v & Hv & Hvd). pose proof (find_none _ _ Hf _ Hv) as H. cbv beta in H. congruence.
Qed.

Ltac enum_tac := intros; apply enum_cases; [vm_compute; reflexivity|vm_compute; reflexivity|assumption].

Lemma input_delay_cases d : is_u16 d ->
  (exists x, enum_param input_delay_variants d = Ok x /\ input_delay_code x = d /\ d <= 5) \/
  (enum_param input_delay_variants d = Err ChannelParameter /\ ~ d <= 5).
Proof. enum_tac. Qed.
Lemma data_format_cases d : is_u16 d ->
  (exists x, enum_param data_format_variants d = Ok x /\ data_format_code x = d /\ d <= 1) \/
  (enum_param data_format_variants d = Err ChannelParameter /\ ~ d <= 1).
Proof. enum_tac. Qed.
Lemma ui_range_cases d : is_u16 d ->
  (exists x, enum_param analog_ui_range_variants d = Ok x /\ ui_range_code x = d /\ d <= 8) \/
  (enum_param analog_ui_range_variants d = Err ChannelParameter /\ ~ d <= 8).
Proof. enum_tac. Qed.
Lemma i_range_cases d : is_u16 d ->
  (exists x, enum_param analog_i_range_variants d = Ok x /\ i_range_code x = d /\ d <= 2) \/
  (enum_param analog_i_range_variants d = Err ChannelParameter /\ ~ d <= 2).
Proof. enum_tac. Qed.
Lemma rtd_range_cases d : is_u16 d ->
  (exists x, enum_param rtd_range_variants d = Ok x /\ rtd_range_code x = d /\ d <= 18) \/
  (enum_param rtd_range_variants d = Err ChannelParameter /\ ~ d <= 18).
Proof. enum_tac. Qed.
Lemma tc_range_cases d : is_u16 d ->
  (exists x, enum_param tc_range_variants d = Ok x /\ tc_range_code x = d /\ d <= 19) \/
  (enum_param tc_range_variants d = Err ChannelParameter /\ ~ d <= 19).
Proof. enum_tac. Qed.
Lemma cold_junction_cases d : is_u16 d ->
  (exists x, enum_param cold_junction_variants d = Ok x /\ cold_junction_code x = d /\ d <= 4) \/
  (enum_param cold_junction_variants d = Err ChannelParameter /\ ~ d <= 4).
Proof. enum_tac. Qed.
Lemma unit_cases d : is_u16 d ->
  (exists x, enum_param temperature_unit_variants d = Ok x /\ unit_code x = d /\ d <= 2) \/
  (enum_param temperature_unit_variants d = Err ChannelParameter /\ ~ d <= 2).
Proof. enum_tac. Qed.
Lemma connection_cases d : is_u16 d ->
  (exists x, enum_param connection_type_variants d = Ok x /\ connection_code x = d /\ d <= 2) \/
  (enum_param connection_type_variants d = Err ChannelParameter /\ ~ d <= 2).
Proof. enum_tac. Qed.
Lemma conversion_cases d : is_u16 d ->
  (exists x, enum_param conversion_time_variants d = Ok x /\ conversion_code x = d /\ d <= 5) \/
  (enum_param conversion_time_variants d = Err ChannelParameter /\ ~ d <= 5).
Proof. enum_tac. Qed.
Lemma filter_cases d : is_u16 d ->
  (exists x, enum_param input_filter_variants d = Ok x /\ filter_code x = d /\ d <= 16) \/
  (enum_param input_filter_variants d = Err ChannelParameter /\ ~ d <= 16).
Proof. enum_tac. Qed.
Lemma suppression_cases d : is_u16 d ->
  (exists x, enum_param frequency_suppression_variants d = Ok x /\ suppression_code x = d /\ d <= 3) \/
  (enum_param frequency_suppression_variants d = Err ChannelParameter /\ ~ d <= 3).
Proof. enum_tac. Qed.
Lemma length_cases d : is_u16 d ->
  (exists x, enum_param process_data_length_variants d = Ok x /\ length_code x = d /\ d <= 1) \/
  (enum_param process_data_length_variants d = Err ChannelParameter /\ ~ d <= 1).
Proof. enum_tac. Qed.
Lemma mode_cases d : is_u16 d ->
  (exists x, enum_param operating_mode_variants d = Ok x /\ mode_code x = d /\ d <= 3) \/
  (enum_param operating_mode_variants d = Err ChannelParameter /\ ~ d <= 3).
Proof. enum_tac. Qed.
Lemma data_bits_cases d : is_u16 d ->
  (exists x, enum_param data_bits_variants d = Ok x /\ data_bits_code x = d /\ d <= 1) \/
  (enum_param data_bits_variants d = Err ChannelParameter /\ ~ d <= 1).
Proof. enum_tac. Qed.
Lemma baud_cases d : is_u16 d ->
  (exists x, enum_param baud_rate_variants d = Ok x /\ baud_code x = d /\ d <= 11) \/
  (enum_param baud_rate_variants d = Err ChannelParameter /\ ~ d <= 11).
Proof. enum_tac. Qed.
Lemma stop_bit_cases d : is_u16 d ->
  (exists x, enum_param stop_bit_variants d = Ok x /\ stop_bit_code x = d /\ d <= 1) \/
  (enum_param stop_bit_variants d = Err ChannelParameter /\ ~ d <= 1).
Proof. enum_tac. Qed.
Lemma parity_cases d : is_u16 d ->
  (exists x, enum_param parity_variants d = Ok x /\ parity_code x = d /\ d <= 2) \/
  (enum_param parity_variants d = Err ChannelParameter /\ ~ d <= 2).
Proof. enum_tac. Qed.
Lemma flow_cases d : is_u16 d ->
  (exists x, enum_param flow_control_variants d = Ok x /\ flow_code x = d /\ d <= 2) \/
  (enum_param flow_control_variants d = Err ChannelParameter /\ ~ d <= 2).
Proof. enum_tac. Qed.
Lemma bool_cases d : is_u16 d ->
  (exists x, bool_param d = Ok x /\ flag_code x = d /\ d <= 1) \/
  (bool_param d = Err ChannelParameter /\ ~ d <= 1).
Proof.
  intros Hd. unfold is_u16 in Hd. unfold bool_param.
  destruct (Z.eqb_spec d 0) as [->|H0]; [left; exists false; cbn; repeat split; lia|].
  destruct (Z.eqb_spec d 1) as [->|H1]; [left; exists true; cbn; repeat split; lia|].
  right. split; [reflexivity|lia].
Qed.
Lemma char_cases d : is_u16 d ->
  (exists x, char_param d = Ok x /\ x = d /\ d <= 255) \/
  (char_param d = Err ChannelParameter /\ ~ d <= 255).
Proof.
  intros Hd. unfold is_u16 in Hd. unfold char_param, as_u8.
  destruct ((0 <=? d) && (d <=? 255)) eqn:E.
  - left. exists (d mod 256). split; [reflexivity|]. lia.
  - right. split; [reflexivity|]. lia.
Qed.
Lemma limit_roundtrip d : is_u16 d -> limit_code (u16_as_i16 d) = d.
Proof. unfold is_u16, limit_code, u16_as_i16. intros H. destruct (Z.ltb_spec d 32768); lia. Qed.

(** Splitting one register off a long enough list. *)
Ltac split_regs Hlen Hu :=
  repeat match goal with
  | H : (S _ <= length ?l)%nat |- _ =>
      let d := fresh "d" in let l' := fresh "l" in let Hd := fresh "Hd" in
      destruct l as [|d l']; [exfalso; cbn [length] in H; lia|];
      inversion Hu as [|? ? Hd Hu']; subst; clear Hu; rename Hu' into Hu;
      cbn [length] in H; apply le_S_n in H
  end.

Ltac case_tac H :=
  let x := fresh "x" in let E := fresh "E" in let C := fresh "C" in let B := fresh "B" in
  destruct H as [(x & E & C & B)|(E & B)]; rewrite E; clear E; cbn [bind].

Ltac eval_head r := lazymatch r with bind ?e _ => eval_head e | ?e => e end.

Ltac param_step :=
  lazymatch goal with
  | |- _ \/ (_ /\ ?r = _) =>
      let e := eval_head r in
      lazymatch e with
      | enum_param input_delay_variants ?d => match goal with Hd : is_u16 d |- _ => case_tac (input_delay_cases d Hd) end
      | enum_param data_format_variants ?d => match goal with Hd : is_u16 d |- _ => case_tac (data_format_cases d Hd) end
      | enum_param analog_ui_range_variants ?d => match goal with Hd : is_u16 d |- _ => case_tac (ui_range_cases d Hd) end
      | enum_param analog_i_range_variants ?d => match goal with Hd : is_u16 d |- _ => case_tac (i_range_cases d Hd) end
      | enum_param rtd_range_variants ?d => match goal with Hd : is_u16 d |- _ => case_tac (rtd_range_cases d Hd) end
      | enum_param tc_range_variants ?d => match goal with Hd : is_u16 d |- _ => case_tac (tc_range_cases d Hd) end
      | enum_param cold_junction_variants ?d => match goal with Hd : is_u16 d |- _ => case_tac (cold_junction_cases d Hd) end
      | enum_param temperature_unit_variants ?d => match goal with Hd : is_u16 d |- _ => case_tac (unit_cases d Hd) end
      | enum_param connection_type_variants ?d => match goal with Hd : is_u16 d |- _ => case_tac (connection_cases d Hd) end
      | enum_param conversion_time_variants ?d => match goal with Hd : is_u16 d |- _ => case_tac (conversion_cases d Hd) end
      | enum_param input_filter_variants ?d => match goal with Hd : is_u16 d |- _ => case_tac (filter_cases d Hd) end
      | enum_param frequency_suppression_variants ?d => match goal with Hd : is_u16 d |- _ => case_tac (suppression_cases d Hd) end
      | enum_param process_data_length_variants ?d => match goal with Hd : is_u16 d |- _ => case_tac (length_cases d Hd) end
      | enum_param operating_mode_variants ?d => match goal with Hd : is_u16 d |- _ => case_tac (mode_cases d Hd) end
      | enum_param data_bits_variants ?d => match goal with Hd : is_u16 d |- _ => case_tac (data_bits_cases d Hd) end
      | enum_param baud_rate_variants ?d => match goal with Hd : is_u16 d |- _ => case_tac (baud_cases d Hd) end
      | enum_param stop_bit_variants ?d => match goal with Hd : is_u16 d |- _ => case_tac (stop_bit_cases d Hd) end
      | enum_param parity_variants ?d => match goal with Hd : is_u16 d |- _ => case_tac (parity_cases d Hd) end
      | enum_param flow_control_variants ?d => match goal with Hd : is_u16 d |- _ => case_tac (flow_cases d Hd) end
      | bool_param ?d => match goal with Hd : is_u16 d |- _ => case_tac (bool_cases d Hd) end
      | char_param ?d => match goal with Hd : is_u16 d |- _ => case_tac (char_cases d Hd) end
      end
  end.

Definition params_result (t : module_type) (bounds regs : list Z) (r : outcome module) : Prop :=
  (in_range bounds regs /\
   exists m, r = Ok m /\ kind_of t m /\
     Forall2 holds (params_registers m) (firstn (length bounds) regs)) \/
  (~ in_range bounds regs /\ r = Err ChannelParameter).

(** Close a goal in which a register was out of range. *)
Ltac out_of_range :=
  right; split; [cbn [in_range]; intros Hr; repeat match type of Hr with _ /\ _ => let A := fresh "A" in destruct Hr as [A Hr] end; lia | reflexivity].

Ltac accepted :=
  left; split;
  [ cbn [in_range]; repeat match goal with H : is_u16 _ |- _ => unfold is_u16 in H end; repeat split; lia
  | eexists; split; [reflexivity|]; split; [exact I|];
    cbn [params_registers flat_map map app firstn length
         ao_format ao_range ao_substitute aod_format aod_range aod_substitute aod_channel_diagnostics
         rtd_measurement_range rtd_connection rtd_conversion rtd_channel_diagnostics
         rtd_limit_monitoring rtd_high_limit rtd_low_limit
         tc_measurement_range tc_cold_junction tc_conversion tc_channel_diagnostics
         tc_limit_monitoring tc_high_limit tc_low_limit
         aid_channel_diagnostics aid_short_circuit aid_line_break aid_format aid_range
         aiu_format aiu_range aii_channel_diagnostics aii_short_circuit aii_format aii_range
         com_operating_mode com_baud_rate com_stop_bit com_parity com_flow_control com_data_bits
         com_terminating_resistor com_xon com_xoff];
    repeat (apply Forall2_cons; [cbn [holds]; first [assumption | reflexivity | apply limit_roundtrip; assumption]|]);
    apply Forall2_nil ].

Ltac params_tac :=
  intros Hlen Hu; cbn [length] in Hlen; split_regs Hlen Hu;
  unfold module_from_params, params_result;
  cbn [di_parameters do_parameters ao_parameters ao_diag_parameters rtd_parameters
       ai_ui_diag_parameters ai_ui_parameters ai_i_parameters fcnt_parameters com_parameters
       channel_count length Nat.ltb Nat.leb Nat.mul Nat.add traverse seq index nth_error bind];
  repeat (param_step; [|out_of_range]);
  accepted.

Lemma params_4DI_P regs : (4 <= length regs)%nat -> Forall is_u16 regs ->
  params_result UR20_4DI_P
    [5; 5; 5; 5] regs (module_from_params UR20_4DI_P regs).
Proof. params_tac. Qed.
Lemma params_8DI_P_2W regs : (8 <= length regs)%nat -> Forall is_u16 regs ->
  params_result UR20_8DI_P_2W
    [5; 5; 5; 5; 5; 5; 5; 5] regs (module_from_params UR20_8DI_P_2W regs).
Proof. params_tac. Qed.
Lemma params_4DO_P regs : (4 <= length regs)%nat -> Forall is_u16 regs ->
  params_result UR20_4DO_P
    [1; 1; 1; 1] regs (module_from_params UR20_4DO_P regs).
Proof. params_tac. Qed.
Lemma params_4DO_P_2A regs : (4 <= length regs)%nat -> Forall is_u16 regs ->
  params_result UR20_4DO_P_2A
    [1; 1; 1; 1] regs (module_from_params UR20_4DO_P_2A regs).
Proof. params_tac. Qed.
Lemma params_4RO_CO_255 regs : (4 <= length regs)%nat -> Forall is_u16 regs ->
  params_result UR20_4RO_CO_255
    [1; 1; 1; 1] regs (module_from_params UR20_4RO_CO_255 regs).
Proof. params_tac. Qed.
Lemma params_8DO_P regs : (8 <= length regs)%nat -> Forall is_u16 regs ->
  params_result UR20_8DO_P
    [1; 1; 1; 1; 1; 1; 1; 1] regs (module_from_params UR20_8DO_P regs).
Proof. params_tac. Qed.
Lemma params_4AI_UI_12 regs : (9 <= length regs)%nat -> Forall is_u16 regs ->
  params_result UR20_4AI_UI_12
    [3; 1; 8; 1; 8; 1; 8; 1; 8] regs (module_from_params UR20_4AI_UI_12 regs).
Proof. params_tac. Qed.
Lemma params_4AI_UI_16 regs : (9 <= length regs)%nat -> Forall is_u16 regs ->
  params_result UR20_4AI_UI_16
    [3; 1; 8; 1; 8; 1; 8; 1; 8] regs (module_from_params UR20_4AI_UI_16 regs).
Proof. params_tac. Qed.
Lemma params_4AI_UI_16_DIAG regs : (21 <= length regs)%nat -> Forall is_u16 regs ->
  params_result UR20_4AI_UI_16_DIAG
    [3; 1; 1; 1; 1; 8; 1; 1; 1; 1; 8; 1; 1; 1; 1; 8; 1; 1; 1; 1; 8] regs (module_from_params UR20_4AI_UI_16_DIAG regs).
Proof. params_tac. Qed.
Lemma params_8AI_I_16_DIAG_HD regs : (33 <= length regs)%nat -> Forall is_u16 regs ->
  params_result UR20_8AI_I_16_DIAG_HD
    [3; 1; 1; 1; 2; 1; 1; 1; 2; 1; 1; 1; 2; 1; 1; 1; 2; 1; 1; 1; 2; 1; 1; 1; 2; 1; 1; 1; 2; 1; 1; 1; 2] regs (module_from_params UR20_8AI_I_16_DIAG_HD regs).
Proof. params_tac. Qed.
Lemma params_4AI_RTD_DIAG regs : (29 <= length regs)%nat -> Forall is_u16 regs ->
  params_result UR20_4AI_RTD_DIAG
    [2; 18; 2; 5; 1; 1; 65535; 65535; 18; 2; 5; 1; 1; 65535; 65535; 18; 2; 5; 1; 1; 65535; 65535; 18; 2; 5; 1; 1; 65535; 65535] regs (module_from_params UR20_4AI_RTD_DIAG regs).
Proof. params_tac. Qed.
Lemma params_4AO_UI_16 regs : (12 <= length regs)%nat -> Forall is_u16 regs ->
  params_result UR20_4AO_UI_16
    [1; 8; 65535; 1; 8; 65535; 1; 8; 65535; 1; 8; 65535] regs (module_from_params UR20_4AO_UI_16 regs).
Proof. params_tac. Qed.
Lemma params_4AO_UI_16_DIAG regs : (16 <= length regs)%nat -> Forall is_u16 regs ->
  params_result UR20_4AO_UI_16_DIAG
    [1; 8; 65535; 1; 1; 8; 65535; 1; 1; 8; 65535; 1; 1; 8; 65535; 1] regs (module_from_params UR20_4AO_UI_16_DIAG regs).
Proof. params_tac. Qed.
Lemma params_2FCNT_100 regs : (2 <= length regs)%nat -> Forall is_u16 regs ->
  params_result UR20_2FCNT_100
    [16; 16] regs (module_from_params UR20_2FCNT_100 regs).
Proof. params_tac. Qed.
Lemma params_1COM_232_485_422 regs : (10 <= length regs)%nat -> Forall is_u16 regs ->
  params_result UR20_1COM_232_485_422
    [1; 3; 11; 1; 2; 2; 1; 1; 255; 255] regs (module_from_params UR20_1COM_232_485_422 regs).
Proof. params_tac. Qed.

(** Thermocouple module: as long as there are fewer than five blocks of seven. *)
Lemma chunks_exact_7_short l : (length l < 7)%nat -> chunks_exact_7 l = [].
Proof. intros H. do 7 (destruct l as [|? l]; [reflexivity|]). cbn [length] in H. lia. Qed.

Definition tc_parse (chunk : list Z) : outcome tc_params :=
  let? d0 := index chunk 0 in
  let? r := enum_param tc_range_variants d0 in
  let? d1 := index chunk 1 in
  let? cj := enum_param cold_junction_variants d1 in
  let? d2 := index chunk 2 in
  let? t := enum_param conversion_time_variants d2 in
  let? d3 := index chunk 3 in
  let? cd := bool_param d3 in
  let? d4 := index chunk 4 in
  let? lm := bool_param d4 in
  let? d5 := index chunk 5 in
  let? d6 := index chunk 6 in
  Ok (mk_tc r cj t cd lm (u16_as_i16 d5) (u16_as_i16 d6)).

Lemma params_4AI_TC_DIAG regs : (29 <= length regs)%nat -> (length regs < 36)%nat ->
  Forall is_u16 regs ->
  params_result UR20_4AI_TC_DIAG
    [2; 19; 4; 5; 1; 1; 65535; 65535; 19; 4; 5; 1; 1; 65535; 65535; 19; 4; 5; 1; 1; 65535; 65535; 19; 4; 5; 1; 1; 65535; 65535] regs (module_from_params UR20_4AI_TC_DIAG regs).
Proof.
  intros Hlen Hmax Hu. split_regs Hlen Hu. unfold module_from_params, params_result, tc_parameters.
  match goal with |- context [chunks_exact_7 (skipn 1 (_ :: _ :: _ :: _ :: _ :: _ :: _ :: _ :: _ :: _ ::
     _ :: _ :: _ :: _ :: _ :: _ :: _ :: _ :: _ :: _ :: _ :: _ :: _ :: _ :: _ :: _ :: _ :: _ :: _ :: ?l))] =>
    assert (Hl : chunks_exact_7 l = []) by (apply chunks_exact_7_short; cbn [length] in Hmax; lia) end.
  cbn [skipn chunks_exact_7 length Nat.ltb Nat.leb Nat.mul Nat.add].
  rewrite Hl. clear Hl. cbn [traverse index nth_error bind].
  repeat (param_step; [|out_of_range]).
  cbn [length Nat.eqb bind]. accepted.
Qed.

Lemma chunks_exact_7_cons l : (7 <= length l)%nat -> exists c cs, chunks_exact_7 l = c :: cs.
Proof.
  intros H. do 7 (destruct l as [|? l]; [cbn [length] in H; lia|]). cbn [chunks_exact_7]. eauto.
Qed.

Lemma chunks_exact_7_length l : forall c, In c (chunks_exact_7 l) -> length c = 7%nat.
Proof.
  revert l. fix IH 1. intros l c. do 7 (destruct l as [|? l]; [intros []|]).
  cbn [chunks_exact_7]. intros [<-|H]; [reflexivity|]. exact (IH l c H).
Qed.

Lemma enum_no_panic {A} (V : list (A * Z)) d :
  (exists x, enum_param V d = Ok x) \/ enum_param V d = Err ChannelParameter.
Proof. unfold enum_param. destruct (from_u16 V d); cbn; eauto. Qed.
Lemma bool_no_panic d : (exists x, bool_param d = Ok x) \/ bool_param d = Err ChannelParameter.
Proof. unfold bool_param. destruct (d =? 0), (d =? 1); eauto. Qed.

Lemma tc_parse_cases c : length c = 7%nat ->
  (exists x, tc_parse c = Ok x) \/ tc_parse c = Err ChannelParameter.
Proof.
  intros H. do 7 (destruct c as [|? c]; [discriminate|]). destruct c; [|discriminate].
  unfold tc_parse. cbn [index nth_error bind].
  repeat match goal with
  | |- context [bind (enum_param ?V ?d) _] =>
      destruct (enum_no_panic V d) as [(? & ->)| ->]; cbn [bind]; [|right; reflexivity]
  | |- context [bind (bool_param ?d) _] =>
      destruct (bool_no_panic d) as [(? & ->)| ->]; cbn [bind]; [|right; reflexivity]
  end.
  left. eauto.
Qed.

Lemma tc_traverse_cases cs : (forall c, In c cs -> length c = 7%nat) ->
  (exists x, traverse tc_parse cs = Ok x /\ length x = length cs) \/
  traverse tc_parse cs = Err ChannelParameter.
Proof.
  induction cs as [|c cs IH]; intros H; cbn [traverse]; [left; exists []; auto|].
  destruct (tc_parse_cases c) as [(x & ->)| ->]; cbn [bind]; [apply H; left; reflexivity| |right; reflexivity].
  destruct IH as [(xs & -> & Hx)| ->]; cbn [bind]; [intros; apply H; right; assumption| |right; reflexivity].
  left. exists (x :: xs). cbn [length]. auto.
Qed.

Lemma tc_too_many regs : (36 <= length regs)%nat ->
  module_from_params UR20_4AI_TC_DIAG regs = Panic ExpectFailed \/
  module_from_params UR20_4AI_TC_DIAG regs = Err ChannelParameter.
Proof.
  intros Hlen. unfold module_from_params, tc_parameters.
  destruct (Nat.ltb_spec (length regs) (1 + 4 * 7)) as [Hl|_]; [lia|].
  rewrite (index_lt regs 0 0) by lia. cbn [bind].
  destruct (enum_no_panic temperature_unit_variants (nth 0 regs 0)) as [(u & ->)| ->]; cbn [bind];
    [|right; reflexivity].
  change (traverse _ (chunks_exact_7 (skipn 1 regs))) with (traverse tc_parse (chunks_exact_7 (skipn 1 regs))).
  destruct (tc_traverse_cases (chunks_exact_7 (skipn 1 regs))) as [(x & -> & Hx)| ->]; cbn [bind];
    [apply chunks_exact_7_length| |right; reflexivity].
  left. replace (Nat.eqb (length x) 4) with false; [reflexivity|]. symmetry. apply Nat.eqb_neq.
  rewrite Hx. destruct regs as [|r regs]; [cbn [length] in Hlen; lia|]. cbn [skipn].
  cbn [length] in Hlen. apply le_S_n in Hlen. clear Hx x.
  do 28 (destruct regs as [|? regs]; [cbn [length] in Hlen; lia|cbn [length] in Hlen; apply le_S_n in Hlen]).
  cbn [chunks_exact_7 length]. destruct (chunks_exact_7_cons regs) as (c & cs & ->); [exact Hlen|].
  cbn [length]. lia.
Qed.

(** Modules whose extra registers are not ignored. *)
Definition extra_ignored (t : module_type) : Prop :=
  t <> UR20_16DO_P /\ t <> UR20_PF_O_1DI_SIL /\ t <> UR20_4AI_TC_DIAG.

Lemma too_short t bounds regs : param_bounds t = Some bounds ->
  (length regs < length bounds)%nat -> module_from_params t regs = Err BufferLength.
Proof.
  destruct t; cbn [param_bounds]; intros H Hl; try discriminate; injection H as <-;
    cbn [length] in Hl; try lia;
    unfold module_from_params, di_parameters, do_parameters, ao_parameters, ao_diag_parameters,
      rtd_parameters, ai_ui_diag_parameters, ai_ui_parameters, ai_i_parameters, tc_parameters,
      fcnt_parameters, com_parameters;
    cbn [channel_count Nat.add Nat.mul];
    match goal with |- context [Nat.ltb (length regs) ?n] =>
      replace (Nat.ltb (length regs) n) with true by (symmetry; apply Nat.ltb_lt; lia) end;
    reflexivity.
Qed.

Lemma params_long_enough t bounds regs : param_bounds t = Some bounds ->
  (length bounds <= length regs)%nat -> Forall is_u16 regs ->
  extra_ignored t \/ length regs = length bounds ->
  params_result t bounds regs (module_from_params t regs).
Proof.
  intros Hb Hl Hu Hx. destruct t; cbn [param_bounds] in Hb; try discriminate; injection Hb as <-;
    cbn [length] in *;
    first [ apply params_4DI_P | apply params_8DI_P_2W | apply params_4DO_P | apply params_4DO_P_2A
          | apply params_8DO_P | apply params_4RO_CO_255 | apply params_4AI_UI_16
          | apply params_4AI_UI_16_DIAG | apply params_4AI_UI_12 | apply params_8AI_I_16_DIAG_HD
          | apply params_4AO_UI_16 | apply params_4AO_UI_16_DIAG | apply params_2FCNT_100
          | apply params_1COM_232_485_422 | apply params_4AI_RTD_DIAG | idtac ];
    try assumption.
  - (* 16DO *) destruct Hx as [(Hx & _)|Hx]; [contradiction|]. destruct regs; [|discriminate].
    left. split; [exact I|]. exists M16DO. split; [reflexivity|]. split; [exact I|constructor].
  - (* TC *) destruct Hx as [(_ & _ & Hx)|Hx]; [contradiction|]. apply params_4AI_TC_DIAG; try assumption.
    lia.
  - (* SIL *) destruct Hx as [(_ & Hx & _)|Hx]; [contradiction|]. destruct regs; [|discriminate].
    left. split; [exact I|]. exists MSIL. split; [reflexivity|]. split; [exact I|constructor].
Qed.

Lemma unsupported t regs : param_bounds t = None -> module_from_params t regs = Panic Unsupported.
Proof. destruct t; cbn; intros H; reflexivity || discriminate. Qed.

Lemma in_range_length bounds regs : in_range bounds regs -> (length bounds <= length regs)%nat.
Proof.
  revert regs. induction bounds as [|b bs IH]; intros [|r rs]; cbn [in_range length]; intros H;
    [lia|lia|contradiction|]. destruct H as [_ H]. apply IH in H. lia.
Qed.

Lemma in_range_dec bounds regs : in_range bounds regs \/ ~ in_range bounds regs.
Proof.
  revert regs. induction bounds as [|b bs IH]; intros [|r rs]; cbn [in_range]; try tauto.
  destruct (IH rs); destruct (Z.le_decidable r b); tauto.
Qed.

(** Registers beyond the documented ones do not matter. *)
Lemma extra_irrelevant t bounds regs : param_bounds t = Some bounds ->
  (length bounds <= length regs)%nat ->
  t <> UR20_16DO_P -> t <> UR20_PF_O_1DI_SIL ->
  t <> UR20_4AI_TC_DIAG \/ (length regs < 36)%nat ->
  module_from_params t regs = module_from_params t (firstn (length bounds) regs).
Proof.
  intros Hb Hl H1 H2 H3. destruct t; cbn [param_bounds] in Hb; try discriminate; try contradiction;
    apply Some_inj in Hb; subst bounds; cbn [length] in Hl;
    repeat match type of Hl with (S _ <= length ?l)%nat =>
      let d := fresh "d" in let l' := fresh "l" in
      destruct l as [|d l']; [exfalso; cbn [length] in Hl; lia|]; cbn [length] in Hl; apply le_S_n in Hl end;
    try reflexivity.
  destruct H3 as [H3|H3]; [contradiction|]. cbn [length] in H3.
  unfold module_from_params, tc_parameters.
  cbn [firstn skipn chunks_exact_7 length Nat.ltb Nat.leb Nat.mul Nat.add].
  match goal with |- context [chunks_exact_7 ?l] =>
    rewrite (chunks_exact_7_short l) by lia end.
  reflexivity.
Qed.

Lemma C09_partial_all t bounds regs :
  param_bounds t = Some bounds -> Forall is_u16 regs ->
  ((length regs < length bounds)%nat -> module_from_params t regs = Err BufferLength) /\
  (t <> UR20_16DO_P -> t <> UR20_PF_O_1DI_SIL ->
   t <> UR20_4AI_TC_DIAG \/ (length regs < 36)%nat ->
   (length bounds <= length regs)%nat ->
   (in_range bounds regs -> exists m, module_from_params t regs = Ok m) /\
   (~ in_range bounds regs -> module_from_params t regs = Err ChannelParameter) /\
   module_from_params t regs = module_from_params t (firstn (length bounds) regs)) /\
  (t = UR20_16DO_P \/ t = UR20_PF_O_1DI_SIL ->
   (regs = [] -> exists m, module_from_params t regs = Ok m) /\
   (regs <> [] -> module_from_params t regs = Err BufferLength)) /\
  (t = UR20_4AI_TC_DIAG -> (36 <= length regs)%nat ->
   module_from_params t regs = Panic ExpectFailed \/
   module_from_params t regs = Err ChannelParameter).
Proof.
  intros Hb Hu. split; [apply too_short; exact Hb|]. split; [|split].
  - intros H1 H2 H3 Hl.
    assert (Hr : params_result t bounds regs (module_from_params t regs)).
    { destruct H3 as [H3|H3].
      - apply params_long_enough; try assumption. left. repeat split; assumption.
      - assert (Hd : t = UR20_4AI_TC_DIAG \/ t <> UR20_4AI_TC_DIAG) by (destruct t; (left; reflexivity) || (right; discriminate)).
        destruct Hd as [->|Hd].
        + cbn [param_bounds] in Hb. apply Some_inj in Hb. subst bounds. apply params_4AI_TC_DIAG; assumption.
        + apply params_long_enough; try assumption. left. repeat split; assumption. }
    pose proof (extra_irrelevant t bounds regs Hb Hl H1 H2 H3) as He.
    destruct Hr as [(Hr & m & Hm & _)|(Hr & Hm)];
      (split; [|split; [|exact He]]); intros Hi; try contradiction; eauto.
  - intros [->| ->]; split; intros Hr.
    + subst regs. cbn. eauto.
    + destruct regs; [contradiction|reflexivity].
    + subst regs. cbn. eauto.
    + destruct regs; [contradiction|reflexivity].
  - intros ->. apply tc_too_many.
Qed.

Lemma C09_refuted_all :
  param_bounds UR20_4AI_TC_DIAG <> None /\ Forall is_u16 (repeat 0 36) /\
  module_from_params UR20_4AI_TC_DIAG (repeat 0 36) = Panic ExpectFailed /\
  (forall bounds, param_bounds UR20_4AI_TC_DIAG = Some bounds -> in_range bounds (repeat 0 36)) /\
  module_from_params UR20_16DO_P [0] = Err BufferLength /\
  module_from_params UR20_PF_O_1DI_SIL [0] = Err BufferLength.
Proof.
  split; [discriminate|]. split.
  { apply Forall_forall. intros x Hx. apply repeat_spec in Hx. subst x. unfold is_u16. lia. }
  split; [vm_compute; reflexivity|]. split.
  { intros bounds H. cbn [param_bounds] in H. apply Some_inj in H. subst bounds. cbn. lia. }
  split; vm_compute; reflexivity.
Qed.

(** *** C10 *)

Lemma C10_decoded t regs m : Forall is_u16 regs -> module_from_params t regs = Ok m ->
  exists bounds, param_bounds t = Some bounds /\ in_range bounds regs /\ kind_of t m /\
    Forall2 holds (params_registers m) (firstn (length bounds) regs).
Proof.
  intros Hu Hm. destruct (param_bounds t) as [bounds|] eqn:Hb.
  2:{ rewrite unsupported in Hm by exact Hb. discriminate. }
  exists bounds. split; [reflexivity|].
  destruct (Nat.ltb_spec (length regs) (length bounds)) as [Hl|Hl].
  { rewrite (too_short t bounds regs) in Hm by assumption. discriminate. }
  assert (Hc : extra_ignored t \/ t = UR20_16DO_P \/ t = UR20_PF_O_1DI_SIL \/ t = UR20_4AI_TC_DIAG).
  { unfold extra_ignored. destruct t; try tauto; left; repeat split; discriminate. }
  destruct Hc as [Hc|[->|[->| ->]]].
  - destruct (params_long_enough t bounds regs Hb Hl Hu (or_introl Hc)) as [(Hi & m' & Hm' & Hk)|(_ & He)].
    + rewrite Hm in Hm'. injection Hm' as <-. tauto.
    + congruence.
  - cbn [param_bounds] in Hb. apply Some_inj in Hb. subst bounds. destruct regs; [|discriminate].
    cbn in Hm. injection Hm as <-. split; [exact I|]. split; [exact I|]. constructor.
  - cbn [param_bounds] in Hb. apply Some_inj in Hb. subst bounds. destruct regs; [|discriminate].
    cbn in Hm. injection Hm as <-. split; [exact I|]. split; [exact I|]. constructor.
  - destruct (Nat.ltb_spec (length regs) 36) as [Hs|Hs].
    + cbn [param_bounds] in Hb. apply Some_inj in Hb. subst bounds.
      destruct (params_4AI_TC_DIAG regs Hl Hs Hu) as [(Hi & m' & Hm' & Hk)|(_ & He)].
      * rewrite Hm in Hm'. injection Hm' as <-. tauto.
      * congruence.
    + destruct (tc_too_many regs Hs); congruence.
Qed.

(** *** C12 *)

Lemma C12_partial_all t regs m : module_from_params t regs = Ok m ->
  t <> UR20_4AI_UI_16 -> mod_type m = t.
Proof.
  destruct t; cbn [module_from_params]; intros H Hne; try discriminate; try contradiction;
    apply bind_ok in H; destruct H as (a & Ha & H); try destruct a; injection H as <-; reflexivity.
Qed.

Lemma C12_refuted_all : exists regs m,
  Forall is_u16 regs /\ module_from_params UR20_4AI_UI_16 regs = Ok m /\ mod_type m = UR20_4AI_UI_12.
Proof.
  exists (repeat 0 9). eexists. split.
  { apply Forall_forall. intros x Hx. apply repeat_spec in Hx. subst x. unfold is_u16. lia. }
  split; [vm_compute; reflexivity|reflexivity].
Qed.

Lemma ui16_always_reports_ui12 regs m :
  module_from_params UR20_4AI_UI_16 regs = Ok m -> mod_type m = UR20_4AI_UI_12.
Proof.
  cbn [module_from_params]. intros H. apply bind_ok in H. destruct H as ([f ch] & _ & H).
  injection H as <-. reflexivity.
Qed.
