(** Proofs about setting up modules from a program (C118). *)
From Coq Require Import ZArith List Bool Lia ZifyBool.
From Verif Require Import Base Facts F32 Types Lib Util Digital Analog Fcnt Com Fbc SpecParams SpecCoupler SpecSetup ProofsParams ProofsNew.
Import ListNotations.
Local Open Scope Z_scope.

(** ** The numbers of the enumerations *)
Fixpoint increasing (low : Z) (l : list Z) : bool :=
  match l with [] => true | n :: t => (low <=? n) && (n <=? 65535) && increasing (n + 1) t end.
Lemma increasing_low l : forall low n, increasing low l = true -> In n l -> low <= n <= 65535.
Proof.
  induction l as [|m l IH]; intros low n H Hn; [contradiction|]. cbn [increasing] in H. apply andb_prop in H as [H1 H2].
  destruct Hn as [->|Hn]; [lia|]. specialize (IH _ _ H2 Hn). lia.
Qed.
Lemma inverse_by {A} (V : list (A * Z)) (code : A -> Z) : (forall x, In (x, code x) V) ->
  forallb (fun v => code (fst v) =? snd v) V = true -> increasing 0 (map snd V) = true -> inverse V.
Proof.
  intros Hall Hc Hi. assert (Hcode : forall x n, In (x, n) V -> n = code x).
  { intros x n H. pose proof (proj1 (forallb_forall _ _) Hc _ H) as E. cbn in E. lia. }
  split.
  - intros x. exists (code x). split; [apply Hall|]. split; [|intros n' H'; exact (Hcode _ _ H')].
    pose proof (in_map snd _ _ (Hall x)) as H. apply (increasing_low _ _ _ Hi) in H. unfold is_u16. cbn in H. lia.
  - intros x n. unfold to_u16_is, from_u16. split.
    + destruct (find (fun v => snd v =? n) V) as [[y c]|] eqn:E; [|discriminate]. cbn. intros H. apply Some_inj in H. subst y.
      apply find_some in E as [H1 H2]. cbn in H2. replace n with c by lia. exact H1.
    + intros H. clear -H Hi. generalize dependent 0. induction V as [|[y c] V IH]; intros low Hi; [contradiction|].
      cbn [find snd map increasing] in *. apply andb_prop in Hi as [H1 H2].
      destruct (Z.eqb_spec c n) as [->|Hn].
      * destruct H as [H|H]; [apply pair_inj in H as [-> _]; reflexivity|]. apply (in_map snd) in H. apply (increasing_low _ _ _ H2) in H. cbn in H. lia.
      * destruct H as [H|H]; [apply pair_inj in H as [_ ->]; contradiction|exact (IH H _ H2)].
Qed.
Ltac listed := let x := fresh in intros x; destruct x; repeat (first [left; reflexivity|right]).
Ltac by_codes code := apply (inverse_by _ code); [listed|vm_compute; reflexivity|vm_compute; reflexivity].
Lemma C118_codes_all :
  inverse data_format_variants /\ inverse analog_ui_range_variants /\ inverse analog_i_range_variants /\ inverse rtd_range_variants /\
  inverse temperature_unit_variants /\ inverse connection_type_variants /\ inverse conversion_time_variants /\ inverse input_filter_variants /\
  inverse input_delay_variants /\ inverse frequency_suppression_variants /\ inverse tc_range_variants /\ inverse cold_junction_variants /\
  inverse operating_mode_variants /\ inverse data_bits_variants /\ inverse baud_rate_variants /\ inverse stop_bit_variants /\
  inverse parity_variants /\ inverse flow_control_variants /\ inverse process_data_length_variants.
Proof.
  split; [by_codes data_format_code|]. split; [by_codes ui_range_code|]. split; [by_codes i_range_code|]. split; [by_codes rtd_range_code|].
  split; [by_codes unit_code|]. split; [by_codes connection_code|]. split; [by_codes conversion_code|]. split; [by_codes filter_code|].
  split; [by_codes input_delay_code|]. split; [by_codes suppression_code|]. split; [by_codes tc_range_code|]. split; [by_codes cold_junction_code|].
  split; [by_codes mode_code|]. split; [by_codes data_bits_code|]. split; [by_codes baud_code|]. split; [by_codes stop_bit_code|].
  split; [by_codes parity_code|]. split; [by_codes flow_code|by_codes length_code].
Qed.

(** ** Decoding the codes *)
Lemma enum_back {A} (V : list (A * Z)) (code : A -> Z) x : inverse V -> to_u16_is V x (code x) -> enum_param V (code x) = Ok x.
Proof. intros [_ H] E. unfold enum_param. apply H in E. rewrite E. reflexivity. Qed.
Ltac back := intros x; apply enum_back; [apply C118_codes_all|destruct x; unfold to_u16_is; repeat (first [left; reflexivity|right])].
Lemma data_format_back : forall x, enum_param data_format_variants (data_format_code x) = Ok x. Proof. back. Qed.
Lemma ui_range_back : forall x, enum_param analog_ui_range_variants (ui_range_code x) = Ok x. Proof. back. Qed.
Lemma i_range_back : forall x, enum_param analog_i_range_variants (i_range_code x) = Ok x. Proof. back. Qed.
Lemma rtd_range_back : forall x, enum_param rtd_range_variants (rtd_range_code x) = Ok x. Proof. back. Qed.
Lemma unit_back : forall x, enum_param temperature_unit_variants (unit_code x) = Ok x. Proof. back. Qed.
Lemma connection_back : forall x, enum_param connection_type_variants (connection_code x) = Ok x. Proof. back. Qed.
Lemma conversion_back : forall x, enum_param conversion_time_variants (conversion_code x) = Ok x. Proof. back. Qed.
Lemma filter_back : forall x, enum_param input_filter_variants (filter_code x) = Ok x. Proof. back. Qed.
Lemma delay_back : forall x, enum_param input_delay_variants (input_delay_code x) = Ok x. Proof. back. Qed.
Lemma suppression_back : forall x, enum_param frequency_suppression_variants (suppression_code x) = Ok x. Proof. back. Qed.
Lemma tc_range_back : forall x, enum_param tc_range_variants (tc_range_code x) = Ok x. Proof. back. Qed.
Lemma cold_junction_back : forall x, enum_param cold_junction_variants (cold_junction_code x) = Ok x. Proof. back. Qed.
Lemma mode_back : forall x, enum_param operating_mode_variants (mode_code x) = Ok x. Proof. back. Qed.
Lemma data_bits_back : forall x, enum_param data_bits_variants (data_bits_code x) = Ok x. Proof. back. Qed.
Lemma baud_back : forall x, enum_param baud_rate_variants (baud_code x) = Ok x. Proof. back. Qed.
Lemma stop_bit_back : forall x, enum_param stop_bit_variants (stop_bit_code x) = Ok x. Proof. back. Qed.
Lemma parity_back : forall x, enum_param parity_variants (parity_code x) = Ok x. Proof. back. Qed.
Lemma flow_back : forall x, enum_param flow_control_variants (flow_code x) = Ok x. Proof. back. Qed.
Lemma length_back : forall x, enum_param process_data_length_variants (length_code x) = Ok x. Proof. back. Qed.
Lemma flag_back : forall b, bool_param (flag_code b) = Ok b. Proof. intros [|]; reflexivity. Qed.
Lemma char_back n : is_u8 n -> char_param n = Ok n.
Proof.
  intros H. unfold is_u8 in H. unfold char_param, as_u8. replace (0 <=? n) with true by lia. replace (n <=? 255) with true by lia. cbn [andb].
  rewrite Z.mod_small by lia. reflexivity.
Qed.
Lemma limit_back z : is_i16 z -> u16_as_i16 (limit_code z) = z.
Proof.
  unfold is_i16, limit_code, u16_as_i16. intros H. destruct (Z.ltb_spec z 0).
  - replace (z mod 65536) with (z + 65536) by (apply Z.mod_unique with (-1); lia). destruct (Z.ltb_spec (z + 65536) 32768); lia.
  - rewrite Z.mod_small by lia. destruct (Z.ltb_spec z 32768); lia.
Qed.

Ltac channels := repeat match goal with
  | H : length ?l = _ |- _ => is_var l; destruct l as [|? ?]; cbn [length] in H; [try discriminate H|try discriminate H]
  | H : S _ = S _ |- _ => apply eq_add_S in H
  | H : S _ = 0%nat |- _ => discriminate H
  | H : 0%nat = 0%nat |- _ => clear H
  end.
Ltac registers := repeat match goal with
  | H : Forall2 holds (_ :: _) _ |- _ => inversion H; clear H; subst
  | H : Forall2 holds [] _ |- _ => inversion H; clear H; subst
  | H : holds (Code _) _ |- _ => cbn [holds] in H; subst
  | H : Forall _ (_ :: _) |- _ => inversion H; clear H; subst
  | H : Forall _ [] |- _ => clear H
  end.
Lemma configured t m regs : set_up t m regs -> module_from_params t regs = Ok m.
Proof.
  intros (K & C & F).
  destruct t, m as [v ch|v ch| |ch|ch|ch|u ch|f ch|v f ch|f ch|u ch|ch|l ch|]; try contradiction; try destruct v; try contradiction;
    cbn [complete] in C; try match type of C with _ /\ _ => destruct C as [C C'] end; channels;
    cbn [params_registers map flat_map app] in F; registers.
  all: repeat match goal with H : is_i16 _ /\ is_i16 _ |- _ => destruct H | H : is_u8 _ /\ is_u8 _ |- _ => destruct H end.
  all: unfold module_from_params, di_parameters, do_parameters, no_parameters, ao_parameters, ao_diag_parameters, rtd_parameters, ai_ui_diag_parameters,
    ai_ui_parameters, ai_i_parameters, tc_parameters, fcnt_parameters, com_parameters.
  all: cbn -[enum_param bool_param char_param u16_as_i16 limit_code u16_to_analog_ui_value f32_of_Z flag_code input_delay_code data_format_code ui_range_code
    i_range_code rtd_range_code tc_range_code cold_junction_code unit_code connection_code conversion_code filter_code suppression_code length_code
    mode_code data_bits_code baud_code stop_bit_code parity_code flow_code].
  all: rewrite ?data_format_back, ?ui_range_back, ?i_range_back, ?rtd_range_back, ?unit_back, ?connection_back, ?conversion_back, ?filter_back,
    ?delay_back, ?suppression_back, ?tc_range_back, ?cold_junction_back, ?mode_back, ?data_bits_back, ?baud_back, ?stop_bit_back, ?parity_back,
    ?flow_back, ?length_back, ?flag_back, ?char_back, ?limit_back by assumption; cbn [bind].
  all: repeat match goal with p : ao_params |- _ => destruct p | p : ao_diag_params |- _ => destruct p end;
    cbn -[u16_to_analog_ui_value f32_of_Z] in *;
    repeat match goal with H : ?v = match u16_to_analog_ui_value _ _ _ with Some _ => _ | None => _ end |- _ => rewrite <- H; clear H end; try reflexivity.
  all: repeat match goal with p : rtd_params |- _ => destruct p | p : tc_params |- _ => destruct p | p : ai_ui_params |- _ => destruct p
    | p : ai_ui_diag_params |- _ => destruct p | p : ai_i_params |- _ => destruct p | p : com_params |- _ => destruct p end; reflexivity.
Qed.

(** ** Only such modules come from registers *)
Definition wrapped (z : Z) : Z := u16_as_i16 (z mod 65536).
Lemma wrapped_i16 z : is_i16 (wrapped z).
Proof. unfold wrapped, is_i16, u16_as_i16. pose proof (Z.mod_pos_bound z 65536 ltac:(lia)). destruct (_ <? _) eqn:E; lia. Qed.
Lemma wrapped_code z : limit_code (wrapped z) = z mod 65536.
Proof.
  unfold wrapped, limit_code, u16_as_i16. pose proof (Z.mod_pos_bound z 65536 ltac:(lia)). destruct (Z.ltb_spec (z mod 65536) 32768).
  - apply Z.mod_small. lia.
  - symmetry. apply Z.mod_unique with (-1); lia.
Qed.
Definition rtd_wrapped (p : rtd_params) : rtd_params :=
  mk_rtd (rtd_measurement_range p) (rtd_connection p) (rtd_conversion p) (rtd_channel_diagnostics p) (rtd_limit_monitoring p)
    (wrapped (rtd_high_limit p)) (wrapped (rtd_low_limit p)).
Definition tc_wrapped (p : tc_params) : tc_params :=
  mk_tc (tc_measurement_range p) (tc_cold_junction p) (tc_conversion p) (tc_channel_diagnostics p) (tc_limit_monitoring p)
    (wrapped (tc_high_limit p)) (wrapped (tc_low_limit p)).
Lemma fixed_length {A B} (f : A -> list B) k : (forall x, length (f x) = k) -> forall ch, length (flat_map f ch) = (k * length ch)%nat.
Proof. intros H ch. induction ch as [|x ch IH]; [cbn; lia|]. cbn [flat_map length]. rewrite app_length, H, IH. lia. Qed.
Lemma rtd_wrapped_registers u ch : params_registers (MRTD u (map rtd_wrapped ch)) = params_registers (MRTD u ch).
Proof.
  cbn [params_registers]. f_equal. induction ch as [|p ch IH]; [reflexivity|]. cbn [map flat_map]. rewrite IH. f_equal.
  unfold rtd_wrapped. cbn -[limit_code wrapped]. rewrite !wrapped_code. reflexivity.
Qed.
Lemma tc_wrapped_registers u ch : params_registers (MTC u (map tc_wrapped ch)) = params_registers (MTC u ch).
Proof.
  cbn [params_registers]. f_equal. induction ch as [|p ch IH]; [reflexivity|]. cbn [map flat_map]. rewrite IH. f_equal.
  unfold tc_wrapped. cbn -[limit_code wrapped]. rewrite !wrapped_code. reflexivity.
Qed.
Lemma only_configured t regs m bounds : Forall is_u16 regs -> param_bounds t = Some bounds -> length regs = length bounds ->
  module_from_params t regs = Ok m -> set_up t m regs.
Proof.
  intros U B L M. destruct (C10_decoded _ _ _ U M) as (b & B' & R & K & F). rewrite B in B'. apply Some_inj in B'. subst b.
  rewrite <- L, firstn_all in F. split; [exact K|]. split; [|exact F].
  pose proof F as N. apply Forall2_length in N. rewrite L in N.
  destruct t; try discriminate B; cbn [param_bounds] in B; apply Some_inj in B; subst bounds;
    destruct m as [v ch|v ch| |ch|ch|ch|u ch|f ch|v f ch|f ch|u ch|ch|l ch|]; try contradiction; try destruct v; try contradiction; cbn [complete]; try exact I;
    cbn [params_registers length] in N;
    rewrite ?map_length in N; 
    try match type of N with context [flat_map ?f ch] =>
      first [rewrite (fixed_length f 2 (fun _ => eq_refl)) in N|rewrite (fixed_length f 3 (fun _ => eq_refl)) in N|rewrite (fixed_length f 4 (fun _ => eq_refl)) in N
            |rewrite (fixed_length f 5 (fun _ => eq_refl)) in N|rewrite (fixed_length f 7 (fun _ => eq_refl)) in N|rewrite (fixed_length f 9 (fun _ => eq_refl)) in N] end;
    cbn [length app repeat concat] in N; try lia.
  - destruct ch as [|p [|? ?]]; try (cbn [length] in N; lia). split; [reflexivity|].
    cbn [params_registers flat_map app] in F. registers. cbn [in_range] in R. apply Forall_cons; [|constructor].
    unfold is_u16 in *. unfold is_u8. lia.
  - assert (N4 : length ch = 4%nat) by lia. split; [exact N4|].
    assert (S : set_up UR20_4AI_RTD_DIAG (MRTD u (map rtd_wrapped ch)) regs).
    { split; [exact I|]. split; [|rewrite rtd_wrapped_registers; exact F]. cbn [complete]. rewrite map_length. split; [exact N4|].
      apply Forall_map, Forall_forall. intros p _. split; apply wrapped_i16. }
    pose proof S as (_ & (_ & Q) & _). apply configured in S. rewrite M in S. apply Ok_inj in S. injection S as S. rewrite S. exact Q.
  - assert (N4 : length ch = 4%nat) by lia. split; [exact N4|].
    assert (S : set_up UR20_4AI_TC_DIAG (MTC u (map tc_wrapped ch)) regs).
    { split; [exact I|]. split; [|rewrite tc_wrapped_registers; exact F]. cbn [complete]. rewrite map_length. split; [exact N4|].
      apply Forall_map, Forall_forall. intros p _. split; apply wrapped_i16. }
    pose proof S as (_ & (_ & Q) & _). apply configured in S. rewrite M in S. apply Ok_inj in S. injection S as S. rewrite S. exact Q.
Qed.
Lemma C118_module_all t bounds regs m : param_bounds t = Some bounds -> length regs = length bounds -> Forall is_u16 regs ->
  (module_from_params t regs = Ok m <-> set_up t m regs).
Proof. intros B L U. split; [intros M; exact (only_configured _ _ _ _ U B L M)|exact (configured t m regs)]. Qed.

Lemma C118_rack_all types ms params offsets : length ms = length types -> length params = length types -> length offsets = (2 * length types)%nat ->
  (forall i t m regs, nth_error types i = Some t -> nth_error ms i = Some m -> nth_error params i = Some regs -> set_up t m regs) ->
  exists c, coupler_new (mk_config types offsets params) = Ok c /\ c_modules c = ms.
Proof.
  intros Lm Lp Lo H. destruct C11_all as (_ & _ & New & _).
  destruct (New (mk_config types offsets params)) as (c & Hc & Lc & Each & _); [exact Lp|exact Lo| |].
  - cbn. intros i t regs Ht Hr. destruct (nth_error ms i) as [m|] eqn:Hm.
    + exists m. apply configured. exact (H _ _ _ _ Ht Hm Hr).
    + apply nth_error_None in Hm. assert (i < length types)%nat by (apply nth_error_Some; congruence). lia.
  - cbn in Lc, Each. exists c. split; [exact Hc|]. apply nth_error_ext. intros i.
    destruct (nth_error types i) as [t|] eqn:Ht.
    + assert (i < length types)%nat by (apply nth_error_Some; congruence).
      destruct (nth_error params i) as [regs|] eqn:Hr; [|apply nth_error_None in Hr; lia].
      destruct (nth_error ms i) as [m|] eqn:Hm; [|apply nth_error_None in Hm; lia].
      destruct (Each _ _ _ Ht Hr) as (m' & E & M). rewrite E. rewrite (configured _ _ _ (H _ _ _ _ Ht Hm Hr)) in M. apply Ok_inj in M. congruence.
    + apply nth_error_None in Ht. rewrite (proj2 (nth_error_None _ _)), (proj2 (nth_error_None _ _)); [reflexivity|lia|lia].
Qed.
