(** Proofs about comparing shown values (C80). *)
From Coq Require Import ZArith Reals List Bool Lia Lra SpecFloat Permutation ZifyBool ZifyNat.
From Flocq Require Import Core.Core IEEE754.BinarySingleNaN.
From Verif Require Import Base F32 Types Lib Util Digital Analog Fcnt Com Fbc Facts SpecCodec SpecCoupler SpecAnalog SpecResolution SpecEqual
  ProofsFloat ProofsAnalog ProofsResolution ProofsImage ProofsLoop ProofsCycle.
Import ListNotations.
Local Open Scope Z_scope.

(** *** Numbers for which [==] is identity *)

Definition clean (x : f32) : Prop := f32_valid x = true /\ finite x /\ x <> S754_zero true.
Definition clean_value (v : channel_value) : Prop := match v with Decimal32 x => clean x | _ => True end.

Lemma clean_equal x y : clean x -> clean y -> (equal x y <-> x = y).
Proof.
  intros (Vx & Fx & Nx) (Vy & Fy & Ny). rewrite (equal_real x y Vx Fx Vy Fy). split; [|intros ->; reflexivity].
  intros E. destruct (finite_valid_b x Vx Fx) as (bx & Ex & Bx). destruct (finite_valid_b y Vy Fy) as (b & Ey & By).
  assert (HB : B2R bx = B2R b) by (rewrite <- !real_B2R, Ex, Ey; exact E).
  destruct bx as [sx|sx| |sx mx ex px], b as [sy|sy| |sy my ey py]; try discriminate.
  - rewrite <- Ex, <- Ey in *. destruct sx; [elim Nx; reflexivity|]. destruct sy; [elim Ny; reflexivity|]. reflexivity.
  - exfalso. cbn [B2R] in HB. symmetry in HB. apply eq_0_F2R in HB. destruct sy; discriminate.
  - exfalso. cbn [B2R] in HB. apply eq_0_F2R in HB. destruct sx; discriminate.
  - rewrite <- Ex, <- Ey. f_equal. apply B2R_inj; [reflexivity|reflexivity|exact HB].
Qed.

Lemma clean_same v w : clean_value v -> clean_value w -> (same_value v w <-> v = w).
Proof.
  intros Hv Hw. destruct v; try (cbn [same_value]; reflexivity). destruct w; try (cbn [same_value]; split; intros E; exact E).
  cbn [same_value clean_value] in *. rewrite (clean_equal _ _ Hv Hw). split; congruence.
Qed.

(** *** What the decoding functions give *)

Lemma measured_clean m k code d x d0 : measures m k = Some code -> is_u16 d -> shows m k d (Decimal32 x) ->
  is_u16 d0 -> shows m k d0 (Decimal32 (S754_zero false)) -> clean x.
Proof.
  intros Hm Hd S Hd0 S0. destruct (measures_scale m k code Hm) as (b & s & _ & HS).
  destruct (HS d _ Hd S) as [(y & E & (V & F & _))|(E & _)]; [|discriminate]. assert (y = x) as -> by congruence.
  split; [exact V|]. split; [exact F|]. intros ->.
  destruct (order_all m k code d d0 _ _ Hm Hd Hd0 S S0) as (_ & _ & _ & H). assert (d = d0) as -> by (apply H; reflexivity).
  pose proof (shown_same _ _ _ _ _ _ Hm S S0). congruence.
Qed.

Lemma analog_clean d r f : is_u16 d -> clean_value (analog_value (u16_to_analog_ui_value d r f)).
Proof.
  intros Hd. set (p := mk_ai_ui f r). set (m := MAIUI V_4AI_UI_16 FS_Disabled [p; p; p; p]).
  assert (S : forall w, shows m 0 w (analog_value (u16_to_analog_ui_value w r f))).
  { intros w. exists [w; 0; 0; 0]. eexists. split; [reflexivity|]. split; reflexivity. }
  destruct (u16_to_analog_ui_value d r f) as [x|] eqn:E; [|exact I]. cbn [analog_value clean_value].
  pose proof (S d) as Sd. rewrite E in Sd. cbn [analog_value] in Sd.
  set (d0 := match r, f with
             | UI_mA4To20, S5 => 61440 | UI_V1To5, S5 => 61440 | UI_V2To10, S5 => 61440
             | UI_mA4To20, S7 => 58624 | UI_V1To5, S7 => 58624 | UI_V2To10, S7 => 58624
             | _, _ => 0 end).
  assert (E0 : r <> UI_Disabled -> u16_to_analog_ui_value d0 r f = Some (S754_zero false)).
  { intros Hr. destruct r, f; try (elim Hr; reflexivity); vm_compute; reflexivity. }
  assert (Hr : r <> UI_Disabled) by (intros ->; discriminate).
  specialize (S d0). rewrite (E0 Hr) in S. cbn [analog_value] in S.
  apply (measured_clean m 0 signed d x d0); [|exact Hd|exact Sd| |exact S].
  - subst m p. cbn [measures analog_input nth_error option_map aiu_range aiu_format]. destruct r; try reflexivity. elim Hr. reflexivity.
  - unfold is_u16. subst d0. destruct r, f; lia.
Qed.

Lemma current_clean d r f : is_u16 d -> clean_value (ai_i_value d r f).
Proof.
  intros Hd. pose proof (analog_clean d (current_range r) f Hd) as H. destruct r; exact H.
Qed.

Lemma rtd_clean d r : is_u16 d -> clean_value (analog_value (u16_to_rtd_value d r)).
Proof.
  intros Hd. set (p := mk_rtd r TwoWire CT_ms80 false false 0 0). set (m := MRTD Celsius [p; p; p; p]).
  assert (S : forall w, shows m 0 w (analog_value (u16_to_rtd_value w r))).
  { intros w. exists [w; 0; 0; 0]. eexists. split; [reflexivity|]. split; reflexivity. }
  destruct (u16_to_rtd_value d r) as [x|] eqn:E; [|exact I]. cbn [analog_value clean_value].
  pose proof (S d) as Sd. rewrite E in Sd. cbn [analog_value] in Sd.
  assert (Hr : r <> RTD_Disabled) by (intros ->; discriminate).
  assert (E0 : u16_to_rtd_value 0 r = Some (S754_zero false)).
  { destruct r; try (elim Hr; reflexivity); vm_compute; reflexivity. }
  specialize (S 0). rewrite E0 in S. cbn [analog_value] in S.
  assert (M : exists code, measures m 0 = Some code).
  { subst m p. cbn [measures nth_error rtd_measurement_range]. destruct r; cbn [full_resistance]; eauto. elim Hr. reflexivity. }
  destruct M as (code & M). apply (measured_clean m 0 code d x 0 M Hd Sd); [|exact S]. unfold is_u16. lia.
Qed.

Lemma thermal_clean d r x : is_u16 d -> u16_to_thermal_value d r = Some x -> clean x.
Proof.
  intros Hd E. set (p := mk_tc r CJ_Internal CT_ms80 false false 0 0). set (m := MTC Celsius [p; p; p; p]).
  assert (Hr : r <> TC_Disabled) by (intros ->; discriminate).
  assert (S : forall w y, u16_to_thermal_value w r = Some y -> shows m 0 w (Decimal32 y)).
  { intros w y Ew. exists [w; 0; 0; 0]. eexists. split; [reflexivity|]. split; [reflexivity|].
    cbn [combine map nth_error]. unfold tc_is_enabled. subst p. cbn [tc_measurement_range]. rewrite Ew. destruct r; try reflexivity. elim Hr. reflexivity. }
  assert (E0 : u16_to_thermal_value 0 r = Some (S754_zero false)).
  { destruct r; try (elim Hr; reflexivity); vm_compute; reflexivity. }
  apply (measured_clean m 0 signed d x 0); [|exact Hd|exact (S d x E)|unfold is_u16; lia|exact (S 0 _ E0)].
  subst m p. cbn [measures nth_error tc_measurement_range]. destruct r; try reflexivity. elim Hr. reflexivity.
Qed.

(** *** Rows *)

Lemma traverse_each {A B} (f : A -> outcome B) (P : B -> Prop) l r :
  (forall a b, In a l -> f a = Ok b -> P b) -> traverse f l = Ok r -> Forall P r.
Proof.
  intros Hf H. apply traverse_ok in H. induction H as [|a b l r Hab H IH]; constructor.
  - apply (Hf a b); [left; reflexivity|exact Hab].
  - apply IH. intros x y Hx. apply Hf. right. exact Hx.
Qed.

Lemma index_u16 data i d : Forall is_u16 data -> index data i = Ok d -> is_u16 d.
Proof. intros H E. apply index_ok, nth_error_In in E. rewrite Forall_forall in H. exact (H d E). Qed.

Lemma clean_repeat n : Forall clean_value (repeat VNone n).
Proof. induction n; cbn [repeat]; constructor; [exact I|assumption]. Qed.

Ltac channel Hu E := apply bind_ok in E; destruct E as (d & Ed & E); apply bind_ok in E; destruct E as (p & _ & E);
  apply Ok_inj in E; subst; apply index_u16 in Ed; [|exact Hu].

Lemma input_clean m raw vs : Forall is_u16 raw -> mod_process_input_data m raw = Ok vs -> Forall clean_value vs.
Proof.
  intros Hu H. destruct m as [v ch|v ch| |ch|ch|ch|u ch|f ch|v f ch|f ch|u ch|ch|l ch| ];
    cbn [mod_process_input_data] in H; unfold default_process_data in H.
  all: try (destruct raw; [|discriminate]; apply Ok_inj in H; subst vs; apply clean_repeat).
  - unfold di_process_input_data in H. destruct (negb _); [discriminate|]. apply bind_ok in H. destruct H as (w & _ & H).
    apply Ok_inj in H. subst vs. apply Forall_forall. intros x Hx. apply in_map_iff in Hx. destruct Hx as (k & <- & _). exact I.
  - unfold rtd_process_input_data in H. destruct (negb _); [discriminate|]. destruct (negb _); [discriminate|].
    eapply traverse_each; [|exact H]. intros i w _ E. channel Hu E. apply rtd_clean. exact Ed.
  - unfold ai_ui_diag_process_input_data in H. destruct (negb _); [discriminate|]. destruct (negb _); [discriminate|].
    eapply traverse_each; [|exact H]. intros i w _ E. channel Hu E. apply analog_clean. exact Ed.
  - unfold ai_ui_process_input_data in H. destruct (negb _); [discriminate|]. destruct (negb _); [discriminate|].
    eapply traverse_each; [|exact H]. intros i w _ E. channel Hu E. apply analog_clean. exact Ed.
  - unfold ai_i_process_input_data in H. destruct (negb _); [discriminate|]. destruct (negb _); [discriminate|].
    eapply traverse_each; [|exact H]. intros i w _ E. channel Hu E. apply current_clean. exact Ed.
  - unfold tc_process_input_data in H. destruct (negb _); [discriminate|]. apply Ok_inj in H. subst vs.
    apply Forall_forall. intros x Hx. apply in_map_iff in Hx. destruct Hx as ((d & p) & <- & Hin). apply in_combine_l in Hin.
    rewrite Forall_forall in Hu. specialize (Hu d Hin). destruct (tc_is_enabled p); [|exact I].
    destruct (u16_to_thermal_value d (tc_measurement_range p)) as [y|] eqn:E; [|exact I]. exact (thermal_clean _ _ _ Hu E).
  - unfold fcnt_process_input_data in H. destruct (negb _); [discriminate|]. destruct (negb _); [discriminate|].
    eapply traverse_each; [|exact H]. intros i w _ E. cbv beta zeta in E.
    do 5 (apply bind_ok in E; destruct E as (? & _ & E)). apply Ok_inj in E. subst w. exact I.
  - unfold com_process_input_data in H. apply bind_ok in H. destruct H as (i & _ & H). apply Ok_inj in H. subst vs. repeat constructor.
  - unfold sil_process_input_data in H. destruct (negb _); [discriminate|]. do 2 (apply bind_ok in H; destruct H as (? & _ & H)).
    apply Ok_inj in H. subst vs. constructor; [exact I|constructor].
Qed.

Lemma output_clean m raw vs : Forall is_u16 raw -> mod_process_output_data m raw = Ok vs -> Forall clean_value vs.
Proof.
  intros Hu H.
  assert (U : forall i w, In (i, w) (enumerate raw) -> is_u16 w).
  { intros i w Hin. apply In_nth_error in Hin. destruct Hin as (n & Hn). rewrite nth_error_enumerate in Hn.
    destruct (nth_error raw n) as [y|] eqn:E; [|discriminate]. cbn [option_map] in Hn. apply Some_inj, pair_inj in Hn. destruct Hn as [_ <-].
    apply nth_error_In in E. rewrite Forall_forall in Hu. exact (Hu y E). }
  destruct m as [v ch|v ch| |ch|ch|ch|u ch|f ch|v f ch|f ch|u ch|ch|l ch| ];
    cbn [mod_process_output_data] in H; unfold default_process_data in H.
  all: try (destruct raw; [|discriminate]; apply Ok_inj in H; subst vs; apply clean_repeat).
  1-3: unfold do_process_output_data in H; destruct (negb _); [discriminate|];
    apply bind_ok in H; destruct H as (w & _ & H); apply Ok_inj in H; subst vs;
    apply Forall_forall; intros x Hx; apply in_map_iff in Hx; destruct Hx as (k & <- & _); exact I.
  - unfold ao_process_output_data in H. destruct (negb _); [discriminate|].
    eapply traverse_each; [|exact H]. intros (i & w) b Hin E. apply bind_ok in E. destruct E as (p & _ & E). apply Ok_inj in E. subst b.
    apply analog_clean. exact (U i w Hin).
  - unfold ao_diag_process_output_data in H. destruct (negb _); [discriminate|].
    eapply traverse_each; [|exact H]. intros (i & w) b Hin E. apply bind_ok in E. destruct E as (p & _ & E). apply Ok_inj in E. subst b.
    apply analog_clean. exact (U i w Hin).
  - unfold ai_ui_diag_process_output_data in H. destruct raw; [|discriminate]. apply Ok_inj in H. subst vs. repeat constructor.
  - unfold fcnt_process_output_data in H. destruct (negb _); [discriminate|].
    eapply traverse_each; [|exact H]. intros i w _ E. cbv beta zeta in E.
    do 3 (apply bind_ok in E; destruct E as (? & _ & E)). apply Ok_inj in E. subst w. exact I.
  - unfold com_process_output_data in H. apply bind_ok in H. destruct H as (o & _ & H). apply Ok_inj in H. subst vs. repeat constructor.
Qed.

Definition clean_rows (rows : list (list channel_value)) : Prop := Forall (Forall clean_value) rows.

Lemma input_rows_clean prof c data rows : coupler_ok c -> Forall is_u16 data -> process_input_data prof (infos c) data = Ok rows -> clean_rows rows.
Proof.
  intros Hc Hd H. rewrite process_input_rows in H. eapply traverse_each; [|exact H]. intros (m & o) row Hin E. unfold input_row in E. cbn [fst snd] in E.
  apply In_nth_error in Hin. destruct Hin as (i & Hi). apply infos_at in Hi. destruct (ok_off c Hc i m o Hi) as (Ho & _).
  destruct (mo_input o) as [off|] eqn:Eo; [|apply Ok_inj in E; subst row; apply clean_repeat].
  apply bind_ok in E. destruct E as (raw & Hp & E). cbn [fst snd] in *.
  destruct (prepare_any _ _ _ _ _ _ (Ho off Eo) Hd Hp) as (_ & Hu). exact (input_clean _ _ _ Hu E).
Qed.

Lemma output_rows_clean prof c data rows : coupler_ok c -> Forall is_u16 data -> process_output_data prof (infos c) data = Ok rows -> clean_rows rows.
Proof.
  intros Hc Hd H. rewrite process_output_rows in H. eapply traverse_each; [|exact H]. intros (m & o) row Hin E. unfold output_row in E. cbn [fst snd] in E.
  apply In_nth_error in Hin. destruct Hin as (i & Hi). apply infos_at in Hi. destruct (ok_off c Hc i m o Hi) as (_ & Ho).
  destruct (mo_output o) as [off|] eqn:Eo; [|apply Ok_inj in E; subst row; apply clean_repeat].
  apply bind_ok in E. destruct E as (raw & Hp & E). cbn [fst snd] in *.
  destruct (prepare_any _ _ _ _ _ _ (Ho off Eo) Hd Hp) as (_ & Hu). exact (output_clean _ _ _ Hu E).
Qed.

(** *** Cycles *)

Definition clean_entries (e : list (nat * channel_value)) : Prop := Forall (fun p => clean_value (snd p)) e.

Lemma clean_insert k v e : clean_value v -> clean_entries e -> clean_entries (map_insert Nat.eqb k v e).
Proof.
  intros Hv He. unfold map_insert. constructor; [exact Hv|]. unfold clean_entries in *. rewrite Forall_forall in *. intros x Hx.
  apply He. unfold map_remove in Hx. apply filter_In in Hx. tauto.
Qed.

Lemma step_clean prof k iv ov s s' : next_step prof k iv ov s = Ok s' -> clean_entries (l_in_bytes s) -> clean_entries (l_out_bytes s) ->
  clean_entries (l_in_bytes s') /\ clean_entries (l_out_bytes s').
Proof.
  unfold next_step. intros H Hi Ho. destruct (map_get Nat.eqb k (l_processors s)) as [p|].
  - apply bind_ok in H. destruct H as (i0 & _ & H). destruct i0; try (apply Ok_inj in H; subst s'; split; assumption).
    apply bind_ok in H. destruct H as (o0 & _ & H). destruct o0; try (apply Ok_inj in H; subst s'; split; assumption).
    cbv zeta in H. apply bind_ok in H. destruct H as ((p1 & out) & _ & H). apply bind_ok in H. destruct H as (nx & _ & H).
    apply Ok_inj in H. subst s'. cbn [l_in_bytes l_out_bytes]. split.
    + destruct (_ && _); repeat apply clean_insert; try exact I; exact Hi.
    + destruct (_ && _); repeat apply clean_insert; try exact I; exact Ho.
  - apply bind_ok in H. destruct H as ((w & nx) & _ & H). apply Ok_inj in H. subst s'. cbn [l_in_bytes l_out_bytes]. split; assumption.
Qed.

Lemma loop_clean prof l : forall s s', next_loop prof l s = Ok s' -> clean_entries (l_in_bytes s) -> clean_entries (l_out_bytes s) ->
  clean_entries (l_in_bytes s') /\ clean_entries (l_out_bytes s').
Proof.
  induction l as [|(k & (iv & ov)) l IH]; intros s s' H Hi Ho; cbn [next_loop] in H.
  - apply Ok_inj in H. subst s'. split; assumption.
  - apply bind_ok in H. destruct H as (s1 & H1 & H). destruct (step_clean _ _ _ _ _ _ H1 Hi Ho) as [A B]. exact (IH _ _ H A B).
Qed.

Lemma clean_cell rows : clean_rows rows <-> forall i j v, cell rows i j = Some v -> clean_value v.
Proof.
  unfold clean_rows, cell. rewrite Forall_forall. split.
  - intros H i j v E. destruct (nth_error rows i) as [row|] eqn:Er; [|discriminate]. apply nth_error_In in Er, E.
    specialize (H row Er). rewrite Forall_forall in H. exact (H v E).
  - intros H row Hr. apply Forall_forall. intros v Hv. apply In_nth_error in Hr, Hv. destruct Hr as (i & Hi), Hv as (j & Hj).
    apply (H i j v). rewrite Hi. exact Hj.
Qed.

Lemma patch_clean e : forall rows rows', clean_entries e -> clean_rows rows -> patch e rows = Ok rows' -> clean_rows rows'.
Proof.
  induction e as [|(k & v) e IH]; intros rows rows' He Hr H; cbn [patch] in H.
  - apply Ok_inj in H. subst rows'. exact Hr.
  - apply bind_ok in H. destruct H as (rows1 & Hs & H). inversion He as [|x y Hv He' E]; subst x y. cbn [snd] in Hv.
    apply (IH rows1 rows' He'); [|exact H]. rewrite clean_cell in *. intros i j w E.
    destruct (store2_ok _ _ _ _ _ Hs) as (_ & F1 & r0 & r1 & N0 & N1 & _ & _ & C1). unfold cell in E, Hr.
    destruct (Nat.eq_dec i k) as [->|Hi].
    + rewrite N1, C1 in E. destruct (Nat.eqb j 0); [apply Some_inj in E; subst w; exact Hv|]. apply (Hr k j w). rewrite N0. exact E.
    + rewrite (F1 i Hi) in E. exact (Hr i j w E).
Qed.

Lemma clean_order (ord : list (nat * channel_value) -> list (nat * channel_value)) e : hash_order ord -> clean_entries e -> clean_entries (ord e).
Proof. intros Ho He. unfold clean_entries in *. rewrite Forall_forall in *. intros x Hx. apply He. apply (Permutation_in x (Permutation_sym (Ho e)) Hx). Qed.

Lemma next_clean prof oi oo c input output c' r : coupler_ok c -> hash_order oi -> hash_order oo -> Forall is_u16 input -> Forall is_u16 output ->
  next prof oi oo c input output = (c', r) -> clean_rows (inputs c) -> clean_rows (outputs c) -> clean_rows (inputs c') /\ clean_rows (outputs c').
Proof.
  intros Hc Hoi Hoo Hui Huo H Hi Ho. unfold inputs, outputs in *. unfold next in H.
  destruct (process_input_data prof (infos c) input) as [ins|e|p] eqn:Ei.
  2,3: apply pair_inj in H; destruct H as [<- _]; split; assumption.
  pose proof (input_rows_clean _ _ _ _ Hc Hui Ei) as Ci.
  destruct (process_output_data prof (infos c) output) as [outs|e|p] eqn:Eo.
  2,3: apply pair_inj in H; destruct H as [<- _]; split; assumption.
  pose proof (output_rows_clean _ _ _ _ Hc Huo Eo) as Co.
  destruct (next_loop _ _ _) as [s|e|p] eqn:El.
  2,3: apply pair_inj in H; destruct H as [<- _]; split; assumption.
  apply loop_clean in El; [|constructor|constructor]. destruct El as [Li Lo].
  destruct (patch (oi (l_in_bytes s)) ins) as [ins'|e|p] eqn:Pi.
  2,3: apply pair_inj in H; destruct H as [<- _]; split; assumption.
  destruct (patch (oo (l_out_bytes s)) outs) as [outs'|e|p] eqn:Po.
  2,3: apply pair_inj in H; destruct H as [<- _]; split; assumption.
  apply pair_inj in H. destruct H as [<- _]. cbn [c_in_values c_out_values].
  split; [exact (patch_clean _ _ _ (clean_order _ _ Hoi Li) Ci Pi)|exact (patch_clean _ _ _ (clean_order _ _ Hoo Lo) Co Po)].
Qed.

Lemma reachable_clean prof c : reachable prof c -> clean_rows (inputs c) /\ clean_rows (outputs c).
Proof.
  intros H. induction H as [cfg c Hcfg H|c a v H IH Hv|c i size H IH|c i buf H IH Hb|c oi oo input output c' r H IH Hoi Hoo Hui Huo Hn Hr].
  - unfold coupler_new in H. apply bind_ok in H. destruct H as (? & _ & H). apply bind_ok in H. destruct H as (? & _ & H).
    apply bind_ok in H. destruct H as ((ms & ps) & _ & H). apply Ok_inj in H. subst c. split; constructor.
  - unfold set_output. destruct (is_valid_addr c a) as [[]|e|p]; exact IH.
  - unfold coupler_read. destruct (map_get _ _ _) as [p|]; [|exact IH]. destruct (processor_read p size) as (p' & b). exact IH.
  - unfold coupler_write. destruct (map_get _ _ _) as [p|]; [|exact IH]. destruct (processor_write p buf) as (p' & b). exact IH.
  - exact (next_clean _ _ _ _ _ _ _ _ (reachable_ok _ _ H) Hoi Hoo Hui Huo Hn (proj1 IH) (proj2 IH)).
Qed.

(** *** The statements *)

Lemma shown_clean prof c v : reachable prof c -> shown_by c v -> clean_value v.
Proof.
  intros H (i & j & [E|E]); destruct (reachable_clean _ _ H) as [Hi Ho].
  - rewrite clean_cell in Hi. exact (Hi i j v E).
  - rewrite clean_cell in Ho. exact (Ho i j v E).
Qed.

Lemma C80_value_all : forall prof prof' c c' v w, reachable prof c -> reachable prof' c' -> shown_by c v -> shown_by c' w ->
  (same_value v w <-> v = w).
Proof. intros prof prof' c c' v w Hc Hc' Hv Hw. exact (clean_same v w (shown_clean _ _ _ Hc Hv) (shown_clean _ _ _ Hc' Hw)). Qed.

Lemma clean_row r r' : Forall clean_value r -> Forall clean_value r' -> (Forall2 same_value r r' <-> r = r').
Proof.
  intros H H'. split.
  - intros E. induction E as [|v w r r' Hvw E IH]; [reflexivity|]. inversion H; inversion H'; subst.
    rewrite clean_same in Hvw by assumption. subst w. rewrite IH by assumption. reflexivity.
  - intros <-. induction H as [|v r Hv H IH]; constructor.
    + apply clean_same; [exact Hv|exact Hv|reflexivity].
    + apply IH. inversion H'; assumption.
Qed.

Lemma clean_table t u : clean_rows t -> clean_rows u -> (same_table t u <-> t = u).
Proof.
  intros H H'. unfold same_table, clean_rows in *. split.
  - intros E. induction E as [|v w r r' Hvw E IH]; [reflexivity|]. inversion H; inversion H'; subst.
    rewrite clean_row in Hvw by assumption. subst w. rewrite IH by assumption. reflexivity.
  - intros <-. induction H as [|v r Hv H IH]; constructor.
    + apply clean_row; [exact Hv|exact Hv|reflexivity].
    + apply IH. inversion H'; assumption.
Qed.

Lemma C80_tables_all : forall prof prof' c c', reachable prof c -> reachable prof' c' ->
  (same_table (inputs c) (inputs c') <-> inputs c = inputs c') /\ (same_table (outputs c) (outputs c') <-> outputs c = outputs c') /\
  (same_table (inputs c) (outputs c') <-> inputs c = outputs c').
Proof.
  intros prof prof' c c' H H'. destruct (reachable_clean _ _ H) as [A B], (reachable_clean _ _ H') as [A' B'].
  split; [|split]; apply clean_table; assumption.
Qed.

Lemma C80_number_all : forall prof c x, reachable prof c -> shown_by c (Decimal32 x) -> finite x /\ x <> S754_zero true /\ equal x x.
Proof.
  intros prof c x H S. pose proof (shown_clean _ _ _ H S) as C. pose proof C as (V & F & N). split; [exact F|]. split; [exact N|].
  apply (clean_equal x x C C). reflexivity.
Qed.
