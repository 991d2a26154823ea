(** Lemmas for C76. *)
From Coq Require Import String ZArith List Bool Lia ZifyBool ZifyNat.
From Verif Require Import Base Facts F32 Types Lib Util Digital Analog Fcnt Com Fbc SpecCatalogue SpecParams SpecCodec SpecSerial SpecCoupler SpecImage
  SpecAnalog SpecOutcome SpecErrors ProofsCatalogue ProofsParams ProofsNew ProofsCodec ProofsFcnt ProofsSerialCodec ProofsModule ProofsImage
  ProofsLayout ProofsLoop ProofsCycle ProofsCoupler ProofsAnalog ProofsIdle ProofsOutcome.
Import ListNotations.
Local Open Scope Z_scope.
Ltac Zify.zify_post_hook ::= Z.div_mod_to_equations.

(** ** Texts *)

Lemma texts_all : forall e1 e2, error_display e1 = error_display e2 -> e1 = e2.
Proof.
  intros e1 e2 H. destruct e1, e2; try reflexivity; cbn [error_display String.append] in H; try discriminate.
  congruence.
Qed.

Lemma described_all : forall e, error_display e = match e with Io text => String.append "I/O error: " text | _ => error_description e end.
Proof. intros []; reflexivity. Qed.

(** ** The module list and start *)

Lemma traverse_some_err {A B} (f : A -> outcome B) e l : traverse f l = Err e -> exists a, In a l /\ f a = Err e.
Proof.
  intros H. apply traverse_err in H. destruct H as (l1 & a & l2 & r & -> & _ & H). exists a. split; [apply in_elt|exact H].
Qed.

Lemma list_errors_all : forall regs e, module_list_from_registers regs = Err e -> decode_list_error e.
Proof.
  intros regs e H. unfold module_list_from_registers in H. destruct (_ || _); [left; congruence|].
  apply traverse_some_err in H. destruct H as (i & _ & H). unfold index in H.
  destruct (nth_error regs (i * 2)); cbn [bind] in H; [|discriminate].
  destruct (nth_error regs (i * 2 + 1)); cbn [bind] in H; [|discriminate].
  match type of H with try_from_u32 ?x = _ => destruct (try_from_u32_cases x) as [[t Ht]|Hn] end; [congruence|right; congruence].
Qed.

Lemma params_errors t regs e : Forall is_u16 regs -> module_from_params t regs = Err e -> e = BufferLength \/ e = ChannelParameter.
Proof.
  intros Hu H. destruct (param_bounds t) as [b|] eqn:Hb.
  - destruct (C09_partial_all t b regs Hb Hu) as (H1 & H2 & H3 & H4).
    destruct (Nat.lt_ge_cases (length regs) (length b)) as [Hl|Hl]; [left; rewrite H1 in H by exact Hl; congruence|].
    assert (D1 : t = UR20_16DO_P \/ t <> UR20_16DO_P) by (destruct t; (left; reflexivity) || (right; discriminate)).
    assert (D2 : t = UR20_PF_O_1DI_SIL \/ t <> UR20_PF_O_1DI_SIL) by (destruct t; (left; reflexivity) || (right; discriminate)).
    assert (D3 : t = UR20_4AI_TC_DIAG \/ t <> UR20_4AI_TC_DIAG) by (destruct t; (left; reflexivity) || (right; discriminate)).
    assert (D : t = UR20_16DO_P \/ t = UR20_PF_O_1DI_SIL \/ (t <> UR20_16DO_P /\ t <> UR20_PF_O_1DI_SIL)) by tauto.
    assert (HS : t = UR20_16DO_P \/ t = UR20_PF_O_1DI_SIL -> e = BufferLength \/ e = ChannelParameter).
    { intros Ht. destruct (H3 Ht) as [N C]. destruct regs as [|r regs].
      - destruct (N eq_refl) as (m & Hm). congruence.
      - rewrite C in H by discriminate. left. congruence. }
    destruct D as [D|[D|[N1 N2]]]; [apply HS; auto|apply HS; auto|].
    destruct (Nat.lt_ge_cases (length regs) 36) as [Hs|Hs].
    + destruct (H2 N1 N2 (or_intror Hs) Hl) as (R1 & R2 & _).
      destruct (in_range_dec b regs) as [R|R]; [destruct (R1 R) as (m & Hm); congruence|right; rewrite R2 in H by exact R; congruence].
    + destruct D3 as [D3|D3].
      * destruct (H4 D3 Hs) as [E|E]; [congruence|right; congruence].
      * destruct (H2 N1 N2 (or_introl D3) Hl) as (R1 & R2 & _).
        destruct (in_range_dec b regs) as [R|R]; [destruct (R1 R) as (m & Hm); congruence|right; rewrite R2 in H by exact R; congruence].
  - exfalso. destruct t; try discriminate Hb; discriminate H.
Qed.

Lemma build_errors_all : forall cfg e, rust_config cfg -> coupler_new cfg = Err e -> build_error e.
Proof.
  intros cfg e [_ Hu] H. unfold coupler_new in H. unfold validate in H.
  destruct (negb (Nat.eqb (length (cfg_modules cfg)) _)); cbn [bind] in H; [left; congruence|].
  destruct (negb (Nat.eqb (length (cfg_modules cfg) * 2) _)); cbn [bind] in H; [right; left; congruence|].
  destruct (offsets_ok (cfg_offsets cfg)) as (offs & Ho & _). rewrite Ho in H. cbn [bind] in H. unfold enumerate in H.
  rewrite new_loop_closed in H. destruct (traverse (build (cfg_params cfg)) _) as [ms|e'|p] eqn:E; cbn [bind] in H; try discriminate.
  assert (e' = e) as -> by congruence. apply traverse_some_err in E. destruct E as ((i & t) & _ & E). unfold build, index in E. cbn [fst snd] in E.
  destruct (nth_error (cfg_params cfg) i) as [regs|] eqn:Er; cbn [bind] in E; [|discriminate].
  assert (HR : Forall is_u16 regs) by (apply (proj1 (Forall_forall _ _) Hu), (nth_error_In _ _ Er)).
  destruct (params_errors t regs e HR E) as [->| ->]; unfold build_error; auto.
Qed.

Lemma request_errors_all : forall c a v e, snd (set_output c a v) = Err e -> request_error e.
Proof.
  intros c a v e H. unfold set_output, is_valid_addr in H. destruct (Nat.ltb_spec (a_module a) (length (c_modules c))) as [Hl|Hl].
  - unfold index in H. destruct (nth_error (c_modules c) (a_module a)); cbn [bind] in H; [|discriminate].
    destruct (Nat.ltb _ _); cbn [snd] in H; [discriminate|]. unfold request_error. congruence.
  - cbn [snd] in H. unfold request_error. congruence.
Qed.

(** ** Cycles *)

Lemma prepare_errors prof off base n data e : is_u16 off -> Forall is_u16 data ->
  prepare_raw_data_to_process prof off base n data = Err e -> e = BufferLength \/ e = ModuleOffsetError.
Proof.
  intros Ho Hd H. unfold prepare_raw_data_to_process in H.
  destruct (to_register_address off) as (start & bit). destruct (sub_u16 prof start base) as [s|e'|p] eqn:Es; cbn [bind] in H.
  2:{ unfold sub_u16, arith in Es. destruct (_ && _); [discriminate|]. destruct prof; discriminate. }
  2:{ discriminate. }
  fold (word_count n) in H. cbv zeta in H.
  destruct (Nat.ltb_spec (length data) (Z.to_nat s + word_count n)) as [Hl|Hl]; [left; congruence|].
  unfold slice in H.
  replace (Nat.leb (Z.to_nat s) (Z.to_nat s + word_count n) && Nat.leb (Z.to_nat s + word_count n) (length data))
    with true in H by lia. cbn [bind] in H.
  replace (Z.to_nat s + word_count n - Z.to_nat s)%nat with (word_count n) in H by lia.
  destruct (shift_spec (firstn (word_count n) (skipn (Z.to_nat s) data))) as (raw & Hr & _).
  - apply Forall_firstn_skipn. exact Hd.
  - intros Hn. apply (f_equal (@length Z)) in Hn. rewrite firstn_length, skipn_length in Hn. cbn [length] in Hn.
    pose proof (word_count_pos n). lia.
  - rewrite Hr in H. do 9 (destruct bit as [|bit]; [(right; congruence) || discriminate|]). right. congruence.
Qed.

Lemma cycle_errors_all : forall prof c input output c' e, reachable prof c -> cycle prof c input output c' (Err e) -> cycle_error e.
Proof.
  intros prof c input output c' e Hr H. apply reachable_ok in Hr. assert (Hui : Forall is_u16 input) by apply H.
  assert (Huo : Forall is_u16 output) by apply H. unfold cycle_error.
  destruct (cycle_inv _ _ _ _ _ _ Hr H) as [(_ & Hn & He & _)|[(ins & E1 & _ & Hn & He & _)|(ins & outs & sent & F1 & F2 & F3 & F4 & _ & _ & _ & _ & F7)]].
  - pose proof (proj2 (He e) eq_refl) as Hx. rewrite process_input_rows in Hx. apply traverse_some_err in Hx.
    destruct Hx as ((m & o) & Hi & Hx). apply In_nth_error in Hi. destruct Hi as (i & Hi).
    pose proof Hi as Hat. apply infos_at in Hat. destruct (ok_off c Hr _ _ _ Hat) as [HO _]. cbn [snd] in HO.
    unfold input_row in Hx. cbn [fst snd] in Hx. destruct (mo_input o) as [off|] eqn:Eo; [|discriminate]. specialize (HO off eq_refl).
    destruct (prepare_raw_data_to_process prof off 0 (input_bytes m) input) as [raw|e'|p] eqn:Hp; cbn [bind] in Hx; [| |discriminate].
    + destruct (prepare_any _ _ _ _ _ _ HO Hui Hp) as (Lr & Ur). rewrite registers_count in Lr.
      left. exact (decode_in_error m raw e (ok_complete c _ m o Hr Hi) Lr Ur Hx).
    + assert (e' = e) as -> by congruence. destruct (prepare_errors _ _ _ _ _ _ HO Hui Hp); auto.
  - pose proof (proj2 (He e) eq_refl) as Hx. rewrite process_output_rows in Hx. apply traverse_some_err in Hx.
    destruct Hx as ((m & o) & Hi & Hx). apply In_nth_error in Hi. destruct Hi as (i & Hi).
    pose proof Hi as Hat. apply infos_at in Hat. destruct (ok_off c Hr _ _ _ Hat) as [_ HO]. cbn [snd] in HO.
    unfold output_row in Hx. cbn [fst snd] in Hx. destruct (mo_output o) as [off|] eqn:Eo; [|discriminate]. specialize (HO off eq_refl).
    destruct (prepare_raw_data_to_process prof off 0x0800 (output_bytes m) output) as [raw|e'|p] eqn:Hp; cbn [bind] in Hx; [| |discriminate].
    + destruct (prepare_any _ _ _ _ _ _ HO Huo Hp) as (Lr & Ur). rewrite registers_count in Lr.
      left. exact (decode_out_error m raw e (ok_complete c _ m o Hr Hi) Lr Ur Hx).
    + assert (e' = e) as -> by congruence. destruct (prepare_errors _ _ _ _ _ _ HO Huo Hp); auto.
  - right. pose proof (sent_wire _ _ _ _ _ _ _ _ Hr Huo F4 F7) as Hw.
    assert (Hls : length sent = length (infos c)) by (rewrite infos_length by exact Hr; exact F4).
    assert (Hside : Forall (fun x => Forall wire_value (snd x) /\ (mo_output (snd (fst x)) <> None -> output_bytes (fst (fst x)) <> 0%nat)) (combine (infos c) sent)).
    { apply Forall_forall. intros ((m & o) & vs) Hi. cbn [fst snd]. split.
      - apply in_combine_r in Hi. exact (proj1 (Forall_forall _ _) Hw _ Hi).
      - apply in_combine_l, In_nth_error in Hi. destruct Hi as (i & Hi). intros Hx. destruct (mo_output o) as [off|] eqn:Eo; [|congruence].
        pose proof Hi as Hat. apply infos_at in Hat. destruct (F7 i m o Hat) as (iv & ov & _ & _ & _ & Hro & _).
        exact (output_row_exists_nonzero _ _ _ _ _ _ Hro Eo (infos_off c Hr i m o off Hi Eo) Huo). }
    assert (Hoff : Forall (fun x : (module * module_offset) * list channel_value => off_ok (snd (fst x))) (combine (infos c) sent)).
    { apply Forall_forall. intros (mo & v) Hi. apply in_combine_l in Hi. exact (proj1 (Forall_forall _ _) (off_all c Hr) mo Hi). }
    symmetry in F3. rewrite process_output_values_steps in F3 by exact Hls.
    destruct (steps_offset prof _ _ _ Hoff Hside F3) as [[-> _]|(((m & o) & row) & Hin & Ho & He)]; [left; reflexivity|].
    right. cbn [fst snd] in Ho, He. apply In_nth_error in Hin. destruct Hin as (i & Hi).
    pose proof (proj1 (Forall_forall _ _) Hside _ (nth_error_In _ _ Hi)) as [Hwr Hz]. cbn [fst snd] in Hwr, Hz. specialize (Hz Ho).
    rewrite nth_error_combine in Hi.
    destruct (nth_error (infos c) i) as [(m' & o')|] eqn:Em; [|discriminate]. destruct (nth_error sent i) as [row'|] eqn:Er; [|discriminate].
    apply Some_inj, pair_inj in Hi. destruct Hi as [Hi ->]. apply pair_inj in Hi. destruct Hi as [-> ->].
    pose proof Em as Hat. apply infos_at in Hat.
    destruct (is_serial m) eqn:Hs; [|exact (encode_error prof m row e Hwr Hz Hs (ok_complete c i m o Hr Em) He)].
    exfalso. destruct (F7 i m o Hat) as (iv & ov & _ & _ & Hri & Hro & Hc).
    destruct (ok_off c Hr i m o Hat) as [_ O1]. cbn [snd] in O1.
    destruct Hc as [row' S1 S2 S3 S4 S5 S6 S6' S7 S8|l ch rin rout p0 p' rs last -> -> -> G1 G2 G3 _ _ S1 S2 S3 S4 S5 S6 S7
                       |l ch -> S1 S2 S3 S4 S5 S6 S7].
    + congruence.
    + rewrite Er in S4. apply Some_inj in S4. subst row. destruct (good_encodes prof l ch rs G3) as (d & Hd). congruence.
    + rewrite Er in S2. apply Some_inj in S2. subst row.
      destruct (com_out_row _ _ _ _ _ _ Huo O1 Hro) as [[Hn _]|(_ & rout & -> & Hg)]; [congruence|].
      destruct (good_encodes prof l ch rout Hg) as (d & Hd). congruence.
Qed.
