(** Proofs of C96. *)
From Coq Require Import ZArith List Bool Lia ZifyBool ZifyNat.
From Verif Require Import Base Facts F32 Types Lib Util Com Fbc SpecCodec SpecSerial SpecCoupler SpecImage SpecOutcome SpecDiagnosis
  ProofsCodec ProofsAddr ProofsModule ProofsImage ProofsLayout ProofsLoop ProofsCycle ProofsCoupler ProofsIdle ProofsOutcome ProofsGeneric.
Import ListNotations.
Local Open Scope Z_scope.
Ltac Zify.zify_post_hook ::= Z.div_mod_to_equations.

Lemma data_problem_one base image off n m e e' :
  data_problem base image off n m e -> data_problem base image off n m e' -> e = e'.
Proof. intros H H'. inversion H; inversion H'; subst; try reflexivity; try lia. Qed.

Lemma prepare_problem prof off base n data e m : is_u16 off -> Forall is_u16 data -> 0 <= base <= off / 16 ->
  prepare_raw_data_to_process prof off base n data = Err e -> data_problem base data off n m e.
Proof.
  intros Ho Hd Hb H. rewrite prepare_eq in H by assumption. cbv zeta in H. rewrite registers_count in H.
  destruct (Nat.ltb_spec (length data) (Z.to_nat (off / 16 - base) + registers n)) as [Hl|Hl].
  { assert (e = BufferLength) as -> by congruence. apply P_missing. lia. }
  destruct (Z.eqb_spec (off mod 16) 0) as [E|E]; [discriminate|].
  destruct (Z.eqb_spec (off mod 16) 8) as [E8|E8].
  - exfalso. destruct (shift_spec (firstn (registers n) (skipn (Z.to_nat (off / 16 - base)) data))) as (raw & Hr & _).
    + apply Forall_firstn_skipn. exact Hd.
    + intros Hn. apply (f_equal (@length Z)) in Hn. rewrite firstn_length, skipn_length in Hn. cbn [length] in Hn.
      unfold registers in *. lia.
    + congruence.
  - assert (e = ModuleOffsetError) as -> by congruence. apply P_misplaced; lia.
Qed.

Lemma problem_unreadable base image off n m e : base <= off / 16 -> data_problem base image off n m e ->
  ~ (readable base image off n /\ announces_fitting base image off m).
Proof. intros Hb H [(R1 & R2 & R3 & R4) R5]. inversion H; subst; try lia; try tauto. Qed.

Lemma in_row_problem prof m o data e : complete m -> offsets_u16 (m, o) -> Forall is_u16 data ->
  (input_row prof (m, o) data = Err e <->
   exists off, mo_input o = Some off /\ data_problem 0 data off (input_bytes m) m e).
Proof.
  intros Hc Ho Hd.
  assert (F : forall e, input_row prof (m, o) data = Err e ->
    exists off, mo_input o = Some off /\ data_problem 0 data off (input_bytes m) m e).
  { clear e. intros e H. pose proof (in_row_iff prof m o data Hc Ho Hd) as HI. destruct Ho as [HO _]. cbn [snd] in HO.
    pose proof H as H0. unfold input_row in H. cbn [fst snd] in H. destruct (mo_input o) as [off|] eqn:Eo; [|discriminate].
    specialize (HO off eq_refl). exists off. split; [reflexivity|].
    assert (Hb : 0 <= 0 <= off / 16) by (unfold is_u16 in HO; lia).
    destruct (prepare_raw_data_to_process prof off 0 (input_bytes m) data) as [raw|e'|p] eqn:Hp; cbn [bind] in H; [| |discriminate].
    - destruct (prepare_own _ _ _ _ _ _ HO Hb Hd Hp) as (Lr & Ur & _). rewrite registers_count in Lr.
      pose proof (decode_in_error m raw e Hc Lr Ur H) as ->.
      destruct (proj1 (prepare_iff prof off 0 (input_bytes m) data HO Hd Hb) (ex_intro _ raw Hp)) as [T1 T2].
      destruct (Nat.eq_dec (input_bytes m) 0) as [Hz|Hz]; [apply P_foreign; assumption|].
      apply P_announced; try assumption. intros HA. destruct (proj2 HI) as (iv & Hiv); [|congruence].
      intros off' E'. apply Some_inj in E'. subst off'. split; [|exact HA]. repeat split; try assumption; lia.
    - assert (e' = e) as -> by congruence. exact (prepare_problem _ _ _ _ _ _ m HO Hd Hb Hp). }
  split; [apply F|]. intros (off & Eo & HP).
  destruct (input_row prof (m, o) data) as [iv|e'|p] eqn:E.
  - exfalso. destruct Ho as [HO Ho2]. pose proof (proj1 (in_row_iff prof m o data Hc (conj HO Ho2) Hd) (ex_intro _ iv E) off Eo) as HR.
    cbn [snd] in HO. specialize (HO off Eo). revert HR. apply (problem_unreadable _ _ _ _ _ e); [unfold is_u16 in HO; lia|exact HP].
  - destruct (F e' eq_refl) as (off' & Eo' & HP'). rewrite Eo in Eo'. apply Some_inj in Eo'. subst off'.
    f_equal. exact (data_problem_one _ _ _ _ _ _ _ HP' HP).
  - exfalso. destruct Ho as [HO _]. cbn [snd] in HO. specialize (HO off Eo). unfold input_row in E. cbn [fst snd] in E. rewrite Eo in E.
    pose proof (prepare_no_panic prof off 0 (input_bytes m) data HO) as N.
    destruct (prepare_raw_data_to_process prof off 0 (input_bytes m) data) as [raw|e'|q]; cbn [bind] in E.
    + destruct (C52_partial_all Debug m raw [] (Forall_nil _)) as (H1 & _). exact (H1 _ E).
    + discriminate.
    + apply N; [lia|right; unfold is_u16 in HO; lia].
Qed.

Lemma out_row_problem prof m o data e : complete m -> offsets_u16 (m, o) -> Forall is_u16 data ->
  (forall off, mo_output o = Some off -> 0x8000 <= off) ->
  (output_row prof (m, o) data = Err e <->
   exists off, mo_output o = Some off /\ data_problem 0x0800 data off (output_bytes m) m e).
Proof.
  intros Hc Ho Hd Hh.
  assert (F : forall e, output_row prof (m, o) data = Err e ->
    exists off, mo_output o = Some off /\ data_problem 0x0800 data off (output_bytes m) m e).
  { clear e. intros e H. pose proof (out_row_iff prof m o data Hc Ho Hd Hh) as HI. destruct Ho as [_ HO]. cbn [snd] in HO.
    pose proof H as H0. unfold output_row in H. cbn [fst snd] in H. destruct (mo_output o) as [off|] eqn:Eo; [|discriminate].
    specialize (HO off eq_refl). specialize (Hh off eq_refl). exists off. split; [reflexivity|].
    assert (Hb : 0 <= 0x0800 <= off / 16) by (unfold is_u16 in HO; lia).
    destruct (prepare_raw_data_to_process prof off 0x0800 (output_bytes m) data) as [raw|e'|p] eqn:Hp; cbn [bind] in H; [| |discriminate].
    - destruct (prepare_own _ _ _ _ _ _ HO Hb Hd Hp) as (Lr & Ur & _). rewrite registers_count in Lr.
      pose proof (decode_out_error m raw e Hc Lr Ur H) as ->.
      destruct (proj1 (prepare_iff prof off 0x0800 (output_bytes m) data HO Hd Hb) (ex_intro _ raw Hp)) as [T1 T2].
      destruct (Nat.eq_dec (output_bytes m) 0) as [Hz|Hz]; [apply P_foreign; assumption|].
      apply P_announced; try assumption. intros HA. destruct (proj2 HI) as (iv & Hiv); [|congruence].
      intros off' E'. apply Some_inj in E'. subst off'. split; [|exact HA]. repeat split; try assumption; lia.
    - assert (e' = e) as -> by congruence. exact (prepare_problem _ _ _ _ _ _ m HO Hd Hb Hp). }
  split; [apply F|]. intros (off & Eo & HP). pose proof (Hh off Eo) as Hho.
  assert (HOo : is_u16 off) by (destruct Ho as [_ HO]; exact (HO off Eo)).
  destruct (output_row prof (m, o) data) as [iv|e'|p] eqn:E.
  - exfalso. pose proof (proj1 (out_row_iff prof m o data Hc Ho Hd Hh) (ex_intro _ iv E) off Eo) as HR.
    revert HR. apply (problem_unreadable _ _ _ _ _ e); [unfold is_u16 in HOo; lia|exact HP].
  - destruct (F e' eq_refl) as (off' & Eo' & HP'). rewrite Eo in Eo'. apply Some_inj in Eo'. subst off'.
    f_equal. exact (data_problem_one _ _ _ _ _ _ _ HP' HP).
  - exfalso. unfold output_row in E. cbn [fst snd] in E. rewrite Eo in E.
    pose proof (prepare_no_panic prof off 0x0800 (output_bytes m) data HOo) as N.
    destruct (prepare_raw_data_to_process prof off 0x0800 (output_bytes m) data) as [raw|e'|q]; cbn [bind] in E.
    + pose proof (complete_outputs m raw Hc) as H1. rewrite E in H1. exact H1.
    + discriminate.
    + apply N; [lia|right; unfold is_u16 in HOo; lia].
Qed.

(** The first problem of a list of rows. *)
Lemma rows_first {A B} (f : A -> outcome B) l (P : nat -> error -> Prop) :
  (forall i e, P i e <-> exists a, nth_error l i = Some a /\ f a = Err e) ->
  (forall i a p, nth_error l i = Some a -> f a <> Panic p) ->
  (forall e, traverse f l = Err e <-> first P e) /\ ((exists r, traverse f l = Ok r) <-> none P).
Proof.
  intros HP Hn.
  assert (HG : forall i a, nth_error l i = Some a -> (exists b, f a = Ok b) <-> forall e, ~ P i e).
  { intros i a Hi. split.
    - intros (b & Hb) e H. apply HP in H. destruct H as (a' & Hi' & He). rewrite Hi in Hi'. apply Some_inj in Hi'. subst a'. congruence.
    - intros H. destruct (f a) as [b|e|p] eqn:E; [eauto| |exfalso; exact (Hn i a p Hi E)].
      exfalso. apply (H e). apply HP. eauto. }
  split.
  - intros e. rewrite traverse_error. split.
    + intros (i & a & Hi & He & Hb). exists i. split; [apply HP; eauto|]. intros j e' Hj HPj.
      destruct (proj1 (HP j e') HPj) as (a' & Ha' & _). exact (proj1 (HG j a' Ha') (Hb j a' Hj Ha') e' HPj).
    + intros (i & HPi & Hb). destruct (proj1 (HP i e) HPi) as (a & Hi & He). exists i, a. split; [exact Hi|]. split; [exact He|].
      intros j a' Hj Ha'. apply (HG j a' Ha'). intros e'. exact (Hb j e' Hj).
  - rewrite rows_ok. split.
    + intros H i e HPi. destruct (proj1 (HP i e) HPi) as (a & Hi & _). exact (proj1 (HG i a Hi) (H i a Hi) e HPi).
    + intros H i a Hi. apply (HG i a Hi). apply H.
Qed.

(** *** Sending *)

Definition bad (prof : profile) (n : nat) (l : list ((module * module_offset) * list channel_value)) (i : nat) (e : error) : Prop :=
  exists m o v, nth_error l i = Some ((m, o), v) /\ mo_output o <> None /\
    (mod_process_output_values prof m v = Err e \/
     (exists d, mod_process_output_values prof m v = Ok d) /\ e = ModuleOffsetError /\ ~ packed n (firstn (S i) (map fst l))).

Lemma bad_shift prof n n' x l i e : 
  (forall k, packed n (fst x :: k) <-> packed n' k) ->
  (bad prof n (x :: l) (S i) e <-> bad prof n' l i e).
Proof.
  intros HP. unfold bad. cbn [nth_error map]. change (firstn (S (S i)) (fst x :: map fst l)) with (fst x :: firstn (S i) (map fst l)).
  split; intros (m & o & v & H1 & H2 & H3); exists m, o, v; (split; [exact H1|]); (split; [exact H2|]);
    (destruct H3 as [H3|(H3 & H4 & H5)]; [left; exact H3|right]); (split; [exact H3|]); (split; [exact H4|]);
    rewrite HP in *; exact H5.
Qed.

Lemma first_shift (P Q : nat -> error -> Prop) e : (forall e', ~ P 0%nat e') -> (forall i e', P (S i) e' <-> Q i e') ->
  (first P e <-> first Q e).
Proof.
  intros H0 HS. split.
  - intros ([|i] & HP & Hb); [exfalso; exact (H0 e HP)|]. exists i. split; [apply HS; exact HP|].
    intros j e' Hj HQ. apply HS in HQ. apply (Hb (S j) e'); [lia|exact HQ].
  - intros (i & HQ & Hb). exists (S i). split; [apply HS; exact HQ|]. intros [|j] e' Hj HP; [exact (H0 e' HP)|].
    apply HS in HP. apply (Hb j e'); [lia|exact HP].
Qed.

Lemma steps_first prof l : forall out e, Forall (fun x => off_ok (snd (fst x))) l ->
  Forall (fun x => Forall wire_value (snd x) /\ (mo_output (snd (fst x)) <> None -> output_bytes (fst (fst x)) <> 0%nat)) l ->
  (forall m v p, In (m, v) (map (fun x => (fst (fst x), snd x)) l) -> mod_process_output_values prof m v <> Panic p) ->
  (steps prof l out = Err e <-> first (bad prof (length out) l) e).
Proof.
  induction l as [|((m & o) & v) l IH]; intros out e Hoff HF HN; cbn [steps].
  { split; [discriminate|]. intros (i & (m & o & v & H & _) & _). destruct i; discriminate. }
  inversion Hoff as [|? ? Ho Hoff']; subst. inversion HF as [|? ? [Hw Hz] HF']; subst. cbn [fst snd] in *.
  assert (HN' : forall m v p, In (m, v) (map (fun x => (fst (fst x), snd x)) l) -> mod_process_output_values prof m v <> Panic p).
  { intros m' v' p Hin. apply HN. right. exact Hin. }
  assert (HNh : forall p, mod_process_output_values prof m v <> Panic p) by (intros p; apply HN; left; reflexivity).
  destruct (mo_output o) as [off|] eqn:Eo.
  2:{ unfold output_step. rewrite Eo. cbn [bind]. rewrite (IH out e Hoff' HF' HN'). symmetry. apply first_shift.
      - intros e' (m' & o' & v' & H1 & H2 & _). cbn [nth_error] in H1. apply Some_inj, pair_inj in H1. destruct H1 as [H1 _].
        apply pair_inj in H1. destruct H1 as [_ <-]. congruence.
      - intros i e'. apply bad_shift. intros k. cbn [fst packed]. rewrite Eo. reflexivity. }
  destruct (mod_process_output_values prof m v) as [d|e1|p] eqn:Ed; [| |exfalso; exact (HNh p eq_refl)].
  2:{ unfold output_step. rewrite Eo, Ed. cbn [bind].
      assert (B0 : forall e', bad prof (length out) (((m, o), v) :: l) 0 e' <-> e' = e1).
      { intros e'. split.
        - intros (m' & o' & v' & H1 & H2 & H3). cbn [nth_error] in H1. apply Some_inj, pair_inj in H1. destruct H1 as [H1 <-].
          apply pair_inj in H1. destruct H1 as [<- <-]. rewrite Ed in H3. destruct H3 as [H3|((d & H3) & _)]; congruence.
        - intros ->. exists m, o, v. split; [reflexivity|]. split; [congruence|]. left. exact Ed. }
      split.
      - intros H. exists 0%nat. split; [apply B0; congruence|]. intros j e' Hj. lia.
      - intros ([|i] & HB & Hb); [apply B0 in HB; congruence|]. exfalso. apply (Hb 0%nat e1); [lia|apply B0; reflexivity]. }
  destruct (encoded_words _ _ _ _ Hw Ed) as [Ld _]. pose proof (words_count m (Hz ltac:(discriminate))) as Hc. rewrite registers_count in Hc.
  pose proof (output_step_cases prof m o v out d Ho (fun _ => Ed)) as Hst.
  assert (Hr : (0 < registers (output_bytes m))%nat) by (unfold registers; lia).
  assert (B0 : forall e', bad prof (length out) (((m, o), v) :: l) 0 e' <-> e' = ModuleOffsetError /\ ~ packed (length out) [(m, o)]).
  { intros e'. split.
    - intros (m' & o' & v' & H1 & H2 & H3). cbn [nth_error] in H1. apply Some_inj, pair_inj in H1. destruct H1 as [H1 <-].
      apply pair_inj in H1. destruct H1 as [<- <-]. rewrite Ed in H3. destruct H3 as [H3|(_ & H3)]; [discriminate|exact H3].
    - intros H. exists m, o, v. split; [reflexivity|]. split; [congruence|]. right. split; [eauto|exact H]. }
  inversion Hst as [Ex Es|off1 Ex E0 El Es|off1 t last w r Ex E8 -> El -> Es|off1 t last Ex E8 -> El -> Es|off1 Ex N1 N2 Es];
    cbn [bind]; rewrite Eo in Ex; try discriminate; apply Some_inj in Ex; subst off1.
  - rewrite (IH _ e Hoff' HF' HN'). symmetry. apply first_shift.
    + intros e' HB. apply B0 in HB. destruct HB as [_ HB]. apply HB. cbn [packed]. rewrite Eo. left. split; [lia|exact I].
    + intros i e'. apply bad_shift. intros k. cbn [fst packed]. rewrite Eo, app_length, Ld, <- Hc. split.
      * intros [[_ H]|[H _]]; [exact H|lia].
      * intros H. left. split; [lia|exact H].
  - rewrite (IH _ e Hoff' HF' HN'). symmetry. apply first_shift.
    + intros e' HB. apply B0 in HB. destruct HB as [_ HB]. apply HB. cbn [packed]. rewrite Eo. right. rewrite app_length. cbn [length].
      split; [lia|]. split; [lia|exact I].
    + intros i e'. apply bad_shift. intros k. cbn [fst packed]. rewrite Eo, !app_length. cbn [length]. split.
      * intros [[H _]|(_ & _ & H)]; [lia|exact H].
      * intros H. right. split; [lia|]. split; [lia|exact H].
  - exfalso. cbn [length] in Ld. lia.
  - assert (HB : bad prof (length out) (((m, o), v) :: l) 0 ModuleOffsetError).
    { apply B0. split; [reflexivity|]. cbn [packed]. rewrite Eo. intros [[H _]|(H & Hp & _)]; [apply N1; lia|apply N2; lia]. }
    split.
    + intros H. exists 0%nat. assert (e = ModuleOffsetError) as -> by congruence. split; [exact HB|]. intros j e' Hj. lia.
    + intros ([|i] & HBi & Hb); [apply B0 in HBi; destruct HBi as [-> _]; reflexivity|].
      exfalso. apply (Hb 0%nat ModuleOffsetError); [lia|exact HB].
Qed.

Lemma inputs_first prof c input : coupler_ok c -> Forall is_u16 input ->
  (forall e, process_input_data prof (infos c) input = Err e <-> first (input_problem c input) e) /\
  ((exists r, process_input_data prof (infos c) input = Ok r) <-> none (input_problem c input)).
Proof.
  intros Hr Hu. rewrite process_input_rows. apply rows_first.
  - intros i e. split.
    + intros (m & o & off & Hat & Eo & HP). pose proof Hat as Hi. apply infos_at in Hi. exists (m, o). split; [exact Hi|].
      apply in_row_problem; [exact (ok_complete c i m o Hr Hi)|exact (ok_off c Hr i m o Hat)|exact Hu|eauto].
    + intros ((m & o) & Hi & He). pose proof Hi as Hat. apply infos_at in Hat.
      apply in_row_problem in He; [|exact (ok_complete c i m o Hr Hi)|exact (ok_off c Hr i m o Hat)|exact Hu].
      destruct He as (off & Eo & HP). exists m, o, off. auto.
  - intros i (m & o) p Hi E. pose proof (decode_inputs_no_panic prof c input Hr) as N. rewrite process_input_rows in N.
    pose proof Hi as Hat. apply infos_at in Hat. destruct (ok_off c Hr i m o Hat) as [HO _]. cbn [snd] in HO.
    unfold input_row in E. cbn [fst snd] in E. destruct (mo_input o) as [off|]; [|discriminate]. specialize (HO off eq_refl).
    pose proof (prepare_no_panic prof off 0 (input_bytes m) input HO) as N1.
    destruct (prepare_raw_data_to_process prof off 0 (input_bytes m) input) as [raw|e'|q]; cbn [bind] in E.
    + pose proof (input_no_panic m raw) as N2. rewrite E in N2. exact N2.
    + discriminate.
    + apply N1; [lia|right; unfold is_u16 in HO; lia].
Qed.

Lemma outputs_first prof c output : coupler_ok c -> outputs_high c -> Forall is_u16 output ->
  (forall e, process_output_data prof (infos c) output = Err e <-> first (output_problem c output) e) /\
  ((exists r, process_output_data prof (infos c) output = Ok r) <-> none (output_problem c output)).
Proof.
  intros Hr Hh Hu. rewrite process_output_rows. apply rows_first.
  - intros i e. split.
    + intros (m & o & off & Hat & Eo & HP). pose proof Hat as Hi. apply infos_at in Hi. exists (m, o). split; [exact Hi|].
      apply out_row_problem; [exact (ok_complete c i m o Hr Hi)|exact (ok_off c Hr i m o Hat)|exact Hu|intros off'; exact (Hh i m o off' Hat)|eauto].
    + intros ((m & o) & Hi & He). pose proof Hi as Hat. apply infos_at in Hat.
      apply out_row_problem in He; [|exact (ok_complete c i m o Hr Hi)|exact (ok_off c Hr i m o Hat)|exact Hu|intros off'; exact (Hh i m o off' Hat)].
      destruct He as (off & Eo & HP). exists m, o, off. auto.
  - intros i (m & o) p Hi E. pose proof Hi as Hat. apply infos_at in Hat. destruct (ok_off c Hr i m o Hat) as [_ HO]. cbn [snd] in HO.
    unfold output_row in E. cbn [fst snd] in E. destruct (mo_output o) as [off|] eqn:Eo; [|discriminate]. specialize (HO off eq_refl).
    pose proof (Hh i m o off Hat Eo) as Ho. pose proof (prepare_no_panic prof off 0x0800 (output_bytes m) output HO) as N1.
    destruct (prepare_raw_data_to_process prof off 0x0800 (output_bytes m) output) as [raw|e'|q]; cbn [bind] in E.
    + pose proof (complete_outputs m raw (ok_complete c i m o Hr Hi)) as N2. rewrite E in N2. exact N2.
    + discriminate.
    + apply N1; [lia|right; unfold is_u16 in HO; lia].
Qed.

Lemma first_ext (P Q : nat -> error -> Prop) e : (forall i e', P i e' <-> Q i e') -> (first P e <-> first Q e).
Proof.
  intros H. split; intros (i & HP & Hb); exists i; (split; [apply H; exact HP|]); intros j e' Hj HQ; apply (Hb j e' Hj), H, HQ.
Qed.

Lemma sending_first prof c c' input output sent : coupler_ok c -> outputs_high c -> Forall is_u16 output ->
  length sent = length (c_modules c) ->
  (forall i m o, module_at c i m o -> exists iv ov, input_row prof (m, o) input = Ok iv /\ output_row prof (m, o) output = Ok ov /\
     module_cycle prof c c' sent i m o iv ov) ->
  Forall (Forall wire_value) sent ->
  forall e, process_output_values prof (infos c) sent = Err e <-> first (sending_problem c output) e.
Proof.
  intros Hr Hh Huo F4 F7 Hw e.
  assert (Hls : length sent = length (infos c)) by (rewrite infos_length by exact Hr; exact F4).
  assert (Hside : Forall (fun x => Forall wire_value (snd x) /\ (mo_output (snd (fst x)) <> None -> output_bytes (fst (fst x)) <> 0%nat)) (combine (infos c) sent)).
  { apply Forall_forall. intros ((m & o) & vs) Hi. cbn [fst snd]. split.
    - apply in_combine_r in Hi. exact (proj1 (Forall_forall _ _) Hw _ Hi).
    - apply in_combine_l, In_nth_error in Hi. destruct Hi as (i & Hi). intros Hx. destruct (mo_output o) as [off|] eqn:Eo; [|congruence].
      pose proof Hi as Hat. apply infos_at in Hat. destruct (F7 i m o Hat) as (iv & ov & _ & Hro & _).
      exact (output_row_exists_nonzero _ _ _ _ _ _ Hro Eo (infos_off c Hr i m o off Hi Eo) Huo). }
  assert (Hoff : Forall (fun x : (module * module_offset) * list channel_value => off_ok (snd (fst x))) (combine (infos c) sent)).
  { apply Forall_forall. intros (mo & v) Hi. apply in_combine_l in Hi. exact (proj1 (Forall_forall _ _) (off_all c Hr) mo Hi). }
  assert (Hfst : map fst (combine (infos c) sent) = infos c).
  { clear - Hls. revert Hls. generalize (infos c). induction sent as [|v s IH]; intros [|x l] H; try discriminate; [reflexivity|].
    cbn [combine map fst]. f_equal. apply IH. cbn [length] in H. lia. }
  rewrite process_output_values_steps by exact Hls. rewrite (steps_first prof _ [] e Hoff Hside).
  2:{ intros m v p Hin. apply in_map_iff in Hin. destruct Hin as (((m' & o) & v') & E & Hin). cbn [fst snd] in E.
      apply pair_inj in E. destruct E as [-> ->]. destruct (proj1 (Forall_forall _ _) Hside _ Hin) as [Hv _]. cbn [snd] in Hv.
      revert p. apply not_panic, output_values_no_panic, wire_presets. exact Hv. }
  apply first_ext. intros i e'. cbn [length].
  assert (HM : forall m o off row, module_at c i m o -> mo_output o = Some off -> nth_error sent i = Some row ->
     ((exists d, mod_process_output_values prof m row = Ok d) <-> sendable c output i m off) /\
     (forall e1, mod_process_output_values prof m row = Err e1 <-> e1 = ChannelValueError /\ ~ sendable c output i m off)).
  { intros m o off row Hat Eo Er. destruct (F7 i m o Hat) as (iv & ov & Hri & Hro & Hc). pose proof Hat as Em. apply infos_at in Em.
    destruct (sent_iff _ _ _ _ _ _ _ _ _ _ _ _ Hr Huo Hat Eo (Hh i m o off Hat Eo) Hri Hro Hc) as (row' & Hr' & _ & HI).
    rewrite Er in Hr'. apply Some_inj in Hr'. subst row'. split; [exact HI|].
    assert (Hin : nth_error (combine (infos c) sent) i = Some ((m, o), row)) by (rewrite nth_error_combine, Em, Er; reflexivity).
    destruct (proj1 (Forall_forall _ _) Hside _ (nth_error_In _ _ Hin)) as [Hwr Hz]. cbn [fst snd] in Hwr, Hz. specialize (Hz ltac:(congruence)).
    assert (HE : forall e1, mod_process_output_values prof m row = Err e1 -> e1 = ChannelValueError).
    { intros e1 He. destruct (is_serial m) eqn:Hs; [|exact (encode_error prof m row e1 Hwr Hz Hs (ok_complete c i m o Hr Em) He)].
      exfalso. destruct (proj2 HI) as (d & Hd); [|congruence]. split; [congruence|]. intros ch ->. discriminate. }
    intros e1. split.
    - intros He. split; [exact (HE e1 He)|]. intros HS. apply HI in HS. destruct HS as (d & Hd). congruence.
    - intros [-> HN]. destruct (mod_process_output_values prof m row) as [d|e2|p] eqn:E.
      + exfalso. apply HN, HI. eauto.
      + f_equal. apply HE. reflexivity.
      + exfalso. exact (proj2 (not_panic _) (output_values_no_panic prof m row (wire_presets _ Hwr)) p E). }
  split.
  - intros (m & o & row & Hi & Ho & HB). rewrite Hfst in HB. rewrite nth_error_combine in Hi.
    destruct (nth_error (infos c) i) as [(m' & o')|] eqn:Em; [|discriminate]. destruct (nth_error sent i) as [row'|] eqn:Er; [|discriminate].
    apply Some_inj, pair_inj in Hi. destruct Hi as [Hi ->]. apply pair_inj in Hi. destruct Hi as [-> ->].
    apply infos_at in Em. destruct (mo_output o) as [off|] eqn:Eo; [|congruence]. destruct (HM m o off row Em Eo eq_refl) as [M1 M2].
    exists m, o, off. split; [exact Em|]. split; [exact Eo|]. rewrite M1, M2 in HB. destruct HB as [HB|(B1 & B2 & B3)]; [left; exact HB|right; auto].
  - intros (m & o & off & Hat & Eo & HB). pose proof Hat as Em. apply infos_at in Em.
    destruct (nth_error_lt_Some sent i) as (row & Er). { rewrite Hls. exact (nth_error_Some_lt _ _ _ Em). }
    destruct (HM m o off row Hat Eo Er) as [M1 M2]. exists m, o, row. rewrite nth_error_combine, Em, Er, Hfst. split; [reflexivity|].
    split; [congruence|]. rewrite M1, M2. destruct HB as [HB|(B1 & B2 & B3)]; [left; exact HB|right; auto].
Qed.

Lemma C96_all : forall prof c input output c' r, reachable prof c -> outputs_high c -> cycle prof c input output c' r ->
  forall e, r = Err e <-> reported c input output e.
Proof.
  intros prof c input output c' r Hr Hh H e. apply reachable_ok in Hr. assert (Hui : Forall is_u16 input) by apply H.
  assert (Huo : Forall is_u16 output) by apply H.
  destruct (inputs_first prof c input Hr Hui) as [I1 I2]. destruct (outputs_first prof c output Hr Hh Huo) as [O1 O2]. unfold reported.
  destruct (cycle_inv _ _ _ _ _ _ Hr H) as [(_ & Hn & He & _)|[(ins & E1 & _ & Hn & He & _)|(ins & outs & sent & F1 & F2 & -> & F4 & _ & _ & _ & _ & F7)]].
  - rewrite <- He, I1. split; [auto|]. intros [HF|[(HN & _)|(HN & _)]]; [exact HF| |]; apply I2 in HN; destruct HN as (ins & HN); exfalso; exact (Hn ins HN).
  - assert (NI : none (input_problem c input)) by (apply I2; eauto).
    rewrite <- He, O1. split; [auto|]. intros [(i & HP & _)|[(_ & HF)|(_ & HN & _)]]; [exfalso; exact (NI i e HP)|exact HF|].
    apply O2 in HN. destruct HN as (outs & HN). exfalso. exact (Hn outs HN).
  - assert (NI : none (input_problem c input)) by (apply I2; eauto). assert (NO : none (output_problem c output)) by (apply O2; eauto).
    pose proof (sent_wire _ _ _ _ _ _ _ _ Hr Huo F4 F7) as Hw.
    rewrite (sending_first prof c c' input output sent Hr Hh Huo F4); [| |exact Hw].
    + split; [auto|]. intros [(i & HP & _)|[(_ & (i & HP & _))|(_ & _ & HF)]]; [exfalso; exact (NI i e HP)|exfalso; exact (NO i e HP)|exact HF].
    + intros i m o Hat. destruct (F7 i m o Hat) as (iv & ov & _ & _ & Hri & Hro & Hc). eauto.
Qed.

(** No problem, no error. *)
Lemma first_any (P : nat -> error -> Prop) e i : P i e -> (forall e', ~ first P e') -> False.
Proof.
  revert e. induction i as [i IH] using (well_founded_induction lt_wf). intros e HP Hn. apply (Hn e). exists i. split; [exact HP|].
  intros j e' Hj HPj. exact (IH j Hj e' HPj Hn).
Qed.

Lemma C96_success_all : forall prof c input output c' r, reachable prof c -> outputs_high c -> cycle prof c input output c' r ->
  ((exists image, r = Ok image) <->
   none (input_problem c input) /\ none (output_problem c output) /\ none (sending_problem c output)).
Proof.
  intros prof c input output c' r Hr Hh H. pose proof (C96_all prof c input output c' r Hr Hh H) as HE. unfold reported in HE. split.
  - intros (image & ->).
    assert (N : forall e, ~ (first (input_problem c input) e \/
      none (input_problem c input) /\ first (output_problem c output) e \/
      none (input_problem c input) /\ none (output_problem c output) /\ first (sending_problem c output) e)).
    { intros e He. apply HE in He. discriminate. }
    assert (N1 : none (input_problem c input)) by (intros i e HP; apply (first_any _ e i HP); intros e' HF; apply (N e'); auto).
    assert (N2 : none (output_problem c output)) by (intros i e HP; apply (first_any _ e i HP); intros e' HF; apply (N e'); auto).
    split; [exact N1|]. split; [exact N2|]. intros i e HP. apply (first_any _ e i HP). intros e' HF. apply (N e'). auto.
  - intros (N1 & N2 & N3). destruct r as [image|e|p]; [eauto| |].
    + exfalso. destruct (proj1 (HE e) eq_refl) as [(i & HP & _)|[(_ & i & HP & _)|(_ & _ & i & HP & _)]]; [exact (N1 i e HP)|exact (N2 i e HP)|exact (N3 i e HP)].
    + exfalso. exact (C43_partial_all prof c input output c' _ Hr (or_intror Hh) H p eq_refl).
Qed.
