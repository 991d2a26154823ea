(** Statements of C59, C81 and C83 without an assumption about the output offsets. *)
From Coq Require Import ZArith List Bool Lia ZifyBool ZifyNat.
From Verif Require Import Base Facts F32 Types Lib Util Com Fbc SpecCodec SpecSerial SpecCoupler SpecImage SpecOutcome SpecLossless SpecTerminal
  ProofsAddr ProofsCodec ProofsSerialCodec ProofsModule ProofsImage ProofsCycle ProofsCoupler ProofsOutcome ProofsLossless
  ProofsTerminal.
Import ListNotations.
Local Open Scope Z_scope.
Ltac Zify.zify_post_hook ::= Z.div_mod_to_equations.

(** An offset below the output area: nothing is read from an image that ends at the last register. *)
Lemma prepare_low prof off n data : is_u16 off -> off < 0x8000 -> Z.of_nat (length data) <= 0xF800 ->
  prepare_raw_data_to_process prof off 0x0800 n data = Err BufferLength \/
  exists p, prepare_raw_data_to_process prof off 0x0800 n data = Panic p.
Proof.
  intros Ho Hl Hd. unfold prepare_raw_data_to_process. rewrite to_register_address_eq by exact Ho.
  unfold sub_u16, arith. unfold is_u16 in Ho. replace ((0 <=? off / 16 - 2048) && (off / 16 - 2048 <? 65536)) with false by lia.
  destruct prof; [right; cbn [bind]; eauto|left]. cbn [bind]. fold (word_count n). pose proof (word_count_pos n).
  replace (Nat.ltb (length data) (Z.to_nat ((off / 16 - 2048) mod 65536) + word_count n)) with true by lia. reflexivity.
Qed.

Lemma low_or_high c : (forall i m o off, module_at c i m o -> mo_output o = Some off -> 0x8000 <= off) \/
  exists i m o off, module_at c i m o /\ mo_output o = Some off /\ off < 0x8000.
Proof.
  set (low := fun x : module * module_offset => exists off, mo_output (snd x) = Some off /\ off < 0x8000).
  assert (D : forall x, {low x} + {~ low x}).
  { intros x. unfold low. destruct (mo_output (snd x)) as [off|].
    - destruct (Z_lt_dec off 0x8000); [left; eauto|right]. intros (y & E & H). apply Some_inj in E. subst y. contradiction.
    - right. intros (y & E & _). discriminate. }
  destruct (Exists_dec low (infos c) D) as [E|N].
  - right. apply Exists_exists in E. destruct E as ((m & o) & Hin & (off & Eo & Hlt)). apply In_nth_error in Hin. destruct Hin as (i & Hi).
    exists i, m, o, off. split; [apply infos_at; exact Hi|]. split; assumption.
  - left. intros i m o off Hat Eo. destruct (Z_lt_dec off 0x8000) as [L|L]; [|lia]. exfalso. apply N. apply Exists_exists.
    exists (m, o). split; [apply infos_at in Hat; exact (nth_error_In _ _ Hat)|]. exists off. auto.
Qed.

Lemma outputs_iff_any prof c output : coupler_ok c -> Forall is_u16 output -> Z.of_nat (length output) <= 0xF800 ->
  (exists outs, process_output_data prof (infos c) output = Ok outs) <-> outputs_readable c output.
Proof.
  intros Hok Hu Hs. destruct (low_or_high c) as [Hh|(i & m & o & off & Hat & Eo & Hl)]; [exact (outputs_iff prof c output Hok Hu Hh)|].
  destruct (ok_off c Hok i m o Hat) as [_ HO]. cbn [snd] in HO. specialize (HO off Eo). split.
  - intros (outs & H). exfalso. rewrite process_output_rows in H. pose proof Hat as Hi. apply infos_at in Hi.
    destruct (traverse_row_at _ _ _ _ _ H Hi) as (row & _ & Hrow). unfold output_row in Hrow. cbn [fst snd] in Hrow. rewrite Eo in Hrow.
    destruct (prepare_low prof off (output_bytes m) output HO Hl Hs) as [E|(p & E)]; rewrite E in Hrow; discriminate.
  - intros H. exfalso. destruct (H i m o off Hat Eo) as [(_ & _ & Hb & _) _]. lia.
Qed.

Lemma C59_decodable_all : forall prof c input output, reachable prof c -> Forall is_u16 input -> Forall is_u16 output ->
  Z.of_nat (length output) <= 0xF800 ->
  ((exists ins, process_input_data prof (combine (c_modules c) (c_offsets c)) input = Ok ins) <-> inputs_readable c input) /\
  ((exists outs, process_output_data prof (combine (c_modules c) (c_offsets c)) output = Ok outs) <-> outputs_readable c output).
Proof.
  intros prof c input output R Hui Huo Hs. apply reachable_ok in R. split; [exact (inputs_iff prof c input R Hui)|exact (outputs_iff_any prof c output R Huo Hs)].
Qed.

Lemma C59_errors_any : forall prof c input output c' e, reachable prof c -> Z.of_nat (length output) <= 0xF800 ->
  cycle prof c input output c' (Err e) ->
  (e = BufferLength /\ ~ (inputs_readable c input /\ outputs_readable c output)) \/
  (e = ModuleOffsetError /\
    ((exists i m o off, module_at c i m o /\ (mo_input o = Some off \/ mo_output o = Some off) /\ off mod 16 <> 0 /\ off mod 16 <> 8) \/
     ~ outputs_packed c)) \/
  (e = ChannelValueError /\ inputs_readable c input /\ outputs_readable c output /\
    ~ (requests_accepted c /\ presets_accepted c output)).
Proof.
  intros prof c input output c' e R Hs H. destruct (low_or_high c) as [Hh|(j & mj & oj & offj & Hatj & Ej & Hl)]; [exact (C59_errors_all prof c input output c' e R Hh H)|].
  pose proof (reachable_ok _ _ R) as Hr. assert (Hui : Forall is_u16 input) by apply H. assert (Huo : Forall is_u16 output) by apply H.
  assert (HN : ~ (inputs_readable c input /\ outputs_readable c output)).
  { intros [_ HO]. destruct (HO j mj oj offj Hatj Ej) as [(_ & _ & Hb & _) _]. lia. }
  destruct (cycle_inv _ _ _ _ _ _ Hr H) as [(_ & Hn & He & _)|[(ins & E1 & _ & Hn & He & _)|(ins & outs & sent & F1 & F2 & _)]].
  - pose proof (proj2 (He e) eq_refl) as Hx. rewrite process_input_rows in Hx. apply traverse_err in Hx.
    destruct Hx as (l1 & (m & o) & l2 & r & Hl1 & _ & Hx). assert (Hi : nth_error (infos c) (length l1) = Some (m, o)).
    { rewrite Hl1, nth_error_app2, Nat.sub_diag by lia. reflexivity. }
    pose proof Hi as Hat. apply infos_at in Hat. destruct (ok_off c Hr _ _ _ Hat) as [HO _]. cbn [snd] in HO.
    unfold input_row in Hx. cbn [fst snd] in Hx. destruct (mo_input o) as [off|] eqn:Eo; [|discriminate]. specialize (HO off eq_refl).
    assert (Hb : 0 <= 0 <= off / 16) by (unfold is_u16 in HO; lia).
    destruct (prepare_raw_data_to_process prof off 0 (input_bytes m) input) as [raw|e'|p] eqn:Hp; cbn [bind] in Hx; [| |discriminate].
    + destruct (prepare_own _ _ _ _ _ _ HO Hb Hui Hp) as (Lr & Ur & _). rewrite registers_count in Lr.
      left. split; [exact (decode_in_error m raw e (ok_complete c _ m o Hr Hi) Lr Ur Hx)|exact HN].
    + assert (e' = e) as -> by congruence. destruct (prepare_error _ _ _ _ _ _ HO Hui Hb Hp) as [->|(-> & N0 & N8)]; [left; auto|].
      right. left. split; [reflexivity|]. left. exists (length l1), m, o, off. auto.
  - pose proof (proj2 (He e) eq_refl) as Hx. rewrite process_output_rows in Hx. apply traverse_err in Hx.
    destruct Hx as (l1 & (m & o) & l2 & r & Hl1 & _ & Hx). assert (Hi : nth_error (infos c) (length l1) = Some (m, o)).
    { rewrite Hl1, nth_error_app2, Nat.sub_diag by lia. reflexivity. }
    pose proof Hi as Hat. apply infos_at in Hat. destruct (ok_off c Hr _ _ _ Hat) as [_ HO]. cbn [snd] in HO.
    unfold output_row in Hx. cbn [fst snd] in Hx. destruct (mo_output o) as [off|] eqn:Eo; [|discriminate]. specialize (HO off eq_refl).
    destruct (Z_lt_dec off 0x8000) as [L|L].
    + destruct (prepare_low prof off (output_bytes m) output HO L Hs) as [E|(p & E)]; rewrite E in Hx; cbn [bind] in Hx; [|discriminate].
      left. split; [congruence|exact HN].
    + assert (Hb : 0 <= 2048 <= off / 16) by (unfold is_u16 in HO; lia).
      destruct (prepare_raw_data_to_process prof off 0x0800 (output_bytes m) output) as [raw|e'|p] eqn:Hp; cbn [bind] in Hx; [| |discriminate].
      * destruct (prepare_own _ _ _ _ _ _ HO Hb Huo Hp) as (Lr & Ur & _). rewrite registers_count in Lr.
        left. split; [exact (decode_out_error m raw e (ok_complete c _ m o Hr Hi) Lr Ur Hx)|exact HN].
      * assert (e' = e) as -> by congruence. destruct (prepare_error _ _ _ _ _ _ HO Huo Hb Hp) as [->|(-> & N0 & N8)]; [left; auto|].
        right. left. split; [reflexivity|]. left. exists (length l1), m, o, off. auto.
  - exfalso. assert (X : outputs_readable c output) by (apply (outputs_iff_any prof); eauto). destruct (X j mj oj offj Hatj Ej) as [(_ & _ & Hb & _) _]. lia.
Qed.

(** After a successful cycle all outputs are in the output area. *)
Lemma cycle_high prof c input output c' image i m o off : reachable prof c -> cycle prof c input output c' (Ok image) ->
  module_at c i m o -> mo_output o = Some off -> 0x8000 <= off.
Proof.
  intros R H Hat Eo. destruct (proj1 (C59_all prof c input output c' _ R H) (ex_intro _ image eq_refl)) as (_ & _ & _ & _ & Hp).
  exact (packed_all c Hp i m o off Hat Eo).
Qed.

Lemma C81_shown_outputs_any : forall prof prof2 c input output c' image d input2 output2 d' image2 i j m o o2 off off2,
  reachable prof c -> cycle prof c input output c' (Ok image) -> reachable prof2 d -> cycle prof2 d input2 output2 d' (Ok image2) ->
  module_at c i m o -> module_at d j m o2 -> is_serial m = false -> mo_output o = Some off -> mo_output o2 = Some off2 ->
  placed off (output_bytes m) -> placed off2 (output_bytes m) ->
  (nth_error (outputs c') i = nth_error (outputs d') j <-> same_output m (registers_at 0x0800 output off) (registers_at 0x0800 output2 off2)).
Proof.
  intros prof prof2 c input output c' image d input2 output2 d' image2 i j m o o2 off off2 R H R2 H2 A A2 Hs E E2 P P2.
  exact (C81_shown_outputs_all _ _ _ _ _ _ _ _ _ _ _ _ _ _ _ _ _ _ _ R H R2 H2 A A2 Hs E E2
    (cycle_high _ _ _ _ _ _ _ _ _ _ R H A E) (cycle_high _ _ _ _ _ _ _ _ _ _ R2 H2 A2 E2) P P2).
Qed.

Lemma C83_outputs_any : forall prof c input output c' image i m o off, reachable prof c -> cycle prof c input output c' (Ok image) ->
  module_at c i m o -> is_serial m = false -> mo_output o = Some off -> placed off (output_bytes m) ->
  exists row, nth_error (outputs c') i = Some row /\ length row = channels m /\
    forall k v, nth_error row k = Some v -> physical_output m k (registers_at 0x0800 output off) v.
Proof.
  intros prof c input output c' image i m o off R H A Hs E P.
  exact (C83_outputs_all _ _ _ _ _ _ _ _ _ _ R H A Hs E (cycle_high _ _ _ _ _ _ _ _ _ _ R H A E) P).
Qed.
