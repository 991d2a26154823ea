(** Proofs about the part of the process images that matters (C79). *)
From Coq Require Import ZArith List Bool Lia ZifyBool ZifyNat.
From Verif Require Import Base Facts F32 Types Lib Util Digital Analog Fcnt Com Fbc
  SpecCodec SpecSerial SpecCoupler SpecImage SpecOutcome SpecRelevant
  ProofsAddr ProofsCodec ProofsFcnt ProofsSerialCodec ProofsModule ProofsImage ProofsSerial ProofsLoop ProofsCycle ProofsCoupler
  ProofsNew ProofsOrder ProofsOutcome ProofsMemory.
Import ListNotations.
Local Open Scope Z_scope.
Ltac Zify.zify_post_hook ::= Z.div_mod_to_equations.

Lemma output_row_isolated prof m o1 o2 off img1 img2 r1 r2 :
  is_u16 off -> 0x0800 <= off / 16 -> Forall is_u16 img1 -> Forall is_u16 img2 ->
  mo_output o1 = Some off -> mo_output o2 = Some off ->
  image_bytes img1 (first_byte 0x0800 off) (output_bytes m) = image_bytes img2 (first_byte 0x0800 off) (output_bytes m) ->
  output_row prof (m, o1) img1 = Ok r1 -> output_row prof (m, o2) img2 = Ok r2 -> r1 = r2.
Proof.
  intros Ho Hlow H1 H2 Hm1 Hm2 Hb E1 E2. unfold output_row in *. cbn [fst snd] in *. rewrite Hm1 in E1. rewrite Hm2 in E2.
  apply bind_ok in E1. destruct E1 as (raw1 & P1 & E1). apply bind_ok in E2. destruct E2 as (raw2 & P2 & E2).
  assert (Hz : 0 <= 0x0800 <= off / 16) by lia.
  destruct (prepare_own _ _ _ _ _ _ Ho Hz H1 P1) as (L1 & U1 & B1 & W1).
  destruct (prepare_own _ _ _ _ _ _ Ho Hz H2 P2) as (L2 & U2 & B2 & W2).
  enough (Hd : mod_process_output_data m raw1 = mod_process_output_data m raw2) by congruence.
  destruct (output_size_cases m) as [Hs|[(Hs & n & Hn & Hn8)|Hs]].
  - rewrite (no_output_rejects _ _ _ Hs E1), (no_output_rejects _ _ _ Hs E2). reflexivity.
  - rewrite Hs in *. change (word_count 1) with 1%nat in *.
    destruct (one_word raw1 L1) as (w1 & ->). destruct (one_word raw2 L2) as (w2 & ->).
    apply (byte_decode _ n); auto.
    { apply do_decoder. exact Hn. }
    { inversion U1; assumption. } { inversion U2; assumption. }
    cbn [bytes_of_words flat_map app] in W1, W2. unfold image_bytes in *.
    destruct W1 as [(Eo & W1)|(Eo & W1)], W2 as [(Eo2 & W2)|(Eo2 & W2)]; try (exfalso; lia).
    + cbn [Nat.mul Nat.add] in W1, W2.
      destruct (skipn (first_byte 0x0800 off) (bytes_of_words img1)) as [|a1 t1]; [discriminate|].
      destruct (skipn (first_byte 0x0800 off) (bytes_of_words img2)) as [|a2 t2]; [discriminate|].
      cbn [firstn] in *. congruence.
    + cbn [Nat.mul Nat.add Nat.sub] in W1, W2.
      destruct (skipn (first_byte 0x0800 off) (bytes_of_words img1)) as [|a1 t1]; [discriminate|].
      destruct (skipn (first_byte 0x0800 off) (bytes_of_words img2)) as [|a2 t2]; [discriminate|].
      cbn [firstn app] in *. congruence.
  - f_equal. apply bytes_of_words_inj; [assumption|assumption|].
    destruct W1 as [(Eo & W1)|(Eo & W1)], W2 as [(Eo2 & W2)|(Eo2 & W2)]; try (exfalso; lia).
    + rewrite W1, W2, <- Hs. exact Hb.
    + rewrite W1, W2. f_equal. unfold image_bytes in *. eapply firstn_prefix; [|exact Hb]. lia.
Qed.

Lemma traverse_same {A B} (f g : A -> outcome B) l r s : traverse f l = Ok r -> traverse g l = Ok s ->
  (forall i a x y, nth_error l i = Some a -> f a = Ok x -> g a = Ok y -> x = y) -> r = s.
Proof.
  intros Hf Hg H. apply nth_error_ext. intros i. destruct (nth_error l i) as [a|] eqn:E.
  - destruct (traverse_row_at _ _ _ _ _ Hf E) as (x & -> & Fx). destruct (traverse_row_at _ _ _ _ _ Hg E) as (y & -> & Fy).
    f_equal. exact (H i a x y E Fx Fy).
  - apply nth_error_None in E. apply traverse_length in Hf, Hg.
    rewrite (proj2 (nth_error_None r i)), (proj2 (nth_error_None s i)) by lia. reflexivity.
Qed.

Lemma inputs_agree prof c in1 in2 : coupler_ok c -> Forall is_u16 in1 -> Forall is_u16 in2 ->
  inputs_readable c in1 -> inputs_readable c in2 -> same_inputs c in1 in2 ->
  process_input_data prof (infos c) in1 = process_input_data prof (infos c) in2.
Proof.
  intros Hok U1 U2 R1 R2 HS.
  destruct (proj2 (inputs_iff prof c in1 Hok U1) R1) as (v1 & E1). destruct (proj2 (inputs_iff prof c in2 Hok U2) R2) as (v2 & E2).
  rewrite E1, E2. f_equal. rewrite process_input_rows in E1, E2. apply (traverse_same _ _ _ _ _ E1 E2).
  intros i [m o] x y Hi Hx Hy. pose proof Hi as Hat. apply infos_at in Hat.
  destruct (mo_input o) as [off|] eqn:Eo.
  - destruct (ok_off c Hok i m o Hat) as [F _]. cbn [snd] in F. specialize (F off Eo).
    exact (input_row_isolated prof m o o off in1 in2 x y F U1 U2 Eo Eo (HS i m o off Hat Eo) Hx Hy).
  - unfold input_row in Hx, Hy. cbn [fst snd] in Hx, Hy. rewrite Eo in Hx, Hy. congruence.
Qed.

Lemma outputs_agree prof c out1 out2 : coupler_ok c -> Forall is_u16 out1 -> Forall is_u16 out2 ->
  outputs_readable c out1 -> outputs_readable c out2 -> same_outputs c out1 out2 ->
  process_output_data prof (infos c) out1 = process_output_data prof (infos c) out2.
Proof.
  intros Hok U1 U2 R1 R2 HS.
  assert (Hh : forall i m o off, module_at c i m o -> mo_output o = Some off -> 0x8000 <= off).
  { intros i m o off Hat Eo. destruct (R1 i m o off Hat Eo) as [(_ & _ & H & _) _]. lia. }
  destruct (proj2 (outputs_iff prof c out1 Hok U1 Hh) R1) as (v1 & E1). destruct (proj2 (outputs_iff prof c out2 Hok U2 Hh) R2) as (v2 & E2).
  rewrite E1, E2. f_equal. rewrite process_output_rows in E1, E2. apply (traverse_same _ _ _ _ _ E1 E2).
  intros i [m o] x y Hi Hx Hy. pose proof Hi as Hat. apply infos_at in Hat.
  destruct (mo_output o) as [off|] eqn:Eo.
  - destruct (ok_off c Hok i m o Hat) as [_ F]. cbn [snd] in F. specialize (F off Eo). specialize (Hh i m o off Hat Eo).
    exact (output_row_isolated prof m o o off out1 out2 x y F ltac:(lia) U1 U2 Eo Eo (HS i m o off Hat Eo) Hx Hy).
  - unfold output_row in Hx, Hy. cbn [fst snd] in Hx, Hy. rewrite Eo in Hx, Hy. congruence.
Qed.

Lemma cycle_agree prof c in1 out1 in2 out2 c2 r2 : coupler_ok c -> Forall is_u16 in1 -> Forall is_u16 out1 ->
  same_call_for c (NextCycle in1 out1) (NextCycle in2 out2) -> cycle prof c in2 out2 c2 r2 -> cycle prof c in1 out1 c2 r2.
Proof.
  intros Hok U1 V1 (R1 & R2 & S1 & R3 & R4 & S2) (U2 & V2 & oi & oo & P1 & P2 & H).
  split; [exact U1|]. split; [exact V1|]. exists oi, oo. split; [exact P1|]. split; [exact P2|]. rewrite <- H. unfold next.
  rewrite (inputs_agree prof c in1 in2 Hok U1 U2 R1 R2 S1), (outputs_agree prof c out1 out2 Hok V1 V2 R3 R4 S2). reflexivity.
Qed.

Lemma C79_cycle_all : forall prof c in1 out1 in2 out2 c1 r1 c2 r2, reachable prof c ->
  inputs_readable c in1 -> inputs_readable c in2 -> same_inputs c in1 in2 ->
  outputs_readable c out1 -> outputs_readable c out2 -> same_outputs c out1 out2 ->
  cycle prof c in1 out1 c1 r1 -> cycle prof c in2 out2 c2 r2 -> r1 = r2 /\ same_coupler c1 c2.
Proof.
  intros prof c in1 out1 in2 out2 c1 r1 c2 r2 Hr R1 R2 S1 R3 R4 S2 H1 H2. apply reachable_ok in Hr as Hok.
  assert (H : cycle prof c in1 out1 c2 r2).
  { apply (cycle_agree prof c in1 out1 in2 out2 c2 r2 Hok); [apply H1|apply H1|repeat (split; [assumption|]); assumption|exact H2]. }
  destruct (proj1 C47_all prof c in1 out1 c1 r1 c2 r2 Hr H1 H) as (E & _ & _ & W). split; [exact E|exact W].
Qed.

(** The places are part of the configuration. *)
Lemma same_call_static c c' x y : c_modules c' = c_modules c -> c_offsets c' = c_offsets c -> same_call_for c x y -> same_call_for c' x y.
Proof.
  intros E1 E2. destruct x, y; cbn [same_call_for]; auto. unfold inputs_readable, outputs_readable, same_inputs, same_outputs, module_at.
  rewrite E1, E2. tauto.
Qed.

Lemma Forall2_mono {A B} (P Q : A -> B -> Prop) l r : (forall a b, P a b -> Q a b) -> Forall2 P l r -> Forall2 Q l r.
Proof. intros H F. induction F; constructor; auto. Qed.

Lemma relevant_runs prof : forall xs ys c d c' d' a b, coupler_ok c -> same_coupler c d ->
  Forall2 (same_call_for c) xs ys -> (forall input output, In (NextCycle input output) xs -> Forall is_u16 input /\ Forall is_u16 output) ->
  runs prof c xs c' a -> runs prof d ys d' b -> a = b /\ same_coupler c' d'.
Proof.
  induction xs as [|x xs IH]; intros ys c d c' d' a b Hok Hs HF HU H1 H2.
  - inversion HF; subst. inversion H1; subst. inversion H2; subst. split; [reflexivity|exact Hs].
  - inversion HF as [|? y ? ys' Hxy HF']; subst. inversion H1 as [|? ? c1 a1 ? ? a' Hx H1']; subst.
    inversion H2 as [|? ? d1 b1 ? ? b' Hy H2']; subst.
    assert (K : calls prof d x d1 b1).
    { pose proof Hs as (_ & _ & Em & Eo & _). apply (same_call_static c d) in Hxy; [|symmetry; assumption|symmetry; assumption].
      destruct x as [a0 v|i n|i u|in1 out1], y as [a2 v2|i2 n2|i2 u2|in2 out2]; cbn [same_call_for] in Hxy; try discriminate;
        try (injection Hxy as <- <-; exact Hy); try (exfalso; congruence).
      inversion Hy; subst. destruct (HU in1 out1 (or_introl eq_refl)) as [U1 U2].
      apply Calls_next; [|assumption]. apply (cycle_agree prof d in1 out1 in2 out2); auto. exact (same_ok _ _ Hs Hok). }
    destruct (same_calls prof c d x c1 d1 a1 b1 Hok Hs Hx K) as [-> Hs'].
    destruct (IH ys' c1 d1 c' d' a' b') as [-> W]; auto.
    + exact (calls_ok _ _ _ _ _ Hok Hx).
    + apply (Forall2_mono (same_call_for c)); [|exact HF']. intros u v. apply same_call_static; [exact (calls_modules _ _ _ _ _ Hx)|exact (calls_offsets _ _ _ _ _ Hx)].
    + intros input output Hin. apply HU. right. exact Hin.
Qed.

Lemma runs_images prof : forall xs c c' a, runs prof c xs c' a -> forall input output, In (NextCycle input output) xs ->
  Forall is_u16 input /\ Forall is_u16 output.
Proof.
  induction xs as [|x xs IH]; intros c c' a H input output Hin; [contradiction|]. inversion H; subst. destruct Hin as [->|Hin].
  - match goal with K : calls _ _ (NextCycle _ _) _ _ |- _ => inversion K as [| | |? ? ? ? ? Hc]; subst end. destruct Hc as (U & V & _). auto.
  - eapply IH; eassumption.
Qed.

Lemma C79_runs_all : forall prof c xs ys c1 c2 a1 a2, reachable prof c -> Forall2 (same_call_for c) xs ys ->
  runs prof c xs c1 a1 -> runs prof c ys c2 a2 -> a1 = a2 /\ same_coupler c1 c2.
Proof.
  intros prof c xs ys c1 c2 a1 a2 Hr HF H1 H2. apply reachable_ok in Hr.
  exact (relevant_runs prof xs ys c c c1 c2 a1 a2 Hr (same_coupler_refl c) HF (runs_images prof xs c c1 a1 H1) H1 H2).
Qed.

(** Registers behind the image. *)
Lemma prepare_more prof off base n data x : is_u16 off -> 0 <= base <= off / 16 ->
  off / 16 - base + Z.of_nat (registers n) <= Z.of_nat (length data) ->
  prepare_raw_data_to_process prof off base n (data ++ x) = prepare_raw_data_to_process prof off base n data.
Proof.
  intros Ho Hb Hl. rewrite !prepare_eq by assumption. rewrite registers_count. rewrite app_length. cbv zeta.
  destruct (Nat.ltb_spec (length data + length x) (Z.to_nat (off / 16 - base) + registers n)) as [H|_]; [exfalso; lia|].
  destruct (Nat.ltb_spec (length data) (Z.to_nat (off / 16 - base) + registers n)) as [H|_]; [exfalso; lia|].
  rewrite skipn_app, firstn_app, skipn_length.
  replace (registers n - (length data - Z.to_nat (off / 16 - base)))%nat with 0%nat by lia. rewrite firstn_O, app_nil_r. reflexivity.
Qed.

Lemma traverse_eq {A B} (f g : A -> outcome B) l : (forall i a, nth_error l i = Some a -> f a = g a) -> traverse f l = traverse g l.
Proof.
  induction l as [|a l IH]; intros H; [reflexivity|]. cbn [traverse]. rewrite (H 0%nat a eq_refl).
  rewrite IH; [reflexivity|]. intros i b Hb. exact (H (S i) b Hb).
Qed.

Lemma inputs_more prof c input x : coupler_ok c -> inputs_readable c input ->
  process_input_data prof (infos c) (input ++ x) = process_input_data prof (infos c) input.
Proof.
  intros Hok R. rewrite !process_input_rows. apply traverse_eq. intros i [m o] Hi. pose proof Hi as Hat. apply infos_at in Hat.
  unfold input_row. cbn [fst snd]. destruct (mo_input o) as [off|] eqn:Eo; [|reflexivity].
  destruct (ok_off c Hok i m o Hat) as [F _]. cbn [snd] in F. specialize (F off Eo).
  destruct (R i m o off Hat Eo) as [(_ & _ & Hb & Hl) _]. rewrite prepare_more; [reflexivity|exact F|lia|exact Hl].
Qed.
Lemma outputs_more prof c output y : coupler_ok c -> outputs_readable c output ->
  process_output_data prof (infos c) (output ++ y) = process_output_data prof (infos c) output.
Proof.
  intros Hok R. rewrite !process_output_rows. apply traverse_eq. intros i [m o] Hi. pose proof Hi as Hat. apply infos_at in Hat.
  unfold output_row. cbn [fst snd]. destruct (mo_output o) as [off|] eqn:Eo; [|reflexivity].
  destruct (ok_off c Hok i m o Hat) as [_ F]. cbn [snd] in F. specialize (F off Eo).
  destruct (R i m o off Hat Eo) as [(_ & _ & Hb & Hl) _]. rewrite prepare_more; [reflexivity|exact F|lia|exact Hl].
Qed.

Lemma C79_more_all : forall prof c input output x y c1 r1 c2 r2, reachable prof c ->
  inputs_readable c input -> outputs_readable c output ->
  cycle prof c input output c1 r1 -> cycle prof c (input ++ x) (output ++ y) c2 r2 -> r1 = r2 /\ same_coupler c1 c2.
Proof.
  intros prof c input output x y c1 r1 c2 r2 Hr R1 R2 H1 H2. apply reachable_ok in Hr as Hok.
  destruct H2 as (_ & _ & oi & oo & P1 & P2 & H). pose proof H1 as (U & V & _).
  assert (H2 : cycle prof c input output c2 r2).
  { split; [exact U|]. split; [exact V|]. exists oi, oo. split; [exact P1|]. split; [exact P2|]. rewrite <- H. unfold next.
    rewrite inputs_more, outputs_more by assumption. reflexivity. }
  destruct (proj1 C47_all prof c input output c1 r1 c2 r2 Hr H1 H2) as (E & _ & _ & W). split; [exact E|exact W].
Qed.
