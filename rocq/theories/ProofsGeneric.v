(** Proofs of C95. *)
From Coq Require Import ZArith List Bool Lia ZifyBool ZifyNat.
From Verif Require Import Base Facts F32 Types Lib Util Digital Analog Fcnt Com Fbc Generic
  SpecCodec SpecSerial SpecCoupler SpecImage SpecGeneric ProofsAddr ProofsCodec ProofsFcnt ProofsSerialCodec
  ProofsModule ProofsImage ProofsLayout ProofsLoop ProofsCycle ProofsCoupler ProofsOutcome ProofsPanic.
Import ListNotations.
Local Open Scope Z_scope.
Ltac Zify.zify_post_hook ::= Z.div_mod_to_equations.

(** *** The modules of the crate *)

Lemma any_loop_crate prof values ms : forall k out,
  any_output_loop (enumerate_from k (map (fun mo => (of_module prof (fst mo), snd mo)) ms)) values out =
  output_loop prof (enumerate_from k ms) values out.
Proof.
  induction ms as [|(m & o) ms IH]; intros k out; cbn [map enumerate_from any_output_loop output_loop fst snd];
    [reflexivity|].
  destruct (mo_output o) as [off|] eqn:Eo.
  - destruct (index values k) as [v|e|p]; cbn [bind]; try reflexivity.
    unfold output_step. rewrite Eo. cbn [of_module im_process_output_values].
    destruct (mod_process_output_values prof m v) as [d|e|p]; cbn [bind]; try reflexivity.
    fold (place off d out). destruct (place off d out) as [out'|e|p]; cbn [bind]; try reflexivity. apply IH.
  - cbn [bind]. apply IH.
Qed.

Lemma C95_crate_all : forall prof (ms : list (module * module_offset)) image values,
  let own := map (fun mo => (of_module prof (fst mo), snd mo)) ms in
  any_process_input_data prof own image = process_input_data prof ms image /\
  any_process_output_data prof own image = process_output_data prof ms image /\
  any_process_output_values own values = process_output_values prof ms values.
Proof.
  intros prof ms image values. cbv zeta. split; [|split].
  - unfold any_process_input_data, process_input_data. rewrite traverse_map. apply traverse_ext.
    intros (m & o) _. cbn [fst snd of_module im_type im_input_byte_count im_process_input_data bind]. reflexivity.
  - unfold any_process_output_data, process_output_data. rewrite traverse_map. apply traverse_ext.
    intros (m & o) _. reflexivity.
  - unfold any_process_output_values, process_output_values. rewrite map_length.
    destruct (negb _); [reflexivity|]. apply any_loop_crate.
Qed.

(** *** Reading *)

Lemma registers_word n : registers_for n = word_count n.
Proof. unfold registers_for, word_count. destruct (Nat.eqb_spec (n / 2) 0); lia. Qed.

Lemma bytes_inj a : forall b, Forall is_u16 a -> Forall is_u16 b -> bytes_of_words a = bytes_of_words b -> a = b.
Proof.
  induction a as [|x a IH]; intros [|y b] Ha Hb H; try discriminate; [reflexivity|].
  inversion Ha; inversion Hb; subst. cbn [bytes_of_words flat_map app] in H.
  apply (f_equal (fun l => (hd 0 l, hd 0 (tl l), tl (tl l)))) in H. cbn [hd tl] in H.
  apply pair_inj in H. destruct H as [H K3]. apply pair_inj in H. destruct H as [K1 K2].
  f_equal; [unfold is_u16 in *; lia|]. apply IH; assumption.
Qed.

Lemma given_prepare prof off base n data r : is_u16 off -> 0 <= base <= off / 16 -> Forall is_u16 data ->
  (given base off n data r <-> prepare_raw_data_to_process prof off base n data = r).
Proof.
  intros Ho Hb Hd.
  assert (G : given base off n data (prepare_raw_data_to_process prof off base n data)).
  { destruct (prepare_raw_data_to_process prof off base n data) as [raw|e|p] eqn:Hp.
    - pose proof (prepare_own _ _ _ _ _ _ Ho Hb Hd Hp) as (_ & Hu & _ & Hc).
      rewrite prepare_eq in Hp by assumption. rewrite <- registers_word in *.
      destruct (Nat.ltb_spec (length data) (Z.to_nat (off / 16 - base) + registers_for n)) as [Hl|Hl]; [discriminate|].
      cbv zeta in Hp. destruct Hc as [[E B]|[E B]]; rewrite E in Hp; cbn [Z.eqb] in Hp.
      + apply Ok_inj in Hp. subst raw. apply G_aligned; assumption.
      + apply G_middle; assumption.
    - rewrite prepare_eq in Hp by assumption. rewrite <- registers_word in *.
      destruct (Nat.ltb_spec (length data) (Z.to_nat (off / 16 - base) + registers_for n)) as [Hl|Hl].
      { assert (e = BufferLength) as -> by congruence. apply G_outside; assumption. }
      cbv zeta in Hp. destruct (Z.eqb_spec (off mod 16) 0); [discriminate|].
      destruct (Z.eqb_spec (off mod 16) 8).
      { destruct (shift_spec (firstn (registers_for n) (skipn (Z.to_nat (off / 16 - base)) data))) as (raw & Hr & _).
        - apply Forall_firstn_skipn; exact Hd.
        - intros E. apply (f_equal (@length Z)) in E. rewrite firstn_length, skipn_length in E. cbn [length] in E.
          unfold registers_for in *. lia.
        - congruence. }
      assert (e = ModuleOffsetError) as -> by congruence. apply G_misplaced; assumption.
    - exfalso. pose proof (prepare_no_panic prof off base n data Ho) as N. rewrite Hp in N.
      apply N; [unfold is_u16 in Ho; lia|right; lia]. }
  split; [|intros <-; exact G].
  intros H. revert G. generalize (prepare_raw_data_to_process prof off base n data). intros r0 G.
  inversion G as [A1 E1|A1 A2 A3 E1|A1 A2 E1|w A1 A2 A3 A4 E1];
    inversion H as [B1 F1|B1 B2 B3 F1|B1 B2 F1|w' B1 B2 B3 B4 F1]; subst; try lia; try congruence.
  f_equal. apply bytes_inj; [assumption|assumption|congruence].
Qed.

Lemma traverse_error {A B} (f : A -> outcome B) l e : traverse f l = Err e <->
  exists i a, nth_error l i = Some a /\ f a = Err e /\
    forall j a', (j < i)%nat -> nth_error l j = Some a' -> exists b, f a' = Ok b.
Proof.
  induction l as [|x l IH]; cbn [traverse].
  - split; [discriminate|]. intros (i & a & H & _). destruct i; discriminate.
  - destruct (f x) as [b|e'|q] eqn:E; cbn [bind].
    + transitivity (traverse f l = Err e).
      { destruct (traverse f l); cbn [bind]; split; intros H; try discriminate; auto. }
      rewrite IH. split.
      * intros (i & a & H1 & H2 & H3). exists (S i), a. split; [exact H1|]. split; [exact H2|].
        intros [|j] a' Hj Ha; cbn [nth_error] in Ha; [apply Some_inj in Ha; subst; eauto|]. apply (H3 j); [lia|exact Ha].
      * intros (i & a & H1 & H2 & H3). destruct i as [|i]; cbn [nth_error] in H1.
        { apply Some_inj in H1. subst. congruence. }
        exists i, a. split; [exact H1|]. split; [exact H2|]. intros j a' Hj Ha. apply (H3 (S j)); [lia|exact Ha].
    + split.
      * intros H. exists 0%nat, x. split; [reflexivity|]. split; [congruence|]. intros j a' Hj. lia.
      * intros (i & a & H1 & H2 & H3). destruct i as [|i]; cbn [nth_error] in H1.
        { apply Some_inj in H1. subst. congruence. }
        destruct (H3 0%nat x) as (b & Hb); [lia|reflexivity|congruence].
    + split; [discriminate|]. intros (i & a & H1 & H2 & H3). exfalso. destruct i as [|i]; cbn [nth_error] in H1.
      { apply Some_inj in H1. subst. congruence. }
      destruct (H3 0%nat x) as (b & Hb); [lia|reflexivity|congruence].
Qed.

Lemma traverse_good {A B} (f : A -> outcome B) l r : traverse f l = Ok r <->
  length r = length l /\ forall i a, nth_error l i = Some a -> exists b, nth_error r i = Some b /\ f a = Ok b.
Proof.
  split.
  - intros H. split; [exact (traverse_length _ _ _ H)|]. intros i a. exact (traverse_row_at f l r i a H).
  - revert r. induction l as [|a l IH]; intros [|b r] [Hl H]; cbn [length] in Hl; try lia; [reflexivity|].
    cbn [traverse]. destruct (H 0%nat a eq_refl) as (b' & Hb & Hf). cbn [nth_error] in Hb. apply Some_inj in Hb. subst b'.
    rewrite Hf. cbn [bind]. rewrite (IH r); [reflexivity|]. split; [lia|].
    intros i x Hx. exact (H (S i) x Hx).
Qed.

Lemma all_rows_traverse {A} (f : A -> outcome (list channel_value)) row ms result :
  (forall m r, In m ms -> (row m r <-> f m = r)) -> (all_rows row ms result <-> traverse f ms = result).
Proof.
  intros Hr.
  assert (Hn : forall i m r, nth_error ms i = Some m -> (row m r <-> f m = r)).
  { intros i m r Hi. apply Hr. exact (nth_error_In _ _ Hi). }
  destruct result as [rows|e|p]; cbn [all_rows].
  - rewrite traverse_good. split; intros [Hl H]; (split; [exact Hl|]); intros i m Hi;
      destruct (H i m Hi) as (r & H1 & H2); exists r; (split; [exact H1|]); apply (Hn i m _ Hi); exact H2.
  - rewrite traverse_error. split; intros (i & m & Hi & H1 & H2); exists i, m; (split; [exact Hi|]);
      (split; [apply (Hn i m _ Hi); exact H1|]); intros j m' Hj Hm; destruct (H2 j m' Hj Hm) as (r & H3); exists r;
      apply (Hn j m' _ Hm); exact H3.
  - rewrite traverse_panic. split; intros (i & m & Hi & H1 & H2); exists i, m; (split; [exact Hi|]);
      (split; [apply (Hn i m _ Hi); exact H1|]); intros j m' Hj Hm; destruct (H2 j m' Hj Hm) as (r & H3); exists r;
      apply (Hn j m' _ Hm); exact H3.
Qed.

Lemma row_prepare prof t offset base count decode image r :
  (forall off, offset = Some off -> is_u16 off /\ 0 <= base <= off / 16) -> Forall is_u16 image ->
  (row_of t offset base count decode image r <->
   match offset with
   | Some off =>
       let? cnt := count in
       let? raw := prepare_raw_data_to_process prof off base cnt image in decode raw
   | None => Ok (repeat VNone (channel_count t))
   end = r).
Proof.
  intros Ho Hd. unfold row_of. destruct offset as [off|]; [|split; congruence].
  destruct (Ho off eq_refl) as [Hu Hb]. destruct count as [n|e|p]; cbn [bind]; try (split; congruence).
  pose proof (fun w => given_prepare prof off base n image w Hu Hb Hd) as G. split.
  - intros (w & Hg & Hw). apply G in Hg. rewrite Hg. destruct w; cbn [bind]; congruence.
  - intros H. exists (prepare_raw_data_to_process prof off base n image). split; [apply G; reflexivity|].
    destruct (prepare_raw_data_to_process prof off base n image); cbn [bind] in H; congruence.
Qed.

Lemma C95_inputs_all : forall prof (ms : list (implementation * module_offset)) image,
  Forall is_u16 image -> (forall m o off, In (m, o) ms -> mo_input o = Some off -> is_u16 off) ->
  forall result, any_process_input_data prof ms image = result <-> all_rows (in_row image) ms result.
Proof.
  intros prof ms image Hd Ho result. symmetry. apply all_rows_traverse. intros (m & o) r Hin.
  unfold in_row. cbn [fst snd]. apply row_prepare; [|exact Hd]. intros off E. pose proof (Ho m o off Hin E) as Hu.
  split; [exact Hu|unfold is_u16, ADDR_PACKED_PROCESS_INPUT_DATA, ADDR_PACKED_PROCESS_OUTPUT_DATA in *; lia].
Qed.

Lemma C95_readback_all : forall prof (ms : list (implementation * module_offset)) image,
  Forall is_u16 image ->
  (forall m o off, In (m, o) ms -> mo_output o = Some off -> is_u16 off /\ 0x8000 <= off) ->
  forall result, any_process_output_data prof ms image = result <-> all_rows (out_row image) ms result.
Proof.
  intros prof ms image Hd Ho result. symmetry. apply all_rows_traverse. intros (m & o) r Hin.
  unfold out_row. cbn [fst snd]. apply row_prepare; [|exact Hd]. intros off E. destruct (Ho m o off Hin E) as [Hu Hl].
  split; [exact Hu|unfold is_u16, ADDR_PACKED_PROCESS_INPUT_DATA, ADDR_PACKED_PROCESS_OUTPUT_DATA in *; lia].
Qed.

(** *** Writing *)

Definition any_step (m : implementation) (o : module_offset) (v : list channel_value) (out : list Z)
  : outcome (list Z) :=
  match mo_output o with
  | None => Ok out
  | Some off => let? d := im_process_output_values m v in place off d out
  end.
Fixpoint any_steps (l : list ((implementation * module_offset) * list channel_value)) (out : list Z)
  : outcome (list Z) :=
  match l with
  | [] => Ok out
  | ((m, o), v) :: t => let? out := any_step m o v out in any_steps t out
  end.

Lemma any_loop_steps ms : forall k values out, length values = (k + length ms)%nat ->
  any_output_loop (enumerate_from k ms) values out = any_steps (combine ms (skipn k values)) out.
Proof.
  induction ms as [|(m & o) ms IH]; intros k values out Hl; cbn [enumerate_from any_output_loop combine any_steps];
    [reflexivity|].
  cbn [length] in Hl. rewrite (firstn_skipn_S values k []) by lia. cbn [combine any_steps].
  rewrite (index_lt values k []) by lia. cbn [bind]. unfold any_step. destruct (mo_output o) as [off|] eqn:Eo.
  - destruct (im_process_output_values m (nth k values [])) as [d|e|p]; cbn [bind]; try reflexivity.
    destruct (place off d out) as [out'|e|p]; cbn [bind]; try reflexivity. apply IH. lia.
  - cbn [bind]. apply IH. lia.
Qed.

Lemma any_values_steps ms values : length values = length ms ->
  any_process_output_values ms values = any_steps (combine ms values) [].
Proof.
  intros H. unfold any_process_output_values. rewrite H, Nat.eqb_refl. cbn [negb].
  unfold enumerate. rewrite any_loop_steps by exact H. reflexivity.
Qed.

(** Placing is the same as for a module of the crate: take one whose encoding is known. *)
Lemma place_cases o off d out : off_ok o -> mo_output o = Some off -> stepped o d out (place off d out).
Proof.
  intros Ho Eo. specialize (Ho off Eo). unfold place.
  rewrite to_register_address_eq by exact Ho. unfold is_u16 in Ho.
  unfold ADDR_PACKED_PROCESS_OUTPUT_DATA. destruct (Z.ltb_spec (off / 16) 2048) as [Hs|Hs].
  { eapply S_offset; [exact Eo| |]; lia. }
  destruct (Z.eq_dec (off mod 16) 0) as [E0|E0].
  { rewrite E0. change (Z.to_nat 0) with 0%nat. cbv iota.
    destruct (Nat.eqb_spec (length out) (Z.to_nat (off / 16 - 2048))) as [El|El]; cbn [negb].
    - eapply S_word; [exact Eo|exact E0|lia].
    - eapply S_offset; [exact Eo| |]; lia. }
  destruct (Z.eq_dec (off mod 16) 8) as [E8|E8].
  { rewrite E8. change (Z.to_nat 8) with 8%nat. cbv iota.
    destruct (Nat.eqb_spec (length out) (Z.to_nat (off / 16 - 2048) + 1)) as [El|El]; cbn [negb].
    - destruct (split_last out _ El) as (t & last & -> & Ht). rewrite <- Ht. rewrite index_last. cbn [bind].
      rewrite u16_to_u8_bytes. destruct d as [|w r].
      + cbn [bytes_of_words flat_map index nth_error bind].
        eapply S_empty; [exact Eo|exact E8|reflexivity|lia|reflexivity].
      + cbn [bytes_of_words flat_map app index nth_error bind].
        rewrite high_low by lia. rewrite store_last.
        eapply S_byte; [exact Eo|exact E8|reflexivity|lia|reflexivity].
    - eapply S_offset; [exact Eo| |]; lia. }
  assert (Hc : exists k, (k < 16)%nat /\ k <> 0%nat /\ k <> 8%nat /\ Z.to_nat (off mod 16) = k)
    by (exists (Z.to_nat (off mod 16)); lia).
  destruct Hc as (k & Hk & H0 & H8 & ->).
  do 16 (destruct k as [|k]; [first [lia|eapply S_offset; [exact Eo| |]; lia]|]). lia.
Qed.

Lemma any_step_cases m o v out d : off_ok o ->
  (mo_output o <> None -> im_process_output_values m v = Ok d) -> stepped o d out (any_step m o v out).
Proof.
  intros Ho Hd. unfold any_step. destruct (mo_output o) as [off|] eqn:Eo; [|constructor; exact Eo].
  rewrite Hd by discriminate. cbn [bind]. apply place_cases; assumption.
Qed.

Definition any_encodes (x : (implementation * module_offset) * list channel_value)
  (p : module_offset * list Z) : Prop :=
  fst p = snd (fst x) /\
  match mo_output (fst p) with
  | Some _ => im_process_output_values (fst (fst x)) (snd x) = Ok (snd p)
  | None => snd p = []
  end.

Lemma any_steps_lays l : forall out image, Forall (fun x => off_ok (snd (fst x))) l ->
  any_steps l out = Ok image -> exists ps, Forall2 any_encodes l ps /\ lays ps out image.
Proof.
  induction l as [|((m & o) & v) l IH]; intros out image Hoff H; cbn [any_steps] in H.
  - apply Ok_inj in H. subst image. exists []. split; constructor.
  - apply bind_ok in H. destruct H as (out' & Hs & H). inversion Hoff as [|? ? Ho Hoff']; subst.
    cbn [fst snd] in Ho.
    destruct (IH out' image Hoff' H) as (ps & Hps & HL).
    destruct (mo_output o) as [off|] eqn:Eo.
    + assert (Hd : exists d, im_process_output_values m v = Ok d).
      { unfold any_step in Hs. rewrite Eo in Hs. apply bind_ok in Hs. destruct Hs as (d & Hd & _). eauto. }
      destruct Hd as (d & Hd).
      pose proof (any_step_cases m o v out d Ho (fun _ => Hd)) as Hc. rewrite Hs in Hc.
      exists ((o, d) :: ps). split.
      { constructor; [|exact Hps]. split; [reflexivity|]. cbn [fst snd]. rewrite Eo. exact Hd. }
      inversion Hc as [Hn E|off' Ho' E0 El E|off' t last w r Ho' E8 -> El -> E| |]; subst; try congruence.
      * eapply L_word; eassumption.
      * eapply L_byte; eassumption.
    + exists ((o, []) :: ps). split.
      { constructor; [|exact Hps]. split; [reflexivity|]. cbn [fst snd]. rewrite Eo. reflexivity. }
      apply L_none; [exact Eo|]. unfold any_step in Hs. rewrite Eo in Hs. apply Ok_inj in Hs. subst out'. exact HL.
Qed.

Lemma any_tiled_steps l : forall out ps, Forall (fun x => off_ok (snd (fst x))) l ->
  Forall2 any_encodes l ps ->
  tiled (length out) ps -> exists image, any_steps l out = Ok image.
Proof.
  induction l as [|((m & o) & v) l IH]; intros out ps Hoff HF HT; inversion HF as [|? (o' & d) ? ps' He HF']; subst;
    cbn [any_steps]; [eauto|].
  inversion Hoff as [|? ? Ho Hoff']; subst. cbn [fst snd] in Ho.
  destruct He as [E1 E2]. cbn [fst snd] in E1, E2. subst o'. cbn [tiled] in HT.
  assert (Hd : mo_output o <> None -> im_process_output_values m v = Ok d).
  { destruct (mo_output o); [intros _; exact E2|congruence]. }
  pose proof (any_step_cases m o v out d Ho Hd) as Hc.
  inversion Hc as [Eo E|off Eo E0 El E|off t last w r Eo E8 -> El -> E|off t last Eo E8 -> El -> E|off Eo N1 N2 E];
    rewrite Eo in HT; cbn [bind].
  - eapply IH; eassumption.
  - eapply IH; [exact Hoff'|exact HF'|]. rewrite app_length.
    destruct HT as [[_ HT]|[Hx _]]; [exact HT|exfalso; lia].
  - eapply IH; [exact Hoff'|exact HF'|]. rewrite app_length in *. cbn [length] in *.
    destruct HT as [[Hx _]|(_ & _ & _ & HT)]; [exfalso; lia|exact HT].
  - exfalso. rewrite app_length in HT. cbn [length] in HT. destruct HT as [[Hx _]|(_ & _ & Hx & _)]; [lia|congruence].
  - exfalso. destruct HT as [[Hx _]|(Hx & Hp & _)]; lia.
Qed.

Lemma offs_of ms : (forall m o off, In (m, o) ms -> mo_output o = Some off -> is_u16 off) ->
  forall values : list (list channel_value),
  Forall (fun x : (implementation * module_offset) * list channel_value => off_ok (snd (fst x))) (combine ms values).
Proof.
  intros H values. apply Forall_forall. intros ((m & o) & v) Hin. apply in_combine_l in Hin.
  intros off Ho. exact (H m o off Hin Ho).
Qed.

Lemma any_process_lays ms values image :
  (forall m o off, In (m, o) ms -> mo_output o = Some off -> is_u16 off) ->
  any_process_output_values ms values = Ok image ->
  length values = length ms /\
  exists ps, length ps = length ms /\ lays ps [] image /\
    forall i m o, nth_error ms i = Some (m, o) ->
      exists d, nth_error ps i = Some (o, d) /\
        (mo_output o = None -> d = []) /\
        (mo_output o <> None -> exists vs, nth_error values i = Some vs /\ im_process_output_values m vs = Ok d).
Proof.
  intros Hoff H.
  assert (Hl : length values = length ms).
  { unfold any_process_output_values in H. destruct (Nat.eqb_spec (length ms) (length values)); [auto|discriminate]. }
  split; [exact Hl|]. rewrite any_values_steps in H by exact Hl.
  destruct (any_steps_lays _ _ _ (offs_of ms Hoff values) H) as (ps & HF & HL). exists ps.
  pose proof (Forall2_length _ _ _ HF) as Hlen. rewrite combine_length in Hlen.
  split; [lia|]. split; [exact HL|]. intros i m o Hi.
  pose proof (nth_error_Some_lt _ _ _ Hi) as Hlt.
  destruct (nth_error_lt_Some values i) as (vs & Hv); [lia|].
  destruct (nth_error_lt_Some ps i) as ((o' & d) & Hp); [lia|].
  apply Forall2_nth_error in HF. destruct HF as (_ & HF).
  specialize (HF i ((m, o), vs) (o', d)). rewrite nth_error_combine, Hi, Hv in HF.
  destruct (HF eq_refl Hp) as (E1 & E2). cbn [fst snd] in *. subst o'.
  exists d. split; [exact Hp|]. destruct (mo_output o).
  - split; [discriminate|]. intros _. exists vs. auto.
  - split; [auto|congruence].
Qed.

Lemma C95_outputs_all : forall (ms : list (implementation * module_offset)) values image,
  (forall m o off, In (m, o) ms -> mo_output o = Some off -> is_u16 off) ->
  any_process_output_values ms values = Ok image ->
  length values = length ms /\
  exists datas, length datas = length ms /\
    (forall i m o d off, nth_error ms i = Some (m, o) -> nth_error datas i = Some d ->
       mo_output o = Some off ->
       (exists vs, nth_error values i = Some vs /\ im_process_output_values m vs = Ok d) /\
       0x8000 <= off /\ (off mod 16 = 0 \/ (off mod 16 = 8 /\ d <> [])) /\
       forall k, (k < if (off mod 16 =? 0)%Z then 2 * length d else 1)%nat ->
         (forall j m' o' d', (i < j)%nat -> nth_error ms j = Some (m', o') -> nth_error datas j = Some d' ->
            ~ claims o' d' (first_byte 0x0800 off + k)) ->
         nth_error (bytes_of_words image) (first_byte 0x0800 off + k) = nth_error (bytes_of_words d) k) /\
    (forall b, (b < 2 * length image)%nat <->
       exists i m o d, nth_error ms i = Some (m, o) /\ nth_error datas i = Some d /\ claims o d b) /\
    (forall i j m o d m' o' d' off' b, (i < j)%nat ->
       nth_error ms i = Some (m, o) -> nth_error datas i = Some d ->
       nth_error ms j = Some (m', o') -> nth_error datas j = Some d' ->
       claims o d b -> claims o' d' b -> mo_output o' = Some off' -> off' mod 16 = 8).
Proof.
  intros ms values image Hoff H.
  destruct (any_process_lays ms values image Hoff H) as (Hl & ps & Hlp & HL & Hps).
  split; [exact Hl|]. exists (map snd ps). split; [rewrite map_length; exact Hlp|].
  assert (Hat : forall i m o d, nth_error ms i = Some (m, o) -> nth_error (map snd ps) i = Some d ->
            nth_error ps i = Some (o, d)).
  { intros i m o d Hi Hd. destruct (Hps i m o Hi) as (d' & Hp & _). rewrite nth_error_map, Hp in Hd.
    cbn [option_map snd] in Hd. apply Some_inj in Hd. subst d'. exact Hp. }
  split; [|split].
  - intros i m o d off Hi Hd Eo. pose proof (Hat i m o d Hi Hd) as Hp.
    split.
    { destruct (Hps i m o Hi) as (d' & Hp' & _ & Hv). rewrite Hp in Hp'. apply Some_inj, pair_inj in Hp'.
      destruct Hp' as [_ <-]. apply Hv. rewrite Eo. discriminate. }
    destruct (nth_error_split ps i Hp) as (pre & post & -> & Hpre).
    destruct (lays_own _ _ _ _ _ _ _ HL Eo) as (H1 & H2 & H3). split; [exact H1|]. split; [exact H2|].
    intros k Hk Hn. apply H3; [exact Hk|]. intros (o' & d' & Hin & Hc).
    apply In_nth_error in Hin. destruct Hin as (j & Hj).
    assert (Hpj : nth_error (pre ++ (o, d) :: post) (S (i + j)) = Some (o', d')).
    { rewrite nth_error_app2 by lia. replace (S (i + j) - length pre)%nat with (S j) by lia. exact Hj. }
    destruct (nth_error_lt_Some ms (S (i + j))) as ((m' & o2) & Hm').
    { rewrite <- Hlp. eapply nth_error_Some_lt. exact Hpj. }
    destruct (Hps _ _ _ Hm') as (d2 & Hp2 & _). rewrite Hpj in Hp2. apply Some_inj, pair_inj in Hp2.
    destruct Hp2 as [<- <-].
    apply (Hn (S (i + j)) m' o' d'); [lia|exact Hm'| |exact Hc].
    rewrite nth_error_map, Hpj. reflexivity.
  - destruct (lays_facts _ _ _ HL) as (_ & _ & F3 & F4 & _). intros b. split.
    + intros Hb. destruct (F3 b) as (o & d & Hin & Hc); [cbn [length]; lia|].
      apply In_nth_error in Hin. destruct Hin as (i & Hi).
      destruct (nth_error_lt_Some ms i) as ((m & o2) & Hm). { rewrite <- Hlp. eapply nth_error_Some_lt. exact Hi. }
      destruct (Hps _ _ _ Hm) as (d2 & Hp2 & _). rewrite Hi in Hp2. apply Some_inj, pair_inj in Hp2.
      destruct Hp2 as [<- <-]. exists i, m, o, d. split; [exact Hm|]. split; [|exact Hc].
      rewrite nth_error_map, Hi. reflexivity.
    + intros (i & m & o & d & Hi & Hd & Hc). eapply F4; [|exact Hc]. eapply nth_error_In. eapply Hat; eassumption.
  - intros i j m o d m' o' d' off' b Hij Hi Hd Hj Hd' Hc Hc' Eo'.
    destruct (nth_split2 ps i j (o, d) (o', d') Hij (Hat _ _ _ _ Hi Hd) (Hat _ _ _ _ Hj Hd'))
      as (pre & mid & post & ->).
    eapply lays_twice; eassumption.
Qed.

Lemma C95_exist_all : forall (ms : list (implementation * module_offset)) values ps,
  (forall m o off, In (m, o) ms -> mo_output o = Some off -> is_u16 off) ->
  length values = length ms -> length ps = length ms ->
  (forall i m o vs o' d, nth_error ms i = Some (m, o) -> nth_error values i = Some vs ->
     nth_error ps i = Some (o', d) ->
     o' = o /\ (mo_output o = None -> d = []) /\
     (mo_output o <> None -> im_process_output_values m vs = Ok d)) ->
  (tiled 0 ps <-> exists image, any_process_output_values ms values = Ok image).
Proof.
  intros ms values ps Hoff Hl Hp Henc. pose proof (offs_of ms Hoff values) as Hoff'.
  assert (HF : Forall2 any_encodes (combine ms values) ps).
  { apply Forall2_from_nth; [rewrite combine_length; lia|].
    intros i ((m & o) & v) (o' & d) Hi Hd. rewrite nth_error_combine in Hi.
    destruct (nth_error ms i) as [(m' & o2)|] eqn:Em; [|discriminate].
    destruct (nth_error values i) as [vs|] eqn:Ev; [|discriminate].
    apply Some_inj in Hi. apply pair_inj in Hi. destruct Hi as [Hi ->]. apply pair_inj in Hi. destruct Hi as [-> ->].
    destruct (Henc i m o v o' d Em Ev Hd) as (-> & H1 & H2). split; [reflexivity|]. cbn [fst snd].
    destruct (mo_output o); [apply H2; discriminate|apply H1; reflexivity]. }
  rewrite any_values_steps by exact Hl. split.
  - intros HT. exact (any_tiled_steps _ [] ps Hoff' HF HT).
  - intros (image & H). destruct (any_steps_lays _ _ _ Hoff' H) as (ps' & HF' & HL).
    assert (ps' = ps) as <-; [|apply lays_tiled in HL; exact HL].
    clear -HF HF'. revert ps HF. induction HF' as [|x p l ps' He HF' IH]; intros ps HF;
      inversion HF as [|? q ? ps2 Hq HF2]; subst; [reflexivity|]. f_equal; [|apply IH; exact HF2].
    destruct p as (o1 & d1), q as (o2 & d2). destruct He as [E1 E2], Hq as [E3 E4]. cbn [fst snd] in *. subst.
    f_equal. destruct (mo_output _); congruence.
Qed.

(** Failures. *)
Definition failing {A} (r : outcome A) : Prop := match r with Ok _ => False | _ => True end.

Lemma steps_app l1 : forall l2 out, any_steps (l1 ++ l2) out = let? o := any_steps l1 out in any_steps l2 o.
Proof.
  induction l1 as [|((m & o) & v) l1 IH]; intros l2 out; cbn [app any_steps bind]; [reflexivity|].
  destruct (any_step m o v out); cbn [bind]; [apply IH|reflexivity|reflexivity].
Qed.

Lemma any_steps_fail l : forall out r, failing r ->
  (any_steps l out = r <->
   exists l1 m o v l2 out', l = l1 ++ ((m, o), v) :: l2 /\ any_steps l1 out = Ok out' /\ any_step m o v out' = r).
Proof.
  induction l as [|((m & o) & v) l IH]; intros out r Hr; cbn [any_steps].
  - split; [intros <-; destruct Hr|]. intros (l1 & m & o & v & l2 & out' & H & _). destruct l1; discriminate.
  - destruct (any_step m o v out) as [out1|e|p] eqn:E; cbn [bind].
    + rewrite (IH out1 r Hr). split.
      * intros (l1 & m' & o' & v' & l2 & out' & -> & H1 & H2).
        exists (((m, o), v) :: l1), m', o', v', l2, out'. split; [reflexivity|]. split; [|exact H2].
        cbn [any_steps]. rewrite E. exact H1.
      * intros (l1 & m' & o' & v' & l2 & out' & H & H1 & H2). destruct l1 as [|x l1]; cbn [app] in H.
        { exfalso. apply (f_equal (fun l => match l with x :: _ => x | [] => ((m, o), v) end)) in H.
          apply pair_inj in H. destruct H as [H <-]. apply pair_inj in H. destruct H as [<- <-].
          cbn [any_steps] in H1. apply Ok_inj in H1. subst out'. rewrite E in H2. subst r. exact Hr. }
        exists l1, m', o', v', l2, out'. assert (x = ((m, o), v)) as -> by congruence.
        split; [congruence|]. split; [|exact H2]. cbn [any_steps] in H1. rewrite E in H1. exact H1.
    + split.
      * intros <-. exists [], m, o, v, l, out. auto.
      * intros (l1 & m' & o' & v' & l2 & out' & H & H1 & H2). destruct l1 as [|x l1]; cbn [app] in H.
        { cbn [any_steps] in H1. apply Ok_inj in H1. subst out'. congruence. }
        assert (x = ((m, o), v)) as -> by congruence. cbn [any_steps] in H1. rewrite E in H1. discriminate.
    + split.
      * intros <-. exists [], m, o, v, l, out. auto.
      * intros (l1 & m' & o' & v' & l2 & out' & H & H1 & H2). destruct l1 as [|x l1]; cbn [app] in H.
        { cbn [any_steps] in H1. apply Ok_inj in H1. subst out'. congruence. }
        assert (x = ((m, o), v)) as -> by congruence. cbn [any_steps] in H1. rewrite E in H1. discriminate.
Qed.

Lemma combine_firstn {A B} (l : list A) : forall (r : list B) i, combine (firstn i l) (firstn i r) = firstn i (combine l r).
Proof. induction l as [|a l IH]; intros [|b r] [|i]; cbn [firstn combine]; try reflexivity. f_equal. apply IH. Qed.

Lemma any_fail ms values r : failing r -> length values = length ms ->
  (any_process_output_values ms values = r <->
   exists i m o vs out, nth_error ms i = Some (m, o) /\ nth_error values i = Some vs /\
     any_process_output_values (firstn i ms) (firstn i values) = Ok out /\ any_step m o vs out = r).
Proof.
  intros Hr Hl. rewrite any_values_steps by exact Hl. rewrite any_steps_fail by exact Hr. split.
  - intros (l1 & m & o & v & l2 & out & E & H1 & H2). exists (length l1), m, o, v, out.
    pose proof (f_equal (fun l => nth_error l (length l1)) E) as En. cbv beta in En.
    rewrite nth_error_combine, nth_error_app2, Nat.sub_diag in En by lia. cbn [nth_error] in En.
    destruct (nth_error ms (length l1)) as [(m' & o')|] eqn:Em; [|discriminate].
    destruct (nth_error values (length l1)) as [v'|] eqn:Ev; [|discriminate].
    apply Some_inj, pair_inj in En. destruct En as [En ->].
    split; [congruence|]. split; [reflexivity|]. split; [|exact H2].
    rewrite any_values_steps by (rewrite !firstn_length; lia).
    rewrite combine_firstn, E, firstn_app, Nat.sub_diag, firstn_all. cbn [firstn]. rewrite app_nil_r. exact H1.
  - intros (i & m & o & vs & out & Hm & Hv & H1 & H2).
    assert (Hc : nth_error (combine ms values) i = Some ((m, o), vs)) by (rewrite nth_error_combine, Hm, Hv; reflexivity).
    destruct (nth_error_split _ _ Hc) as (l1 & l2 & E & Hi). exists l1, m, o, vs, l2, out.
    split; [exact E|]. split; [|exact H2].
    rewrite any_values_steps in H1 by (rewrite !firstn_length; lia).
    rewrite combine_firstn, E, <- Hi, firstn_app, Nat.sub_diag, firstn_all in H1. cbn [firstn] in H1.
    rewrite app_nil_r in H1. exact H1.
Qed.

Lemma any_length ms values e : length values <> length ms ->
  any_process_output_values ms values = e <-> e = Err ChannelValueError.
Proof.
  intros H. unfold any_process_output_values. replace (Nat.eqb (length ms) (length values)) with false by lia.
  cbn [negb]. split; congruence.
Qed.

Lemma out_length {A} (out : list A) : (length out = 0%nat <-> out = []).
Proof. destruct out; cbn [length]; split; intros H; try reflexivity; try lia; discriminate. Qed.

Lemma C95_errors_all : forall (ms : list (implementation * module_offset)) values e,
  (forall m o off, In (m, o) ms -> mo_output o = Some off -> is_u16 off) ->
  (any_process_output_values ms values = Err e <->
   (length values <> length ms /\ e = ChannelValueError) \/
   (length values = length ms /\
    exists i m o off vs out, nth_error ms i = Some (m, o) /\ mo_output o = Some off /\
      nth_error values i = Some vs /\
      any_process_output_values (firstn i ms) (firstn i values) = Ok out /\
      (im_process_output_values m vs = Err e \/
       (exists d, im_process_output_values m vs = Ok d) /\ e = ModuleOffsetError /\
        off <> 16 * (0x0800 + Z.of_nat (length out)) /\
        (off <> 16 * (0x0800 + Z.of_nat (length out) - 1) + 8 \/ out = [])))).
Proof.
  intros ms values e Hoff. destruct (Nat.eq_dec (length values) (length ms)) as [Hl|Hl].
  2:{ rewrite any_length by exact Hl. split.
      - intros H. left. split; [exact Hl|congruence].
      - intros [[_ ->]|[H _]]; [reflexivity|congruence]. }
  rewrite (any_fail ms values (Err e) I Hl). split.
  - intros (i & m & o & vs & out & Hm & Hv & H1 & H2). right. split; [exact Hl|].
    unfold any_step in H2. destruct (mo_output o) as [off|] eqn:Eo; [|discriminate].
    exists i, m, o, off, vs, out. do 4 (split; [assumption|]).
    destruct (im_process_output_values m vs) as [d|e'|p] eqn:Ed; cbn [bind] in H2; [|left; exact H2|discriminate].
    right. split; [eauto|].
    assert (Ho : off_ok o) by (intros off' E'; exact (Hoff m o off' (nth_error_In _ _ Hm) E')).
    pose proof (place_cases o off d out Ho Eo) as Hc. rewrite H2 in Hc.
    inversion Hc as [| | | |off' Eo' N1 N2 E]; subst. rewrite Eo in Eo'. apply Some_inj in Eo'. subst off'.
    split; [reflexivity|]. split; [lia|]. rewrite <- out_length. lia.
  - intros [[H _]|(_ & i & m & o & off & vs & out & Hm & Eo & Hv & H1 & H2)]; [congruence|].
    exists i, m, o, vs, out. do 3 (split; [assumption|]). unfold any_step. rewrite Eo.
    destruct H2 as [H2|((d & Hd) & -> & N1 & N2)]; [rewrite H2; reflexivity|]. rewrite Hd. cbn [bind].
    assert (Ho : off_ok o) by (intros off' E'; exact (Hoff m o off' (nth_error_In _ _ Hm) E')).
    pose proof (place_cases o off d out Ho Eo) as Hc. rewrite <- out_length in N2.
    inversion Hc as [Eo'|off' Eo' A1 A2|off' t last w r Eo' A1 A2 A3 A4|off' t last Eo' A1 A2 A3 A4|off' Eo' A1 A2];
      rewrite Eo in Eo'; try discriminate; try reflexivity; apply Some_inj in Eo'; subst off'; exfalso; try lia;
      rewrite A2, app_length in N1, N2; cbn [length] in N1, N2; lia.
Qed.

Lemma C95_panics_all : forall (ms : list (implementation * module_offset)) values p,
  (forall m o off, In (m, o) ms -> mo_output o = Some off -> is_u16 off) ->
  (any_process_output_values ms values = Panic p <->
   length values = length ms /\
   exists i m o off vs out, nth_error ms i = Some (m, o) /\ mo_output o = Some off /\
     nth_error values i = Some vs /\
     any_process_output_values (firstn i ms) (firstn i values) = Ok out /\
     (im_process_output_values m vs = Panic p \/
      im_process_output_values m vs = Ok [] /\ p = IndexOutOfBounds /\
      off = 16 * (0x0800 + Z.of_nat (length out) - 1) + 8 /\ out <> [])).
Proof.
  intros ms values p Hoff. destruct (Nat.eq_dec (length values) (length ms)) as [Hl|Hl].
  2:{ rewrite any_length by exact Hl. split; [discriminate|]. intros [H _]. congruence. }
  rewrite (any_fail ms values (Panic p) I Hl). split.
  - intros (i & m & o & vs & out & Hm & Hv & H1 & H2). split; [exact Hl|].
    unfold any_step in H2. destruct (mo_output o) as [off|] eqn:Eo; [|discriminate].
    exists i, m, o, off, vs, out. do 4 (split; [assumption|]).
    destruct (im_process_output_values m vs) as [d|e'|p'] eqn:Ed; cbn [bind] in H2; [|discriminate|left; exact H2].
    right.
    assert (Ho : off_ok o) by (intros off' E'; exact (Hoff m o off' (nth_error_In _ _ Hm) E')).
    pose proof (place_cases o off d out Ho Eo) as Hc. rewrite H2 in Hc.
    inversion Hc as [| | |off' t last Eo' A1 A2 A3 A4 E|]; subst. rewrite Eo in Eo'. apply Some_inj in Eo'. subst off'.
    split; [reflexivity|]. split; [reflexivity|]. rewrite <- out_length, app_length. cbn [length]. lia.
  - intros (_ & i & m & o & off & vs & out & Hm & Eo & Hv & H1 & H2).
    exists i, m, o, vs, out. do 3 (split; [assumption|]). unfold any_step. rewrite Eo.
    destruct H2 as [H2|(Hd & -> & N1 & N2)]; [rewrite H2; reflexivity|]. rewrite Hd. cbn [bind].
    assert (Ho : off_ok o) by (intros off' E'; exact (Hoff m o off' (nth_error_In _ _ Hm) E')).
    pose proof (place_cases o off [] out Ho Eo) as Hc. rewrite <- out_length in N2.
    inversion Hc as [Eo'|off' Eo' A1 A2|off' t last w r Eo' A1 A2 A3 A4|off' t last Eo' A1 A2 A3 A4|off' Eo' A1 A2];
      rewrite Eo in Eo'; try discriminate; try reflexivity; apply Some_inj in Eo'; subst off'; exfalso; lia.
Qed.

(** *** The default methods *)

Lemma given_words base off n image w : Forall is_u16 image -> given base off n image (Ok w) -> w <> [].
Proof.
  intros Hd H. inversion H as [| |A1 A2 E|w' A1 A2 A3 A4 E]; subst.
  - intros E. apply (f_equal (@length Z)) in E. rewrite firstn_length, skipn_length in E. cbn [length] in E.
    unfold registers_for in *. lia.
  - intros ->. destruct (image_bytes _ _ _); discriminate.
Qed.

Lemma given_no_panic base off n image p : ~ given base off n image (Panic p).
Proof. intros H. inversion H. Qed.

Lemma C95_defaults_all : forall t n k prof image offset,
  Forall is_u16 image ->
  (mo_input offset = None ->
   any_process_input_data prof [(without_data t n k, offset)] image = Ok [repeat VNone (channel_count t)]) /\
  (mo_output offset = None ->
   any_process_output_data prof [(without_data t n k, offset)] image = Ok [repeat VNone (channel_count t)]) /\
  (forall off, mo_input offset = Some off -> is_u16 off ->
   exists e, any_process_input_data prof [(without_data t n k, offset)] image = Err e) /\
  (forall off, mo_output offset = Some off -> is_u16 off -> 0x8000 <= off ->
   exists e, any_process_output_data prof [(without_data t n k, offset)] image = Err e) /\
  (forall vs, im_process_output_values (without_data t n k) vs = Ok [] <->
     (length vs = 0 \/ length vs = channel_count t)%nat).
Proof.
  intros t n k prof image offset Hd. split; [|split; [|split; [|split]]].
  - intros E. unfold any_process_input_data. cbn [traverse]. rewrite E. reflexivity.
  - intros E. unfold any_process_output_data. cbn [traverse]. rewrite E. reflexivity.
  - intros off E Hu. unfold any_process_input_data. cbn [traverse]. rewrite E.
    cbn [without_data im_input_byte_count im_process_input_data bind]. unfold ADDR_PACKED_PROCESS_INPUT_DATA.
    pose proof (given_prepare prof off 0 n image (prepare_raw_data_to_process prof off 0 n image) Hu) as G.
    destruct (prepare_raw_data_to_process prof off 0 n image) as [raw|e|p].
    + cbn [bind]. destruct raw; [|eexists; reflexivity]. exfalso.
      apply (given_words 0 off n image [] Hd); [|reflexivity]. apply G; [unfold is_u16 in Hu; lia|exact Hd|reflexivity].
    + eexists. reflexivity.
    + exfalso. apply (given_no_panic 0 off n image p). apply G; [unfold is_u16 in Hu; lia|exact Hd|reflexivity].
  - intros off E Hu Hl. unfold any_process_output_data. cbn [traverse]. rewrite E.
    cbn [without_data im_output_byte_count im_process_output_data bind]. unfold ADDR_PACKED_PROCESS_OUTPUT_DATA.
    pose proof (given_prepare prof off 0x0800 k image (prepare_raw_data_to_process prof off 0x0800 k image) Hu) as G.
    destruct (prepare_raw_data_to_process prof off 0x0800 k image) as [raw|e|p].
    + cbn [bind]. destruct raw; [|eexists; reflexivity]. exfalso.
      apply (given_words 0x0800 off k image [] Hd); [|reflexivity]. apply G; [unfold is_u16 in Hu; lia|exact Hd|reflexivity].
    + eexists. reflexivity.
    + exfalso. apply (given_no_panic 0x0800 off k image p). apply G; [unfold is_u16 in Hu; lia|exact Hd|reflexivity].
  - intros vs. cbn [without_data im_process_output_values]. unfold any_default_process_output_values.
    destruct (Nat.eqb_spec (length vs) 0) as [E|E]; [split; [left; exact E|intros _; reflexivity]|].
    destruct (Nat.eqb_spec (length vs) (channel_count t)) as [E2|E2]; cbn [negb andb].
    + split; [right; exact E2|intros _; reflexivity].
    + split; [discriminate|]. intros [?|?]; congruence.
Qed.
