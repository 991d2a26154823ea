(** Proofs of C48 for analog outputs of any format: how far idle cycles drift. *)
From Coq Require Import ZArith List Bool Lia ZifyBool ZifyNat.
From Verif Require Import Base Facts F32 Types Lib Util Digital Analog Fcnt Com Fbc SpecCodec SpecSerial SpecCoupler SpecImage SpecAnalog SpecOutcome SpecIdle SpecDrift
  ProofsAddr ProofsCodec ProofsModule ProofsSerialCodec ProofsImage ProofsLayout ProofsLoop ProofsCycle ProofsCoupler ProofsNew ProofsReadback ProofsCreepOffset
  ProofsOrder ProofsDigital ProofsSerial ProofsFcnt ProofsAnalog ProofsIdle ProofsOutcome ProofsIsolation.
Import ListNotations.
Local Open Scope Z_scope.
Ltac Zify.zify_post_hook ::= Z.div_mod_to_equations.

(** *** One channel *)

Lemma rewrites_length m n : forall data data', rewrites_n m n data data' -> all_analog_outputs m -> Forall is_u16 data -> length data = 4%nat ->
  Forall is_u16 data' /\ length data' = 4%nat.
Proof.
  intros data data' H Ha. induction H as [data|n data d1 data' H1 Hn IH]; intros Hu Hl; [auto|].
  destruct H1 as (prof & values & Hd & He). pose proof (output_data_wire _ _ _ Hu Hd) as Hw.
  destruct (encoded_words prof m values d1 Hw He) as (L & U). apply IH; [exact U|].
  assert (X : analog_output m 0 <> None) by (apply Ha; lia). destruct m; try (exfalso; apply X; reflexivity); exact L.
Qed.

Lemma kept_channel m k r f n : analog_output m k = Some (r, f) -> all_analog_outputs m -> (f = S5 \/ r = UI_Disabled) ->
  forall data data', rewrites_n m n data data' -> Forall is_u16 data -> length data = 4%nat ->
  (r = UI_Disabled -> nth_error data k = Some 0) -> nth_error data' k = nth_error data k.
Proof.
  intros Ea Ha Hx data data' H. induction H as [data|n data d1 data' H1 Hn IH]; intros Hu Hl Hz; [reflexivity|].
  destruct (rewrites_length m 1 data d1) as [U1 L1]; [eapply rewrites_S; [exact H1|apply rewrites_0]|exact Ha|exact Hu|exact Hl|].
  assert (E : nth_error d1 k = nth_error data k).
  { assert (Hk : (k < 4)%nat) by (apply Ha; congruence).
    destruct (nth_error_lt_Some data k) as (w & Hw); [lia|]. destruct (nth_error_lt_Some d1 k) as (u & Hu1); [lia|].
    rewrite Hw, Hu1. f_equal. destruct Hx as [->| ->].
    - destruct (C19_all m data Ha Hl Hu) as (_ & C). rewrite (C d1 k _ w u H1 Ea Hw Hu1).
      destruct r; try reflexivity. rewrite (Hz eq_refl) in Hw. congruence.
    - pose proof (rewrite_channel m k _ f data d1 w u Ea H1 Hw Hu1) as E. cbn [base_span] in E. subst u.
      rewrite (Hz eq_refl) in Hw. congruence. }
  rewrite IH; auto. intros Er. rewrite E. auto.
Qed.

Lemma rewrites_snoc m n : forall data data' data'', rewrites_n m n data data' -> rewrites m data' data'' -> rewrites_n m (S n) data data''.
Proof.
  intros data data' data'' H. induction H as [data|n data d1 data' H1 Hn IH]; intros H2.
  - eapply rewrites_S; [exact H2|apply rewrites_0].
  - eapply rewrites_S; [exact H1|]. apply IH. exact H2.
Qed.

Lemma format_dec (f : data_format) : f = S5 \/ f = S7.
Proof. destruct f; auto. Qed.
Lemma range_dec (r : analog_ui_range) : r = UI_Disabled \/ r <> UI_Disabled.
Proof. destruct r; auto; right; discriminate. Qed.

Lemma disabled_zero prof m k f vs d : all_analog_outputs m -> analog_output m k = Some (UI_Disabled, f) ->
  mod_process_output_values prof m vs = Ok d -> Forall wire_value vs -> length d = 4%nat -> nth_error d k = Some 0.
Proof.
  intros Ha Ea He Hw Hl. assert (Hk : (k < 4)%nat) by (apply Ha; congruence).
  assert (Lv : length vs = 4%nat).
  { assert (X : analog_output m 0 <> None) by (apply Ha; lia).
    destruct m; try (exfalso; apply X; reflexivity); cbn [mod_process_output_values] in He;
      [unfold ao_process_output_values in He|unfold ao_diag_process_output_values in He];
      split_if He; split_if He; apply traverse_length in He; rewrite enumerate_length in He; lia. }
  destruct (nth_error_lt_Some vs k) as (v0 & Hv0); [lia|]. destruct (nth_error_lt_Some d k) as (v & Hv); [lia|].
  assert (S : sends m k v0 v) by (exists prof, vs, d; auto).
  pose proof (sent_analog _ _ _ _ _ _ Ea S) as X. rewrite Hv. f_equal. destruct v0; try discriminate; apply Ok_inj in X; auto.
Qed.

(** The drift of a channel of encoded data. *)
Lemma drift_channel prof m vs n data data' k w w' : all_analog_outputs m -> Forall wire_value vs ->
  mod_process_output_values prof m vs = Ok data -> length data = 4%nat -> Forall is_u16 data -> rewrites_n m n data data' ->
  nth_error data k = Some w -> nth_error data' k = Some w' ->
  towards_zero (signed w) (signed w') /\ Z.abs (signed w' - signed w) <= 5 /\
  (forall r f, analog_output m k = Some (r, f) -> (f = S5 \/ r = UI_Disabled) -> w' = w) /\
  (forall data'' w'', (5 <= n)%nat -> rewrites m data' data'' -> nth_error data'' k = Some w'' -> w'' = w').
Proof.
  intros Ha Hw He Hl Hu Hn E E'. assert (Hk : (k < 4)%nat) by (rewrite <- Hl; eapply nth_error_Some_lt; exact E).
  destruct (analog_output m k) as [[r f]|] eqn:Ea; [|exfalso; apply (Ha k); auto].
  assert (Hx : (f = S5 \/ r = UI_Disabled) \/ (f = S7 /\ r <> UI_Disabled)) by (destruct (format_dec f), (range_dec r); auto).
  destruct Hx as [Hx|[-> Hr]].
  - assert (Hz : r = UI_Disabled -> nth_error data k = Some 0) by (intros ->; eapply disabled_zero; eassumption).
    pose proof (kept_channel m k r f n Ea Ha Hx data data' Hn Hu Hl Hz) as X. rewrite E, E' in X. apply Some_inj in X. subst w'.
    split; [unfold towards_zero; lia|]. split; [lia|]. split; [reflexivity|].
    intros data'' w'' _ H2 E2. pose proof (kept_channel m k r f _ Ea Ha Hx data data'' (rewrites_snoc _ _ _ _ _ Hn H2) Hu Hl Hz) as X. congruence.
  - assert (Uw : is_u16 w) by exact (proj1 (Forall_forall _ _) Hu _ (nth_error_In _ _ E)).
    destruct (C20_all m k r n data data' w w' Ea Hr Hn E E' Uw) as (_ & T1 & _ & _ & T2 & _ & T3).
    split; [exact T1|]. split; [exact T2|]. split; [|exact T3].
    intros r0 f0 Ea0 Hx0. apply Some_inj, pair_inj in Ea0. destruct Ea0 as [<- <-]. destruct Hx0; [discriminate|contradiction].
Qed.

(** *** Layouts *)

Lemma lays_bytes ps qs image image' : lays ps [] image -> lays qs [] image' -> Forall2 alike ps qs ->
  length image' = length image -> forall b, (b < 2 * length image)%nat ->
  exists i o d d' off k, nth_error ps i = Some (o, d) /\ nth_error qs i = Some (o, d') /\ mo_output o = Some off /\
    b = (first_byte 0x0800 off + k)%nat /\ (k < if (off mod 16 =? 0)%Z then 2 * length d else 1)%nat /\
    ~ claimed (skipn (S i) ps) (first_byte 0x0800 off + k) /\
    nth_error (bytes_of_words image) b = nth_error (bytes_of_words d) k /\
    nth_error (bytes_of_words image') b = nth_error (bytes_of_words d') k.
Proof.
  intros HP HQ HA Hl b Hb.
  destruct (lays_facts _ _ _ HP) as (_ & _ & F3 & _). destruct (last_claim ps b) as (pre & o & d & post & E & Hc & Hn).
  { apply F3. cbn [length]. lia. }
  assert (Hi : nth_error ps (length pre) = Some (o, d)) by (rewrite E, nth_error_app2, Nat.sub_diag by lia; reflexivity).
  assert (Hpost : skipn (S (length pre)) ps = post).
  { rewrite E. change ((o, d) :: post) with ([(o, d)] ++ post). rewrite app_assoc.
    replace (S (length pre)) with (length (pre ++ [(o, d)]) + 0)%nat by (rewrite app_length; cbn [length]; lia).
    rewrite skipn_app, skipn_all2 by lia. rewrite Nat.add_comm, Nat.add_sub. reflexivity. }
  pose proof (Forall2_length _ _ _ HA) as HAl.
  destruct (nth_error_lt_Some qs (length pre)) as ((o' & d') & Hq). { rewrite <- HAl. eapply nth_error_Some_lt. exact Hi. }
  pose proof HA as HA2. apply Forall2_nth_error in HA2. destruct HA2 as (_ & HA2). destruct (HA2 _ _ _ Hi Hq) as [E1 E2].
  cbn [fst snd] in E1, E2. subst o'.
  destruct (nth_error_split qs _ Hq) as (qpre & qpost & Eq & Lq).
  assert (HA3 : Forall2 alike post qpost).
  { rewrite E in HA. rewrite Eq in HA.
    assert (X : forall (a : list (module_offset * list Z)) b x y u v, Forall2 alike (a ++ x :: u) (b ++ y :: v) -> length b = length a -> Forall2 alike u v).
    { induction a as [|a0 a IHa]; intros [|b0 b'] x y u v HF Hlen; cbn [length] in Hlen; try discriminate; inversion HF; subst; auto.
      eapply IHa; [eassumption|lia]. }
    exact (X _ _ _ _ _ _ HA Lq). }
  destruct Hc as (off & Eo & Hcb). rewrite E in HP. rewrite Eq in HQ.
  destruct (lays_own _ _ _ _ _ _ _ HP Eo) as (_ & _ & OP). destruct (lays_own _ _ _ _ _ _ _ HQ Eo) as (_ & _ & OQ).
  exists (length pre), o, d, d', off, (b - first_byte 0x0800 off)%nat.
  replace (first_byte 0x0800 off + (b - first_byte 0x0800 off))%nat with b by lia.
  split; [exact Hi|]. split; [exact Hq|]. split; [exact Eo|]. split; [reflexivity|]. split; [lia|]. rewrite Hpost. split; [exact Hn|].
  split.
  - rewrite <- OP; [f_equal; lia|lia|]. replace (first_byte 0x0800 off + (b - first_byte 0x0800 off))%nat with b by lia. exact Hn.
  - rewrite <- OQ; [f_equal; lia|rewrite E2; lia|]. replace (first_byte 0x0800 off + (b - first_byte 0x0800 off))%nat with b by lia.
    intros X. apply Hn. exact (alike_claimed _ _ _ HA3 X).
Qed.

(** *** Cycles *)

(** The four registers of an analog output module. *)
Definition four (image : list Z) (off : Z) : list Z := firstn 4 (skipn (first_byte 0x0800 off / 2) image).

(** An analog output module that nothing overlaps. *)
Definition placed (c : coupler) (i : nat) (m : module) (o : module_offset) (off : Z) : Prop :=
  module_at c i m o /\ mo_output o = Some off /\ all_analog_outputs m /\ off mod 16 = 0 /\
  forall j m' o' off', (i < j)%nat -> module_at c j m' o' -> mo_output o' = Some off' ->
    ~ (first_byte 0x0800 off <= first_byte 0x0800 off' < first_byte 0x0800 off + 8)%nat.

Lemma analog_bytes m : all_analog_outputs m -> output_bytes m = 8%nat /\ output_words m = 4%nat /\ is_serial m = false.
Proof. intros Ha. assert (X : analog_output m 0 <> None) by (apply Ha; lia). destruct m; try (exfalso; apply X; reflexivity); auto. Qed.

Lemma even_first off : 0x8000 <= off -> off mod 16 = 0 -> (2 * (first_byte 0x0800 off / 2) = first_byte 0x0800 off)%nat.
Proof. intros H0 H. unfold first_byte. lia. Qed.

Lemma high_offset prof c input output c' image i m o off : reachable prof c -> cycle prof c input output c' (Ok image) ->
  module_at c i m o -> mo_output o = Some off -> 0x8000 <= off.
Proof.
  intros Hr H Hat Eo. destruct (proj1 (C59_all _ _ _ _ _ _ Hr H) (ex_intro _ image eq_refl)) as (_ & _ & _ & _ & K).
  exact (packed_all c K i m o off Hat Eo).
Qed.

Lemma four_encoded prof c input output c' image i m o off : reachable prof c -> cycle prof c input output c' (Ok image) ->
  placed c i m o off -> Forall is_u16 image -> forall ins outs sent,
  process_output_values prof (infos c) sent = Ok image -> length sent = length (c_modules c) ->
  (forall i m o, module_at c i m o -> exists iv ov,
      nth_error ins i = Some iv /\ nth_error outs i = Some ov /\
      input_row prof (m, o) input = Ok iv /\ output_row prof (m, o) output = Ok ov /\
      module_cycle prof c c' sent i m o iv ov) ->
  exists vs, nth_error sent i = Some vs /\ Forall wire_value vs /\ mod_process_output_values prof m vs = Ok (four image off) /\
    length (four image off) = 4%nat /\ Forall is_u16 (four image off).
Proof.
  intros Hr H (Hat & Eo & Ha & E0 & Hno) Hui ins outs sent E3 E4 E7. pose proof (reachable_ok _ _ Hr) as Hok.
  pose proof (high_offset _ _ _ _ _ _ _ _ _ _ Hr H Hat Eo) as Hh.
  destruct (analog_bytes m Ha) as (B8 & W4 & _). assert (Huo : Forall is_u16 output) by apply H.
  pose proof (sent_wire _ _ _ _ _ _ _ _ Hok Huo E4 E7) as Hw.
  assert (Hi : nth_error (infos c) i = Some (m, o)) by (apply infos_at; exact Hat).
  destruct (C42_enc_wire prof _ _ _ _ _ _ _ (infos_off c Hok) Hw E3 Hi Eo (or_introl E0)) as (vs & d & Hvs & Hd & Hb).
  { rewrite B8. intros j m' o' off' Hj Hat'. apply infos_at in Hat'. exact (Hno j m' o' off' Hj Hat'). }
  assert (Hwv : Forall wire_value vs) by exact (proj1 (Forall_forall _ _) Hw _ (nth_error_In _ _ Hvs)).
  destruct (encoded_words _ _ _ _ Hwv Hd) as (Ld & Hdu).
  assert (E : four image off = d).
  { apply bytes_of_words_inj; [|exact Hdu|].
    - unfold four. apply Forall_forall. intros x Hx. apply (proj1 (Forall_forall _ _) Hui). apply In_nth_error in Hx. destruct Hx as (k & Hx).
      assert (Hk : (k < 4)%nat). { apply nth_error_Some_lt in Hx. rewrite firstn_length in Hx. lia. }
      rewrite nth_error_firstn_lt in Hx by exact Hk. rewrite nth_error_skipn in Hx. eapply nth_error_In. exact Hx.
    - unfold four. rewrite bytes_firstn, bytes_skipn, even_first by assumption. unfold image_bytes in Hb. rewrite B8 in Hb.
      change (2 * 4)%nat with 8%nat. rewrite Hb. apply firstn_all2. rewrite bytes_of_words_length. lia. }
  rewrite E. exists vs. split; [exact Hvs|]. split; [exact Hwv|]. split; [exact Hd|]. split; [lia|exact Hdu].
Qed.

Lemma placed_static prof c input output c' r i m o off : cycle prof c input output c' r -> (placed c' i m o off <-> placed c i m o off).
Proof. intros H. apply cycle_static in H. unfold placed, module_at. destruct H as [-> ->]. reflexivity. Qed.

Definition whole_drifting (c : coupler) : Prop :=
  forall i m o off, module_at c i m o -> mo_output o = Some off -> exact_module m \/
    (off mod 16 = 0 /\ forall j m' o' off', (i < j)%nat -> module_at c j m' o' -> mo_output o' = Some off' ->
       ~ (first_byte 0x0800 off <= first_byte 0x0800 off' < first_byte 0x0800 off + output_bytes m)%nat).

(** What an idle cycle does to the image. *)
Record idle_step (c : coupler) (n : nat) (image image' : list Z) : Prop := mk_step {
  st_length : length image' = length image;
  st_words : forall b, nth_error image' b = nth_error image b \/
    exists i m o off k, placed c i m o off /\ (k < 4)%nat /\ b = (first_byte 0x0800 off / 2 + k)%nat;
  st_four : forall i m o off, placed c i m o off -> rewrites_n m n (four image off) (four image' off) }.

Lemma exact_or_analog m : complete m -> output_bytes m <> 0%nat -> exact_module m \/ all_analog_outputs m.
Proof.
  intros Hc Hz. destruct (module_kinds m Hc Hz) as [(n & Hn & _)|[(Ha & _)|[(ch & -> & _)|(l & ch & ->)]]].
  - left. intros k r f E. destruct m; discriminate.
  - right. exact Ha.
  - left. intros k r f E. discriminate.
  - left. intros k r f E. discriminate.
Qed.

Lemma one_idle prof c input output c' image input' c'' image' : reachable prof c -> reachable prof c' ->
  cycle prof c input output c' (Ok image) -> settled c' -> whole_drifting c -> nothing_received prof c' input input' ->
  cycle prof c' input' image c'' (Ok image') -> idle_step c 1 image image'.
Proof.
  intros Hr Hr' H Hset Hx Hquiet H'. pose proof (reachable_ok _ _ Hr) as Hok. pose proof (reachable_ok _ _ Hr') as Hok'.
  destruct (ok_cycle _ _ _ _ _ _ Hok H) as (ins & outs & sent & E1 & E2 & E3 & E4 & E4' & _ & _ & E7).
  destruct (ok_cycle _ _ _ _ _ _ Hok' H') as (ins' & outs' & sent' & F1 & F2 & F3 & F4 & F4' & _ & _ & F7).
  assert (Huo : Forall is_u16 output) by apply H. assert (Hui : Forall is_u16 image) by apply H'.
  pose proof (sent_wire _ _ _ _ _ _ _ _ Hok Huo E4 E7) as Hw. pose proof (sent_wire _ _ _ _ _ _ _ _ Hok' Hui F4 F7) as Hw'.
  pose proof F2 as F2'. pose proof F3 as F3'.
  destruct (process_lays _ _ _ _ (off_all c Hok) E3) as (_ & ps & Lps & HL & Hps).
  destruct (process_lays _ _ _ _ (off_all c' Hok') F3) as (_ & qs & Lqs & HQ & Hqs).
  rewrite (infos_static _ _ _ _ _ _ H) in Hqs, Lqs, F1, F2, F3.
  assert (HQx : forall i r r', cell ins i 0 = Some (ComRsIn r) -> cell ins' i 0 = Some (ComRsIn r') -> ri_rx_cnt r' = ri_rx_cnt r).
  { intros i r r' C1 C2. unfold nothing_received in Hquiet. rewrite (infos_static _ _ _ _ _ _ H) in Hquiet. exact (Hquiet ins ins' i r r' E1 F1 C1 C2). }
  assert (Words : forall i o d d' off, nth_error ps i = Some (o, d) -> nth_error qs i = Some (o, d') -> mo_output o = Some off ->
     exists m vs vs' iv ov iv' ov', module_at c i m o /\ nth_error sent i = Some vs /\ nth_error sent' i = Some vs' /\
       mod_process_output_values prof m vs = Ok d /\ mod_process_output_values prof m vs' = Ok d' /\
       length d = output_words m /\ length d' = output_words m /\ Forall is_u16 d' /\
       nth_error ins i = Some iv /\ nth_error ins' i = Some iv' /\ output_row prof (m, o) image = Ok ov' /\
       module_cycle prof c c' sent i m o iv ov /\ module_cycle prof c' c'' sent' i m o iv' ov').
  { intros i o d d' off Hp Hq Eo. destruct (nth_error_lt_Some (infos c) i) as ((m & o1) & Hm).
    { rewrite <- Lps. eapply nth_error_Some_lt. exact Hp. }
    destruct (Hps i m o1 Hm) as (d1 & Hp1 & _ & Henc). rewrite Hp in Hp1. apply Some_inj, pair_inj in Hp1. destruct Hp1 as [<- <-].
    destruct (Hqs i m o Hm) as (d1 & Hq1 & _ & Henc'). rewrite Hq in Hq1. apply Some_inj, pair_inj in Hq1. destruct Hq1 as [_ <-].
    destruct Henc as (vs & Hvs & Hev); [congruence|]. destruct Henc' as (vs' & Hvs' & Hev'); [congruence|].
    apply infos_at in Hm. destruct (E7 i m o Hm) as (iv & ov & Hiv & Hov & _ & _ & Hc).
    destruct (F7 i m o) as (iv' & ov' & Hiv' & Hov' & _ & Hro' & Hc'). { apply (at_static _ _ _ _ _ _ i m o H). exact Hm. }
    destruct (encoded_words prof m vs d) as (L1 & U1); [exact (proj1 (Forall_forall _ _) Hw _ (nth_error_In _ _ Hvs))|exact Hev|].
    destruct (encoded_words prof m vs' d') as (L2 & U2); [exact (proj1 (Forall_forall _ _) Hw' _ (nth_error_In _ _ Hvs'))|exact Hev'|].
    exists m, vs, vs', iv, ov, iv', ov'. auto 20. }
  assert (HA : Forall2 alike ps qs).
  { apply Forall2_nth_error. split; [lia|]. intros i (o & d) (o' & d') Hp Hq.
    destruct (nth_error_lt_Some (infos c) i) as ((m & o1) & Hm). { rewrite <- Lps. eapply nth_error_Some_lt. exact Hp. }
    destruct (Hps i m o1 Hm) as (d1 & Hp1 & Hn & _). rewrite Hp in Hp1. apply Some_inj, pair_inj in Hp1. destruct Hp1 as [<- <-].
    destruct (Hqs i m o Hm) as (d1 & Hq1 & Hn' & _). rewrite Hq in Hq1. apply Some_inj, pair_inj in Hq1. destruct Hq1 as [-> <-].
    split; [reflexivity|]. cbn [snd]. destruct (mo_output o) as [off|] eqn:Eo; [|rewrite Hn, Hn' by reflexivity; reflexivity].
    destruct (Words i o d d' off Hp Hq Eo) as (m' & _ & _ & _ & _ & _ & _ & _ & _ & _ & _ & _ & L1 & L2 & _). lia. }
  assert (Hoff : Forall (fun x => off_ok (snd (fst x))) (combine (infos c) sent')).
  { apply Forall_forall. intros (mo & v) Hin. apply in_combine_l in Hin. exact (proj1 (Forall_forall _ _) (off_all c Hok) mo Hin). }
  assert (HE : Forall2 (encodes prof) (combine (infos c) sent') qs).
  { apply Forall2_nth_error. split.
    - rewrite combine_length, Lqs, infos_length by exact Hok. rewrite F4. destruct (cycle_static _ _ _ _ _ _ H) as [-> _]. lia.
    - intros i ((m & o) & v) (o' & d') Hl Hq. rewrite nth_error_combine in Hl.
      destruct (nth_error (infos c) i) as [(m1 & o1)|] eqn:Hm; [|discriminate].
      destruct (nth_error sent' i) as [v1|] eqn:Hv; [|discriminate]. apply Some_inj, pair_inj in Hl. destruct Hl as [Hl <-].
      apply pair_inj in Hl. destruct Hl as [-> ->]. destruct (Hqs i m o Hm) as (d1 & Hq1 & Hn & Hs).
      rewrite Hq in Hq1. apply Some_inj, pair_inj in Hq1. destruct Hq1 as [-> <-]. split; [reflexivity|]. cbn [fst snd].
      destruct (mo_output o) as [off|] eqn:Eo; [|apply Hn; reflexivity]. destruct Hs as (vs & Hvs & Hs); [congruence|].
      rewrite Hvs in Hv. apply Some_inj in Hv. subst v1. exact Hs. }
  destruct (steps_alike prof _ ps qs [] image [] HL HA HE Hoff eq_refl) as (im & Hst & _ & Hlen).
  rewrite process_output_values_steps in F3.
  2:{ rewrite infos_length by exact Hok. rewrite F4. destruct (cycle_static _ _ _ _ _ _ H) as [-> _]. reflexivity. }
  rewrite Hst in F3. apply Ok_inj in F3. subst im.
  assert (Hui' : Forall is_u16 image').
  { apply (lays_u16 qs [] image' HQ (Forall_nil _)). intros o d Hin. apply In_nth_error in Hin. destruct Hin as (i & Hq).
    destruct (nth_error_lt_Some (infos c) i) as ((m & o1) & Hm). { rewrite <- Lqs. eapply nth_error_Some_lt. exact Hq. }
    destruct (Hqs i m o1 Hm) as (d1 & Hq1 & Hn & Hs). rewrite Hq in Hq1. apply Some_inj, pair_inj in Hq1. destruct Hq1 as [<- <-].
    destruct (mo_output o) as [off|] eqn:Eo; [|rewrite Hn by reflexivity; constructor]. destruct Hs as (vs & Hvs & Hs); [congruence|].
    apply (encoded_words prof m vs d); [|exact Hs]. exact (proj1 (Forall_forall _ _) Hw' _ (nth_error_In _ _ Hvs)). }
  assert (Bytes : forall b, (b < 2 * length image)%nat -> nth_error (bytes_of_words image') b = nth_error (bytes_of_words image) b \/
    exists i m o off k, placed c i m o off /\ (k < 4)%nat /\ (b / 2 = first_byte 0x0800 off / 2 + k)%nat).
  { intros b Hb. destruct (lays_bytes ps qs image image' HL HQ HA Hlen b Hb) as (i & o & d & d' & off & k & Hp & Hq & Eo & Eb & Hk & Hn & B1 & B2).
    destruct (Words i o d d' off Hp Hq Eo) as (m & vs & vs' & iv & ov & iv' & ov' & Hat & Hvs & Hvs' & Hev & Hev' & L1 & L2 & U2 & Hiv & Hiv' & Hro' & Hc & Hc').
    assert (Hwv : Forall wire_value vs) by exact (proj1 (Forall_forall _ _) Hw _ (nth_error_In _ _ Hvs)).
    assert (Hwv' : Forall wire_value vs') by exact (proj1 (Forall_forall _ _) Hw' _ (nth_error_In _ _ Hvs')).
    assert (HL2 : lays (firstn i ps ++ (o, d) :: skipn (S i) ps) [] image) by (rewrite <- (split_at ps i _ Hp); exact HL).
    assert (Case : exact_module m \/ placed c i m o off).
    { destruct (Hx i m o off Hat Eo) as [X|(X1 & X2)]; [left; exact X|].
      assert (Hz : output_bytes m <> 0%nat).
      { eapply output_row_exists_nonzero; [exact Hro'|exact Eo| |exact Hui]. destruct (ok_off c Hok i m o Hat) as [_ Y]. exact (Y off Eo). }
      destruct (exact_or_analog m (complete_at c i m Hok (proj1 Hat)) Hz) as [X|X]; [left; exact X|right].
      split; [exact Hat|]. split; [exact Eo|]. split; [exact X|]. split; [exact X1|]. destruct (analog_bytes m X) as (B8 & _). rewrite B8 in X2. exact X2. }
    destruct Case as [Hxm|Hpl].
    - left. rewrite B1, B2.
      destruct (one_keeps prof c c' c'' image ins sent ins' sent' Hok Hset Hui HQx i m o Hat iv ov iv' ov' Hiv Hiv' Hro' Hc Hc'
             (firstn i ps) (skipn (S i) ps) d off vs HL2 Eo Hvs Hwv Hev vs' d' Hxm Hvs' Hev' Hwv') as (_ & K). apply K; assumption.
    - right. exists i, m, o, off, (k / 2)%nat. split; [exact Hpl|]. destruct Hpl as (_ & _ & Ha & E0 & _).
      destruct (analog_bytes m Ha) as (_ & W4 & _). rewrite E0 in Hk. cbn [Z.eqb] in Hk.
      pose proof (even_first off (high_offset _ _ _ _ _ _ _ _ _ _ Hr H Hat Eo) E0). split; [lia|]. subst b. lia. }
  constructor.
  - exact Hlen.
  - intros b. destruct (Nat.ltb_spec b (length image)) as [Hb|Hb].
    2:{ left. transitivity (@None Z); [|symmetry]; apply nth_error_None; lia. }
    destruct (Bytes (2 * b)%nat ltac:(lia)) as [B0|(i & m & o & off & k & P & K1 & K2)].
    2:{ right. exists i, m, o, off, k. split; [exact P|]. split; [exact K1|]. lia. }
    destruct (Bytes (2 * b + 1)%nat ltac:(lia)) as [B1|(i & m & o & off & k & P & K1 & K2)].
    2:{ right. exists i, m, o, off, k. split; [exact P|]. split; [exact K1|]. lia. }
    left. rewrite !bytes_even in B0. rewrite !bytes_odd in B1.
    destruct (nth_error_lt_Some image b Hb) as (w & Ew). destruct (nth_error_lt_Some image' b) as (w' & Ew'); [lia|].
    rewrite Ew, Ew' in *. cbn [option_map] in *. apply Some_inj in B0, B1. f_equal. lia.
  - intros i m o off Hpl. eapply rewrites_S; [|apply rewrites_0].
    destruct (four_encoded _ _ _ _ _ _ _ _ _ _ Hr H Hpl Hui ins outs sent E3 E4 E7) as (vs & Hvs & Hwv & Hev & Lf & Uf).
    assert (Hpl' : placed c' i m o off) by (apply (placed_static _ _ _ _ _ _ i m o off H); exact Hpl).
    destruct (four_encoded _ _ _ _ _ _ _ _ _ _ Hr' H' Hpl' Hui' ins' outs' sent' F3' F4 F7) as (vs' & Hvs' & Hwv' & Hev' & Lf' & Uf').
    destruct Hpl as (Hat & Eo & Ha & E0 & _). destruct (analog_bytes m Ha) as (B8 & W4 & Hns).
    pose proof (high_offset _ _ _ _ _ _ _ _ _ _ Hr H Hat Eo) as Hh.
    assert (Hat' : module_at c' i m o) by (apply (at_static _ _ _ _ _ _ i m o H); exact Hat).
    assert (Hu : is_u16 off) by (destruct (ok_off c Hok i m o Hat) as [_ Y]; exact (Y off Eo)).
    assert (Hi : nth_error (infos c') i = Some (m, o)) by (apply infos_at; exact Hat').
    destruct (C42_out_all prof _ _ _ _ _ _ _ Hui Hu Hh F2' Hi Eo (or_introl E0)) as (_ & words & row & Wb & Hrow & Hdec).
    assert (Ew : words = four image off).
    { apply (words_unique _ _ _ Wb). rewrite B8. split; [exact Uf|]. left. unfold four, image_bytes.
      rewrite bytes_firstn, bytes_skipn, even_first by assumption. reflexivity. }
    subst words. exists prof, row. split; [exact Hdec|].
    destruct (F7 i m o Hat') as (iv' & ov' & _ & Hov' & _ & _ & Hc'). rewrite Hrow in Hov'. apply Some_inj in Hov'. subst ov'.
    destruct Hset as [Hreq _].
    destruct Hc' as [rw S1 S2 S3 S4 S5 S6 S6' S7 S8|l ch rin rout p0 p' rs last Em _ _ _ _ _ _ _ _ _ _ _ _ _ _|l ch Em _ _ _ _ _ _ _];
      [|subst m; discriminate|subst m; discriminate].
    replace row with vs'; [exact Hev'|]. rewrite Hvs' in S2. apply Some_inj in S2. subst rw. apply nth_error_ext. intros j. rewrite S4, Hreq. reflexivity.
Qed.

(** *** Any number of cycles *)

Lemma rewrites_trans m n n' : forall a b d, rewrites_n m n a b -> rewrites_n m n' b d -> rewrites_n m (n + n') a d.
Proof.
  intros a b d H. induction H as [a|n a a1 b H1 Hn IH]; intros H'; [exact H'|]. cbn [Nat.add]. eapply rewrites_S; [exact H1|]. apply IH. exact H'.
Qed.

Lemma step_trans c n n' a b d : idle_step c n a b -> idle_step c n' b d -> idle_step c (n + n') a d.
Proof.
  intros [L1 W1 F1] [L2 W2 F2]. constructor.
  - congruence.
  - intros x. destruct (W1 x) as [E1|R1]; [|right; exact R1]. destruct (W2 x) as [E2|R2]; [|right; exact R2]. left. congruence.
  - intros i m o off P. exact (rewrites_trans _ _ _ _ _ _ (F1 _ _ _ _ P) (F2 _ _ _ _ P)).
Qed.

Lemma step_static prof c input output c' r n a b : cycle prof c input output c' r -> idle_step c' n a b -> idle_step c n a b.
Proof.
  intros H [L W F]. constructor; [exact L| |].
  - intros x. destruct (W x) as [E|(i & m & o & off & k & P & K)]; [left; exact E|]. right. exists i, m, o, off, k.
    split; [apply (placed_static _ _ _ _ _ _ i m o off H); exact P|exact K].
  - intros i m o off P. apply (F i m o off). apply (placed_static _ _ _ _ _ _ i m o off H). exact P.
Qed.

Lemma drifting_static prof c input output c' r : cycle prof c input output c' r -> whole_drifting c -> whole_drifting c'.
Proof. intros H Hx. apply cycle_static in H. unfold whole_drifting, module_at. destruct H as [-> ->]. exact Hx. Qed.

Lemma ok_reachable prof c input output c' image : reachable prof c -> cycle prof c input output c' (Ok image) -> reachable prof c'.
Proof. intros Hr H. refine (calls_reachable prof c _ c' _ Hr (Calls_next prof c input output c' (Ok image) H _)). discriminate. Qed.

Lemma idle_chain prof c1 input image c2 images : idles prof c1 input image c2 images ->
  forall c output, reachable prof c -> whole_drifting c -> cycle prof c input output c1 (Ok image) -> settled c1 ->
  settled c2 /\
  (forall n im, nth_error images n = Some im -> idle_step c (S n) image im) /\
  (forall n im im', nth_error images n = Some im -> nth_error images (S n) = Some im' -> idle_step c 1 im im').
Proof.
  induction 1 as [c1 input image|c1 input image input1 c2 image1 c3 images Hq H1 HI IH]; intros c output Hr Hx H Hset.
  - split; [exact Hset|]. split; [intros [|n] im E; discriminate|intros [|n] im im' E; discriminate].
  - pose proof (ok_reachable _ _ _ _ _ _ Hr H) as Hr1.
    pose proof (one_idle _ _ _ _ _ _ _ _ _ Hr Hr1 H Hset Hx Hq H1) as S1.
    destruct (IH c1 image Hr1 (drifting_static _ _ _ _ _ _ H Hx) H1 (settled_kept _ _ _ _ _ _ (reachable_ok _ _ Hr1) H1 Hset)) as (K0 & K1 & K2).
    split; [exact K0|]. split.
    + intros [|n] im E; cbn [nth_error] in E.
      * apply Some_inj in E. subst im. exact S1.
      * exact (step_trans c 1 (S n) _ _ _ S1 (step_static _ _ _ _ _ _ _ _ _ H (K1 n im E))).
    + intros [|n] im im' E E'.
      * cbn [nth_error] in E. apply Some_inj in E. subst im. exact (step_static _ _ _ _ _ _ _ _ _ H (K1 0%nat im' E')).
      * exact (step_static _ _ _ _ _ _ _ _ _ H (K2 n im im' E E')).
Qed.

Lemma nth_four image off k : (k < 4)%nat -> nth_error (four image off) k = nth_error image (first_byte 0x0800 off / 2 + k).
Proof. intros Hk. unfold four. rewrite nth_error_firstn_lt by exact Hk. apply nth_error_skipn. Qed.

Lemma in_S7_dec m : complete m -> output_bytes m <> 0%nat -> exact_module m \/ exists k, in_S7 m k.
Proof.
  intros Hc Hz. destruct (exact_or_analog m Hc Hz) as [H|Ha]; [left; exact H|].
  assert (D : forall k, (forall r f, analog_output m k = Some (r, f) -> f = S5 \/ r = UI_Disabled) \/ in_S7 m k).
  { intros k. destruct (analog_output m k) as [[r f]|] eqn:E; [|left; discriminate].
    destruct (format_dec f) as [->| ->]; [left; intros r0 f0 E0; apply Some_inj, pair_inj in E0; destruct E0 as [_ <-]; auto|].
    destruct (range_dec r) as [->|N]; [left; intros r0 f0 E0; apply Some_inj, pair_inj in E0; destruct E0 as [<- _]; auto|].
    right. exists r. auto. }
  destruct (D 0%nat) as [D0|D0]; [|right; eauto]. destruct (D 1%nat) as [D1|D1]; [|right; eauto].
  destruct (D 2%nat) as [D2|D2]; [|right; eauto]. destruct (D 3%nat) as [D3|D3]; [|right; eauto].
  left. intros k r f E. assert (Hk : (k < 4)%nat) by (apply Ha; congruence).
  destruct k as [|[|[|[|k]]]]; [exact (D0 _ _ E)|exact (D1 _ _ E)|exact (D2 _ _ E)|exact (D3 _ _ E)|lia].
Qed.

Lemma separate_drifting c : coupler_ok c -> separate c -> whole_drifting c.
Proof.
  intros Hok Hs i m o off Hat Eo. destruct (Nat.eq_dec (output_bytes m) 0) as [Hz|Hz].
  - left. intros k r f E. destruct m as [| | | | | | | | | | | |[]|]; discriminate.
  - destruct (in_S7_dec m (complete_at c i m Hok (proj1 Hat)) Hz) as [H|(k & H)]; [left; exact H|right]. exact (Hs i m o off k Hat Eo H).
Qed.

Lemma C48_drift_all : forall prof c input output c' image c'' images, reachable prof c -> separate c ->
  cycle prof c input output c' (Ok image) -> settled c' -> idles prof c' input image c'' images ->
  settled c'' /\
  (forall n im, nth_error images n = Some im -> length im = length image /\
     forall b w, nth_error image b = Some w -> exists w', nth_error im b = Some w' /\
       towards_zero (signed w) (signed w') /\ Z.abs (signed w' - signed w) <= 5 /\ (w' <> w -> register_in_S7 c b)) /\
  (forall n n' im im', (4 <= n)%nat -> (4 <= n')%nat -> nth_error images n = Some im -> nth_error images n' = Some im' -> im = im').
Proof.
  intros prof c input output c' image c'' images Hr Hs H Hset HI. pose proof (reachable_ok _ _ Hr) as Hok.
  pose proof (separate_drifting c Hok Hs) as Hx.
  destruct (idle_chain _ _ _ _ _ _ HI c output Hr Hx H Hset) as (K0 & K1 & K2). split; [exact K0|].
  destruct (ok_cycle _ _ _ _ _ _ Hok H) as (ins & outs & sent & E1 & E2 & E3 & E4 & _ & _ & _ & E7).
  assert (Enc : Forall is_u16 image -> forall i m o off, placed c i m o off ->
    exists vs, Forall wire_value vs /\ mod_process_output_values prof m vs = Ok (four image off) /\
      length (four image off) = 4%nat /\ Forall is_u16 (four image off)).
  { intros Hui i m o off P. destruct (four_encoded _ _ _ _ _ _ _ _ _ _ Hr H P Hui ins outs sent E3 E4 E7) as (vs & _ & V1 & V2 & V3 & V4). eauto. }
  assert (Hu : images = [] \/ Forall is_u16 image).
  { inversion HI as [|? ? ? input1 c1 image1 ? images1 _ Hc _]; subst; [left; reflexivity|right; apply Hc]. }
  destruct Hu as [->|Hui]; [split; [intros [|n] im E; discriminate|intros [|n] n' im im' _ _ E; discriminate]|]. specialize (Enc Hui).
  split.
  - intros n im E. destruct (K1 n im E) as [L W F]. split; [exact L|]. intros b w Ew.
    destruct (nth_error_lt_Some im b) as (w' & Ew'). { rewrite L. eapply nth_error_Some_lt. exact Ew. }
    exists w'. split; [exact Ew'|]. destruct (W b) as [Eb|(i & m & o & off & k & P & Hk & ->)].
    + rewrite Ew, Ew' in Eb. apply Some_inj in Eb. subst w'. split; [unfold towards_zero; lia|]. split; [lia|]. intros N. contradiction.
    + destruct (Enc i m o off P) as (vs & V1 & V2 & V3 & V4). pose proof P as (Hat & Eo & Ha & _).
      rewrite <- (nth_four image off k Hk) in Ew. rewrite <- (nth_four im off k Hk) in Ew'.
      destruct (drift_channel prof m vs (S n) _ _ k w w' Ha V1 V2 V3 V4 (F i m o off P) Ew Ew') as (T1 & T2 & T3 & _).
      split; [exact T1|]. split; [exact T2|]. intros N. exists i, m, o, off, k. split; [exact Hat|]. split; [exact Eo|]. split; [|reflexivity].
      destruct (analog_output m k) as [[r f]|] eqn:Ea; [|exfalso; apply (Ha k); auto].
      destruct (format_dec f) as [->| ->]; [exfalso; apply N; exact (T3 _ _ eq_refl (or_introl eq_refl))|].
      destruct (range_dec r) as [->|Nr]; [exfalso; apply N; exact (T3 _ _ eq_refl (or_intror eq_refl))|]. exists r. auto.
  - assert (Stab : forall n im im', (4 <= n)%nat -> nth_error images n = Some im -> nth_error images (S n) = Some im' -> im = im').
    { intros n im im' Hn E E'. destruct (K1 n im E) as [L W F]. destruct (K2 n im im' E E') as [L' W' F'].
      apply nth_error_ext. intros b. destruct (W' b) as [Eb|(i & m & o & off & k & P & Hk & ->)]; [symmetry; exact Eb|].
      destruct (Enc i m o off P) as (vs & V1 & V2 & V3 & V4). pose proof P as (Hat & Eo & Ha & _).
      specialize (F i m o off P). specialize (F' i m o off P).
      destruct (rewrites_length _ _ _ _ F Ha V4 V3) as [U1 L1]. destruct (rewrites_length _ _ _ _ F' Ha U1 L1) as [U2 L2].
      rewrite <- !(nth_four _ off k Hk).
      destruct (nth_error_lt_Some (four image off) k) as (w & Ew); [lia|]. destruct (nth_error_lt_Some (four im off) k) as (w1 & Ew1); [lia|].
      destruct (nth_error_lt_Some (four im' off) k) as (w2 & Ew2); [lia|].
      destruct (drift_channel prof m vs (S n) _ _ k w w1 Ha V1 V2 V3 V4 F Ew Ew1) as (_ & _ & _ & T4).
      rewrite Ew1, Ew2. f_equal. symmetry. apply (T4 (four im' off) w2); [lia| |exact Ew2].
      inversion F' as [|? ? d1 ? R R']; subst. inversion R'; subst. exact R. }
    assert (From : forall n im im0, nth_error images 4 = Some im0 -> nth_error images (4 + n) = Some im -> im = im0).
    { induction n as [|n IHn]; intros im im0 E0 E; [rewrite Nat.add_0_r in E; congruence|].
      destruct (nth_error_lt_Some images (4 + n)) as (im1 & E'). { apply nth_error_Some_lt in E. lia. }
      rewrite <- (IHn im1 im0 E0 E'). symmetry. apply (Stab (4 + n)%nat); [lia|exact E'|]. replace (S (4 + n)) with (4 + S n)%nat by lia. exact E. }
    intros n n' im im' Hn Hn' E E'. destruct (nth_error_lt_Some images 4) as (im0 & E0). { apply nth_error_Some_lt in E. lia. }
    transitivity im0; [|symmetry].
    + apply (From (n - 4)%nat); [exact E0|]. replace (4 + (n - 4))%nat with n by lia. exact E.
    + apply (From (n' - 4)%nat); [exact E0|]. replace (4 + (n' - 4))%nat with n' by lia. exact E'.
Qed.
