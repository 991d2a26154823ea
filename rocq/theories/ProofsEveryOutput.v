(** Proofs that every state of the outputs can be requested (C112). *)
From Coq Require Import ZArith Reals List Bool Lia SpecFloat.
From Verif Require Import Base Facts F32 Types Lib Util Digital Analog Fcnt Com Fbc SpecCodec SpecSerial SpecCoupler SpecImage SpecOutcome SpecAnalog SpecLossless SpecFeedback SpecGlitch SpecKeep SpecHold SpecWire
  SpecEveryCode SpecEveryOutput
  ProofsCodec ProofsDigital ProofsSerialCodec ProofsModule ProofsImage ProofsLayout ProofsCycle ProofsCoupler ProofsLoop ProofsEqual ProofsMemory ProofsFeedback ProofsFloat ProofsAnalog ProofsReadback ProofsIdle ProofsOutcome ProofsSteady ProofsKeep ProofsHold ProofsRestore ProofsTerminal ProofsWire ProofsEveryCode.
Import ListNotations.
Local Open Scope Z_scope.

(** The value to request for channel [k] of module [m] to get the registers [t]. *)
Definition wanted (m : module) (t : list Z) (k : nat) : channel_value :=
  match m with
  | MDO _ _ | M16DO | M4RO _ => Bit (bit (reg t 0) k)
  | M4AO _ | M4AODIAG _ =>
      match analog_output m k with
      | Some (r, f) => match base_span r with Some (b, n) => Decimal32 (middle b n f (signed (reg t k))) | None => Disabled end
      | None => Disabled
      end
  | MFCNT _ =>
      let us := word32 (reg t (2 * k)) (reg t (2 * k + 1)) in
      let control := reg t (4 + k) in
      FcntOut (mk_fcnt_out (mk_duration (us / 1000000) (us mod 1000000 * 1000))
        (if bit control 8 then Some Start else if bit control 9 then Some Stop else None))
  | _ => Disabled
  end.

Definition wanted_of (c : coupler) (target : nat -> list Z) (i : nat) : list (address * channel_value) :=
  match nth_error (c_modules c) i with
  | Some m => if is_serial m then [] else map (fun k => (mk_address i k, wanted m (target i) k)) (seq 0 (channels m))
  | None => []
  end.
Definition all_wanted (c : coupler) (target : nat -> list Z) : list (address * channel_value) :=
  flat_map (wanted_of c target) (seq 0 (length (c_modules c))).

Lemma in_wanted c target a v : In (a, v) (all_wanted c target) <->
  exists m, nth_error (c_modules c) (a_module a) = Some m /\ is_serial m = false /\ (a_channel a < channels m)%nat /\
    v = wanted m (target (a_module a)) (a_channel a).
Proof.
  unfold all_wanted, wanted_of. rewrite in_flat_map. split.
  - intros (i & _ & H). destruct (nth_error (c_modules c) i) as [m|] eqn:E; [|destruct H]. destruct (is_serial m) eqn:Es; [destruct H|].
    apply in_map_iff in H. destruct H as (k & H & Hk). apply pair_inj in H. destruct H as [<- <-]. apply in_seq in Hk. cbn [a_module a_channel].
    exists m. repeat split; auto. lia.
  - intros (m & E & Es & Hk & ->). exists (a_module a). split.
    + apply in_seq. split; [lia|]. cbn [plus]. eapply nth_error_Some_lt. exact E.
    + rewrite E, Es. apply in_map_iff. exists (a_channel a). split; [destruct a; reflexivity|]. apply in_seq. lia.
Qed.

Lemma reg_u16 t k : Forall is_u16 t -> is_u16 (reg t k).
Proof.
  intros H. unfold reg. destruct (Nat.ltb_spec k (length t)) as [L|L].
  - exact (proj1 (Forall_forall _ _) H _ (nth_In _ _ L)).
  - rewrite nth_overflow by lia. unfold is_u16. lia.
Qed.

Lemma middle_finite r b n f d : base_span r = Some (b, n) -> is_u16 d ->
  f32_valid (middle b n f (signed d)) = true /\ finite (middle b n f (signed d)) /\
  inside (signed d) (exact_code b n (full_code f) (real (middle b n f (signed d)))).
Proof.
  intros Eb Hd. destruct (base_span_range _ _ _ Eb) as [Hb Hn]. pose proof (signed_range d Hd) as Hc.
  change (u16_as_i16 d) with (signed d) in Hc.
  destruct (middle_value b n f (signed d) Hb Hn Hc) as (v & (V & F & E) & H). rewrite E.
  split; [exact V|]. split; [exact F|]. apply middle_inside. exact H.
Qed.

Lemma wanted_duration us : 0 <= us <= 8388607 -> let d := mk_duration (us / 1000000) (us mod 1000000 * 1000) in
  valid_duration d /\ nanoseconds d = us * 1000.
Proof.
  intros H d. unfold valid_duration, nanoseconds, is_u64, d. cbn [d_secs d_nanos].
  pose proof (Z.div_mod us 1000000 ltac:(lia)). pose proof (Z.mod_pos_bound us 1000000 eq_refl).
  assert (0 <= us / 1000000 <= 9) by (split; [apply Z.div_pos; lia|apply Z.div_le_upper_bound; lia]). lia.
Qed.

Lemma word32_bounds hi lo : is_u16 hi -> is_u16 lo -> 0 <= word32 hi lo.
Proof. unfold is_u16, word32. lia. Qed.

Lemma wanted_rust m t k : settable m t -> (k < channels m)%nat -> rust_value (wanted m t k).
Proof.
  intros (_ & U & P) Hk. destruct m as [w ch|w ch| |ch|ch|ch|u ch|f ch|w f ch|f ch|u ch|ch|l ch| ]; cbn [wanted]; try exact I.
  - destruct (analog_output (M4AO ch) k) as [(r & f)|]; [|exact I]. destruct (base_span r) as [(b & n)|] eqn:Eb; [|exact I].
    exact (proj1 (middle_finite r b n f _ Eb (reg_u16 t k U))).
  - destruct (analog_output (M4AODIAG ch) k) as [(r & f)|]; [|exact I]. destruct (base_span r) as [(b & n)|] eqn:Eb; [|exact I].
    exact (proj1 (middle_finite r b n f _ Eb (reg_u16 t k U))).
  - change (channels (MFCNT ch)) with 2%nat in Hk. cbn [rust_value]. cbv zeta. cbn [fo_duration].
  apply wanted_duration. split; [apply word32_bounds; apply reg_u16; exact U|exact (P ch k eq_refl Hk)].
Qed.

Lemma wanted_can m t k : settable m t -> output_bytes m <> 0%nat -> is_serial m = false -> (k < channels m)%nat -> can_output m (wanted m t k).
Proof.
  intros (_ & U & P) Hb Hs Hk. destruct m as [w ch|w ch| |ch|ch|ch|u ch|f ch|w f ch|f ch|u ch|ch|l ch| ]; try (elim Hb; reflexivity); try discriminate Hs;
    cbn [wanted can_output]; try (eexists; reflexivity).
  - destruct (analog_output (M4AO ch) k) as [(r & f)|]; [|left; reflexivity].
    destruct (base_span r) as [(b & n)|]; [right; eexists; reflexivity|left; reflexivity].
  - destruct (analog_output (M4AODIAG ch) k) as [(r & f)|]; [|left; reflexivity].
    destruct (base_span r) as [(b & n)|]; [right; eexists; reflexivity|left; reflexivity].
  - change (channels (MFCNT ch)) with 2%nat in Hk. eexists. split; [reflexivity|]. cbn [fo_duration].
  pose proof (P ch k eq_refl Hk) as Q.
  rewrite (proj2 (wanted_duration _ (conj (word32_bounds _ _ (reg_u16 t (2 * k) U) (reg_u16 t (2 * k + 1) U)) Q))). unfold max_preset. lia.
Qed.

Lemma word32_inj a b a' b' : is_u16 a -> is_u16 b -> is_u16 a' -> is_u16 b' -> word32 a b = word32 a' b' -> a = a' /\ b = b'.
Proof. unfold is_u16, word32. lia. Qed.

Lemma registers_u16 image off : Forall is_u16 image -> Forall is_u16 (registers_at 0x0800 image off).
Proof.
  intros H. unfold registers_at. cbv zeta.
  assert (S : Forall is_u16 (skipn (Z.to_nat (off / 16 - 0x0800)) image)).
  { apply Forall_forall. intros x Hx. apply (proj1 (Forall_forall _ _) H). rewrite <- (firstn_skipn (Z.to_nat (off / 16 - 0x0800)) image). apply in_or_app. right. exact Hx. }
  destruct (off mod 16 =? 8); [|exact S]. constructor; [|constructor]. pose proof (reg_u16 _ 0 S) as U. unfold is_u16 in *.
  split; [apply Z.div_pos; lia|]. apply Z.div_lt_upper_bound; lia.
Qed.

Lemma C112_all prof c target : reachable prof c ->
  (forall i m, nth_error (c_modules c) i = Some m -> settable m (target i)) ->
  exists reqs, Forall (fun av => valid_address c (fst av) /\ rust_value (snd av)) reqs /\
    forall input output c' r, cycle prof (set_all c reqs) input output c' r ->
      ((exists image, r = Ok image) <-> inputs_readable c input /\ outputs_readable c output /\ outputs_packed c) /\
      forall image, r = Ok image -> forall i m o off, alone c i m o off -> same_output m (registers_at 0x0800 image off) (target i).
Proof.
  intros Hr HT. exists (all_wanted c target).
  assert (HV : Forall (fun av => valid_address c (fst av) /\ rust_value (snd av)) (all_wanted c target)).
  { apply Forall_forall. intros (a & v) H. apply in_wanted in H. destruct H as (m & E & Es & Hk & ->). cbn [fst snd]. split; [exists m; auto|].
    apply wanted_rust; [apply HT; exact E|exact Hk]. }
  split; [exact HV|]. set (cs := set_all c (all_wanted c target)).
  assert (Hrs : reachable prof cs). { apply set_all_reach; [|exact Hr]. eapply Forall_impl; [|exact HV]. cbn beta. tauto. }
  destruct (set_all_static (all_wanted c target) c) as (_ & _ & T1 & T2 & _). fold cs in T1, T2.
  assert (HQ : forall i m k, nth_error (c_modules c) i = Some m -> is_serial m = false -> (k < channels m)%nat ->
            requested cs (mk_address i k) = Some (wanted m (target i) k)).
  { intros i m k E Es Hk. apply set_all_sure.
    - exists m. auto.
    - apply in_wanted. exists m. auto.
    - intros w Hw. apply in_wanted in Hw. destruct Hw as (m' & E' & _ & _ & ->). cbn [a_module a_channel] in *. congruence. }
  intros input output c' r H. split.
  - rewrite (C59_all _ _ _ _ _ _ Hrs H). unfold cycle_possible, inputs_readable, outputs_readable, outputs_packed, module_at. rewrite T1, T2.
    split; [tauto|]. intros (I1 & I2 & I3). split; [exact I1|]. split; [exact I2|]. split; [|split; [|exact I3]].
    + intros i m o k v Hat Ho Hs Hq. unfold module_at in Hat. rewrite T1, T2 in Hat.
      destruct (ok_req _ (reachable_ok _ _ Hrs) _ _ Hq) as (_ & m' & Hm' & Hk). cbn [a_module a_channel] in Hm', Hk. rewrite T1 in Hm'.
      assert (m' = m) as -> by (destruct Hat; congruence).
      rewrite (HQ i m k (proj1 Hat) Hs Hk) in Hq. apply Some_inj in Hq. subst v.
      destruct (mo_output o) as [off|] eqn:Eo; [|congruence].
      apply wanted_can; [exact (HT i m (proj1 Hat))|exact (proj1 (proj1 (I2 i m o off Hat Eo)))|exact Hs|exact Hk].
    + intros i ch o off k Hat Ho Hk Hq. unfold module_at in Hat. rewrite T1, T2 in Hat.
      rewrite (HQ i _ k (proj1 Hat) eq_refl Hk) in Hq. discriminate.
  - intros image -> i m o off Hal. pose proof (alone_static c cs i m o off T1 T2 Hal) as Hals.
    pose proof Hal as ((Em & _) & Eo & Hs & _). destruct (HT i m Em) as (Ln & U & P).
    pose proof (image_u16 _ _ _ _ _ _ (reachable_ok _ _ Hrs) H) as Hui. pose proof (registers_u16 image off Hui) as Hru.
    assert (HC : forall k, (k < channels m)%nat -> carries m k (wanted m (target i) k) (registers_at 0x0800 image off)).
    { intros k Hk. destruct (C85_all _ _ _ _ _ _ _ _ _ _ Hrs H Hals k Hk) as (_ & v & Hv & Hc).
      rewrite (HQ i m k Em Hs Hk) in Hv. subst v. exact Hc. }
    assert (HA : forall k rg f, analog_output m k = Some (rg, f) -> rg <> UI_Disabled ->
              nth_error (registers_at 0x0800 image off) k = nth_error (target i) k).
    { intros k rg f Ea Nd. destruct (tick_code _ _ _ _ _ _ _ _ _ _ _ _ _ Hrs H Hals Ea) as (w0 & old & w & _ & _ & _ & Ew & Uw & S & _).
      pose proof (alone_placed _ _ _ _ _ _ _ _ _ Hrs Hals Ea) as (_ & _ & Ha & E0 & _).
      assert (Hk : (k < 4)%nat) by (apply Ha; rewrite Ea; discriminate).
      assert (Ch : channels m = 4%nat /\ output_bytes m = 8%nat) by (destruct m; try discriminate Ea; split; reflexivity). destruct Ch as [Ch Ob].
      rewrite (HQ i m k Em Hs) in S by lia.
      destruct (base_span rg) as [(b & n)|] eqn:Eb; [|destruct rg; try discriminate Eb; congruence].
      assert (Ewant : wanted m (target i) k = Decimal32 (middle b n f (signed (reg (target i) k)))).
      { destruct m; try discriminate Ea; cbn [wanted]; rewrite Ea, Eb; reflexivity. }
      rewrite Ewant in S. pose proof (reg_u16 (target i) k U) as Ut. destruct (middle_finite rg b n f _ Eb Ut) as (V & F & I).
      pose proof (C111_rule_all _ _ _ _ _ _ _ _ _ Ea Eb S V F (signed_range _ Ut) I) as E.
      apply (signed_inj _ _ Uw Ut) in E. subst w.
      unfold registers_at. rewrite E0. cbn [Z.eqb]. cbv zeta. rewrite nth_error_skipn. unfold output_register in Ew. rewrite Ew.
      destruct (nth_error_lt_Some (target i) k) as (x & Hx); [lia|]. rewrite Hx. f_equal. exact (reg_nth _ _ _ Hx). }
    destruct m as [w ch|w ch| |ch|ch|ch|u ch|f ch|w f ch|f ch|u ch|ch|l ch| ]; try discriminate Hs; cbn [same_output]; try exact I; try exact HA.
    1-3: intros k Hk; apply in_seq in Hk; specialize (HC k ltac:(lia)); cbn [carries wanted switches] in HC; apply Some_inj in HC; auto.
    intros k Hk. specialize (HC k Hk). cbn [carries wanted] in HC. cbv zeta in HC. destruct HC as (fo & Ef & _ & Ep & B8 & B9).
    cbn [preset] in Ef. apply Some_inj in Ef. subst fo. cbn [fo_duration fo_command] in *.
    rewrite (proj2 (wanted_duration _ (conj (word32_bounds _ _ (reg_u16 (target i) (2 * k) U) (reg_u16 (target i) (2 * k + 1) U)) (P ch k eq_refl Hk)))) in Ep.
    rewrite Z.div_mul in Ep by lia.
    apply word32_inj in Ep; try (apply reg_u16; assumption). destruct Ep as [-> ->]. split; [reflexivity|]. split; [reflexivity|].
    destruct (bit (reg (target i) (4 + k)) 8), (bit (reg (target i) (4 + k)) 9);
      destruct (bit (reg (registers_at 0x0800 image off) (4 + k)) 8), (bit (reg (registers_at 0x0800 image off) (4 + k)) 9);
      split; try reflexivity; try (intros; discriminate); try (destruct B8 as [X Y]; (discriminate X || discriminate Y); reflexivity).
    all: try (destruct B8 as [X Y]; specialize (X eq_refl); discriminate X); try (destruct B8 as [X Y]; specialize (Y eq_refl); discriminate Y);
      try (destruct B9 as [X Y]; specialize (X eq_refl); discriminate X); try (destruct B9 as [X Y]; specialize (Y eq_refl); discriminate Y); auto.
Qed.

Lemma C112_only_all prof c input output c' image i ch o off k : reachable prof c -> cycle prof c input output c' (Ok image) ->
  alone c i (MFCNT ch) o off -> (k < 2)%nat ->
  word32 (reg (registers_at 0x0800 image off) (2 * k)) (reg (registers_at 0x0800 image off) (2 * k + 1)) <= 8388607.
Proof.
  intros Hr H Hal Hk. destruct (C85_all _ _ _ _ _ _ _ _ _ _ Hr H Hal k Hk) as (_ & v & _ & fo & _ & M & E & _). rewrite E.
  unfold max_preset in M. apply Z.div_le_upper_bound; lia.
Qed.
