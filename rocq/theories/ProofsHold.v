(** Proofs for C82: analog outputs of a control loop. *)
From Coq Require Import ZArith Reals Lra List Bool Lia ZifyBool ZifyNat.
From Verif Require Import Base Facts F32 Types Lib Util Digital Analog Fcnt Com Fbc
  SpecCodec SpecSerial SpecCoupler SpecImage SpecAnalog SpecOutcome SpecFeedback SpecGlitch SpecKeep SpecHold ProofsAddr ProofsCodec ProofsFcnt ProofsSerialCodec
  ProofsModule ProofsImage ProofsLayout ProofsDigital ProofsSerial ProofsLoop ProofsCycle ProofsCoupler ProofsFloat ProofsAnalog
  ProofsReadback ProofsCreepOffset ProofsWitness ProofsOrder ProofsGlitch ProofsIdle ProofsOutcome ProofsDrift ProofsSteady ProofsFeedback ProofsKeep.
Import ListNotations.
Local Open Scope Z_scope.
Ltac Zify.zify_post_hook ::= Z.div_mod_to_equations.

(** ** One cycle *)

Lemma alone_placed prof c i m o off k r f : reachable prof c -> alone c i m o off -> analog_output m k = Some (r, f) -> ProofsDrift.placed c i m o off.
Proof.
  intros Hr (Hat & Eo & Hs & Hal & Hlater) Ea. pose proof (reachable_ok _ _ Hr) as Hok.
  assert (Hz : output_bytes m = 8%nat) by (destruct m; try discriminate Ea; reflexivity).
  assert (Ha : all_analog_outputs m).
  { destruct (module_kinds m (complete_at c i m Hok (proj1 Hat)) ltac:(lia)) as [(n & Hn & _)|[(H & _)|[(ch & -> & _)|(l & ch & ->)]]]; [|exact H|discriminate..].
    destruct m; discriminate. }
  rewrite Hz in Hal, Hlater. split; [exact Hat|]. split; [exact Eo|]. split; [exact Ha|]. split; [lia|exact Hlater].
Qed.

Lemma first_register off : 0x8000 <= off -> (first_byte 0x0800 off / 2 = Z.to_nat (off / 16 - 0x0800))%nat.
Proof. intros H. unfold first_byte. lia. Qed.

Lemma four_register image off k : 0x8000 <= off -> (k < 4)%nat -> nth_error (four image off) k = output_register image off k.
Proof. intros H Hk. rewrite nth_four by exact Hk. unfold output_register. rewrite first_register by exact H. reflexivity. Qed.

Lemma tick_code prof c input output c1 image i m o off k r f : reachable prof c -> cycle prof c input output c1 (Ok image) ->
  alone c i m o off -> analog_output m k = Some (r, f) ->
  exists w0 old w, output_register output off k = Some w0 /\ is_u16 w0 /\ reads_back m k w0 old /\
    output_register image off k = Some w /\ is_u16 w /\
    sends m k (match requested c (mk_address i k) with Some v => v | None => old end) w /\ requested c1 (mk_address i k) = None.
Proof.
  intros Hr H Hal Ea. pose proof (reachable_ok _ _ Hr) as Hok. pose proof (alone_placed _ _ _ _ _ _ _ _ _ Hr Hal Ea) as P.
  pose proof P as (Hat & Eo & Ha & E0 & _). pose proof (high_offset _ _ _ _ _ _ _ _ _ _ Hr H Hat Eo) as Hh.
  assert (Huo : Forall is_u16 output) by apply H. pose proof (image_u16 _ _ _ _ _ _ Hok H) as Hui.
  assert (Hk : (k < 4)%nat) by (apply Ha; congruence).
  destruct (ok_cycle _ _ _ _ _ _ Hok H) as (ins & outs & sent & E1 & E2 & E3 & E4 & E4' & _ & _ & E7).
  destruct (four_encoded prof c input output c1 image i m o off Hr H P Hui ins outs sent E3 E4 E7) as (vs & Hvs & Hwv & Henc & L4 & U4).
  destruct (E7 i m o Hat) as (iv & ov & _ & _ & _ & Hro & Hc).
  destruct Hc as [row T1 T2 T3 T4 T5 T6|l ch rin rout p0 p' rs last -> _ _ _ _ _ _ _|l ch -> _]; try discriminate.
  rewrite T2 in Hvs. apply Some_inj in Hvs. subst vs.
  assert (Hoff : is_u16 off). { apply (infos_off c Hok i m o off); [apply infos_at; exact Hat|exact Eo]. }
  unfold output_row in Hro. cbn [fst snd] in Hro. rewrite Eo in Hro. apply bind_ok in Hro. destruct Hro as (raw & Hp & Hd).
  destruct (prepare_any _ _ _ _ _ _ Hoff Huo Hp) as [Lraw Uraw].
  rewrite prepare_eq in Hp by (try assumption; unfold ADDR_PACKED_PROCESS_OUTPUT_DATA; lia). cbv zeta in Hp.
  destruct (analog_bytes m Ha) as (B8 & W4 & _). rewrite B8 in Hp, Lraw. change (word_count 8) with 4%nat in *.
  destruct (Nat.ltb_spec (length output) (Z.to_nat (off / 16 - 2048) + 4)) as [Hlt|Hge]; [discriminate|].
  rewrite E0 in Hp. cbn [Z.eqb] in Hp. apply Ok_inj in Hp.
  assert (Er : nth_error raw k = output_register output off k).
  { subst raw. rewrite nth_error_firstn_lt by exact Hk. rewrite nth_error_skipn. reflexivity. }
  destruct (nth_error_lt_Some raw k) as (w0 & Hw0); [lia|].
  pose proof (output_length _ _ _ Hd) as Lov. rewrite (outputs_4 m Ha) in Lov. destruct (nth_error_lt_Some ov k) as (old & Hold); [lia|].
  destruct (nth_error_lt_Some (four image off) k) as (w & Hw); [lia|].
  exists w0, old, w. split; [rewrite <- Er; exact Hw0|]. split; [exact (proj1 (Forall_forall _ _) Uraw _ (nth_error_In _ _ Hw0))|].
  split; [exists raw, ov; auto|]. split; [rewrite <- four_register by assumption; exact Hw|].
  split; [exact (proj1 (Forall_forall _ _) U4 _ (nth_error_In _ _ Hw))|]. split; [|apply T5].
  exists prof, row, (four image off). split; [exact Henc|]. split; [|exact Hw]. rewrite T4. destruct (requested c (mk_address i k)); [reflexivity|exact Hold].
Qed.

(** ** One channel *)

Lemma channel_trip m k r f d v d' : analog_output m k = Some (r, f) -> reads_back m k d v -> sends m k v d' ->
  match base_span r with Some (b, n) => is_u16 d' /\ signed d' = trip b n f (signed d) | None => d' = 0 end.
Proof.
  intros Ha R S. pose proof (read_back_analog _ _ _ _ _ _ Ha R) as E. rewrite decode_is in E. destruct (base_span r) as [[b n]|] eqn:Er.
  - cbn [analog_value] in E. subst v. pose proof (sent_code _ _ _ _ _ _ Ha S) as X. rewrite Er in X. exact X.
  - cbn [analog_value] in E. subst v. pose proof (sent_analog _ _ _ _ _ _ Ha S) as X. cbn [value_to_u16] in X. apply Ok_inj in X. congruence.
Qed.

Lemma disabled_code m k f v d : analog_output m k = Some (UI_Disabled, f) -> sends m k v d -> d = 0.
Proof. intros Ha S. destruct C17_all as (_ & C & _). destruct (C m k UI_Disabled f v d Ha S) as (_ & _ & Z). auto. Qed.

(** [w] is what [n] idle cycles make of the code [d]. *)
Definition chain (r : analog_ui_range) (f : data_format) (d w : Z) : Prop :=
  match base_span r with Some (b, s) => exists n, signed w = repeated n (trip b s f) (signed d) | None => True end.

Lemma chain_drifted r f d w : base_span r <> None -> is_u16 d -> is_u16 w -> chain r f d w -> drifted f d w.
Proof.
  intros Hr Ud Uw H. unfold chain in H. destruct (base_span r) as [[b s]|] eqn:Er; [|congruence]. destruct H as (n & E).
  destruct (base_span_range _ _ _ Er) as [Hb Hs]. pose proof (signed_range d Ud) as Hc. change (u16_as_i16 d) with (signed d) in Hc.
  destruct f; cbn [drifted].
  - apply signed_inj; [assumption..|]. rewrite E. clear E. induction n as [|n IH]; [reflexivity|]. cbn [repeated]. rewrite IH.
    apply trip_S5; [assumption..|lia].
  - assert (G : forall c, -32768 <= c <= 32767 ->
      (0 <= c -> c - 1 <= trip b s S7 c <= c /\ 0 <= trip b s S7 c) /\ (c <= 0 -> c <= trip b s S7 c <= c + 1 /\ trip b s S7 c <= 0))
      by (intros c Hc'; apply (trip_step r); assumption).
    assert (G27 : forall j, -32768 <= 27 * j <= 32767 -> trip b s S7 (27 * j) = 27 * j) by (intros j Hj; apply trip_27; assumption).
    pose proof (iter_between _ G G27 n (signed d) Hc) as B. rewrite <- E in B.
    assert (J : forall j, towards_zero (signed d) (27 * j) -> towards_zero (signed w) (27 * j)).
    { intros j Hj. pose proof (iter_27 _ G G27 n (signed d) j Hc) as [L U]. rewrite <- E in L, U. unfold towards_zero in *. lia. }
    split; [exact B|]. split; [|exact J].
    rewrite E. apply (repeated_five r b s (signed d) n Er Hc).
Qed.

(** ** The invariant *)

(** [first]: the code the channel had in the first image. *)
Record holds (prof : profile) (i : nat) (m : module) (o : module_offset) (off : Z) (k : nat) (r : analog_ui_range) (f : data_format)
  (first : option Z) (t : track) (c : coupler) (image : list Z) : Prop := mk_holds {
  hd_reach : reachable prof c;
  hd_alone : alone c i m o off;
  hd_pending : requested c (mk_address i k) = k_pending t;
  hd_code : match k_force t with
    | Some v => exists d w, output_register image off k = Some w /\ is_u16 w /\ is_u16 d /\ sends m k v d /\ chain r f d w /\ (r = UI_Disabled -> w = 0)
    | None => output_register image off k = first \/
        exists w0 w, first = Some w0 /\ output_register image off k = Some w /\ is_u16 w0 /\ is_u16 w /\ chain r f w0 w /\ (r = UI_Disabled -> w = 0) end }.

Lemma holds_other prof i m o off k r f first t t' c c' image : holds prof i m o off k r f first t c image -> reachable prof c' ->
  c_modules c' = c_modules c -> c_offsets c' = c_offsets c ->
  requested c' (mk_address i k) = k_pending t' -> k_force t' = k_force t ->
  holds prof i m o off k r f first t' c' image.
Proof.
  intros [K1 K2 K3 K4] Hr E1 E2 E4 E5. constructor; auto.
  - exact (alone_static _ _ _ _ _ _ E1 E2 K2).
  - rewrite E5. exact K4.
Qed.

Lemma chain_step m k r f d w0 old w : analog_output m k = Some (r, f) -> chain r f d w0 -> reads_back m k w0 old -> sends m k old w -> chain r f d w.
Proof.
  intros Ha C R S. pose proof (channel_trip _ _ _ _ _ _ _ Ha R S) as X. unfold chain in *. destruct (base_span r) as [[b s]|]; [|exact I].
  destruct X as [_ X]. destruct C as (n & C). exists (Datatypes.S n). cbn [repeated]. rewrite X, C. reflexivity.
Qed.

Lemma chain_refl r f d : chain r f d d.
Proof. unfold chain. destruct (base_span r) as [[b s]|]; [|exact I]. exists 0%nat. reflexivity. Qed.

Lemma holds_loops prof i m o off k r f first xs : forall t c image c' image', analog_output m k = Some (r, f) ->
  holds prof i m o off k r f first t c image -> loops prof c image xs c' image' ->
  holds prof i m o off k r f first (fold_left (tracks (mk_address i k)) xs t) c' image'.
Proof.
  induction xs as [|x xs IH]; intros t c image c' image' Ea K H; [inversion H; subst; exact K|].
  pose proof K as [K1 K2 K3 K4]. cbn [fold_left].
  assert (Hk : (k < channels m)%nat).
  { pose proof (alone_placed _ _ _ _ _ _ _ _ _ K1 K2 Ea) as (_ & _ & Ha & _). rewrite (outputs_4 m Ha). apply Ha. congruence. }
  inversion H as [|? ? a v ? ? ? Hv H'|? ? j size ? ? ? H'|? ? j buf ? ? ? Hb H'|? ? input c1 image1 ? ? ? Hc H'
                  |? ? input output c1 ? ? ? Hc H']; subst; refine (IH _ _ _ _ _ Ea _ H').
  - destruct (set_static c a v) as (_ & S2 & S3 & S4 & _). cbn [tracks].
    assert (Hva : valid_address c (mk_address i k)).
    { destruct K2 as ((Hm & _) & _). exists m. cbn [a_module a_channel]. auto. }
    destruct (address_eqb_spec a (mk_address i k)) as [->|N].
    + eapply holds_other; [exact K|apply R_set; assumption|assumption..| |]; try reflexivity.
      rewrite set_requested by exact Hva. destruct (address_eqb_spec (mk_address i k) (mk_address i k)); [reflexivity|congruence].
    + eapply holds_other; [exact K|apply R_set; assumption|assumption..| |]; try reflexivity.
      destruct (valid_address_dec c a) as [Ha|Ha].
      * rewrite set_requested by exact Ha. destruct (address_eqb_spec a (mk_address i k)); [congruence|exact K3].
      * rewrite set_output_invalid by exact Ha. exact K3.
  - destruct (read_static c j size) as (S1 & S2 & S3 & S4 & S5 & _). cbn [tracks].
    eapply holds_other; [exact K|apply R_read; assumption|assumption..| |]; try reflexivity.
    unfold requested in *. rewrite S5. exact K3.
  - destruct (write_static c j buf) as (S1 & S2 & S3 & S4 & S5 & _). cbn [tracks].
    eapply holds_other; [exact K|apply R_write; assumption|assumption..| |]; try reflexivity.
    unfold requested in *. rewrite S5. exact K3.
  - assert (Hr1 : reachable prof c1) by (apply (cycle_reachable _ c input image _ (Ok image1) K1 Hc); discriminate).
    destruct (cycle_static _ _ _ _ _ _ Hc) as [M1 M2].
    destruct (tick_code _ _ _ _ _ _ _ _ _ _ _ _ _ K1 Hc K2 Ea) as (w0 & old & w & G1 & G2 & G3 & G4 & G5 & G6 & G7).
    assert (Hz : r = UI_Disabled -> w = 0) by (intros ->; exact (disabled_code _ _ _ _ _ Ea G6)).
    cbn [tracks]. constructor; cbn [k_pending k_force].
    + exact Hr1.
    + exact (alone_static _ _ _ _ _ _ M1 M2 K2).
    + exact G7.
    + rewrite K3 in G6. destruct (k_pending t) as [v|]; cbn [newest].
      * exists w, w. pose proof (chain_refl r f w). auto 10.
      * destruct (k_force t) as [v|].
        -- destruct K4 as (d & w1 & F1 & F2 & F3 & F4 & F5 & _). rewrite G1 in F1. apply Some_inj in F1. subst w1.
           exists d, w. pose proof (chain_step _ _ _ _ _ _ _ _ Ea F5 G3 G6). auto 10.
        -- right. destruct K4 as [K4|(w00 & w1 & F0 & F1 & F2 & F3 & F4 & _)].
           ++ rewrite G1 in K4. exists w0, w. pose proof (chain_step _ _ _ _ _ _ _ _ Ea (chain_refl r f w0) G3 G6). auto 10.
           ++ rewrite G1 in F1. apply Some_inj in F1. subst w1. exists w00, w.
              pose proof (chain_step _ _ _ _ _ _ _ _ Ea F4 G3 G6). auto 10.
  - assert (Hr1 : reachable prof c1) by (apply (cycle_reachable _ c input output _ (Err BufferLength) K1 Hc); discriminate).
    destruct (short_cycle _ _ _ _ _ (reachable_ok _ _ K1) Hc) as (ins & ->). cbn [tracks].
    eapply holds_other; [exact K|exact Hr1|reflexivity..|exact K3|reflexivity].
Qed.

Lemma holds_start prof i m o off k r f c image : reachable prof c -> alone c i m o off -> requested c (mk_address i k) = None ->
  holds prof i m o off k r f (output_register image off k) nothing c image.
Proof. intros Hr Ha Hn. constructor; auto. left. reflexivity. Qed.

Lemma span_some r : r <> UI_Disabled -> base_span r <> None.
Proof. destruct r; try discriminate. congruence. Qed.

Lemma drifted_zero f : drifted f 0 0.
Proof. destruct f; cbn [drifted]; [reflexivity|]. split; [left; vm_compute; split; discriminate|]. split; [vm_compute; discriminate|]. auto. Qed.

Lemma quiet_image prof c image xs c' image' : loops prof c image xs c' image' -> between_ticks xs -> image' = image.
Proof.
  intros H. induction H as [c image|c image a v xs c' image' Hv H IH|c image i size xs c' image' H IH|c image i buf xs c' image' Hb H IH
    |c image input c1 image1 xs c' image' Hc H IH|c image input output c1 xs c' image' Hc H IH]; intros Hq; try reflexivity;
    try (apply IH; intros y Hy; apply (Hq y); right; exact Hy).
  exfalso. apply (Hq input). left. reflexivity.
Qed.

Lemma C82_code_all : forall prof c0 image0 before input after c image i m o off k r f,
  reachable prof c0 -> alone c0 i m o off -> analog_output m k = Some (r, f) -> requested c0 (mk_address i k) = None ->
  loops prof c0 image0 (before ++ [Tick input] ++ after) c image -> between_ticks after ->
  exists w, output_register image off k = Some w /\ is_u16 w /\ (r = UI_Disabled -> w = 0) /\
    (forall v, latest (requests before) (mk_address i k) (Some v) -> exists d, sends m k v d /\ is_u16 d /\ drifted f d w) /\
    (latest (requests before) (mk_address i k) None -> r <> UI_Disabled ->
       exists w0, output_register image0 off k = Some w0 /\ is_u16 w0 /\ drifted f w0 w).
Proof.
  intros prof c0 image0 before input after c image i m o off k r f Hr Ha Ea Hq H Hb.
  destruct (loops_app _ _ _ _ _ _ _ H) as (c1 & image1 & L1 & L2). cbn [app] in L2.
  pose proof (holds_loops prof i m o off k r f _ _ nothing c0 image0 c1 image1 Ea (holds_start _ _ _ _ _ _ r f _ image0 Hr Ha Hq) L1) as K.
  inversion L2 as [| | | |? ? input' c2 image2 ? ? ? Hc L3|]; subst.
  pose proof K as [K1 K2 K3 K4].
  assert (Lt : loops prof c1 image1 [Tick input] c2 image2) by (econstructor; [exact Hc|constructor]).
  pose proof (holds_loops prof i m o off k r f _ _ _ _ _ _ _ Ea K Lt) as K'. cbn [fold_left tracks] in K'.
  pose proof (holds_loops prof i m o off k r f _ _ _ _ _ _ _ Ea K' L3) as [_ _ _ Q].
  destruct (tracks_quiet (mk_address i k) after Hb (mk_track None
     (newest (k_pending (fold_left (tracks (mk_address i k)) before nothing)) (k_force (fold_left (tracks (mk_address i k)) before nothing)))
     (k_force (fold_left (tracks (mk_address i k)) before nothing)))) as [E _].
  rewrite E in Q. cbn [k_force] in Q. rewrite tracks_total in Q. cbn [newest nothing k_pending k_force] in Q.
  destruct (last_for (mk_address i k) (requests before)) as [v|] eqn:El.
  - destruct Q as (d & w & Q1 & Q2 & Q3 & Q4 & Q5 & Q6). exists w. split; [exact Q1|]. split; [exact Q2|]. split; [exact Q6|]. split.
    + intros v' Hl. apply last_for_latest in Hl. rewrite El in Hl. apply Some_inj in Hl. subst v'. exists d. split; [exact Q4|]. split; [exact Q3|].
      destruct (range_dec r) as [->|N]; [|exact (chain_drifted r f d w (span_some r N) Q3 Q2 Q5)].
      rewrite (Q6 eq_refl), (disabled_code _ _ _ _ _ Ea Q4). apply drifted_zero.
    + intros Hl. apply last_for_latest in Hl. congruence.
  - assert (Q' : exists w0 w, output_register image0 off k = Some w0 /\ output_register image off k = Some w /\ is_u16 w0 /\ is_u16 w /\
                   chain r f w0 w /\ (r = UI_Disabled -> w = 0)).
    { destruct Q as [Q|Q]; [|exact Q]. rewrite (quiet_image _ _ _ _ _ _ L3 Hb) in *.
      destruct (tick_code _ _ _ _ _ _ _ _ _ _ _ _ _ K1 Hc K2 Ea) as (w0 & old & w & G1 & G2 & G3 & G4 & G5 & G6 & G7).
      exists w, w. rewrite <- Q. pose proof (chain_refl r f w).
      assert (Hz : r = UI_Disabled -> w = 0) by (intros ->; exact (disabled_code _ _ _ _ _ Ea G6)). auto 10. }
    destruct Q' as (w0 & w & Q0 & Q1 & Q2 & Q3 & Q4 & Q5). exists w. split; [exact Q1|]. split; [exact Q3|]. split; [exact Q5|]. split.
    + intros v Hl. apply last_for_latest in Hl. congruence.
    + intros _ N. exists w0. split; [exact Q0|]. split; [exact Q2|]. exact (chain_drifted r f w0 w (span_some r N) Q2 Q3 Q4).
Qed.

Lemma C82_value_all : forall prof c0 image0 before input after c image i m o off k r f base span x,
  reachable prof c0 -> alone c0 i m o off -> analog_output m k = Some (r, f) -> base_span r = Some (base, span) ->
  requested c0 (mk_address i k) = None ->
  loops prof c0 image0 (before ++ [Tick input] ++ after) c image -> between_ticks after ->
  latest (requests before) (mk_address i k) (Some (Decimal32 x)) -> f32_valid x = true -> finite x ->
  (-32768 <= exact_code base span (full_code f) (real x) <= 32767)%R ->
  exists w, output_register image off k = Some w /\
    (Rabs (exact_value base span (full_code f) (signed w) - real x) <= IZR (hundredths f) / 100 * (IZR span / IZR (full_code f)))%R.
Proof.
  intros prof c0 image0 before input after c image i m o off k r f base span x Hr Ha Ea Er Hq H Hb Hl Hv Hf Hx.
  destruct (C82_code_all _ _ _ _ _ _ _ _ _ _ _ _ _ _ _ Hr Ha Ea Hq H Hb) as (w & W1 & W2 & _ & W4 & _).
  exists w. split; [exact W1|]. destruct (W4 _ Hl) as (d & D1 & D2 & D3).
  pose proof (C18_all m k r f base span x d Ea Er D1 Hv Hf Hx) as A.
  destruct (base_span_range _ _ _ Er) as [_ Hs].
  assert (B : (Rabs (IZR (signed w) - exact_code base span (full_code f) (real x)) <= IZR (hundredths f) / 100)%R).
  { destruct f; cbn [drifted hundredths] in *.
    - subst w. lra.
    - destruct D3 as (_ & D3 & _).
      assert (D3' : (Rabs (IZR (signed w) - IZR (signed d)) <= 5)%R) by (rewrite <- minus_IZR, <- abs_IZR; apply IZR_le; exact D3).
      replace (IZR (signed w) - exact_code base span (full_code S7) (real x))%R
        with ((IZR (signed w) - IZR (signed d)) + (IZR (signed d) - exact_code base span (full_code S7) (real x)))%R by ring.
      eapply Rle_trans; [apply Rabs_triang|]. lra. }
  assert (Ps : (0 < IZR span)%R) by (apply IZR_lt; lia). assert (Pf : (0 < IZR (full_code f))%R) by (apply IZR_lt; destruct f; reflexivity).
  assert (Pq : (0 < IZR span / IZR (full_code f))%R) by (apply Rdiv_lt_0_compat; assumption).
  replace (exact_value base span (full_code f) (signed w) - real x)%R
    with ((IZR (signed w) - exact_code base span (full_code f) (real x)) * (IZR span / IZR (full_code f)))%R
    by (unfold exact_value, exact_code; field; lra).
  rewrite Rabs_mult, (Rabs_pos_eq (IZR span / IZR (full_code f))) by lra. apply Rmult_le_compat_r; lra.
Qed.
