(** Proofs about disturbed control programs (C122). *)
From Coq Require Import ZArith List Bool Lia ZifyBool ZifyNat.
From Verif Require Import Base F32 Types Lib Util Digital Analog Fcnt Com Fbc Facts SpecCodec SpecSerial SpecCoupler SpecImage SpecFeedback SpecKeep SpecLossless SpecOutcome SpecIdle SpecTerminal SpecMachine SpecOutage
  ProofsWitness ProofsCoupler ProofsLayout ProofsDigital ProofsCycle ProofsOutcome ProofsIdle ProofsSteady ProofsKeep ProofsTerminal ProofsWire ProofsMemory ProofsMachine.
Import ListNotations.
Local Open Scope Z_scope.

Lemma bits_length at_place image channels offs : length offs = length channels -> length (bits_at at_place image channels offs) = length channels.
Proof. intros L. unfold bits_at. rewrite map_length, combine_length. lia. Qed.
Lemma partly_bits old new after channels offs : length offs = length channels -> partly old new after ->
  some_of (bits_at output_bit old channels offs) (bits_at output_bit new channels offs) (bits_at output_bit after channels offs).
Proof.
  intros L H. split; [rewrite !bits_length by exact L; reflexivity|]. intros n b. rewrite !bits_nth by exact L.
  destruct (nth_error channels n) as [a|]; [|discriminate]. destruct (nth_error offs n) as [off|]; [|discriminate].
  intros E. apply Some_inj in E. subst b. unfold output_bit, bit. destruct (H (Z.to_nat (off / 16 - 0x0800))) as [->| ->]; auto.
Qed.

Section Outage.
  Context {state : Type} (prof : profile) (P : program state) (new : coupler) (in_offs out_offs : list Z).
  Hypothesis Hnew : reachable prof new.
  Hypothesis Hs : Forall2 (sensor_at new) (sensors P) in_offs.
  Hypothesis Ha : Forall2 (actor_at new) (actors P) out_offs.
  Hypothesis Hd : NoDup (actors P).
  Hypothesis Hquiet : forall a, In a (actors P) -> requested new a = None.

  Lemma round_ready c image commands aside input c1 image1 bits : reachable prof c -> same_rack new c ->
    (forall a, In a (actors P) -> requested c a = None) ->
    loops prof c image (requested_by (actors P) commands ++ aside ++ [Tick input]) c1 image1 ->
    (forall a v, In (a, v) (requests aside) -> ~ In a (actors P)) -> Forall2 (sees c1) (sensors P) bits ->
    reachable prof c1 /\ same_rack new c1 /\ (forall a, In a (actors P) -> requested c1 a = None) /\
    bits = bits_at input_bit input (sensors P) in_offs /\
    bits_at output_bit image1 (actors P) out_offs = obey (bits_at output_bit image (actors P) out_offs) commands.
  Proof.
    intros Hr S Hq HL Hn Hi.
    assert (Hact : Forall2 (actor_at c) (actors P) out_offs) by (eapply Forall2_weaken; [|exact Ha]; intros a off; exact (actor_static _ _ _ _ S)).
    pose proof (round_outputs _ _ _ _ _ _ _ _ _ _ Hr Hact Hd Hq Hn HL) as Eo. rewrite app_assoc in HL.
    destruct (last_tick _ _ _ _ _ _ _ Hr HL) as (c0 & image0 & Hr0 & S0 & Hc). pose proof (same_rack_trans _ _ _ S S0) as Sn0.
    assert (Hs0 : Forall2 (sensor_at c0) (sensors P) in_offs) by (eapply Forall2_weaken; [|exact Hs]; intros a off; exact (sensor_static _ _ _ _ Sn0)).
    destruct (loops_kept _ _ _ _ _ _ Hr HL) as [Hr1 S1].
    split; [exact Hr1|]. split; [exact (same_rack_trans _ _ _ S S1)|]. split; [|split; [exact (round_inputs _ _ _ _ _ _ _ _ _ Hr0 Hc Hs0 Hi)|exact Eo]].
    intros a Hin. destruct (In_nth_error _ _ Hin) as [n En]. pose proof Ha as L. apply Forall2_length in L.
    destruct (nth_error out_offs n) as [off|] eqn:Eoff.
    2:{ apply nth_error_None in Eoff. assert (n < length (actors P))%nat by (apply nth_error_Some; congruence). lia. }
    destruct (actor_static _ _ _ _ Sn0 (Forall2_at _ _ _ Ha _ _ _ En Eoff)) as (m & o & k & Hal & Hm & Hk).
    destruct (digital_not_serial m k Hm) as (_ & Hx & _).
    rewrite <- (address_eta a). apply (C85_all _ _ _ _ _ _ _ _ _ _ Hr0 Hc Hal). rewrite Hx. exact Hk.
  Qed.
  Lemma disturbed_copes s commands c image events images : disturbed prof P new s commands c image events images ->
    reachable prof c -> same_rack new c -> (forall a, In a (actors P) -> requested c a = None) ->
    copes P s (bits_at output_bit image (actors P) out_offs) commands
      (map (with_input (fun x => bits_at input_bit x (sensors P) in_offs)) events)
      (map (fun x => bits_at output_bit x (actors P) out_offs) images).
  Proof.
    intros H. induction H as [s commands c image|s commands c image aside input c1 image1 bits events images HL Hb Hn Hi H IH
      |s commands c image aside input c1 image1 bits image' events images HL Hb Hn Hi Hp H IH|s commands c image s' events images H IH];
      intros Hr S Hq; cbn [map with_input].
    - constructor.
    - destruct (round_ready _ _ _ _ _ _ _ _ Hr S Hq HL Hn Hi) as (Hr1 & S1 & Hq1 & Eb & Eo). specialize (IH Hr1 S1 Hq1).
      rewrite Eo in *. apply Copes_whole. rewrite <- Eb. exact IH.
    - destruct (round_ready _ _ _ _ _ _ _ _ Hr S Hq HL Hn Hi) as (Hr1 & S1 & Hq1 & Eb & Eo). specialize (IH Hr1 S1 Hq1).
      apply Copes_broken; [|rewrite <- Eb; exact IH]. rewrite <- Eo. apply partly_bits; [|exact Hp].
      pose proof Ha as L. apply Forall2_length in L. symmetry. exact L.
    - apply Copes_restart. apply IH; [exact Hnew|split; reflexivity|exact Hquiet].
  Qed.
End Outage.

Lemma C122_all : forall state prof cfg new (P : program state) s image events images in_offs out_offs, rust_config cfg -> coupler_new cfg = Ok new ->
  Forall2 (sensor_at new) (sensors P) in_offs -> Forall2 (actor_at new) (actors P) out_offs -> NoDup (actors P) ->
  disturbed prof P new s [] new image events images ->
  copes P s (bits_at output_bit image (actors P) out_offs) []
    (map (with_input (fun x => bits_at input_bit x (sensors P) in_offs)) events)
    (map (fun x => bits_at output_bit x (actors P) out_offs) images).
Proof.
  intros state prof cfg new P s image events images in_offs out_offs Hc Hn Hs Ha Hd H.
  pose proof (R_new prof cfg new Hc Hn) as Hr.
  apply (disturbed_copes prof P new in_offs out_offs Hr Hs Ha Hd (fun a _ => new_requests _ _ Hn a) _ _ _ _ _ _ H Hr); [split; reflexivity|].
  intros a _. exact (new_requests _ _ Hn a).
Qed.

(** A round that is computed. *)
Lemma loop_computed prof c image actors commands input c1 image1 : forallb fits input = true -> forallb fits image = true ->
  next prof as_is as_is (set_all c (requests (requested_by actors commands))) input image = (c1, Ok image1) ->
  loops prof c image (requested_by actors commands ++ [] ++ [Tick input]) c1 image1.
Proof.
  intros F1 F2 H. cbn [app]. rewrite requested_by_requests.
  apply loops_join with (c1 := set_all c (requests (requested_by actors commands))) (image1 := image).
  - apply set_requests_loop. apply Forall_forall. intros (a & v) Hin. destruct (commanded_bit _ _ _ _ Hin) as [b ->]. exact I.
  - apply (L_tick _ _ _ _ c1 image1); [apply step_cycle; assumption|constructor].
Qed.

(** ** There is always a next round *)
Lemma nth_bytes_even l j : nth (2 * j) (bytes_of_words l) 0 = nth j l 0 mod 256.
Proof.
  destruct (nth_error l j) as [w|] eqn:E.
  - rewrite (nth_error_nth l j 0 E). apply nth_error_nth. rewrite bytes_even, E. reflexivity.
  - apply nth_error_None in E. rewrite (nth_overflow l) by lia. apply nth_overflow. apply nth_error_None. rewrite bytes_even.
    rewrite (proj2 (nth_error_None l j) E). reflexivity.
Qed.
Lemma nth_bytes_odd l j : nth (2 * j + 1) (bytes_of_words l) 0 = nth j l 0 / 256.
Proof.
  destruct (nth_error l j) as [w|] eqn:E.
  - rewrite (nth_error_nth l j 0 E). apply nth_error_nth. rewrite bytes_odd, E. reflexivity.
  - apply nth_error_None in E. rewrite (nth_overflow l) by lia. apply nth_overflow. apply nth_error_None. rewrite bytes_odd.
    rewrite (proj2 (nth_error_None l j) E). reflexivity.
Qed.
Lemma nth_u16 l j : Forall is_u16 l -> 0 <= nth j l 0 < 65536.
Proof.
  intros H. destruct (Nat.lt_ge_cases j (length l)) as [L|L]; [|rewrite nth_overflow by exact L; lia].
  exact (proj1 (Forall_forall _ _) H _ (nth_In _ 0 L)).
Qed.
Lemma first_aligned off : off mod 16 = 0 -> 0x0800 <= off / 16 -> first_byte 0x0800 off = (2 * Z.to_nat (off / 16 - 0x0800))%nat.
Proof. intros E L. unfold first_byte. rewrite E. change (0 / 8) with 0. lia. Qed.
(** A preset is sendable exactly if its first register is below 128. *)
Lemma preset_high image off k : Forall is_u16 image -> off mod 16 = 0 -> 0x0800 <= off / 16 ->
  preset_micros image off k <= 8388607 <-> nth (Z.to_nat (off / 16 - 0x0800) + 2 * k) image 0 < 128.
Proof.
  intros Hu E L. unfold preset_micros, data_byte. rewrite (first_aligned _ E L). set (j := Z.to_nat (off / 16 - 0x0800)).
  replace (2 * j + (4 * k + 0))%nat with (2 * (j + 2 * k))%nat by lia.
  replace (2 * j + (4 * k + 1))%nat with (2 * (j + 2 * k) + 1)%nat by lia.
  replace (2 * j + (4 * k + 2))%nat with (2 * (j + 2 * k + 1))%nat by lia.
  replace (2 * j + (4 * k + 3))%nat with (2 * (j + 2 * k + 1) + 1)%nat by lia.
  rewrite !nth_bytes_even, !nth_bytes_odd.
  pose proof (nth_u16 image (j + 2 * k) Hu) as H1. pose proof (nth_u16 image (j + 2 * k + 1) Hu) as H2.
  pose proof (Z.div_mod (nth (j + 2 * k) image 0) 256 ltac:(lia)) as D1. pose proof (Z.div_mod (nth (j + 2 * k + 1) image 0) 256 ltac:(lia)) as D2.
  unfold word32. lia.
Qed.
Lemma partly_usable new old image1 image' : byte_wide new -> Forall is_u16 old -> Forall is_u16 image1 -> Forall is_u16 image' ->
  partly old image1 image' -> length image' = length old ->
  outputs_readable new old -> presets_sendable new old -> outputs_readable new image1 -> presets_sendable new image1 ->
  outputs_readable new image' /\ presets_sendable new image'.
Proof.
  intros Hbw U0 U1 U' Hp Hlen R0 P0 R1 P1. split.
  - intros i m o off Hat Eo. destruct (R0 i m o off Hat Eo) as [[Y1 [Y2 [Y3 Y4]]] A0]. destruct (R1 i m o off Hat Eo) as [_ A1].
    split; [split; [exact Y1|]; split; [exact Y2|]; split; [exact Y3|]; rewrite Hlen; exact Y4|].
    intros l ch Em. specialize (A0 l ch Em). specialize (A1 l ch Em).
    assert (E0 : off mod 16 = 0).
    { destruct Y2 as [Y2|Y2]; [exact Y2|]. specialize (Hbw i m o off Hat Eo Y2). subst m. destruct l; cbn in Hbw; lia. }
    unfold data_byte in *. rewrite (first_aligned _ E0 Y3) in *. rewrite nth_bytes_odd in *.
    destruct (Hp (Z.to_nat (off / 16 - 0x0800))) as [->| ->]; assumption.
  - intros i ch o off k Hat Eo Hk. destruct (R0 i _ o off Hat Eo) as [[Y1 [Y2 [Y3 Y4]]] _].
    assert (E0 : off mod 16 = 0).
    { destruct Y2 as [Y2|Y2]; [exact Y2|]. specialize (Hbw i _ o off Hat Eo Y2). cbn in Hbw. lia. }
    apply (preset_high _ _ _ U' E0 Y3). specialize (P0 i ch o off k Hat Eo Hk). specialize (P1 i ch o off k Hat Eo Hk).
    apply (preset_high _ _ _ U0 E0 Y3) in P0. apply (preset_high _ _ _ U1 E0 Y3) in P1.
    destruct (Hp (Z.to_nat (off / 16 - 0x0800) + 2 * k)%nat) as [->| ->]; assumption.
Qed.
Lemma C122_goes_on_all : forall state prof cfg new (P : program state) image0 c image in_offs out_offs, rust_config cfg -> coupler_new cfg = Ok new ->
  Forall2 (sensor_at new) (sensors P) in_offs -> Forall2 (actor_at new) (actors P) out_offs ->
  byte_wide new -> outputs_packed new -> Forall is_u16 image0 -> outputs_readable new image0 -> presets_sendable new image0 ->
  situation prof P new image0 c image ->
  forall commands input, Forall is_u16 input -> inputs_readable new input ->
  exists c1 image1 bits, loops prof c image (requested_by (actors P) commands ++ [Tick input]) c1 image1 /\ Forall2 (sees c1) (sensors P) bits.
Proof.
  intros state prof cfg new P image0 c image in_offs out_offs Hcfg Hnew Hs Hact Hbw Hpk Hu0 Ho0 Hp0 HS.
  pose proof (R_new prof cfg new Hcfg Hnew) as Hr0.
  assert (G : reachable prof c /\ same_rack new c /\ Forall is_u16 image /\ outputs_readable new image /\ presets_sendable new image /\
    forall i m o k, module_at new i m o -> is_serial m = false -> requested c (mk_address i k) = None).
  { assert (T : forall c image xs input c1 image1, reachable prof c -> same_rack new c -> loops prof c image (xs ++ [Tick input]) c1 image1 ->
      reachable prof c1 /\ same_rack new c1 /\ Forall is_u16 image1 /\ outputs_readable new image1 /\ presets_sendable new image1 /\
      forall i m o k, module_at new i m o -> is_serial m = false -> requested c1 (mk_address i k) = None).
    { clear c image HS. intros c image xs input c1 image1 Hr S HL. destruct (loops_kept _ _ _ _ _ _ Hr HL) as [Hr1 S1].
      pose proof (same_rack_trans _ _ _ S S1) as S1'. destruct (last_tick _ _ _ _ _ _ _ Hr HL) as (c2 & image2 & Hr2 & S2 & Hc2).
      pose proof (same_rack_trans _ _ _ S S2) as [N1 N2]. split; [exact Hr1|]. split; [exact S1'|].
      split; [exact (image_u16 _ _ _ _ _ _ (reachable_ok _ _ Hr2) Hc2)|].
      assert (Hbw2 : byte_wide c2) by (unfold byte_wide, module_at in *; rewrite N1, N2; exact Hbw).
      destruct (image_ready _ _ _ _ _ _ Hr2 Hbw2 Hc2) as (A & B & _).
      split; [exact (readable_static c2 new _ (eq_sym N1) (eq_sym N2) A)|].
      split; [unfold presets_sendable, module_at in *; rewrite <- N1, <- N2; exact B|].
      intros i m o k Hat Hser.
      destruct (C38_all _ _ _ _ _ _ Hr2 Hc2) as (readback & sent & E1 & _).
      apply (requests_taken _ _ _ _ _ _ (reachable_ok _ _ Hr2) Hc2) with (m := m) (o := o); [|exists readback; exact E1| |exact Hser].
      - destruct (cycle_inv _ _ _ _ _ _ (reachable_ok _ _ Hr2) Hc2) as [(_ & _ & _ & _ & X)|[(_ & _ & _ & _ & _ & _ & X)|(ins & _ & _ & E & _)]];
          [destruct (X _ eq_refl)|destruct (X _ eq_refl)|exists ins; exact E].
      - destruct Hat as [M1 M2]. split; congruence. }
    induction HS as [|c image commands aside input c1 image1 HS IH HL Hb|c image commands aside input c1 image1 image' HS IH HL Hb Hp Hlen Hu|c image HS IH].
    - split; [exact Hr0|]. split; [split; reflexivity|]. split; [exact Hu0|]. split; [exact Ho0|]. split; [exact Hp0|]. intros i m o k _ _. exact (new_requests _ _ Hnew _).
    - destruct IH as (Hr & S & _). rewrite app_assoc in HL. exact (T _ _ _ _ _ _ Hr S HL).
    - destruct IH as (Hr & S & Uo & Hor & Hps & _). rewrite app_assoc in HL. destruct (T _ _ _ _ _ _ Hr S HL) as (X1 & X2 & X3 & X4 & X5 & X6).
      destruct (partly_usable new image image1 image' Hbw Uo X3 Hu Hp Hlen Hor Hps X4 X5) as [Z1 Z2].
      split; [exact X1|]. split; [exact X2|]. split; [exact Hu|]. split; [exact Z1|]. split; [exact Z2|exact X6].
    - destruct IH as (_ & _ & Hu & Hor & Hps & _). split; [exact Hr0|]. split; [split; reflexivity|]. split; [exact Hu|]. split; [exact Hor|]. split; [exact Hps|].
      intros i m o k _ _. exact (new_requests _ _ Hnew _). }
  destruct G as (Hr & S & Hu & Hor & Hps & Hq). intros commands input Hui Hi.
  set (reqs := requests (requested_by (actors P) commands)).
  assert (Fr : Forall (fun av => rust_value (snd av)) reqs).
  { apply Forall_forall. intros (a & v) Hin. destruct (commanded_bit _ _ _ _ Hin) as [b ->]. exact I. }
  pose proof (set_requests_loop prof reqs c image Fr) as HL. unfold reqs in HL at 1. rewrite <- requested_by_requests in HL.
  destruct (loops_kept _ _ _ _ _ _ Hr HL) as [Hr2 S2']. pose proof (same_rack_trans _ _ _ S S2') as S2. pose proof S2 as [N1 N2].
  destruct (next prof as_is as_is (set_all c reqs) input image) as [c1 r] eqn:En.
  assert (Hc : cycle prof (set_all c reqs) input image c1 r).
  { split; [exact Hui|]. split; [exact Hu|]. exists as_is, as_is. auto using as_is_order. }
  assert (A : exists image1, r = Ok image1).
  { apply (C59_all _ _ _ _ _ _ Hr2 Hc). split; [unfold inputs_readable, module_at in *; rewrite N1, N2; exact Hi|].
    split; [exact (readable_static new _ _ N1 N2 Hor)|]. split; [|split].
    - intros i m o k v Hat Ho Hn Hrq. assert (Hat' : module_at new i m o) by (destruct Hat; split; congruence).
      destruct (set_all_origin _ _ _ _ Hrq) as [Hin|Hq']; [|rewrite (Hq i m o k Hat' Hn) in Hq'; discriminate Hq'].
      destruct (commanded_bit _ _ _ _ Hin) as [b ->]. apply commanded_in in Hin. destruct (In_nth_error _ _ Hin) as [n Ena].
      pose proof Hact as L. apply Forall2_length in L. destruct (nth_error out_offs n) as [off|] eqn:Eoff.
      2:{ apply nth_error_None in Eoff. assert (n < length (actors P))%nat by (apply nth_error_Some; congruence). lia. }
      destruct (Forall2_at _ _ _ Hact _ _ _ Ena Eoff) as (m' & o' & q & Hal & Hm & Hk). cbn [a_module a_channel] in Hal.
      assert (m' = m) as -> by (destruct Hal as [[M _] _]; destruct Hat' as [M' _]; congruence).
      destruct m as [w ch|w ch| |ch|ch|ch|t ch|f ch|w f ch|f ch|t ch|ch|l ch| ]; try discriminate Hm; exists b; reflexivity.
    - intros i ch o off k Hat Eo Hk _. apply (Hps i ch o off k); [destruct Hat; split; congruence|exact Eo|exact Hk].
    - unfold outputs_packed in *. rewrite N1, N2. exact Hpk. }
  destruct A as [image1 ->].
  assert (Hs2 : Forall2 (sensor_at (set_all c reqs)) (sensors P) in_offs) by (eapply Forall2_weaken; [|exact Hs]; intros a off; exact (sensor_static _ _ _ _ S2)).
  destruct (inputs_seen _ _ _ _ _ _ _ _ Hr2 Hc Hs2) as [bits Hb]. exists c1, image1, bits. split; [|exact Hb].
  apply (loops_join _ _ _ _ _ _ _ _ _ HL). apply (L_tick _ _ _ _ _ _ _ _ _ Hc). constructor.
Qed.
