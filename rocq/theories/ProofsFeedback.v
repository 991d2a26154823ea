(** Proofs about values written in one cycle and shown in the next one (C63). *)
From Coq Require Import ZArith Reals List Bool Lia Lra ZifyBool ZifyNat.
From Verif Require Import Base Facts F32 Types Lib Util Digital Analog Fcnt Com Fbc
  SpecCodec SpecSerial SpecCoupler SpecImage SpecAnalog SpecOutcome SpecFeedback ProofsAddr ProofsCodec ProofsFcnt ProofsSerialCodec
  ProofsModule ProofsImage ProofsLayout ProofsDigital ProofsSerial ProofsLoop ProofsCycle ProofsCoupler ProofsFloat ProofsAnalog
  ProofsReadback ProofsWitness ProofsIdle ProofsOutcome.
Import ListNotations.
Local Open Scope Z_scope.
Ltac Zify.zify_post_hook ::= Z.div_mod_to_equations.

(** ** The words that are decoded *)

Lemma words_decoded m d words : length d = output_words m -> Forall is_u16 d -> output_bytes m <> 0%nat ->
  words_of_bytes words (firstn (output_bytes m) (bytes_of_words d)) ->
  words = d \/ output_bytes m = 1%nat /\ exists w x, words = [w] /\ d = [x] /\ is_u16 w /\ w mod 256 = x mod 256.
Proof.
  intros Ld Hu Hz (Hw & E).
  destruct (Nat.eq_dec (output_bytes m) 1) as [E1|E1].
  - right. split; [exact E1|]. pose proof (output_one_word m E1) as W1. rewrite W1 in Ld. destruct (one_word d Ld) as (x & ->).
    rewrite E1 in E. cbn [bytes_of_words flat_map app firstn] in E.
    destruct words as [|w [|w' words]].
    + destruct E as [E|E]; discriminate.
    + exists w, x. split; [reflexivity|]. split; [reflexivity|]. inversion Hw; subst. split; [assumption|].
      cbn [bytes_of_words flat_map app] in E. destruct E as [E|E]; [discriminate|]. now injection E.
    + destruct E as [E|E]; discriminate.
  - left. assert (X : (output_bytes m = 2 * output_words m)%nat).
    { destruct m as [[]|[]| | | | | | |[]| | | |[]|]; cbn [output_words output_bytes message_size] in *; lia. }
    rewrite firstn_all2 in E by (rewrite bytes_of_words_length; lia).
    apply bytes_of_words_inj; [exact Hw|exact Hu|]. destruct E as [E|E]; [exact E|].
    apply (f_equal (@length Z)) in E. rewrite app_length, !bytes_of_words_length in E. cbn [length] in E. lia.
Qed.

(** ** Digital outputs *)
Lemma low_bit w x i : w mod 256 = x mod 256 -> (i < 8)%nat -> bit w i = bit x i.
Proof.
  intros E Hi. unfold bit. assert (X : forall z, Z.testbit z (Z.of_nat i) = Z.testbit (z mod 2 ^ 8) (Z.of_nat i)).
  { intros z. rewrite Z.mod_pow2_bits_low by lia. reflexivity. }
  rewrite (X w), (X x). change (2 ^ 8) with 256. rewrite E. reflexivity.
Qed.

Lemma shown_digital prof m n new d words row : digital_outputs m = Some n -> ((n <= 8)%nat \/ n = 16%nat) ->
  mod_process_output_values prof m new = Ok d ->
  (words = d \/ output_bytes m = 1%nat /\ exists w x, words = [w] /\ d = [x] /\ is_u16 w /\ w mod 256 = x mod 256) ->
  mod_process_output_data m words = Ok row ->
  forall k v, nth_error new k = Some v -> exists b, switches v = Some b /\ nth_error row k = Some (Bit b).
Proof.
  intros Hn Hle He Hwd Hd k v Hk. destruct (C14_all prof m n Hn) as (E1 & E2 & _ & _).
  destruct (Nat.eq_dec (length new) n) as [El|El].
  2:{ rewrite E1 in He by (left; exact El). discriminate. }
  destruct (switches_dec new) as [Es|Es].
  2:{ rewrite E1 in He by (right; exact Es). discriminate. }
  destruct (E2 new El Es) as (x & Hx & Hxu & Hbits & _). rewrite Hx in He. apply Ok_inj in He. subst d.
  destruct (switches v) as [b|] eqn:Eb.
  2:{ exfalso. rewrite Forall_forall in Es. apply (Es v); [eapply nth_error_In; exact Hk|exact Eb]. }
  exists b. split; [reflexivity|]. pose proof (Hbits k v b Hk Eb) as Hb. pose proof (nth_error_Some_lt _ _ _ Hk) as Hlt.
  destruct (do_decoder m n Hn) as (_ & D).
  assert (X : exists w, words = [w] /\ bit w k = bit x k).
  { destruct Hwd as [->|(O1 & w & x' & -> & E & _ & Em)]; [exists x; auto|]. injection E as <-. exists w. split; [reflexivity|].
    apply low_bit; [exact Em|]. destruct Hle as [Hle| ->]; [lia|].
    destruct m as [v0 ch|v0 ch| |ch|ch|ch|u ch|f ch|v0 f ch|f ch|u ch|ch|l ch| ]; try discriminate; destruct v0; discriminate. }
  destruct X as (w & -> & Ew). rewrite D in Hd. apply Ok_inj in Hd. subst row.
  rewrite nth_error_map, nth_error_seq. replace (Nat.ltb k n) with true by lia. cbn [option_map]. rewrite Ew, Hb. reflexivity.
Qed.

(** ** Counters *)
Lemma shown_counter prof ch new d row : length ch = 2%nat -> Forall wire_value new ->
  mod_process_output_values prof (MFCNT ch) new = Ok d -> mod_process_output_data (MFCNT ch) d = Ok row ->
  forall k v, nth_error new k = Some v -> exists o, preset v = Some o /\
    nth_error row k = Some (FcntOut (mk_fcnt_out (truncated_to_micros (fo_duration o)) (fo_command o))).
Proof.
  intros Hc Hw He Hd k v Hk. destruct (C23_all prof ch new Hc (wire_presets _ Hw)) as (C1 & C2 & C3 & _).
  destruct new as [|v1 [|v2 [|v3 new]]]; try (rewrite C3 in He by (left; discriminate); discriminate).
  destruct (preset v1) as [a|] eqn:E1.
  2:{ rewrite C3 in He; [discriminate|]. right. exists v1. split; [left; reflexivity|exact E1]. }
  destruct (preset v2) as [b|] eqn:E2.
  2:{ rewrite C3 in He; [discriminate|]. right. exists v2. split; [right; left; reflexivity|exact E2]. }
  destruct (Z_le_gt_dec (nanoseconds (fo_duration a)) max_preset) as [L1|L1].
  2:{ rewrite (C2 v1 a) in He; [discriminate|left; reflexivity|exact E1|lia]. }
  destruct (Z_le_gt_dec (nanoseconds (fo_duration b)) max_preset) as [L2|L2].
  2:{ rewrite (C2 v2 b) in He; [discriminate|right; left; reflexivity|exact E2|lia]. }
  destruct (C1 v1 v2 a b eq_refl E1 E2 L1 L2) as (words & Hx & _ & _ & Hy). rewrite Hx in He. apply Ok_inj in He. subst d.
  rewrite Hy in Hd. apply Ok_inj in Hd. subst row.
  destruct k as [|[|k]]; cbn [nth_error] in *; [apply Some_inj in Hk; subst v..|destruct k; discriminate]; eauto.
Qed.

(** ** Analog outputs *)
Lemma nearest_self x r : exactly x r -> forall y, nearest y r -> real y = r.
Proof.
  intros (V & F & E) y (_ & _ & H). destruct (H x V F) as [L _]. rewrite E in L.
  replace (r - r)%R with 0%R in L by ring. rewrite Rabs_R0 in L. pose proof (Rabs_pos (real y - r)). 
  destruct (Req_dec (real y - r) 0) as [Z|Z]; [lra|]. pose proof (Rabs_pos_lt _ Z). lra.
Qed.

Lemma decoded_zero base span full y : 0 <= base <= 4 -> decoded base span full 0 y -> exactly y (IZR base).
Proof.
  intros Hb (_ & _ & (q & Hq & Hy) & _). replace (IZR span * 0 / IZR full)%R with 0%R in Hq by (unfold Rdiv; ring).
  assert (Eq : real q = 0%R) by (apply (nearest_self (f32_of_Z 0)); [apply of_Z_small; lia|exact Hq]).
  rewrite Eq, Rplus_0_l in Hy. pose proof Hy as (V & F & _). split; [exact V|]. split; [exact F|].
  apply (nearest_self (f32_of_Z base)); [apply of_Z_small; lia|exact Hy].
Qed.

Lemma shown_analog_value m k r f v d w : analog_output m k = Some (r, f) -> sends m k v d -> reads_back m k d w ->
  match base_span r with
  | None => w = Disabled
  | Some (base, span) => exists y, w = Decimal32 y /\
      (v = Disabled -> exactly y (IZR base)) /\
      (forall x, v = Decimal32 x -> f32_valid x = true -> finite x ->
         (-32768 <= exact_code base span (full_code f) (real x) <= 32767)%R ->
         (Rabs (real y - real x) <= 101 / 100 * (IZR span / IZR (full_code f)) + / 131072)%R)
  end.
Proof.
  intros Ha Hs Hb. destruct C17_all as (_ & C17 & _). destruct (C17 _ _ _ _ _ _ Ha Hs) as (Hu & _ & H0).
  pose proof (C16_all m k d w r f (or_intror (conj Ha Hb)) Hu) as D.
  destruct (base_span r) as [[base span]|] eqn:Er; [|exact D]. destruct D as (y & -> & D). exists y. split; [reflexivity|].
  destruct (base_span_range _ _ _ Er) as [Rb Rs]. split.
  - intros ->. rewrite H0 in D by auto. change (signed 0) with 0 in D. eapply decoded_zero; eassumption.
  - intros x -> V F Hx. pose proof (C18_all _ _ _ _ _ _ _ _ Ha Er Hs V F Hx) as C18. destruct D as (_ & _ & _ & D).
    set (code := IZR (signed d)) in *. unfold exact_value in D. fold code in D.
    assert (Ps : (0 < IZR span)%R) by (apply (IZR_lt 0); lia).
    assert (Pf : (0 < IZR (full_code f))%R) by (apply (IZR_lt 0); destruct f; reflexivity).
    unfold exact_code in C18. set (s := IZR span) in *. set (n := IZR (full_code f)) in *. set (b := IZR base) in *.
    assert (E : (b + s * code / n - real x = (code - n * (real x - b) / s) * (s / n))%R) by (field; lra).
    assert (Q : (0 < s / n)%R) by (apply Rdiv_lt_0_compat; assumption).
    assert (B : (Rabs (b + s * code / n - real x) <= 101 / 100 * (s / n))%R).
    { rewrite E, Rabs_mult, (Rabs_right (s / n)) by lra. apply Rmult_le_compat_r; lra. }
    replace (real y - real x)%R with ((real y - (b + s * code / n)) + (b + s * code / n - real x))%R by ring.
    eapply Rle_trans; [apply Rabs_triang|]. lra.
Qed.
(** an unchanged channel of format S5 *)
Lemma shown_again m k r f d0 v d w : analog_output m k = Some (r, f) -> f = S5 \/ r = UI_Disabled -> is_u16 d0 ->
  reads_back m k d0 v -> sends m k v d -> reads_back m k d w -> w = v.
Proof.
  intros Ha Hx Hu R0 S R. pose proof (read_back_analog _ _ _ _ _ _ Ha R0) as E0. pose proof (read_back_analog _ _ _ _ _ _ Ha R) as E.
  rewrite decode_is in E0, E. destruct (base_span r) as [[b n]|] eqn:Er; [|congruence].
  destruct Hx as [->| ->]; [|discriminate]. cbn [analog_value] in E0, E. subst v w. f_equal.
  pose proof (sent_code _ _ _ _ _ _ Ha S) as X. rewrite Er in X. destruct X as [Hu' X].
  destruct (base_span_range _ _ _ Er) as [Rb Rs].
  change (signed d = trip b n S5 (u16_as_i16 d0)) in X.
  assert (U : u16_as_i16 d0 = signed d0 /\ u16_as_i16 d = signed d) by (split; reflexivity). destruct U as [U0 U]. rewrite U0, U in *.
  rewrite trip_S5 in X; [rewrite X; reflexivity|exact Rb|exact Rs|].
  unfold signed, is_u16 in *. destruct (Z.ltb_spec d0 32768); lia.
Qed.

(** ** Two cycles *)
Lemma shown_row prof m new d words row : complete m -> output_bytes m <> 0%nat -> is_serial m = false -> Forall wire_value new ->
  mod_process_output_values prof m new = Ok d -> words_of_bytes words (firstn (output_bytes m) (bytes_of_words d)) ->
  mod_process_output_data m words = Ok row -> 
  forall k v w, nth_error new k = Some v -> nth_error row k = Some w ->
    shown_for m k v w /\
    forall raw old, Forall is_u16 raw -> mod_process_output_data m raw = Ok old -> nth_error old k = Some v ->
      exact_channel m k -> w = v.
Proof.
  intros Hc Hz Hs Hw He Hwo Hd k v w Hk Hk'. destruct (encoded_words _ _ _ _ Hw He) as (Ld & Hu).
  pose proof (words_decoded m d words Ld Hu Hz Hwo) as Hwd.
  destruct (module_kinds m Hc Hz) as [(n & Hdig & Hle & _)|[(Ha & H4 & _)|[(ch & -> & Hch)|(l & ch & ->)]]]; [| | |discriminate].
  - destruct (shown_digital _ _ _ _ _ _ _ Hdig Hle He Hwd Hd k v Hk) as (b & Eb & Ew). rewrite Hk' in Ew. apply Some_inj in Ew. subst w.
    split.
    + split; [eauto|]. split; [intros ch ->; discriminate|]. intros r f A. destruct m; discriminate.
    + intros raw old Hur Ho Hv _. destruct (do_decoder m n Hdig) as (D0 & D).
      destruct (Nat.eq_dec (length raw) 1) as [L|L]; [|rewrite D0 in Ho by exact L; discriminate].
      destruct (one_word raw L) as (x & ->). rewrite D in Ho. apply Ok_inj in Ho. subst old.
      rewrite nth_error_map, nth_error_seq in Hv. destruct (Nat.ltb k n); [|discriminate]. apply Some_inj in Hv. subst v.
      apply Some_inj in Eb. rewrite Eb. reflexivity.
  - assert (words = d) as ->.
    { destruct Hwd as [E|(E & _)]; [exact E|]. pose proof (output_one_word m E). lia. }
    assert (Ka : exists r f, analog_output m k = Some (r, f)).
    { pose proof (outputs_4 m Ha) as C4. pose proof (output_length m d row Hd) as Lr. pose proof (nth_error_Some_lt _ _ _ Hk').
      destruct (analog_output m k) as [[r f]|] eqn:E; [eauto|]. exfalso. apply (Ha k); [lia|exact E]. }
    destruct Ka as (r & f & Er).
    destruct (nth_error_lt_Some d k) as (x & Hx).
    { pose proof (outputs_4 m Ha) as C4. pose proof (output_length m d row Hd) as Lr. pose proof (nth_error_Some_lt _ _ _ Hk'). lia. }
    assert (S : sends m k v x) by (exists prof, new, d; auto). assert (R : reads_back m k x w) by (exists d, row; auto).
    split.
    + split; [intros X; exfalso; apply X; destruct m; try discriminate; reflexivity|]. split; [intros ch ->; discriminate|].
      intros r' f' E. exact (shown_analog_value _ _ _ _ _ _ _ E S R).
    + intros raw old Hur Ho Hv Hx'.
      destruct (nth_error_lt_Some raw k) as (x0 & Hx0).
      { pose proof (output_length m raw old Ho) as Lr. pose proof (outputs_4 m Ha) as C4. pose proof (nth_error_Some_lt _ _ _ Hv).
        assert (length raw = 4%nat).
        { assert (Y : analog_output m 0 <> None) by (apply Ha; lia). clear - Ho Y.
          destruct m; try (exfalso; apply Y; reflexivity); cbn [mod_process_output_data] in Ho;
            [unfold ao_process_output_data in Ho|unfold ao_diag_process_output_data in Ho]; split_if Ho; lia. }
        lia. }
      assert (R0 : reads_back m k x0 v) by (exists raw, old; auto).
      refine (shown_again m k r f x0 v x w Er (Hx' r f Er) _ R0 S R).
      rewrite Forall_forall in Hur. apply Hur. eapply nth_error_In. exact Hx0.
  - assert (words = d) as ->.
    { destruct Hwd as [E|(E & _)]; [exact E|]. discriminate. }
    destruct (shown_counter _ _ _ _ _ Hch Hw He Hd k v Hk) as (p & Ep & Ew). rewrite Hk' in Ew. apply Some_inj in Ew. subst w.
    split.
    + split; [intros X; exfalso; apply X; reflexivity|]. split; [eauto|]. intros r f A. discriminate.
    + intros raw old Hur Ho Hv _.
      assert (Lr : length raw = 6%nat).
      { cbn [mod_process_output_data] in Ho. unfold fcnt_process_output_data in Ho. split_if Ho. lia. }
      destruct (six raw Lr) as (r0 & r1 & r2 & r3 & r4 & r5 & ->).
      inversion Hur as [|? ? U0 Hu1]; subst. inversion Hu1 as [|? ? U1 Hu2]; subst.
      inversion Hu2 as [|? ? U2 Hu3]; subst. inversion Hu3 as [|? ? U3 _]; subst.
      cbn [mod_process_output_data] in Ho. unfold fcnt_process_output_data in Ho.
      cbn [length Nat.eqb negb traverse seq Nat.mul Nat.add index nth_error bind] in Ho.
      rewrite !u32_of_words_spec in Ho by assumption. apply Ok_inj in Ho. subst old.
      assert (T : forall x, 0 <= x < 4294967296 -> truncated_to_micros (duration_from_nanos (x * 1000)) = duration_from_nanos (x * 1000)).
      { intros x H. unfold truncated_to_micros, duration_from_nanos. cbn [d_secs d_nanos]. f_equal. lia. }
      destruct k as [|[|k]]; cbn [nth_error] in Hv; [apply Some_inj in Hv; subst v..|destruct k; discriminate];
        cbn [preset] in Ep; apply Some_inj in Ep; subst p; cbn [fo_duration fo_command]; rewrite T;
        try reflexivity; unfold word32, is_u16 in *; lia.
Qed.

Lemma C63_all : forall prof c input output c1 image input' c2 r ins outs, reachable prof c ->
  cycle prof c input output c1 (Ok image) -> cycle prof c1 input' image c2 r ->
  process_input_data prof (infos c1) input' = Ok ins -> process_output_data prof (infos c1) image = Ok outs ->
  forall i m o off, module_at c i m o -> is_serial m = false -> mo_output o = Some off ->
  (off mod 16 = 0 \/ output_bytes m = 1%nat) ->
  (forall j m' o' off', (i < j)%nat -> module_at c j m' o' -> mo_output o' = Some off' ->
     ~ (first_byte 0x0800 off <= first_byte 0x0800 off' < first_byte 0x0800 off + output_bytes m)%nat) ->
  forall k, (k < channels m)%nat -> exists old w,
    cell (outputs c1) i k = Some old /\ cell (outputs c2) i k = Some w /\
    shown_for m k (match requested c (mk_address i k) with Some v => v | None => old end) w /\
    (requested c (mk_address i k) = None -> exact_channel m k -> w = old).
Proof.
  intros prof c input output c1 image input' c2 r ins outs Hr H1 H2 Ei Eo i m o off Hat Hs Hoff Hal Hlater k Hk.
  pose proof (reachable_ok _ _ Hr) as Hok.
  destruct (cycle_static _ _ _ _ _ _ H1) as [M1 M2].
  assert (Hr1 : reachable prof c1) by (apply (cycle_reachable _ c input output _ (Ok image) Hr H1); discriminate).
  assert (EI : infos c1 = infos c) by (unfold infos; rewrite M1, M2; reflexivity). rewrite EI in Ei, Eo.
  assert (Hui : Forall is_u16 output) by apply H1. assert (Hum : Forall is_u16 image) by apply H2.
  pose proof (proj1 (C59_all _ _ _ _ _ _ Hr H1) (ex_intro _ image eq_refl)) as (_ & Ro & _).
  destruct (Ro i m o off Hat Hoff) as ((Hz & _ & Hbase & _) & _).
  assert (Hinf : nth_error (infos c) i = Some (m, o)) by (apply infos_at; exact Hat).
  assert (Hu : is_u16 off) by (exact (infos_off c Hok i m o off Hinf Hoff)).
  destruct (ok_cycle _ _ _ _ _ _ Hok H1) as (ins0 & outs0 & sent & E1 & E2 & E3 & E4 & E4' & _ & _ & E5).
  pose proof (sent_wire _ _ _ _ _ _ _ _ Hok Hui E4 E5) as Hw.
  destruct (C42_enc_wire prof (infos c) sent image i m o off (infos_off c Hok) Hw E3 Hinf Hoff Hal) as (new & d & Hnew & He & Himg).
  { intros j m' o' off' Hj Hj'. apply (Hlater j m' o' off' Hj). apply infos_at. exact Hj'. }
  destruct (C42_out_all prof (infos c) image outs i m o off Hum Hu ltac:(lia) Eo Hinf Hoff Hal) as (_ & words & row & Hwo & Hrow & Hd).
  rewrite Himg in Hwo.
  destruct (C54_all _ _ _ _ _ _ Hr H1 ins0 outs0 E1 E2) as (_ & _ & S1). destruct (S1 i m o Hat) as (iv1 & ov1 & _ & Hov1 & P1 & _).
  destruct (P1 Hs) as [_ Q1].
  destruct (C54_all _ _ _ _ _ _ Hr1 H2 ins outs ltac:(rewrite EI; exact Ei) ltac:(rewrite EI; exact Eo)) as (_ & _ & S2).
  destruct (S2 i m o ltac:(unfold module_at in *; rewrite M1, M2; exact Hat)) as (iv2 & ov2 & _ & Hov2 & P2 & _).
  destruct (P2 Hs) as [_ Q2]. rewrite Hrow in Hov2. apply Some_inj in Hov2. subst ov2.
  destruct (E5 i m o Hat) as (iv & ov & Hiv & Hov & Hri & Hro & Hc). rewrite Hov1 in Hov. apply Some_inj in Hov. subst ov1.
  destruct Hc as [row' T1 T2 T3 T4 T5 T6|l ch rin rout p0 p' rs last -> _ _ _ _ _ _ _|l ch -> _]; try discriminate.
  rewrite T2 in Hnew. apply Some_inj in Hnew. subst row'.
  pose proof (out_row_length _ _ _ _ Hro) as Lov. cbn [fst] in Lov.
  destruct (nth_error_lt_Some ov k) as (old & Hold); [lia|].
  pose proof (output_length _ _ _ Hd) as Lrow. destruct (nth_error_lt_Some row k) as (w & Hwk); [lia|].
  exists old, w. unfold cell. rewrite Q1, Q2. split; [exact Hold|]. split; [exact Hwk|].
  assert (Hwn : Forall wire_value new) by (rewrite Forall_forall in Hw; apply Hw; eapply nth_error_In; exact T2).
  assert (Hcm : complete m) by (apply (complete_at c i); [exact Hok|apply Hat]).
  assert (Hv : nth_error new k = Some (match requested c (mk_address i k) with Some v => v | None => old end)).
  { rewrite T4. destruct (requested c (mk_address i k)); [reflexivity|exact Hold]. }
  destruct (shown_row prof m new d words row Hcm Hz Hs Hwn He Hwo Hd k _ w Hv Hwk) as [A B].
  split; [exact A|]. intros En Hx. rewrite En in B.
  destruct (C42_out_all prof (infos c) output outs0 i m o off Hui Hu ltac:(lia) E2 Hinf Hoff Hal) as (_ & raw & ov' & [Hraw _] & Hov' & Hd').
  rewrite Hov1 in Hov'. apply Some_inj in Hov'. subst ov'. exact (B raw ov Hraw Hd' Hold Hx).
Qed.
