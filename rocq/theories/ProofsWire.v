(** Proofs about what a cycle puts on the wire (C85). *)
From Coq Require Import ZArith Reals Lra List Bool Lia SpecFloat ZifyBool ZifyNat.
From Flocq Require Import Core.
From Verif Require Import Base F32 Types Lib Util Digital Analog Fcnt Com Fbc Facts SpecCodec SpecSerial SpecCoupler SpecAnalog SpecResolution SpecImage SpecKeep SpecLossless SpecTerminal SpecWire
  ProofsCodec ProofsFcnt ProofsSerialCodec ProofsAnalog ProofsModule ProofsImage ProofsLayout ProofsDigital ProofsCycle ProofsCoupler ProofsDrift ProofsSteady ProofsLossless ProofsTerminal.
Import ListNotations.
Local Open Scope Z_scope.
Ltac Zify.zify_post_hook ::= Z.div_mod_to_equations.

(** What a cycle sends for a module, and its bytes in the image. *)
Lemma sent_module prof c input output c' image i m o off : reachable prof c -> cycle prof c input output c' (Ok image) -> alone c i m o off ->
  complete m /\ 0x8000 <= off /\ (off mod 16 = 0 \/ off mod 16 = 8 /\ output_bytes m = 1%nat) /\
  exists row d, length row = channels m /\ Forall wire_value row /\
    (forall k, nth_error row k = match requested c (mk_address i k) with Some v => Some v | None => cell (outputs c') i k end) /\
    (forall k, requested c' (mk_address i k) = None) /\
    mod_process_output_values prof m row = Ok d /\ Forall is_u16 d /\ length d = output_words m /\
    image_bytes image (first_byte 0x0800 off) (output_bytes m) = firstn (output_bytes m) (bytes_of_words d).
Proof.
  intros Hr H (Hat & Eo & Hs & Hside & Hlater). pose proof (reachable_ok _ _ Hr) as Hok.
  assert (Huo : Forall is_u16 output) by apply H. assert (Hi : nth_error (infos c) i = Some (m, o)) by (apply infos_at; exact Hat).
  destruct (ok_cycle _ _ _ _ _ _ Hok H) as (ins & outs & sent & E1 & E2 & E3 & E4 & E4' & _ & _ & E7).
  pose proof (sent_wire _ _ _ _ _ _ _ _ Hok Huo E4 E7) as Hw.
  destruct (E7 i m o Hat) as (iv & ov & _ & _ & _ & Hro & Hc). apply out_row_length in Hro. cbn [fst] in Hro.
  destruct Hc as [row T1 T2 T3 T4 T5 T6 T7 T8 T9|l ch rin rout p0 p' rs last -> _ _ _ _ _ _ _|l ch -> _]; try discriminate Hs.
  destruct (C40_all prof (infos c) sent image (infos_off c Hok) E3) as (_ & datas & Ld & C40 & _).
  destruct (nth_error datas i) as [d0|] eqn:Ed. 2:{ apply nth_error_None in Ed. apply nth_error_Some_lt in Hi. lia. }
  destruct (C40 i m o d0 off Hi Ed Eo) as (_ & Hge & Hbit & _).
  split; [exact (ok_complete c i m o Hok Hi)|]. split; [exact Hge|]. split; [lia|].
  destruct (C42_enc_wire prof (infos c) sent image i m o off (infos_off c Hok) Hw E3 Hi Eo Hside) as (vs & d & Hvs & He & Himg).
  { intros j m1 o1 off1 Hj Hj1. apply (Hlater j m1 o1 off1 Hj). apply infos_at. exact Hj1. }
  rewrite T2 in Hvs. apply Some_inj in Hvs. subst vs.
  assert (Hwv : Forall wire_value row) by exact (proj1 (Forall_forall _ _) Hw _ (nth_error_In _ _ T2)).
  destruct (encoded_words _ _ _ _ Hwv He) as (Hl & Hdu).
  exists row, d. split; [congruence|]. split; [exact Hwv|]. split. { intros k. rewrite T4. unfold cell. rewrite T9. reflexivity. }
  split; [exact T5|]. split; [exact He|]. split; [exact Hdu|]. split; [exact Hl|exact Himg].
Qed.

Lemma nth_error_default (l : list Z) j : nth j l 0 = match nth_error l j with Some x => x | None => 0 end.
Proof. revert j. induction l as [|x l IH]; intros [|j]; cbn; auto. Qed.

Lemma reg_error a b j : nth_error a j = nth_error b j -> reg a j = reg b j.
Proof. intros H. unfold reg. rewrite (nth_error_default a), (nth_error_default b), H. reflexivity. Qed.

(** Registers of a module on a register boundary. *)
Lemma sent_registers image off m d : Forall is_u16 image -> Forall is_u16 d -> 0x8000 <= off -> off mod 16 = 0 ->
  output_bytes m = (2 * length d)%nat ->
  image_bytes image (first_byte 0x0800 off) (output_bytes m) = firstn (output_bytes m) (bytes_of_words d) ->
  forall j, (j < length d)%nat -> reg (registers_at 0x0800 image off) j = reg d j.
Proof.
  intros Hui Hdu Hh E0 Hb Himg j Hj.
  assert (E : firstn (length d) (skipn (Z.to_nat (off / 16 - 0x0800)) image) = d).
  { apply bytes_of_words_inj; [|exact Hdu|].
    - apply Forall_firstn_skipn. exact Hui.
    - rewrite bytes_firstn, bytes_skipn. replace (2 * Z.to_nat (off / 16 - 2048))%nat with (first_byte 0x0800 off) by (unfold first_byte; lia).
      unfold image_bytes in Himg. rewrite <- Hb, Himg. apply firstn_all2. rewrite bytes_of_words_length. lia. }
  unfold registers_at. rewrite E0. cbn [Z.eqb]. cbv zeta. transitivity (reg (firstn (length d) (skipn (Z.to_nat (off / 16 - 2048)) image)) j); [|rewrite E; reflexivity]. apply reg_error. rewrite nth_error_firstn_lt by exact Hj. reflexivity.
Qed.

Lemma register_bit image off k : 0x8000 <= off -> off mod 16 = 0 \/ off mod 16 = 8 ->
  bit (reg (registers_at 0x0800 image off) 0) k = output_bit image off k.
Proof.
  intros Hh Hb. unfold registers_at, output_bit. cbv zeta.
  assert (E : reg (skipn (Z.to_nat (off / 16 - 2048)) image) 0 = nth (Z.to_nat (off / 16 - 2048)) image 0).
  { unfold reg. rewrite !nth_error_default, nth_error_skipn, Nat.add_0_r. reflexivity. }
  destruct Hb as [Hb|Hb]; rewrite Hb; cbn [Z.eqb Pos.eqb].
  - rewrite E. f_equal.
  - unfold reg at 1. cbn [nth]. rewrite E. unfold bit. change 256 with (2 ^ 8).
    rewrite Z.div_pow2_bits by lia. f_equal. lia.
Qed.

(** C18 up to the ends of the codes. *)
Lemma code_accuracy m k r f base span x d : analog_output m k = Some (r, f) -> base_span r = Some (base, span) ->
  sends m k (Decimal32 x) d -> f32_valid x = true -> finite x ->
  (-32769 < exact_code base span (full_code f) (real x) < 32768)%R ->
  (Rabs (IZR (signed d) - exact_code base span (full_code f) (real x)) < 101 / 100)%R.
Proof.
  intros Ha Hr Hs V F H. pose proof (sent_code _ _ _ _ _ _ Ha Hs) as S. rewrite Hr in S. destruct S as [_ ->].
  destruct (base_span_range _ _ _ Hr) as [Hb Hn].
  destruct (encoded_value base span f x (real x) Hb Hn) as (w & Hw & ->); [split; [exact V|split; [exact F|reflexivity]]|apply Rabs_le; lra|].
  set (t := exact_code base span (full_code f) (real x)) in *. apply Rabs_def2 in Hw.
  assert (T : (Rabs (IZR (Ztrunc w) - w) < 1)%R).
  { destruct (Rle_or_lt 0 w) as [P|P].
    - rewrite Ztrunc_floor by exact P. pose proof (Zfloor_lb w). pose proof (Zfloor_ub w). apply Rabs_def1; lra.
    - rewrite Ztrunc_ceil by lra. pose proof (Zceil_ub w).
      assert (IZR (Zceil w) < w + 1)%R by (unfold Zceil; rewrite opp_IZR; pose proof (Zfloor_ub (- w)); lra). apply Rabs_def1; lra. }
  apply Rabs_def2 in T. unfold clamp_i16.
  destruct (Z_lt_le_dec (Ztrunc w) (-32768)) as [L|L].
  - replace (Z.max (-32768) (Z.min 32767 (Ztrunc w))) with (-32768) by lia.
    assert (IZR (Ztrunc w) <= IZR (-32769))%R by (apply IZR_le; lia). apply Rabs_def1; lra.
  - destruct (Z_lt_le_dec 32767 (Ztrunc w)) as [U|U].
    + replace (Z.max (-32768) (Z.min 32767 (Ztrunc w))) with 32767 by lia.
      assert (IZR 32768 <= IZR (Ztrunc w))%R by (apply IZR_le; lia). apply Rabs_def1; lra.
    + replace (Z.max (-32768) (Z.min 32767 (Ztrunc w))) with (Ztrunc w) by lia. apply Rabs_def1; lra.
Qed.

Lemma codes_sent m k r f v w : analog_output m k = Some (r, f) -> sends m k v w -> codes r f v w.
Proof.
  intros Ha S. destruct C17_all as (_ & C1 & C2 & _). destruct (C1 m k r f v w Ha S) as (_ & H1 & H2).
  split; [exact H1|]. split; [exact H2|]. intros base span x Hb ->.
  destruct (C2 m k r f base span x w Ha Hb S) as (I1 & I2 & I3). split; [exact I1|]. split; [exact I2|].
  intros V F. destruct (I3 V F) as [J1 J2]. cbv zeta. split; [exact J1|]. split; [exact J2|].
  exact (code_accuracy m k r f base span x w Ha Hb S V F).
Qed.

Lemma preset_carried o : valid_duration (fo_duration o) -> nanoseconds (fo_duration o) <= max_preset ->
  word32 (micros_of (fo_duration o) / 65536) (micros_of (fo_duration o) mod 65536) = nanoseconds (fo_duration o) / 1000 /\
  (bit (control_of (fo_command o)) 8 = true <-> fo_command o = Some Start) /\
  (bit (control_of (fo_command o)) 9 = true <-> fo_command o = Some Stop).
Proof.
  intros V M. split. { unfold word32, micros_of, nanoseconds. unfold valid_duration in V. lia. }
  destruct (fo_command o) as [[|]|]; split; split; intros H; try reflexivity; discriminate H.
Qed.

Lemma preset_valid v o : wire_value v -> preset v = Some o -> valid_duration (fo_duration o).
Proof.
  intros W P. destruct v; try discriminate P; cbn [preset] in P; apply Some_inj in P; subst o; [exact W|].
  unfold valid_duration, is_u64. cbn [fo_duration d_secs d_nanos]. lia.
Qed.

Lemma C85_all : forall prof c input output c' image i m o off, reachable prof c -> cycle prof c input output c' (Ok image) ->
  alone c i m o off -> forall k, (k < channels m)%nat ->
  requested c' (mk_address i k) = None /\
  exists v, match requested c (mk_address i k) with Some u => v = u | None => cell (outputs c') i k = Some v end /\
    carries m k v (registers_at 0x0800 image off).
Proof.
  intros prof c input output c' image i m o off Hr H Hal k Hk.
  pose proof (image_u16 _ _ _ _ _ _ (reachable_ok _ _ Hr) H) as Hui.
  destruct (sent_module _ _ _ _ _ _ _ _ _ _ Hr H Hal) as (Hm & Hh & Hpl & row & d & Lr & Hw & Hrow & Hreq & He & Hdu & Hl & Himg).
  split; [apply Hreq|]. destruct (nth_error_lt_Some row k) as (v & Hv); [lia|]. exists v.
  split. { rewrite Hrow in Hv. destruct (requested c (mk_address i k)); [congruence|exact Hv]. }
  pose proof Hal as (Hat & Eo & Hs & Hside & Hlater).
  assert (HR : output_bytes m = (2 * output_words m)%nat -> (0 < output_words m)%nat -> forall j, (j < output_words m)%nat -> reg (registers_at 0x0800 image off) j = reg d j).
  { intros Hb Hp j Hj. rewrite <- Hl in Hb, Hj. apply (sent_registers image off m d); try assumption. destruct Hpl as [Hpl|[_ Hpl]]; [exact Hpl|lia]. }
  assert (HX : exists u, physical_output m k (registers_at 0x0800 output off) u).
  { destruct (C83_outputs_all prof c input output c' image i m o off Hr H Hat Hs Eo Hh Hpl) as (rw & _ & Lw & HP).
    destruct (nth_error_lt_Some rw k) as (u & Hu); [lia|]. exists u. exact (HP k u Hu). }
  destruct HX as (u0 & HX).
  assert (HD : digital_outputs m = Some (channels m) -> switches v = Some (bit (reg (registers_at 0x0800 image off) 0) k)).
  { intros Hd. rewrite register_bit by (try exact Hh; lia).
    destruct (digital_not_serial m _ Hd) as (_ & _ & Hob).
    destruct (C39_partial_all prof c input output c' image Hr H i m o _ off Hat Hd Eo) with (k := k) as [C1 C2]; [lia|exact Hlater|exact Hk|].
    rewrite Hrow in Hv. destruct (requested c (mk_address i k)) as [u|]; [apply C1; congruence|].
    rewrite C2 by reflexivity. destruct (C83_outputs_all prof c input output c' image i m o off Hr H Hat Hs Eo Hh Hpl) as (rw & N1 & _ & HP).
    unfold cell in Hv. rewrite N1 in Hv. specialize (HP k v Hv).
    assert (E : v = Bit (bit (reg (registers_at 0x0800 output off) 0) k)) by (destruct m; try discriminate Hd; exact HP).
    rewrite E, register_bit by (try exact Hh; lia). reflexivity. }
  assert (HA : forall r f, output_bytes m = 8%nat -> output_words m = 4%nat -> (k < 4)%nat -> analog_output m k = Some (r, f) -> codes r f v (reg (registers_at 0x0800 image off) k)).
  { intros r f Hb Hwd Hk4 Ea. rewrite HR by lia. destruct (nth_error_lt_Some d k) as (w & Ew); [lia|]. rewrite (reg_nth _ _ _ Ew).
    apply (codes_sent m k); [exact Ea|]. exists prof, row, d. auto. }
  destruct m as [w ch|w ch| |ch|ch|ch|t ch|f ch|w f ch|f ch|t ch|ch|l ch| ]; try discriminate Hs;
    try (exfalso; exact HX); cbn [carries]; cbn [complete] in Hm.
  - apply HD. destruct w; reflexivity.
  - apply HD. reflexivity.
  - apply HD. reflexivity.
  - destruct (nth_error_lt_Some ch k) as (p & Ep); [rewrite Hm; exact Hk|]. exists (ao_range p), (ao_format p).
    assert (E : analog_output (M4AO ch) k = Some (ao_range p, ao_format p)) by (cbn [analog_output]; rewrite Ep; reflexivity). split; [exact E|]. apply HA; auto.
  - destruct (nth_error_lt_Some ch k) as (p & Ep); [rewrite Hm; exact Hk|]. exists (aod_range p), (aod_format p).
    assert (E : analog_output (M4AODIAG ch) k = Some (aod_range p, aod_format p)) by (cbn [analog_output]; rewrite Ep; reflexivity). split; [exact E|]. apply HA; auto.
  - assert (K2 : (k < 2)%nat) by exact Hk. change (channels (MFCNT ch)) with 2%nat in Lr. destruct row as [|v1 [|v2 [|]]]; try discriminate Lr.
    rewrite fcnt_values_cases in He by exact Hm. pose proof (Forall_inv Hw) as W1. pose proof (Forall_inv (Forall_inv_tail Hw)) as W2.
    rewrite encode_two in He by (intros o' ->; assumption).
    destruct (preset v1) as [a|] eqn:P1; [|discriminate He]. destruct (preset v2) as [b|] eqn:P2; [|discriminate He].
    destruct (Z.ltb_spec max_preset (nanoseconds (fo_duration a))) as [|M1]; [discriminate He|].
    destruct (Z.ltb_spec max_preset (nanoseconds (fo_duration b))) as [|M2]; [discriminate He|]. cbn [orb] in He. apply Ok_inj in He. subst d.
    change (output_words (MFCNT ch)) with 6%nat in HR.
    destruct (preset_carried a (preset_valid _ _ W1 P1) M1) as (A1 & A2). destruct (preset_carried b (preset_valid _ _ W2 P2) M2) as (B1 & B2).
    rewrite !HR by (try reflexivity; lia).
    destruct k as [|[|k]]; [| |lia]; cbn [nth_error] in Hv; apply Some_inj in Hv; subst v.
    + exists a. split; [exact P1|]. split; [exact M1|]. split; [exact A1|exact A2].
    + exists b. split; [exact P2|]. split; [exact M2|]. split; [exact B1|exact B2].
Qed.
