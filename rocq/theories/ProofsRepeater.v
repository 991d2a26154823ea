(** Proofs about signals that are passed along a row of racks (C119). *)
From Coq Require Import ZArith Reals Lra List Bool Lia Psatz SpecFloat ZifyBool ZifyNat.
From Flocq Require Import Core BinarySingleNaN.
From Verif Require Import Base F32 Types Lib Util Digital Analog Fcnt Com Fbc Facts SpecCodec SpecSerial SpecCoupler SpecAnalog SpecImage SpecKeep SpecLossless SpecMirror SpecRepeater
  ProofsFloat ProofsAnalog ProofsReadback ProofsCreepOffset ProofsLossless ProofsMirror ProofsDrift ProofsWitness.
Import ListNotations.
Local Open Scope Z_scope.

(** ** Codes of one format sent with another one *)
Definition convert (b n : Z) (f g : data_format) (c : Z) : Z := encoded b n g (decode b n f c).

Lemma part_full f : full_code f = 1024 * part f. Proof. destruct f; reflexivity. Qed.
Lemma part_range f : 16 <= part f <= 27. Proof. destruct f; vm_compute; split; discriminate. Qed.

Lemma decode_exactly b n f c : 0 <= b <= 4 -> 4 <= n <= 20 -> -32768 <= c <= 32767 ->
  exactly (decode b n f c) (if b =? 0 then rnd (IZR n * IZR c / IZR (full_code f)) else rnd (rnd (IZR n * IZR c / IZR (full_code f)) + IZR b)).
Proof.
  intros Hb Hn Hc. unfold decode. destruct (b =? 0) eqn:E.
  - apply decode_zero; lia.
  - apply decode_offset; lia.
Qed.
Lemma decode_mono b n f c c' : 0 <= b <= 4 -> 4 <= n <= 20 -> -32768 <= c -> c <= c' -> c' <= 32767 ->
  at_most (decode b n f c) (decode b n f c').
Proof.
  intros Hb Hn H1 H2 H3. assert (E : (IZR n * IZR c / IZR (full_code f) <= IZR n * IZR c' / IZR (full_code f))%R).
  { unfold Rdiv. apply Rmult_le_compat_r; [left; apply Rinv_0_lt_compat, full_pos|]. apply Rmult_le_compat_l; [apply IZR_le; lia|apply IZR_le; lia]. }
  eapply at_most_exact; [apply decode_exactly; lia|apply decode_exactly; lia|].
  destruct (b =? 0); [apply rnd_le; exact E|]. apply rnd_le, Rplus_le_compat_r, rnd_le. exact E.
Qed.
Lemma convert_mono b n f g c c' : 0 <= b <= 4 -> 4 <= n <= 20 -> -32768 <= c -> c <= c' -> c' <= 32767 ->
  convert b n f g c <= convert b n f g c'.
Proof.
  intros Hb Hn H1 H2 H3. apply encoded_mono; [assumption|assumption| | |apply decode_mono; assumption].
  - apply (decode_exactly b n f c); lia.
  - apply (decode_exactly b n f c'); lia.
Qed.

(** Whole parts are kept. *)
Lemma convert_part b n f g j : 0 <= b <= 4 -> 4 <= n <= 20 -> -1213 <= j <= 1213 -> convert b n f g (j * part f) = j * part g.
Proof.
  intros Hb Hn Hj. pose proof (part_range f) as Pf. pose proof (part_range g) as Pg.
  assert (Hc : -32768 <= j * part f <= 32767) by nia. assert (Hc' : -32768 <= j * part g <= 32767) by nia.
  set (z := n * j). assert (Hz : Z.abs z <= 2 ^ 20) by (subst z; nia).
  assert (Bk : bpow radix2 (- 10) = (/ 1024)%R) by reflexivity.
  assert (Pn : (0 < IZR n)%R) by (apply IZR_lt; lia).
  assert (Q : (IZR n * IZR (j * part f) / IZR (full_code f) = IZR z * bpow radix2 (- 10))%R).
  { rewrite Bk, part_full. subst z. rewrite !mult_IZR. assert (16 <= IZR (part f))%R by (apply IZR_le; lia). field. lra. }
  assert (D : exactly (f32_div (f32_mul (f32_of_Z (j * part f)) (f32_of_Z n)) (factor f)) (IZR z * bpow radix2 (- 10))).
  { rewrite <- (rnd_scaled z (- 10)) by lia. rewrite <- Q. apply decode_zero; lia. }
  assert (En : exactly (f32_of_Z n) (IZR n)) by (apply of_Z_exact; lia).
  assert (Eb : exactly (f32_of_Z b) (IZR b)) by (apply of_Z_exact; lia).
  assert (Fx := factor_exact g).
  assert (M : forall q, exactly q (IZR z * bpow radix2 (- 10)) ->
              f32_as_i16 (f32_div (f32_mul (factor g) q) (f32_of_Z n)) = j * part g).
  { intros q Hq. assert (V1 : (IZR (full_code g) * (IZR z * bpow radix2 (- 10)) = IZR (n * (j * part g)))%R).
    { rewrite Bk, part_full. subst z. rewrite !mult_IZR. field. }
    assert (M1 : exactly (f32_mul (factor g) q) (IZR (n * (j * part g)))).
    { rewrite <- (rnd_Z (n * (j * part g))) by nia. rewrite <- V1. apply no_overflow; [apply rounds_mul; assumption|]. rewrite V1.
      apply Rle_trans with (IZR (2 ^ 24)); [apply abs_Z_le; nia|apply (pow_le_127 _ 24); lia]. }
    assert (M2 : exactly (f32_div (f32_mul (factor g) q) (f32_of_Z n)) (IZR (j * part g))).
    { rewrite <- (rnd_Z (j * part g)) by lia. assert (V2 : (IZR (j * part g) = IZR (n * (j * part g)) / IZR n)%R) by (rewrite (mult_IZR n); field; lra).
      rewrite V2. apply no_overflow; [apply rounds_div; assumption|]. rewrite <- V2.
      apply Rle_trans with (IZR (2 ^ 24)); [apply abs_Z_le; lia|apply (pow_le_127 _ 24); lia]. }
    rewrite (as_i16_exact _ _ M2), Ztrunc_IZR. unfold clamp_i16. lia. }
  unfold convert, encoded, decode. destruct (Z.eqb_spec b 0) as [->|Nb]; [apply M; exact D|]. apply M.
  assert (Vb : (IZR z * bpow radix2 (- 10) + IZR b = IZR (z + b * 1024) * bpow radix2 (- 10))%R).
  { rewrite plus_IZR, mult_IZR, Bk. field. }
  assert (Sm : Z.abs (z + b * 1024) <= 2 ^ 24) by nia.
  assert (L : forall y, Z.abs y <= 2 ^ 24 -> (Rabs (IZR y * bpow radix2 (- 10)) <= bpow radix2 127)%R).
  { intros y Hy. apply Rle_trans with (IZR (2 ^ 24)); [|apply (pow_le_127 _ 24); lia].
    apply abs_Z_le in Hy. rewrite Bk, Rabs_mult, (Rabs_pos_eq (/ 1024)) by lra. pose proof (Rabs_pos (IZR y)). lra. }
  assert (A : exactly (f32_add (f32_div (f32_mul (f32_of_Z (j * part f)) (f32_of_Z n)) (factor f)) (f32_of_Z b))
                (IZR (z + b * 1024) * bpow radix2 (- 10))).
  { rewrite <- (rnd_scaled (z + b * 1024) (- 10)) by lia. rewrite <- Vb. apply no_overflow; [apply rounds_add; assumption|].
    rewrite Vb. apply L. exact Sm. }
  assert (Vs : (IZR (z + b * 1024) * bpow radix2 (- 10) - IZR b = IZR z * bpow radix2 (- 10))%R) by (rewrite <- Vb; ring).
  rewrite <- (rnd_scaled z (- 10)) by lia. rewrite <- Vs. apply no_overflow; [apply rounds_sub; assumption|].
  rewrite Vs. apply L. lia.
Qed.

(** ** One program *)
Lemma copied_code m k regs m' k' regs' r f g : copies m k regs m' k' regs' -> analog_input m k = Some (r, f) -> analog_output m' k' = Some (r, g) ->
  match base_span r with
  | Some (b, n) => is_u16 (reg regs' k') /\ signed (reg regs' k') = convert b n f g (signed (reg regs k))
  | None => reg regs' k' = 0
  end.
Proof.
  intros (prof & c & input & output & d & image & i & o & off & v & prof' & c' & input' & output' & d' & image' & i' & o' & off' &
    Hr & H & Hat & Eo & P & Hv & Hr' & H' & Hal & Hk' & Hq & -> & ->) Hi Ho.
  destruct (input_shows _ _ _ _ _ _ _ _ _ _ _ _ _ _ Hr H Hat Eo P Hv Hi) as [U S].
  pose proof (output_sends _ _ _ _ _ _ _ _ _ _ _ _ _ _ Hr' H' Hal Hk' Hq Ho) as T.
  pose proof (shown_analog _ _ _ _ _ _ Hi S) as E. rewrite decode_is in E.
  destruct (base_span r) as [[b n]|] eqn:Er.
  - cbn [analog_value] in E. subst v. pose proof (sent_code _ _ _ _ _ _ Ho T) as X. rewrite Er in X. exact X.
  - cbn [analog_value] in E. subst v. pose proof (sent_analog _ _ _ _ _ _ Ho T) as X. cbn [value_to_u16] in X. apply Ok_inj in X. congruence.
Qed.
Lemma copied_bit m k regs m' k' regs' : copies m k regs m' k' regs' -> has_digital_inputs m -> has_digital_outputs m' ->
  bit (reg regs' 0) k' = bit (reg regs 0) k.
Proof.
  intros (prof & c & input & output & d & image & i & o & off & v & prof' & c' & input' & output' & d' & image' & i' & o' & off' &
    Hr & H & Hat & Eo & P & Hv & Hr' & H' & Hal & Hk' & Hq & -> & ->) Hi Ho.
  pose proof (C87_all _ _ _ _ _ _ _ _ _ _ _ _ _ _ _ _ _ _ _ _ _ _ _ Hr H Hat Eo P Hv Hr' H' Hal Hk' Hq) as M.
  destruct m; try contradiction. destruct m'; try contradiction; exact M.
Qed.

(** ** A row of programs *)
Lemma C119_bits_all n b b' : bit_passed n b b' -> b' = b.
Proof. intros H. induction H as [|n b b1 m k regs m' k' regs' H IH Hi Ho E C]; [reflexivity|]. rewrite (copied_bit _ _ _ _ _ _ C Hi Ho). congruence. Qed.

Lemma passed_disabled f w formats g w' : code_passed UI_Disabled f w formats g w' -> formats <> [] -> w' = 0.
Proof.
  intros H Hf. destruct H as [|formats g w1 h m k regs m' k' regs' H Hi Ho E C]; [contradiction|]. exact (copied_code _ _ _ _ _ _ _ _ _ C Hi Ho).
Qed.
Lemma passed_parts r b n f w formats g w' : base_span r = Some (b, n) -> is_u16 w -> code_passed r f w formats g w' ->
  is_u16 w' /\ forall j, -1213 <= j <= 1213 -> (j * part f <= signed w -> j * part g <= signed w') /\ (signed w <= j * part f -> signed w' <= j * part g).
Proof.
  intros Er U H. destruct (base_span_range _ _ _ Er) as [Hb Hn]. induction H as [|formats g w1 h m k regs m' k' regs' H IH Hi Ho E C].
  - split; [exact U|]. intros j _. auto.
  - destruct IH as [U1 IH]. pose proof (copied_code _ _ _ _ _ _ _ _ _ C Hi Ho) as X. rewrite Er in X. destruct X as [U' X]. split; [exact U'|].
    intros j Hj. specialize (IH j Hj). rewrite X, E. pose proof (signed_range _ U1) as R. change (u16_as_i16 w1) with (signed w1) in R.
    pose proof (part_range g) as Pg.
    rewrite <- (convert_part b n g h j Hb Hn Hj). split; intros L.
    + apply convert_mono; [assumption|assumption|nia|apply IH; exact L|lia].
    + apply convert_mono; [assumption|assumption|lia|apply IH; exact L|nia].
Qed.
Lemma passed_same r b n f w formats g w' : base_span r = Some (b, n) -> is_u16 w -> code_passed r f w formats g w' ->
  Forall (eq f) formats -> g = f /\ is_u16 w' /\ signed w' = repeated (length formats) (trip b n f) (signed w).
Proof.
  intros Er U H. induction H as [|formats g w1 h m k regs m' k' regs' H IH Hi Ho E C]; intros F.
  - auto.
  - apply Forall_app in F as [F1 F2]. inversion F2 as [|? ? Fh _]; subst h. destruct (IH F1) as (-> & U1 & X1). split; [reflexivity|].
    pose proof (copied_code _ _ _ _ _ _ _ _ _ C Hi Ho) as X. rewrite Er in X. destruct X as [U' X]. split; [exact U'|].
    rewrite X, E, X1, app_length, Nat.add_1_r. reflexivity.
Qed.

Lemma C119_codes_all r f w formats g w' : is_u16 w -> r <> UI_Disabled -> code_passed r f w formats g w' ->
  is_u16 w' /\
  (forall j, -1213 <= j <= 1213 -> (j * part f <= signed w -> j * part g <= signed w') /\ (signed w <= j * part f -> signed w' <= j * part g)) /\
  (f = S5 -> Forall (eq S5) formats -> w' = w) /\
  (f = S7 -> Forall (eq S7) formats -> towards_zero (signed w) (signed w') /\ Z.abs (signed w' - signed w) <= 5).
Proof.
  intros U Hr H. destruct (base_span r) as [[b n]|] eqn:Er; [|destruct r; try discriminate Er; contradiction].
  destruct (base_span_range _ _ _ Er) as [Hb Hn]. destruct (passed_parts _ _ _ _ _ _ _ _ Er U H) as [U' P]. split; [exact U'|]. split; [exact P|].
  pose proof (signed_range _ U) as R. change (u16_as_i16 w) with (signed w) in R. split.
  - intros -> F. destruct (passed_same _ _ _ _ _ _ _ _ Er U H F) as (_ & _ & E). apply signed_inj; [assumption..|]. rewrite E.
    generalize (length formats) as i. induction i as [|i IH]; [reflexivity|]. cbn [repeated]. rewrite IH. apply trip_S5; assumption.
  - intros -> F. destruct (passed_same _ _ _ _ _ _ _ _ Er U H F) as (_ & _ & E). rewrite E. split.
    + apply iter_between; [|intros j Hj; apply trip_27; assumption|exact R]. intros c Hc. apply (trip_step r); assumption.
    + apply (repeated_five r b n (signed w) (length formats) Er R).
Qed.

Lemma C119_value_all r base span f w formats g w' : is_u16 w -> base_span r = Some (base, span) -> code_passed r f w formats g w' ->
  Z.abs (signed w) <= 1213 * part f ->
  (Rabs (exact_value base span (full_code g) (signed w') - exact_value base span (full_code f) (signed w)) <= IZR span / 1024)%R.
Proof.
  intros U Er H L. destruct (passed_parts _ _ _ _ _ _ _ _ Er U H) as [U' P]. destruct (base_span_range _ _ _ Er) as [Hb Hn].
  pose proof (part_range f) as Pf. pose proof (part_range g) as Pg.
  set (j := signed w / part f). assert (J1 : j * part f <= signed w < (j + 1) * part f).
  { subst j. pose proof (Z.div_mod (signed w) (part f)). pose proof (Z.mod_pos_bound (signed w) (part f)). nia. }
  assert (J : exists a, -1213 <= a /\ a + 1 <= 1213 /\ a * part f <= signed w <= (a + 1) * part f).
  { destruct (Z.eq_dec j 1213) as [E|E]; [exists 1212|exists j]; rewrite ?E in *; nia. }
  destruct J as (a & A1 & A2 & A3). destruct (P a) as [Q1 _]; [lia|]. destruct (P (a + 1)) as [_ Q2]; [lia|].
  specialize (Q1 (proj1 A3)). specialize (Q2 (proj2 A3)).
  assert (S : forall h c, a * part h <= c <= (a + 1) * part h -> (IZR span * IZR a / 1024 <= IZR span * IZR c / IZR (full_code h) <= IZR span * IZR (a + 1) / 1024)%R).
  { intros h c [C1 C2]. rewrite part_full, mult_IZR. pose proof (part_range h) as Ph. apply IZR_le in C1, C2. rewrite mult_IZR in C1, C2.
    assert (16 <= IZR (part h))%R by (apply IZR_le; lia). assert (4 <= IZR span)%R by (apply IZR_le; lia).
    assert (X : (0 < / IZR (part h))%R) by (apply Rinv_0_lt_compat; lra).
    assert (Y1 : (IZR a <= IZR c * / IZR (part h))%R) by (apply Rmult_le_reg_r with (IZR (part h)); [lra|]; rewrite Rmult_assoc, Rinv_l by lra; lra).
    assert (Y2 : (IZR c * / IZR (part h) <= IZR (a + 1))%R) by (apply Rmult_le_reg_r with (IZR (part h)); [lra|]; rewrite Rmult_assoc, Rinv_l by lra; lra).
    replace (IZR span * IZR c / (1024 * IZR (part h)))%R with (IZR span * (IZR c * / IZR (part h)) / 1024)%R by (field; lra). split; nra. }
  pose proof (S g (signed w') (conj Q1 Q2)) as G1. pose proof (S f (signed w) A3) as G2. unfold exact_value. rewrite plus_IZR in G1, G2.
  apply Rabs_le. lra.
Qed.

(** ** Concrete cases *)
Definition passing_config : config :=
  mk_config [UR20_4DI_P; UR20_4AI_UI_16; UR20_4DO_P; UR20_4AO_UI_16]
    [0xFFFF; 0; 0xFFFF; 0x10; 0x8000; 0xFFFF; 0x8010; 0xFFFF]
    [repeat 0 4; [0; 0; 0; 1; 0; 0; 0; 0; 0]; repeat 0 4; [0; 0; 0; 1; 0; 0; 0; 0; 0; 0; 0; 0]].
Definition passing_new : coupler := after no_coupler (coupler_new passing_config).
Definition passing_module (i : nat) : module := nth i (c_modules passing_new) MSIL.
Definition passing_offsets : list module_offset :=
  [mk_offset (Some 0) None; mk_offset (Some 0x10) None; mk_offset None (Some 0x8000); mk_offset None (Some 0x8010)].
Definition passing_read (input : list Z) : coupler := fst (next Debug as_is as_is passing_new input (repeat 0 5)).
Definition passing_set (input : list Z) (i k i' k' : nat) : coupler :=
  fst (set_output (passing_read input) (mk_address i' k') (match cell (inputs (passing_read input)) i k with Some v => v | None => VNone end)).
Definition passing_places : list (nat * Z * nat * Z) := [(0%nat, 0, 2%nat, 0x8000); (1%nat, 0x10, 3%nat, 0x8010)].

Lemma passing_copies input i off k v i' off' k' d' image : In (i, off, i', off') passing_places -> (k' < 4)%nat -> forallb fits input = true ->
  snd (next Debug as_is as_is passing_new input (repeat 0 5)) = Ok (repeat 0 5) -> cell (inputs (passing_read input)) i k = Some v -> rust_value v ->
  requested (passing_set input i k i' k') (mk_address i' k') = Some v ->
  c_modules (passing_set input i k i' k') = c_modules passing_new -> c_offsets (passing_set input i k i' k') = passing_offsets ->
  next Debug as_is as_is (passing_set input i k i' k') (repeat 0 5) (repeat 0 5) = (d', Ok image) ->
  copies (passing_module i) k (registers_at 0 input off) (passing_module i') k' (registers_at 0x0800 image off').
Proof.
  intros Hp Hk Hi H1 Hv Rv Hq Em Eo H2.
  assert (R0 : reachable Debug passing_new) by (apply (start_reachable _ passing_config); vm_compute; reflexivity).
  assert (C1 : cycle Debug passing_new input (repeat 0 5) (passing_read input) (Ok (repeat 0 5))).
  { apply step_cycle; [exact Hi|reflexivity|]. rewrite <- H1. unfold passing_read. apply surjective_pairing. }
  assert (R1 : reachable Debug (passing_read input)) by exact (ok_reachable _ _ _ _ _ _ R0 C1).
  assert (R2 : reachable Debug (passing_set input i k i' k')) by (unfold passing_set; apply R_set; [exact R1|rewrite Hv; exact Rv]).
  assert (C2 : cycle Debug (passing_set input i k i' k') (repeat 0 5) (repeat 0 5) d' (Ok image)) by (apply step_cycle; [reflexivity|reflexivity|exact H2]).
  exists Debug, passing_new, input, (repeat 0 5), (passing_read input), (repeat 0 5), i, (mk_offset (Some off) None), off, v.
  exists Debug, (passing_set input i k i' k'), (repeat 0 5), (repeat 0 5), d', image, i', (mk_offset None (Some off')), off'.
  split; [exact R0|]. split; [exact C1|].
  assert (A : module_at passing_new i (passing_module i) (mk_offset (Some off) None) /\ SpecLossless.placed off (input_bytes (passing_module i)) /\
    alone (passing_set input i k i' k') i' (passing_module i') (mk_offset None (Some off')) off' /\ (k' < channels (passing_module i'))%nat).
  { destruct Hp as [E|[E|[]]]; apply pair_inj in E as [E <-]; apply pair_inj in E as [E <-]; apply pair_inj in E as [<- <-].
    - split; [split; vm_compute; reflexivity|]. split; [left; reflexivity|]. split; [|exact Hk].
      split; [split; [rewrite Em; vm_compute; reflexivity|rewrite Eo; reflexivity]|]. split; [reflexivity|]. split; [reflexivity|]. split; [left; reflexivity|].
      intros j m1 o1 off1 Hj [_ Ho] E. rewrite Eo in Ho. destruct j as [|[|[|[|j]]]]; try lia; cbn [nth_error passing_offsets] in Ho; [|destruct j; discriminate Ho].
      injection Ho as <-. injection E as <-.
      change (first_byte 0x0800 0x8010) with 2%nat. change (first_byte 0x0800 0x8000) with 0%nat. change (output_bytes (passing_module 2)) with 1%nat. lia.
    - split; [split; vm_compute; reflexivity|]. split; [left; reflexivity|]. split; [|exact Hk].
      split; [split; [rewrite Em; vm_compute; reflexivity|rewrite Eo; reflexivity]|]. split; [reflexivity|]. split; [reflexivity|]. split; [left; reflexivity|].
      intros j m1 o1 off1 Hj [_ Ho] E. rewrite Eo in Ho. destruct j as [|[|[|[|j]]]]; try lia; cbn [nth_error passing_offsets] in Ho. destruct j; discriminate Ho. }
  destruct A as (A1 & A2 & A3 & A4). split; [exact A1|]. split; [reflexivity|]. split; [exact A2|]. split; [exact Hv|]. split; [exact R2|]. split; [exact C2|].
  split; [exact A3|]. split; [exact A4|]. split; [exact Hq|]. split; reflexivity.
Qed.
Ltac passes := eapply passing_copies; [vm_compute; tauto|lia|vm_compute; reflexivity|vm_compute; reflexivity|vm_compute; reflexivity|vm_compute; first [exact I|reflexivity]
  |vm_compute; reflexivity|vm_compute; reflexivity|vm_compute; reflexivity|vm_compute; reflexivity].
(** The bit of input 2 is copied to output 3. *)
Lemma bit_copied : copies (passing_module 0) 2 (registers_at 0 [4; 0; 0; 0; 0] 0) (passing_module 2) 3 (registers_at 0x0800 [8; 0; 0; 0; 0] 0x8000).
Proof. passes. Qed.
(** The code 45 of format S7 is sent as 26 with format S5; 26 of format S5 as 43 with format S7. *)
Lemma code_down : copies (passing_module 1) 1 (registers_at 0 [0; 0; 45; 0; 0] 0x10) (passing_module 3) 2 (registers_at 0x0800 [0; 0; 0; 26; 0] 0x8010).
Proof. passes. Qed.
Lemma code_up : copies (passing_module 1) 0 (registers_at 0 [0; 26; 0; 0; 0] 0x10) (passing_module 3) 1 (registers_at 0x0800 [0; 0; 43; 0; 0] 0x8010).
Proof. passes. Qed.
