(** Proofs about interrupted writes of the output image (C100). *)
From Coq Require Import ZArith Reals List Bool Lia ZifyBool ZifyNat.
From Verif Require Import Base Facts F32 Types Lib Com Fbc SpecCatalogue SpecAddr SpecParams SpecCodec SpecSerial SpecCoupler SpecImage SpecAnalog SpecKeep
  SpecOutcome SpecSize SpecIdle SpecSteady SpecLossless SpecTerminal SpecWire SpecContract SpecHold SpecStartup SpecTraffic SpecTogether SpecInterrupt
  ProofsAddr ProofsNew ProofsStartup ProofsBoot ProofsModule ProofsImage ProofsCodec ProofsDigital ProofsLoop ProofsCycle ProofsCoupler ProofsWitness ProofsOutcome
  ProofsSize ProofsErrors ProofsGlitch ProofsAnalog ProofsReadback ProofsIdle ProofsDrift ProofsSteady ProofsFeedback ProofsKeep ProofsHold ProofsOffsets ProofsOrder
  ProofsTerminal ProofsWire ProofsTraffic ProofsTogether.
Import ListNotations.
Local Open Scope Z_scope.
Ltac Zify.zify_post_hook ::= Z.div_mod_to_equations.

(** ** Bytes and registers *)
Lemma byte_lo image off j : off mod 16 = 0 -> 0x0800 <= off / 16 -> (Z.to_nat (off / 16 - 0x0800) + j < length image)%nat ->
  data_byte 0x0800 image off (2 * j) = nth (Z.to_nat (off / 16 - 0x0800) + j) image 0 mod 256.
Proof.
  intros E H L. unfold data_byte, first_byte. rewrite E. set (q := Z.to_nat (off / 16 - 0x0800)) in *.
  replace (Z.to_nat (2 * (off / 16 - 2048) + 0 / 8) + 2 * j)%nat with (2 * (q + j))%nat by (subst q; change (0 / 8) with 0; lia).
  destruct (nth_error_lt_Some image (q + j) L) as (w & Hw). rewrite (nth_error_nth _ _ 0 Hw).
  apply nth_error_nth. rewrite bytes_even, Hw. reflexivity.
Qed.
Lemma byte_hi image off j : off mod 16 = 0 -> 0x0800 <= off / 16 -> (Z.to_nat (off / 16 - 0x0800) + j < length image)%nat ->
  data_byte 0x0800 image off (2 * j + 1) = nth (Z.to_nat (off / 16 - 0x0800) + j) image 0 / 256.
Proof.
  intros E H L. unfold data_byte, first_byte. rewrite E. set (q := Z.to_nat (off / 16 - 0x0800)) in *.
  replace (Z.to_nat (2 * (off / 16 - 2048) + 0 / 8) + (2 * j + 1))%nat with (2 * (q + j) + 1)%nat by (subst q; change (0 / 8) with 0; lia).
  destruct (nth_error_lt_Some image (q + j) L) as (w & Hw). rewrite (nth_error_nth _ _ 0 Hw).
  apply nth_error_nth. rewrite bytes_odd, Hw. reflexivity.
Qed.

Lemma preset_words image off k : off mod 16 = 0 -> 0x0800 <= off / 16 -> (Z.to_nat (off / 16 - 0x0800) + 2 * k + 1 < length image)%nat ->
  preset_micros image off k =
  word32 (nth (Z.to_nat (off / 16 - 0x0800) + 2 * k) image 0) (nth (Z.to_nat (off / 16 - 0x0800) + 2 * k + 1) image 0).
Proof.
  intros E H L. unfold preset_micros.
  replace (4 * k + 0)%nat with (2 * (2 * k))%nat by lia. replace (4 * k + 1)%nat with (2 * (2 * k) + 1)%nat by lia.
  replace (4 * k + 2)%nat with (2 * (2 * k + 1))%nat by lia. replace (4 * k + 3)%nat with (2 * (2 * k + 1) + 1)%nat by lia.
  rewrite !byte_lo, !byte_hi by lia. rewrite !Nat.add_assoc. f_equal; lia.
Qed.

(** The place of the outputs of a module of more than one register. *)
Lemma packed_mod : forall l w i m o off, packed w l -> nth_error l i = Some (m, o) -> mo_output o = Some off -> off mod 16 = 0 \/ off mod 16 = 8.
Proof.
  induction l as [|(m0 & o0) l IH]; intros w i m o off H Hi Eo; [destruct i; discriminate|]. destruct i as [|i]; cbn [nth_error] in Hi.
  - apply Some_inj in Hi. apply pair_inj in Hi. destruct Hi as [-> ->]. cbn [packed] in H. rewrite Eo in H. lia.
  - cbn [packed] in H. destruct (mo_output o0) as [off0|]; [destruct H as [[_ H]|(_ & _ & H)]|]; exact (IH _ _ _ _ _ H Hi Eo).
Qed.

Lemma wide_place c i m o off : outputs_packed c -> byte_wide c -> module_at c i m o -> mo_output o = Some off -> (2 < output_bytes m)%nat ->
  off mod 16 = 0 /\ 0x0800 <= off / 16.
Proof.
  intros HP HB Hat Eo Hw. pose proof (packed_all c HP i m o off Hat Eo) as Hh.
  destruct (packed_mod _ _ _ _ _ _ HP (proj2 (infos_at c i m o) Hat) Eo) as [E|E]; [split; [exact E|lia]|].
  pose proof (HB i m o off Hat Eo E). lia.
Qed.

Lemma com_wide l ch : (2 < output_bytes (MCOM l ch))%nat.
Proof. destruct l; cbn; lia. Qed.
Lemma fcnt_wide ch : (2 < output_bytes (MFCNT ch))%nat.
Proof. cbn. lia. Qed.

(** ** What a program needs *)
Definition output_area (r : Z -> Z) : Prop := forall a, 0x0800 <= a < 0x1000 -> is_u16 (r a).

Lemma ready_static c c' r : c_modules c' = c_modules c -> c_offsets c' = c_offsets c -> ready_registers c r -> ready_registers c' r.
Proof. intros E1 E2. unfold ready_registers, module_at. rewrite E1, E2. auto. Qed.

(** The registers can be used. *)
Lemma ready_works prof c r n k c' res : reachable prof c -> byte_wide c -> outputs_packed c -> outputs_within c (Z.to_nat k) -> ready_registers c r ->
  cycle prof c (read_registers r ADDR_PACKED_PROCESS_INPUT_DATA n) (read_registers r ADDR_PACKED_PROCESS_OUTPUT_DATA k) c' res ->
  (exists image, res = Ok image) <-> inputs_readable c (read_registers r ADDR_PACKED_PROCESS_INPUT_DATA n) /\ requests_accepted c.
Proof.
  intros Hr HB HP HW HR H. rewrite (C59_all _ _ _ _ _ _ Hr H). unfold cycle_possible. split; [tauto|]. intros [H1 H2].
  split; [exact H1|]. split; [|split; [exact H2|split; [|exact HP]]].
  - intros i m o off Hat Eo. destruct (HW i m o off Hat Eo) as [Hz Hin].
    pose proof (packed_all c HP i m o off Hat Eo) as Hh. split.
    + split; [exact Hz|]. split; [exact (packed_mod _ _ _ _ _ _ HP (proj2 (infos_at c i m o) Hat) Eo)|]. rewrite read_length. split; [lia|exact Hin].
    + intros l ch ->. destruct (wide_place c i _ o off HP HB Hat Eo (com_wide l ch)) as [E0 Hlo].
      assert (1 <= registers (output_bytes (MCOM l ch)))%nat by (pose proof (com_wide l ch); unfold registers; lia).
      change 1%nat with (2 * 0 + 1)%nat. rewrite byte_hi by (rewrite ?read_length; lia). rewrite read_reg by lia.
      change ADDR_PACKED_PROCESS_OUTPUT_DATA with 0x0800. destruct (HR i _ o off Hat Eo) as [R1 _]. specialize (R1 l ch eq_refl).
      replace (0x0800 + Z.of_nat (Z.to_nat (off / 16 - 2048) + 0)) with (off / 16) by lia. exact R1.
  - intros i ch o off j Hat Eo Hj _. destruct (HW i _ o off Hat Eo) as [_ Hin]. change (registers (output_bytes (MFCNT ch))) with 6%nat in Hin.
    destruct (wide_place c i _ o off HP HB Hat Eo (fcnt_wide ch)) as [E0 Hlo].
    rewrite preset_words by (rewrite ?read_length; lia). do 2 rewrite read_reg by lia.
    change ADDR_PACKED_PROCESS_OUTPUT_DATA with 0x0800. destruct (HR i _ o off Hat Eo) as [_ R2]. specialize (R2 ch j eq_refl Hj).
    unfold wire_preset in R2.
    replace (0x0800 + Z.of_nat (Z.to_nat (off / 16 - 2048) + 2 * j)) with (off / 16 + 2 * Z.of_nat j) by lia.
    replace (0x0800 + Z.of_nat (Z.to_nat (off / 16 - 2048) + 2 * j + 1)) with (off / 16 + 2 * Z.of_nat j + 1) by lia. exact R2.
Qed.

Lemma exchange_ready prof c r c' r' : reachable prof c -> byte_wide c -> exchange prof c r c' r' -> ready_registers c r'.
Proof.
  intros Hr HB (n & k & image & Hn & Hk & H & ->). destruct (image_ready _ _ _ _ _ _ Hr HB H) as (A & B & P).
  intros i m o off Hat Eo. destruct (A i m o off Hat Eo) as [(Hz & _ & _ & Hlen) HA].
  split.
  - intros l ch ->. destruct (wide_place c i _ o off P HB Hat Eo (com_wide l ch)) as [E0 Hlo].
    assert (1 <= registers (output_bytes (MCOM l ch)))%nat by (pose proof (com_wide l ch); unfold registers; lia).
    specialize (HA l ch eq_refl). change 1%nat with (2 * 0 + 1)%nat in HA. rewrite byte_hi in HA by lia.
    replace (off / 16) with (0x0800 + Z.of_nat (Z.to_nat (off / 16 - 2048) + 0)) by lia. rewrite written_reg by lia. exact HA.
  - intros ch j -> Hj. destruct (wide_place c i _ o off P HB Hat Eo (fcnt_wide ch)) as [E0 Hlo].
    change (registers (output_bytes (MFCNT ch))) with 6%nat in Hlen.
    specialize (B i ch o off j Hat Eo Hj). rewrite preset_words in B by lia. unfold wire_preset.
    replace (off / 16 + 2 * Z.of_nat j + 1) with (0x0800 + Z.of_nat (Z.to_nat (off / 16 - 2048) + 2 * j + 1)) by lia.
    replace (off / 16 + 2 * Z.of_nat j) with (0x0800 + Z.of_nat (Z.to_nat (off / 16 - 2048) + 2 * j)) by lia.
    do 2 rewrite written_reg by lia. exact B.
Qed.

Lemma exchange_u16 prof c r c' r' : reachable prof c -> exchange prof c r c' r' -> output_area r -> output_area r'.
Proof.
  intros Hr (n & k & image & Hn & Hk & H & ->) HU a Ha. pose proof (image_u16 _ _ _ _ _ _ (reachable_ok _ _ Hr) H) as U.
  unfold write_registers. destruct ((ADDR_PACKED_PROCESS_OUTPUT_DATA <=? a) && (a <? ADDR_PACKED_PROCESS_OUTPUT_DATA + Z.of_nat (length image))) eqn:E; [|apply HU; exact Ha].
  change ADDR_PACKED_PROCESS_OUTPUT_DATA with 0x0800 in *. destruct (nth_error_lt_Some image (Z.to_nat (a - 0x0800))) as (w & Hw); [lia|].
  rewrite (nth_error_nth _ _ 0 Hw). exact (proj1 (Forall_forall _ _) U _ (nth_error_In _ _ Hw)).
Qed.

(** Some registers from here, some from there. *)
Lemma ready_mixed c (r1 r2 r : Z -> Z) : outputs_packed c -> byte_wide c -> (forall i m o off, module_at c i m o -> mo_output o = Some off -> is_u16 off) ->
  outputs_within c 0x0800 -> output_area r1 -> output_area r2 -> ready_registers c r1 -> ready_registers c r2 ->
  (forall a, r a = r1 a \/ r a = r2 a) -> ready_registers c r.
Proof.
  intros HP HB HO HW U1 U2 R1 R2 M i m o off Hat Eo. destruct (R1 i m o off Hat Eo) as [A1 B1]. destruct (R2 i m o off Hat Eo) as [A2 B2]. split.
  - intros l ch E. specialize (A1 l ch E). specialize (A2 l ch E). destruct (M (off / 16)) as [-> | ->]; assumption.
  - intros ch j E Hj. specialize (B1 ch j E Hj). specialize (B2 ch j E Hj). subst m.
    destruct (wide_place c i _ o off HP HB Hat Eo (fcnt_wide ch)) as [E0 Hlo]. destruct (HW i _ o off Hat Eo) as [_ Hin].
    change (registers (output_bytes (MFCNT ch))) with 6%nat in Hin.
    unfold wire_preset, word32 in *. set (x := off / 16 + 2 * Z.of_nat j) in *.
    assert (Hx : 0x0800 <= x /\ x + 1 < 0x1000) by (subst x; lia).
    pose proof (U1 x ltac:(lia)). pose proof (U1 (x + 1) ltac:(lia)). pose proof (U2 x ltac:(lia)). pose proof (U2 (x + 1) ltac:(lia)).
    unfold is_u16 in *. destruct (M x) as [-> | ->], (M (x + 1)) as [-> | ->]; lia.
Qed.

Lemma within_area prof c r c' r' : reachable prof c -> interrupted_exchange prof c r c' r' -> outputs_within c 0x0800.
Proof.
  intros Hr (n & k & image & Hn & Hk & H & _) i m o off Hat Eo.
  destruct (proj1 (C59_all _ _ _ _ _ _ Hr H) (ex_intro _ _ eq_refl)) as (_ & HO & _).
  destruct (HO i m o off Hat Eo) as [(Hz & _ & _ & Hlen) _]. rewrite read_length in Hlen. split; [exact Hz|]. lia.
Qed.

Lemma interrupted_full prof c r c' r' : interrupted_exchange prof c r c' r' ->
  exists full, exchange prof c r c' full /\ forall a, r' a = r a \/ r' a = full a.
Proof.
  intros (n & k & image & Hn & Hk & H & M). exists (write_registers r ADDR_PACKED_PROCESS_OUTPUT_DATA image).
  split; [|exact M]. exists n, k, image. auto.
Qed.

(** ** The invariant *)
Definition tracked (c0 : coupler) (i : nat) : Prop := exists m o, module_at c0 i m o /\ is_serial m = false.

Record coping (prof : profile) (c0 : coupler) (register : Z -> Z) (a : address) (P : list (address * channel_value) -> (Z -> Z) -> Prop)
  (asked : list (address * channel_value)) (cs : nat -> coupler) (r : Z -> Z) : Prop := mk_coping {
  cg_reach : forall p, reachable prof (cs p);
  cg_modules : forall p, c_modules (cs p) = c_modules c0 /\ c_offsets (cs p) = c_offsets c0;
  cg_registers : forall x, ~ 0 <= x < 0x1000 -> r x = register x;
  cg_area : output_area r;
  cg_waiting : tracked c0 (a_module a) -> forall p v, requested (cs p) a = Some v -> In (a, v) asked;
  cg_holds : P asked r }.

Lemma cycle_requests prof c input output c' res i m o k v : coupler_ok c -> cycle prof c input output c' res -> module_at c i m o -> is_serial m = false ->
  requested c' (mk_address i k) = Some v -> requested c (mk_address i k) = Some v.
Proof.
  intros Hok H Hat Hs E.
  destruct (cycle_inv _ _ _ _ _ _ Hok H) as [(-> & _)|[(ins & _ & -> & _)|(ins & outs & sent & F1 & F2 & F3 & F4 & _ & _ & _ & _ & F7)]]; [exact E|exact E|].
  destruct (F7 i m o Hat) as (iv & ov & _ & _ & _ & _ & Hc).
  destruct Hc as [row T1 T2 T3 T4 T5 T6|l ch rin rout p0 p' rs last -> _ _ _ _ _ _ _|l ch -> _]; try discriminate.
  rewrite T5 in E. discriminate.
Qed.

Lemma calls_requests prof c x c' answer i m o k v : reachable prof c -> calls prof c x c' answer -> module_at c i m o -> is_serial m = false ->
  requested c' (mk_address i k) = Some v -> x = SetOutput (mk_address i k) v \/ requested c (mk_address i k) = Some v.
Proof.
  intros Hr H Hat Hs E. destruct H as [c b w Hv|c j size|c j buf Hb|c input output c' res Hc Hn].
  - destruct (valid_address_dec c b) as [Hb|Hb].
    + rewrite set_requested in E by exact Hb. destruct (address_eqb_spec b (mk_address i k)) as [->|N]; [|right; exact E].
      apply Some_inj in E. subst w. left. reflexivity.
    + rewrite set_output_invalid in E by exact Hb. right. exact E.
  - right. destruct (read_static c j size) as (S1 & S2 & S3 & S4 & S5 & _). unfold requested in *. rewrite S5 in E. exact E.
  - right. destruct (write_static c j buf) as (S1 & S2 & S3 & S4 & S5 & _). unfold requested in *. rewrite S5 in E. exact E.
  - right. exact (cycle_requests _ _ _ _ _ _ _ _ _ _ _ (reachable_ok _ _ Hr) Hc Hat Hs E).
Qed.

Definition asks (x : call) (asked : list (address * channel_value)) : list (address * channel_value) :=
  match x with SetOutput a v => (a, v) :: asked | _ => asked end.

Lemma coping_all prof register c0 i k (P : list (address * channel_value) -> (Z -> Z) -> Prop) :
  (forall a, is_u16 (register a)) -> register 0x27FE <= 64 -> start_up prof register = Ok c0 ->
  P [] register ->
  (forall c r1 c' r2 asked, reachable prof c -> c_modules c = c_modules c0 -> c_offsets c = c_offsets c0 -> output_area r1 ->
     interrupted_exchange prof c r1 c' r2 -> (tracked c0 i -> forall v, requested c (mk_address i k) = Some v -> In (mk_address i k, v) asked) ->
     P asked r1 -> P asked r2) ->
  (forall asked x r, P asked r -> P (asks x asked) r) ->
  (forall asked r1 r2, P asked r1 -> (forall a, ~ 0 <= a < 0x0800 -> r2 a = r1 a) -> P asked r2) ->
  forall asked cs r, struggles prof (fun _ => c0) register asked cs r ->
  coping prof c0 register (mk_address i k) P asked cs r.
Proof.
  intros Hu Hle Hs P0 Pstep Pmore Pext asked cs r H. destruct (start_new _ _ _ Hu Hle Hs) as [Hr0 Hq0].
  assert (Hat : tracked c0 i -> exists m o, is_serial m = false /\ forall c, c_modules c = c_modules c0 -> c_offsets c = c_offsets c0 -> module_at c i m o).
  { intros (m & o & Hat0 & Hns). exists m, o. split; [exact Hns|]. intros c E1 E2. unfold module_at. rewrite E1, E2. exact Hat0. }
  induction H as [|asked cs1 r1 p x c answer H IH HX|asked cs1 r1 p c r2 H IH HX|asked cs1 r1 p c H IH HX|asked cs1 r1 r2 H IH Hin].
  - constructor; auto. + intros a _. apply Hu. + intros _ p v E. rewrite Hq0 in E. discriminate.
  - destruct IH as [K1 K2 K3 K4 K5 K6]. destruct (K2 p) as [M1 M2].
    pose proof (ProofsMemory.calls_offsets _ _ _ _ _ HX) as N2.
    pose proof (ProofsMemory.calls_modules _ _ _ _ _ HX) as N1. fold (asks x asked). constructor.
    + intros q. unfold replace. destruct (Nat.eqb q p); [|apply K1]. exact (calls_reachable _ _ _ _ _ (K1 p) HX).
    + intros q. unfold replace. destruct (Nat.eqb q p); [|apply K2]. rewrite N1, N2. auto.
    + exact K3.
    + exact K4.
    + intros T. specialize (K5 T). destruct (Hat T) as (m & o & Hns & Hm). assert (W : forall q v, requested (cs1 q) (mk_address i k) = Some v -> In (mk_address i k, v) (asks x asked)).
      { intros q v E. destruct x; cbn [asks]; try right; exact (K5 q v E). }
      intros q v. unfold replace. destruct (Nat.eqb q p); [|apply W]. intros E.
      destruct (calls_requests _ _ _ _ _ _ _ _ _ _ (K1 p) HX (Hm _ M1 M2) Hns E) as [->|E']; [left; reflexivity|exact (W p v E')].
    + apply Pmore. exact K6.
  - destruct IH as [K1 K2 K3 K4 K5 K6]. destruct (K2 p) as [M1 M2].
    pose proof (Pstep _ _ _ _ _ (K1 p) M1 M2 K4 HX (fun T => K5 T p) K6) as Q. destruct (interrupted_full _ _ _ _ _ HX) as (full & HF & Mix).
    pose proof (C98_area_all _ _ _ _ _ (K1 p) HF) as Harea. pose proof (exchange_u16 _ _ _ _ _ (K1 p) HF K4) as HU.
    destruct HX as (n & k0 & image & _ & _ & HC & _). destruct (cycle_static _ _ _ _ _ _ HC) as [N1 N2]. constructor.
    + intros q. unfold replace. destruct (Nat.eqb q p); [|apply K1]. exact (cycle_reachable _ _ _ _ _ _ (K1 p) HC ltac:(discriminate)).
    + intros q. unfold replace. destruct (Nat.eqb q p); [|apply K2]. rewrite N1, N2. auto.
    + intros y Hy. destruct (Mix y) as [-> | ->]; [apply K3; exact Hy|]. rewrite Harea by lia. apply K3. exact Hy.
    + intros y Hy. destruct (Mix y) as [-> | ->]; [apply K4; exact Hy|apply HU; exact Hy].
    + intros T. specialize (K5 T). destruct (Hat T) as (m & o & Hns & Hm). intros q v. unfold replace. destruct (Nat.eqb q p); [|apply K5]. intros E. apply (K5 p v).
      exact (cycle_requests _ _ _ _ _ _ _ _ _ _ _ (reachable_ok _ _ (K1 p)) HC (Hm _ M1 M2) Hns E).
    + exact Q.
  - destruct IH as [K1 K2 K3 K4 K5 K6]. rewrite (start_same _ _ _ _ Hu Hle Hs K3) in HX. apply Ok_inj in HX. subst c. constructor; auto.
    + intros q. unfold replace. destruct (Nat.eqb q p); [exact Hr0|apply K1].
    + intros q. unfold replace. destruct (Nat.eqb q p); [auto|apply K2].
    + intros T q v. unfold replace. destruct (Nat.eqb q p); [|apply K5; exact T]. rewrite Hq0. discriminate.
  - destruct IH as [K1 K2 K3 K4 K5 K6]. constructor; auto.
    + intros y Hy. rewrite Hin by lia. apply K3. exact Hy.
    + intros y Hy. rewrite Hin by lia. apply K4. exact Hy.
    + exact (Pext _ _ _ K6 Hin).
Qed.

(** ** The programs are never stuck *)
Lemma ready_inputs c (r1 r2 : Z -> Z) : outputs_packed c -> ready_registers c r1 -> (forall a, ~ 0 <= a < 0x0800 -> r2 a = r1 a) -> ready_registers c r2.
Proof.
  intros HP HR E i m o off Hat Eo. pose proof (packed_all c HP i m o off Hat Eo) as Hh. destruct (HR i m o off Hat Eo) as [A B]. split.
  - intros l ch El. rewrite E by lia. exact (A l ch El).
  - intros ch k El Hk. unfold wire_preset. do 2 rewrite E by lia. exact (B ch k El Hk).
Qed.

Lemma C100_ready_all : forall prof register c0 asked cs register', 
  (forall a, is_u16 (register a)) -> register 0x27FE <= 64 -> start_up prof register = Ok c0 ->
  byte_wide c0 -> outputs_packed c0 -> ready_registers c0 register ->
  struggles prof (fun _ => c0) register asked cs register' -> ready_registers c0 register'.
Proof.
  intros prof register c0 asked cs register' Hu Hle Hs HB HP HR H.
  refine (cg_holds _ _ _ _ _ _ _ _ (coping_all prof register c0 0 0 (fun _ r => ready_registers c0 r) Hu Hle Hs HR _ _ _ asked cs register' H)).
  - intros c r1 c' r2 q Hr M1 M2 HU HX _ K. destruct (interrupted_full _ _ _ _ _ HX) as (full & HF & Mix).
    apply (ready_static c c0) ; [congruence..|].
    assert (HBc : byte_wide c) by (unfold byte_wide, module_at in *; rewrite M1, M2; exact HB).
    apply (ready_mixed c r1 full r2).
    + unfold outputs_packed in *. rewrite M1, M2. exact HP.
    + exact HBc.
    + intros i m o off Hat Eo. pose proof (reachable_ok _ _ Hr) as Hok. exact (infos_off c Hok i m o off (proj2 (infos_at c i m o) Hat) Eo).
    + exact (within_area _ _ _ _ _ Hr HX).
    + exact HU.
    + exact (exchange_u16 _ _ _ _ _ Hr HF HU).
    + exact (ready_static c0 c r1 M1 M2 K).
    + exact (exchange_ready _ _ _ _ _ Hr HBc HF).
    + exact Mix.
  - intros q x r K. exact K.
  - intros q r1 r2 K E. exact (ready_inputs c0 r1 r2 HP K E).
Qed.

Lemma C100_never_stuck_all : forall prof register c0 asked cs register' p n k c result,
  (forall a, is_u16 (register a)) -> register 0x27FE <= 64 -> start_up prof register = Ok c0 ->
  byte_wide c0 -> outputs_packed c0 -> ready_registers c0 register ->
  struggles prof (fun _ => c0) register asked cs register' ->
  outputs_within c0 (Z.to_nat k) ->
  cycle prof (cs p) (read_registers register' ADDR_PACKED_PROCESS_INPUT_DATA n) (read_registers register' ADDR_PACKED_PROCESS_OUTPUT_DATA k) c result ->
  (exists image, result = Ok image) <->
  inputs_readable (cs p) (read_registers register' ADDR_PACKED_PROCESS_INPUT_DATA n) /\ requests_accepted (cs p).
Proof.
  intros prof register c0 asked cs register' p n k c result Hu Hle Hs HB HP HR H HW HC.
  pose proof (C100_ready_all _ _ _ _ _ _ Hu Hle Hs HB HP HR H) as K.
  destruct (coping_all prof register c0 0 0 (fun _ _ => True) Hu Hle Hs I (fun _ _ _ _ _ _ _ _ _ _ _ _ => I) (fun _ _ _ _ => I) (fun _ _ _ _ _ => I)
    asked cs register' H) as [K1 K2 _ _ _ _]. destruct (K2 p) as [M1 M2].
  apply (ready_works prof (cs p) register' n k c result (K1 p)).
  - unfold byte_wide, module_at in *. rewrite M1, M2. exact HB.
  - unfold outputs_packed in *. rewrite M1, M2. exact HP.
  - unfold outputs_within, module_at in *. rewrite M1, M2. exact HW.
  - exact (ready_static c0 _ _ M1 M2 K).
  - exact HC.
Qed.

(** ** What the outputs are *)
Lemma more_asked x asked a v : In (a, v) asked -> In (a, v) (asks x asked).
Proof. intros H. destruct x; cbn [asks]; [right|..]; exact H. Qed.

Lemma C100_digital_all : forall prof register c0 asked cs register' i m o off n k,
  (forall a, is_u16 (register a)) -> register 0x27FE <= 64 -> start_up prof register = Ok c0 ->
  struggles prof (fun _ => c0) register asked cs register' ->
  alone c0 i m o off -> 0x8000 <= off -> digital_outputs m = Some n -> (k < n)%nat ->
  wire_bit register' off k = wire_bit register off k \/
  exists v, In (mk_address i k, v) asked /\ switches v = Some (wire_bit register' off k).
Proof.
  intros prof register c0 asked cs register' i m o off n k Hu Hle Hs H Hal Hoff Hn Hk.
  assert (T : tracked c0 i) by (exists m, o; split; apply Hal).
  refine (cg_holds _ _ _ _ _ _ _ _ (coping_all prof register c0 i k (fun q r => wire_bit r off k = wire_bit register off k \/
    exists v, In (mk_address i k, v) q /\ switches v = Some (wire_bit r off k)) Hu Hle Hs (or_introl eq_refl) _ _ _ asked cs register' H)).
  - intros c r1 c' r2 q Hr M1 M2 HU HX HQ K. specialize (HQ T). destruct (interrupted_full _ _ _ _ _ HX) as (full & HF & Mix).
    destruct (exchange_bit _ _ _ _ _ _ _ _ _ _ _ Hr HF (alone_static c0 c i m o off M1 M2 Hal) Hn Hk) as [B1 B2].
    unfold wire_bit in *. destruct (Mix (off / 16)) as [-> | ->]; [exact K|].
    destruct (requested c (mk_address i k)) as [v|]; [|rewrite (B2 eq_refl); exact K].
    right. exists v. split; [exact (HQ v eq_refl)|exact (B1 v eq_refl)].
  - intros q x r [K|(v & V1 & V2)]; [left; exact K|right]. exists v. split; [apply more_asked; exact V1|exact V2].
  - intros q r1 r2 K E. unfold wire_bit in *. rewrite E by lia. exact K.
Qed.

Lemma C100_analog_all : forall prof register c0 asked cs register' i m o off k rng f,
  (forall a, is_u16 (register a)) -> register 0x27FE <= 64 -> start_up prof register = Ok c0 ->
  struggles prof (fun _ => c0) register asked cs register' ->
  alone c0 i m o off -> 0x8000 <= off -> analog_output m k = Some (rng, f) -> rng <> UI_Disabled ->
  drifted f (wire_code register off k) (wire_code register' off k) \/
  exists v d, In (mk_address i k, v) asked /\ sends m k v d /\ is_u16 d /\ drifted f d (wire_code register' off k).
Proof.
  intros prof register c0 asked cs register' i m o off k rng f Hu Hle Hs H Hal Hoff Ea Hrng.
  assert (T : tracked c0 i) by (exists m, o; split; apply Hal).
  set (P := fun (q : list (address * channel_value)) (r : Z -> Z) => is_u16 (wire_code r off k) /\
    (chain rng f (wire_code register off k) (wire_code r off k) \/
     exists v d, In (mk_address i k, v) q /\ sends m k v d /\ is_u16 d /\ chain rng f d (wire_code r off k))).
  assert (K : P asked register').
  2:{ destruct K as [U [K|(v & d & D0 & D1 & D2 & D3)]]; [left|right].
      - exact (chain_drifted rng f _ _ (span_some rng Hrng) (Hu _) U K).
      - exists v, d. split; [exact D0|]. split; [exact D1|]. split; [exact D2|]. exact (chain_drifted rng f _ _ (span_some rng Hrng) D2 U D3). }
  refine (cg_holds _ _ _ _ _ _ _ _ (coping_all prof register c0 i k P
    Hu Hle Hs (conj (Hu _) (or_introl (chain_refl _ _ _))) _ _ _ asked cs register' H)).
  - intros c r1 c' r2 q Hr M1 M2 HU HX HQ HP. specialize (HQ T). destruct HX as (n0 & k0 & image & Hn0 & Hk0 & HC & Mix).
    assert (Hcase : wire_code r2 off k = wire_code r1 off k \/
      wire_code r2 off k = wire_code (write_registers r1 ADDR_PACKED_PROCESS_OUTPUT_DATA image) off k) by apply Mix.
    destruct Hcase as [E|E]; [unfold P in *; rewrite E; exact HP|].
    pose proof (alone_static c0 c i m o off M1 M2 Hal) as Ha. pose proof Ha as (Hat & Eo & _ & Hm0 & _).
    destruct (tick_code _ _ _ _ _ _ _ _ _ _ _ _ _ Hr HC Ha Ea) as (w0 & old & w & G1 & G2 & G3 & G4 & G5 & G6 & _).
    pose proof (high_offset _ _ _ _ _ _ _ _ _ _ Hr HC Hat Eo) as Hh.
    unfold output_register in G1, G4. change ADDR_PACKED_PROCESS_OUTPUT_DATA with 0x0800 in G1.
    set (j := (Z.to_nat (off / 16 - 2048) + k)%nat) in *.
    assert (J : off / 16 + Z.of_nat k = 0x0800 + Z.of_nat j) by (subst j; lia).
    assert (E0 : wire_code r1 off k = w0).
    { pose proof (nth_error_Some_lt _ _ _ G1) as L. pose proof (read_length r1 0x0800 k0) as L'.
      rewrite read_nth in G1 by lia. apply Some_inj in G1. unfold wire_code. rewrite J. exact G1. }
    assert (E1 : wire_code (write_registers r1 ADDR_PACKED_PROCESS_OUTPUT_DATA image) off k = w).
    { unfold wire_code. rewrite J, written_reg by exact (nth_error_Some_lt _ _ _ G4). exact (nth_error_nth _ _ _ G4). }
    unfold P. rewrite E, E1. split; [exact G5|]. destruct (requested c (mk_address i k)) as [v|].
    + right. exists v, w. split; [exact (HQ v eq_refl)|]. split; [exact G6|]. split; [exact G5|]. apply chain_refl.
    + destruct HP as [_ [HP|(v & d & D0 & D1 & D2 & D3)]]; [left|right].
      * rewrite E0 in HP. exact (chain_step _ _ _ _ _ _ _ _ Ea HP G3 G6).
      * rewrite E0 in D3. exists v, d. split; [exact D0|]. split; [exact D1|]. split; [exact D2|]. exact (chain_step _ _ _ _ _ _ _ _ Ea D3 G3 G6).
  - intros q x r [U [HP|(v & d & D0 & D)]]; (split; [exact U|]); [left; exact HP|right]. exists v, d. split; [apply more_asked; exact D0|exact D].
  - intros q r1 r2 HP E. unfold P, wire_code in *. rewrite (input_only off r1 r2 (Z.of_nat k) Hoff (Zle_0_nat k) E). exact HP.
Qed.

(** ** Counters *)
Lemma known_more register off a asked x y : known_preset register off a asked y -> known_preset register off a (asks x asked) y.
Proof. intros [K|(v & p & V & K)]; [left; exact K|right]. exists v, p. split; [apply more_asked; exact V|exact K]. Qed.

Lemma half_hi hi lo : is_u16 hi -> is_u16 lo -> word32 hi lo / 65536 = hi.
Proof. unfold is_u16, word32. lia. Qed.
Lemma half_lo hi lo : is_u16 hi -> is_u16 lo -> word32 hi lo mod 65536 = lo.
Proof. unfold is_u16, word32. lia. Qed.

Lemma C100_counter_all : forall prof register c0 asked cs register' i m o off k,
  (forall a, is_u16 (register a)) -> register 0x27FE <= 64 -> start_up prof register = Ok c0 ->
  struggles prof (fun _ => c0) register asked cs register' ->
  alone c0 i m o off -> 0x8000 <= off -> (exists ch, m = MFCNT ch) -> (k < 2)%nat ->
  (exists x y, known_preset register off (mk_address i k) asked x /\ known_preset register off (mk_address i k) asked y /\
     wire_preset register' off k = 65536 * (x / 65536) + y mod 65536) /\
  (wire_command register' off k = wire_command register off k \/
   exists v x, In (mk_address i k, v) asked /\ preset v = Some x /\ wire_command register' off k = fo_command x).
Proof.
  intros prof register c0 asked cs register' i m o off k Hu Hle Hs H Hal Hoff Hm Hk.
  assert (T : tracked c0 i) by (exists m, o; split; apply Hal).
  set (hi := off / 16 + 2 * Z.of_nat k). set (lo := hi + 1).
  set (known := fun q => known_preset register off (mk_address i k) q).
  set (P := fun (q : list (address * channel_value)) (r : Z -> Z) => is_u16 (r hi) /\ is_u16 (r lo) /\
    (exists x, known q x /\ r hi = x / 65536) /\ (exists y, known q y /\ r lo = y mod 65536) /\
    (wire_command r off k = wire_command register off k \/
     exists v x, In (mk_address i k, v) q /\ preset v = Some x /\ wire_command r off k = fo_command x)).
  assert (K : P asked register').
  2:{ destruct K as (_ & _ & (x & X1 & X2) & (y & Y1 & Y2) & K). split; [|exact K]. exists x, y. split; [exact X1|]. split; [exact Y1|].
      unfold wire_preset. fold hi. fold lo. rewrite X2, Y2. unfold word32. lia. }
  assert (P0 : P [] register).
  { split; [apply Hu|]. split; [apply Hu|]. split; [|split; [|left; reflexivity]].
    - exists (wire_preset register off k). split; [left; reflexivity|]. symmetry. apply half_hi; apply Hu.
    - exists (wire_preset register off k). split; [left; reflexivity|]. symmetry. apply half_lo; apply Hu. }
  refine (cg_holds _ _ _ _ _ _ _ _ (coping_all prof register c0 i k P Hu Hle Hs P0 _ _ _ asked cs register' H)).
  - intros c r1 c' r2 q Hr M1 M2 HU HX HQ (Uh & Ul & (x & X1 & X2) & (y & Y1 & Y2) & C). specialize (HQ T).
    pose proof (within_area _ _ _ _ _ Hr HX) as HW.
    destruct (interrupted_full _ _ _ _ _ HX) as (full & HF & Mix). pose proof (alone_static c0 c i m o off M1 M2 Hal) as Ha.
    pose proof (exchange_u16 _ _ _ _ _ Hr HF HU) as HU2.
    destruct (HW i m o off (proj1 Ha) (proj1 (proj2 Ha))) as [_ Hin].
    assert (6 <= Z.of_nat (registers (output_bytes m))) by (destruct Hm as (ch & ->); change (registers (output_bytes (MFCNT ch))) with 6%nat; lia).
    assert (Vh : is_u16 (full hi)) by (apply HU2; subst hi; lia). assert (Vl : is_u16 (full lo)) by (apply HU2; subst lo hi; lia).
    destruct (exchange_counter _ _ _ _ _ _ _ _ _ _ Hr HF Ha Hm Hk) as [B1 B2].
    assert (F : (exists x', known q x' /\ full hi = x' / 65536) /\ (exists y', known q y' /\ full lo = y' mod 65536) /\
      (wire_command full off k = wire_command register off k \/
       exists v z, In (mk_address i k, v) q /\ preset v = Some z /\ wire_command full off k = fo_command z)).
    { destruct (requested c (mk_address i k)) as [v|].
      - destruct (B1 v eq_refl) as (z & Z1 & Z2 & Z3 & Z4). specialize (HQ v eq_refl).
        assert (Kz : known q (wire_preset full off k)) by (right; exists v, z; auto).
        split; [|split].
        + exists (wire_preset full off k). split; [exact Kz|]. symmetry. apply half_hi; assumption.
        + exists (wire_preset full off k). split; [exact Kz|]. symmetry. apply half_lo; assumption.
        + right. exists v, z. auto.
      - destruct (B2 eq_refl) as [Z3 Z4]. rewrite Z4. unfold wire_preset in Z3. fold hi in Z3. fold lo in Z3.
        assert (Eh : full hi = r1 hi). { rewrite <- (half_hi (full hi) (full lo) Vh Vl), Z3. apply half_hi; assumption. }
        assert (El : full lo = r1 lo). { rewrite <- (half_lo (full hi) (full lo) Vh Vl), Z3. apply half_lo; assumption. }
        rewrite Eh, El. split; [exists x; auto|]. split; [exists y; auto|]. exact C. }
    destruct F as (F1 & F2 & F3). unfold P. split; [|split; [|split; [|split]]].
    + destruct (Mix hi) as [-> | ->]; assumption.
    + destruct (Mix lo) as [-> | ->]; assumption.
    + destruct (Mix hi) as [-> | ->]; [exists x; auto|exact F1].
    + destruct (Mix lo) as [-> | ->]; [exists y; auto|exact F2].
    + unfold wire_command in *. destruct (Mix (off / 16 + 4 + Z.of_nat k)) as [-> | ->]; assumption.
  - intros q x r (Uh & Ul & (z & Z1 & Z2) & (y & Y1 & Y2) & C). unfold P. split; [exact Uh|]. split; [exact Ul|].
    split; [exists z; split; [apply known_more; exact Z1|exact Z2]|]. split; [exists y; split; [apply known_more; exact Y1|exact Y2]|].
    destruct C as [C|(v & t & V & C)]; [left; exact C|right]. exists v, t. split; [apply more_asked; exact V|exact C].
  - intros q r1 r2 HP E. unfold P, wire_command in *. rewrite (E hi), (E lo), (E (off / 16 + 4 + Z.of_nat k)) by (subst lo hi; lia). exact HP.
Qed.
