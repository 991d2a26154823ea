(** Proofs about several programs that work with the same field bus coupler (C99). *)
From Coq Require Import ZArith Reals List Bool Lia ZifyBool ZifyNat.
From Verif Require Import Base Facts F32 Types Lib Com Fbc SpecCatalogue SpecAddr SpecParams SpecCodec SpecSerial SpecCoupler SpecImage SpecAnalog SpecKeep
  SpecOutcome SpecSize SpecLossless SpecTerminal SpecWire SpecContract SpecHold SpecStartup SpecTraffic SpecTogether
  ProofsAddr ProofsNew ProofsStartup ProofsBoot ProofsModule ProofsImage ProofsCodec ProofsDigital ProofsLoop ProofsCycle ProofsCoupler ProofsWitness ProofsOutcome
  ProofsSize ProofsErrors ProofsGlitch ProofsAnalog ProofsReadback ProofsIdle ProofsDrift ProofsSteady ProofsFeedback ProofsKeep ProofsHold ProofsOffsets ProofsTerminal ProofsWire ProofsTraffic.
Import ListNotations.
Local Open Scope Z_scope.
Ltac Zify.zify_post_hook ::= Z.div_mod_to_equations.

(** ** All programs have the same rack *)

Lemma start_same prof register register' c : (forall a, is_u16 (register a)) -> register 0x27FE <= 64 -> start_up prof register = Ok c ->
  (forall a, ~ 0 <= a < 0x1000 -> register' a = register a) -> start_up prof register' = Ok c.
Proof.
  intros Hu Hle Hs K. destruct (proj1 (C73_success_all prof register Hu Hle) (ex_intro _ c Hs)) as (rack & Hne & Hsh & Hsu).
  assert (Hlen : (length rack <= 64)%nat) by (destruct Hsh as [Hn _]; lia).
  rewrite (start_from_rack prof register' rack Hne Hlen (shows_ext _ _ _ K Hsh) Hsu), <- (start_from_rack prof register rack Hne Hlen Hsh Hsu). exact Hs.
Qed.

Lemma start_new prof register c : (forall a, is_u16 (register a)) -> register 0x27FE <= 64 -> start_up prof register = Ok c ->
  reachable prof c /\ forall a, requested c a = None.
Proof.
  intros Hu Hle Hs. destruct (proj1 (C73_success_all prof register Hu Hle) (ex_intro _ c Hs)) as (rack & Hne & Hsh & Hsu).
  assert (Hlen : (length rack <= 64)%nat) by (destruct Hsh as [Hn _]; lia).
  destruct (C60_all prof register rack Hne Hlen Hsh Hsu) as (c0 & Hc0 & Hr & _). rewrite Hs in Hc0. apply Ok_inj in Hc0. subst c0.
  split; [exact Hr|]. intros a. rewrite (start_from_rack prof register rack Hne Hlen Hsh Hsu) in Hs. unfold coupler_new in Hs.
  apply bind_ok in Hs. destruct Hs as (u & _ & Hs). apply bind_ok in Hs. destruct Hs as (ms & _ & Hs).
  apply bind_ok in Hs; destruct Hs as ((ms' & ps) & _ & Hs). apply Ok_inj in Hs. subst c. reflexivity.
Qed.

(** A refused value: the requests are gone. *)
Lemma refused_cycle prof c input output c' i m o k : reachable prof c -> cycle prof c input output c' (Err ChannelValueError) ->
  module_at c i m o -> is_serial m = false -> requested c' (mk_address i k) = None.
Proof.
  intros Hr H Hat Hs. apply reachable_ok in Hr. assert (Hui : Forall is_u16 input) by apply H. assert (Huo : Forall is_u16 output) by apply H.
  destruct (cycle_inv _ _ _ _ _ _ Hr H) as [(_ & Hn & He & _)|[(ins & E1 & _ & Hn & He & _)|(ins & outs & sent & F1 & F2 & F3 & F4 & _ & _ & _ & _ & F7)]].
  - exfalso. pose proof (proj2 (He _) eq_refl) as Hx. rewrite process_input_rows in Hx. apply traverse_some_err in Hx.
    destruct Hx as ((m' & o') & Hi & Hx). apply In_nth_error in Hi. destruct Hi as (j & Hi).
    pose proof Hi as Hat'. apply infos_at in Hat'. destruct (ok_off c Hr _ _ _ Hat') as [HO _]. cbn [snd] in HO.
    unfold input_row in Hx. cbn [fst snd] in Hx. destruct (mo_input o') as [off|] eqn:Eo; [|discriminate]. specialize (HO off eq_refl).
    destruct (prepare_raw_data_to_process prof off 0 (input_bytes m') input) as [raw|e'|p] eqn:Hp; cbn [bind] in Hx; [| |discriminate].
    + destruct (prepare_any _ _ _ _ _ _ HO Hui Hp) as (Lr & Ur). rewrite registers_count in Lr.
      discriminate (decode_in_error m' raw _ (ok_complete c _ m' o' Hr Hi) Lr Ur Hx).
    + assert (e' = ChannelValueError) as -> by congruence. destruct (prepare_errors _ _ _ _ _ _ HO Hui Hp); discriminate.
  - exfalso. pose proof (proj2 (He _) eq_refl) as Hx. rewrite process_output_rows in Hx. apply traverse_some_err in Hx.
    destruct Hx as ((m' & o') & Hi & Hx). apply In_nth_error in Hi. destruct Hi as (j & Hi).
    pose proof Hi as Hat'. apply infos_at in Hat'. destruct (ok_off c Hr _ _ _ Hat') as [_ HO]. cbn [snd] in HO.
    unfold output_row in Hx. cbn [fst snd] in Hx. destruct (mo_output o') as [off|] eqn:Eo; [|discriminate]. specialize (HO off eq_refl).
    destruct (prepare_raw_data_to_process prof off 0x0800 (output_bytes m') output) as [raw|e'|p] eqn:Hp; cbn [bind] in Hx; [| |discriminate].
    + destruct (prepare_any _ _ _ _ _ _ HO Huo Hp) as (Lr & Ur). rewrite registers_count in Lr.
      discriminate (decode_out_error m' raw _ (ok_complete c _ m' o' Hr Hi) Lr Ur Hx).
    + assert (e' = ChannelValueError) as -> by congruence. destruct (prepare_errors _ _ _ _ _ _ HO Huo Hp); discriminate.
  - destruct (F7 i m o Hat) as (iv & ov & _ & _ & _ & _ & Hc).
    destruct Hc as [row T1 T2 T3 T4 T5 T6|l ch rin rout p0 p' rs last -> _ _ _ _ _ _ _|l ch -> _]; try discriminate. apply T5.
Qed.

(** ** The invariant *)
Record keeping (prof : profile) (c0 : coupler) (register : Z -> Z) (a : address) (P : option channel_value -> (Z -> Z) -> Prop)
  (b : board) (cs : nat -> coupler) (r : Z -> Z) : Prop := mk_keeping {
  kg_reach : forall p, reachable prof (cs p);
  kg_modules : forall p, c_modules (cs p) = c_modules c0 /\ c_offsets (cs p) = c_offsets c0;
  kg_registers : forall x, ~ 0 <= x < 0x1000 -> r x = register x;
  kg_waiting : forall p, requested (cs p) a = waiting b p;
  kg_force : P (in_force b) r }.

Lemma keeping_other prof c0 register a (P : option channel_value -> (Z -> Z) -> Prop) b b' cs r p c : keeping prof c0 register a P b cs r -> reachable prof c ->
  c_modules c = c_modules (cs p) -> c_offsets c = c_offsets (cs p) -> in_force b' = in_force b ->
  (forall q, q <> p -> waiting b' q = waiting b q) -> requested c a = waiting b' p ->
  keeping prof c0 register a P b' (replace cs p c) r.
Proof.
  intros [K1 K2 K3 K4 K5] Hr E1 E2 E3 E4 E5. constructor.
  - intros q. unfold replace. destruct (Nat.eqb q p); auto.
  - intros q. unfold replace. destruct (Nat.eqb q p); [|apply K2]. rewrite E1, E2. apply K2.
  - exact K3.
  - intros q. unfold replace. destruct (Nat.eqb_spec q p) as [->|N]; [exact E5|]. rewrite E4 by exact N. apply K4.
  - rewrite E3. exact K5.
Qed.

Lemma note_same f p v : note f p v p = v.
Proof. unfold note. rewrite Nat.eqb_refl. reflexivity. Qed.
Lemma note_other f p v q : q <> p -> note f p v q = f q.
Proof. intros N. unfold note. destruct (Nat.eqb_spec q p); [contradiction|reflexivity]. Qed.

Lemma keeping_all prof register c0 i m o off k (P : option channel_value -> (Z -> Z) -> Prop) :
  (forall a, is_u16 (register a)) -> register 0x27FE <= 64 -> start_up prof register = Ok c0 ->
  alone c0 i m o off -> (k < channels m)%nat ->
  P None register ->
  (forall c r1 c' r2 f, reachable prof c -> alone c i m o off -> exchange prof c r1 c' r2 -> P f r1 ->
     P (match requested c (mk_address i k) with Some v => Some v | None => f end) r2) ->
  (forall f r1 r2, P f r1 -> (forall a, ~ 0 <= a < 0x0800 -> r2 a = r1 a) -> P f r2) ->
  forall h cs r, together prof (fun _ => c0) register h cs r ->
  keeping prof c0 register (mk_address i k) P (after_history (mk_address i k) h) cs r.
Proof.
  intros Hu Hle Hs Hal Hk P0 Pstep Pext h cs r H. destruct (start_new _ _ _ Hu Hle Hs) as [Hr0 Hq0].
  pose proof Hal as (Hat0 & Eo & Hns & _).
  assert (Hat : forall c, c_modules c = c_modules c0 -> c_offsets c = c_offsets c0 -> module_at c i m o).
  { intros c E1 E2. unfold module_at. rewrite E1, E2. exact Hat0. }
  induction H as [|h cs1 r1 p a v H IH Hv|h cs1 r1 p c r2 H IH HX|h cs1 r1 p input output c H IH HX|h cs1 r1 p input output c H IH HX
    |h cs1 r1 p j size H IH|h cs1 r1 p j buf H IH Hb|h cs1 r1 p c H IH HX|h cs1 r1 r2 H IH Hin].
  { constructor; auto. }
  all: unfold after_history; rewrite fold_left_app; cbn [fold_left]; fold (after_history (mk_address i k) h);
    set (b := after_history (mk_address i k) h) in *; pose proof IH as [K1 K2 K3 K4 K5]; try destruct (K2 p) as [M1 M2].
  - destruct (set_static (cs1 p) a v) as (_ & S2 & S3 & S4 & _). cbn [follow].
    assert (Hva : valid_address (cs1 p) (mk_address i k)).
    { exists m. cbn [a_module a_channel]. rewrite M1. split; [apply Hat0|exact Hk]. }
    destruct (address_eqb_spec a (mk_address i k)) as [->|N].
    + eapply keeping_other; [exact IH|apply R_set; auto|assumption..|reflexivity| |].
      * intros q Hq. apply note_other. exact Hq.
      * cbn [waiting]. rewrite note_same, set_requested by exact Hva.
        destruct (address_eqb_spec (mk_address i k) (mk_address i k)); [reflexivity|congruence].
    + eapply keeping_other; [exact IH|apply R_set; auto|assumption..|reflexivity|auto|].
      destruct (valid_address_dec (cs1 p) a) as [Ha|Ha].
      * rewrite set_requested by exact Ha. destruct (address_eqb_spec a (mk_address i k)); [congruence|apply K4].
      * rewrite set_output_invalid by exact Ha. apply K4.
  - pose proof (alone_static c0 (cs1 p) i m o off M1 M2 Hal) as Hal1.
    pose proof (Pstep _ _ _ _ _ (K1 p) Hal1 HX K5) as Q. rewrite K4 in Q.
    pose proof (C98_area_all _ _ _ _ _ (K1 p) HX) as Harea. destruct HX as (n & k0 & image & _ & _ & HC & _).
    destruct (cycle_static _ _ _ _ _ _ HC) as [N1 N2].
    destruct (C38_all _ _ _ _ _ _ (K1 p) HC) as (rb & sent' & _ & _ & _ & _ & C38).
    destruct (C38 i m (proj1 (Hat _ M1 M2)) Hns) as (_ & _ & _ & _ & _ & _ & _ & Hn).
    cbn [follow]. constructor.
    + intros q. unfold replace. destruct (Nat.eqb q p); [|apply K1]. exact (cycle_reachable _ _ _ _ _ _ (K1 p) HC ltac:(discriminate)).
    + intros q. unfold replace. destruct (Nat.eqb q p); [|apply K2]. rewrite N1, N2. auto.
    + intros x Hx. rewrite Harea by lia. apply K3. exact Hx.
    + intros q. unfold replace. cbn [waiting]. destruct (Nat.eqb_spec q p) as [->|N]; [rewrite note_same; apply Hn|].
      rewrite note_other by exact N. apply K4.
    + exact Q.
  - destruct (short_cycle _ _ _ _ _ (reachable_ok _ _ (K1 p)) HX) as (ins & E). cbn [follow].
    eapply keeping_other; [exact IH|exact (cycle_reachable _ _ _ _ _ _ (K1 p) HX ltac:(discriminate))|subst c; reflexivity..|reflexivity|auto|].
    subst c. apply K4.
  - destruct (cycle_static _ _ _ _ _ _ HX) as [N1 N2]. cbn [follow].
    eapply keeping_other; [exact IH|exact (cycle_reachable _ _ _ _ _ _ (K1 p) HX ltac:(discriminate))|assumption..|reflexivity| |].
    + intros q Hq. apply note_other. exact Hq.
    + cbn [waiting]. rewrite note_same. exact (refused_cycle _ _ _ _ _ _ _ _ _ (K1 p) HX (Hat _ M1 M2) Hns).
  - destruct (read_static (cs1 p) j size) as (S1 & S2 & S3 & S4 & S5 & _). cbn [follow].
    eapply keeping_other; [exact IH|apply R_read; auto|assumption..|reflexivity|auto|]. unfold requested in *. rewrite S5. apply K4.
  - destruct (write_static (cs1 p) j buf) as (S1 & S2 & S3 & S4 & S5 & _). cbn [follow].
    eapply keeping_other; [exact IH|apply R_write; auto|assumption..|reflexivity|auto|]. unfold requested in *. rewrite S5. apply K4.
  - rewrite (start_same _ _ _ _ Hu Hle Hs K3) in HX. apply Ok_inj in HX. subst c. cbn [follow].
    eapply keeping_other; [exact IH|exact Hr0|symmetry; assumption..|reflexivity| |].
    + intros q Hq. apply note_other. exact Hq.
    + cbn [waiting]. rewrite note_same. apply Hq0.
  - cbn [follow]. constructor; auto.
    + intros x Hx. rewrite Hin by lia. apply K3. exact Hx.
    + exact (Pext _ _ _ K5 Hin).
Qed.

(** ** One exchange *)
Lemma exchange_place prof c register n k0 c' image i m o off : reachable prof c -> n <= 0x0800 -> k0 <= 0x0800 ->
  cycle prof c (read_registers register ADDR_PACKED_PROCESS_INPUT_DATA n)
    (read_registers register ADDR_PACKED_PROCESS_OUTPUT_DATA k0) c' (Ok image) ->
  module_at c i m o -> mo_output o = Some off ->
  output_bytes m <> 0%nat /\ (off mod 16 = 0 \/ off mod 16 = 8) /\ 0x0800 <= off / 16 /\
  off / 16 - 0x0800 + (if off mod 16 =? 0 then Z.of_nat (registers (output_bytes m)) else 1) <= Z.of_nat (length image) /\
  off / 16 - 0x0800 + Z.of_nat (registers (output_bytes m)) <= k0.
Proof.
  intros Hr Hn Hk H Hat Eo.
  destruct (proj1 (C59_all _ _ _ _ _ _ Hr H) (ex_intro _ _ eq_refl)) as (_ & HO & _ & _ & HPk).
  destruct (HO i m o off Hat Eo) as [(Hz & Hmod & Hlo & Hlen) _].
  pose proof (packed_inside _ _ HPk i m o off (proj2 (infos_at c i m o) Hat) Eo) as HL. cbn [Nat.add] in HL. fold (SpecSize.output_registers c) in HL.
  rewrite <- (image_length _ _ _ _ _ _ (reachable_ok _ _ Hr) H) in HL.
  rewrite read_length in Hlen. assert (0 < registers (output_bytes m))%nat by (unfold registers; lia).
  split; [exact Hz|]. split; [exact Hmod|]. split; [lia|]. split; [exact HL|]. lia.
Qed.

Lemma output_read register k0 q : (q < Z.to_nat k0)%nat ->
  nth_error (read_registers register ADDR_PACKED_PROCESS_OUTPUT_DATA k0) q = Some (register (0x0800 + Z.of_nat q)).
Proof. intros H. apply read_nth. exact H. Qed.

Lemma input_only off (r1 r2 : Z -> Z) j : 0x8000 <= off -> 0 <= j -> (forall a, ~ 0 <= a < 0x0800 -> r2 a = r1 a) -> r2 (off / 16 + j) = r1 (off / 16 + j).
Proof. intros H Hj E. apply E. lia. Qed.

Lemma exchange_bit prof c r1 c' r2 i m o off n k : reachable prof c -> exchange prof c r1 c' r2 -> alone c i m o off ->
  digital_outputs m = Some n -> (k < n)%nat ->
  (forall v, requested c (mk_address i k) = Some v -> switches v = Some (wire_bit r2 off k)) /\
  (requested c (mk_address i k) = None -> wire_bit r2 off k = wire_bit r1 off k).
Proof.
  intros Hr (n0 & k0 & image & Hn0 & Hk0 & H & ->) (Hat & Eo & Hs & HP & Hlater) Hn Hk.
  destruct (exchange_place _ _ _ _ _ _ _ _ _ _ _ Hr Hn0 Hk0 H Hat Eo) as (Hz & Hmod & Hlo & HL & HR).
  assert (Hside : off mod 16 = 0 \/ (n <= 8)%nat).
  { destruct HP as [HP|HP]; [left; exact HP|right]. destruct (digital_not_serial m n Hn) as (_ & _ & Hob). lia. }
  pose proof (C39_partial_all _ _ _ _ _ _ Hr H i m o n off Hat Hn Eo Hside Hlater k Hk) as B.
  assert (0 < registers (output_bytes m))%nat by (unfold registers; lia).
  set (q := Z.to_nat (off / 16 - 0x0800)) in *. assert (Q : off / 16 = 0x0800 + Z.of_nat q) by (subst q; lia).
  assert (Lq : (q < length image)%nat) by (destruct (off mod 16 =? 0); lia).
  unfold output_bit in B. fold q in B. unfold wire_bit. rewrite Q, written_reg by exact Lq.
  change ADDR_PACKED_PROCESS_OUTPUT_DATA with 0x0800 in B. rewrite read_reg in B by lia. exact B.
Qed.

Lemma C99_digital_all : forall prof register c0 h cs register' i m o off n k,
  (forall a, is_u16 (register a)) -> register 0x27FE <= 64 -> start_up prof register = Ok c0 ->
  together prof (fun _ => c0) register h cs register' ->
  alone c0 i m o off -> 0x8000 <= off -> digital_outputs m = Some n -> (k < n)%nat ->
  match in_force (after_history (mk_address i k) h) with
  | Some v => switches v = Some (wire_bit register' off k)
  | None => wire_bit register' off k = wire_bit register off k
  end.
Proof.
  intros prof register c0 h cs register' i m o off n k Hu Hle Hs H Hal Hoff Hn Hk.
  assert (Hkc : (k < channels m)%nat) by (destruct (digital_not_serial m n Hn) as (_ & Hx & _); rewrite Hx; exact Hk).
  refine (kg_force _ _ _ _ _ _ _ _ (keeping_all prof register c0 i m o off k (fun f r => match f with
    | Some v => switches v = Some (wire_bit r off k) | None => wire_bit r off k = wire_bit register off k end)
    Hu Hle Hs Hal Hkc eq_refl _ _ h cs register' H)).
  - intros c r1 c' r2 f Hr Ha HX HP. destruct (exchange_bit _ _ _ _ _ _ _ _ _ _ _ Hr HX Ha Hn Hk) as [B1 B2].
    destruct (requested c (mk_address i k)) as [v|]; [apply B1; reflexivity|]. rewrite (B2 eq_refl). exact HP.
  - intros f r1 r2 HP E. unfold wire_bit in *. pose proof (input_only off r1 r2 0 Hoff ltac:(lia) E) as X. rewrite Z.add_0_r in X. rewrite X. exact HP.
Qed.

Lemma C99_analog_all : forall prof register c0 h cs register' i m o off k rng f,
  (forall a, is_u16 (register a)) -> register 0x27FE <= 64 -> start_up prof register = Ok c0 ->
  together prof (fun _ => c0) register h cs register' ->
  alone c0 i m o off -> 0x8000 <= off -> analog_output m k = Some (rng, f) -> rng <> UI_Disabled ->
  match in_force (after_history (mk_address i k) h) with
  | Some v => exists d, sends m k v d /\ is_u16 d /\ drifted f d (wire_code register' off k)
  | None => drifted f (wire_code register off k) (wire_code register' off k)
  end.
Proof.
  intros prof register c0 h cs register' i m o off k rng f Hu Hle Hs H Hal Hoff Ea Hrng.
  pose proof (start_new _ _ _ Hu Hle Hs) as [Hr0 _].
  assert (Hk : (k < channels m)%nat).
  { pose proof (alone_placed _ _ _ _ _ _ _ _ _ Hr0 Hal Ea) as (_ & _ & Ha & _). rewrite (outputs_4 m Ha). apply Ha. congruence. }
  set (P := fun (q : option channel_value) (r : Z -> Z) => is_u16 (wire_code r off k) /\ match q with
    | Some v => exists d, sends m k v d /\ is_u16 d /\ chain rng f d (wire_code r off k)
    | None => chain rng f (wire_code register off k) (wire_code r off k) end).
  assert (K : P (in_force (after_history (mk_address i k) h)) register').
  2:{ destruct K as [U K]. destruct (in_force (after_history (mk_address i k) h)) as [v|].
      - destruct K as (d & D1 & D2 & D3). exists d. split; [exact D1|]. split; [exact D2|]. exact (chain_drifted rng f _ _ (span_some rng Hrng) D2 U D3).
      - exact (chain_drifted rng f _ _ (span_some rng Hrng) (Hu _) U K). }
  refine (kg_force _ _ _ _ _ _ _ _ (keeping_all prof register c0 i m o off k P
    Hu Hle Hs Hal Hk (conj (Hu _) (chain_refl _ _ _)) _ _ h cs register' H)).
  - intros c r1 c' r2 q Hr Ha (n0 & k0 & image & Hn0 & Hk0 & HC & ->) [_ HP]. pose proof Ha as (Hat & Eo & _ & Hm0 & _).
    destruct (tick_code _ _ _ _ _ _ _ _ _ _ _ _ _ Hr HC Ha Ea) as (w0 & old & w & G1 & G2 & G3 & G4 & G5 & G6 & _).
    pose proof (high_offset _ _ _ _ _ _ _ _ _ _ Hr HC Hat Eo) as Hh.
    unfold output_register in G1, G4. change ADDR_PACKED_PROCESS_OUTPUT_DATA with 0x0800 in G1.
    set (j := (Z.to_nat (off / 16 - 2048) + k)%nat) in *.
    assert (J : off / 16 + Z.of_nat k = 0x0800 + Z.of_nat j) by (subst j; lia).
    assert (E0 : wire_code r1 off k = w0).
    { pose proof (nth_error_Some_lt _ _ _ G1) as L. pose proof (read_length r1 0x0800 k0) as L'.
      rewrite read_nth in G1 by lia. apply Some_inj in G1. unfold wire_code. rewrite J. exact G1. }
    assert (E1 : wire_code (write_registers r1 ADDR_PACKED_PROCESS_OUTPUT_DATA image) off k = w).
    { unfold wire_code. rewrite J, written_reg by exact (nth_error_Some_lt _ _ _ G4). exact (nth_error_nth _ _ _ G4). }
    unfold P. rewrite E1. split; [exact G5|]. destruct (requested c (mk_address i k)) as [v|].
    + exists w. split; [exact G6|]. split; [exact G5|]. apply chain_refl.
    + rewrite E0 in HP. destruct q as [v|].
      * destruct HP as (d & D1 & D2 & D3). exists d. split; [exact D1|]. split; [exact D2|]. exact (chain_step _ _ _ _ _ _ _ _ Ea D3 G3 G6).
      * exact (chain_step _ _ _ _ _ _ _ _ Ea HP G3 G6).
  - intros q r1 r2 HP E. unfold P, wire_code in *. rewrite (input_only off r1 r2 (Z.of_nat k) Hoff (Zle_0_nat k) E). exact HP.
Qed.

(** ** Counters *)
Lemma exchange_counter prof c r1 c' r2 i m o off k : reachable prof c -> exchange prof c r1 c' r2 -> alone c i m o off ->
  (exists ch, m = MFCNT ch) -> (k < 2)%nat ->
  (forall v, requested c (mk_address i k) = Some v -> exists x, preset v = Some x /\ nanoseconds (fo_duration x) <= max_preset /\
     wire_preset r2 off k = nanoseconds (fo_duration x) / 1000 /\ wire_command r2 off k = fo_command x) /\
  (requested c (mk_address i k) = None -> wire_preset r2 off k = wire_preset r1 off k /\ wire_command r2 off k = wire_command r1 off k).
Proof.
  intros Hr HX Ha (ch & Em) Hk. assert (Hkc : (k < channels m)%nat) by (subst m; exact Hk).
  destruct (C98_outputs_all _ _ _ _ _ _ _ _ _ Hr HX Ha k Hkc) as (v & Hv & HC).
  destruct HX as (n0 & k0 & image & Hn0 & Hk0 & H & ->). pose proof Ha as (Hat & Eo & Hs & HP & _).
  destruct (exchange_place _ _ _ _ _ _ _ _ _ _ _ Hr Hn0 Hk0 H Hat Eo) as (_ & _ & Hlo & _ & HR).
  assert (E0 : off mod 16 = 0) by (destruct HP as [HP|HP]; [exact HP|subst m; discriminate HP]).
  destruct (C83_outputs_any _ _ _ _ _ _ _ _ _ _ Hr H Hat Hs Eo (or_introl E0)) as (row & N & L & HPh).
  subst m. cbn [carries registers_out] in HC. destruct HC as (x & X1 & X2 & X3 & X4 & X5).
  unfold module_registers in X3, X4, X5. rewrite E0 in X3, X4, X5. cbn [Z.eqb] in X3, X4, X5.
  set (r2 := write_registers r1 ADDR_PACKED_PROCESS_OUTPUT_DATA image) in *.
  unfold reg in X3, X4, X5. do 2 rewrite read_reg in X3 by lia. rewrite read_reg in X4 by lia. rewrite read_reg in X5 by lia.
  assert (W : wire_preset r2 off k = nanoseconds (fo_duration x) / 1000).
  { unfold wire_preset. rewrite <- X3. f_equal; f_equal; lia. }
  assert (C : wire_command r2 off k = fo_command x).
  { unfold wire_command. replace (off / 16 + 4 + Z.of_nat k) with (off / 16 + Z.of_nat (4 + k)) by lia.
    destruct (bit (r2 (off / 16 + Z.of_nat (4 + k))) 8); [symmetry; apply X4; reflexivity|].
    destruct (bit (r2 (off / 16 + Z.of_nat (4 + k))) 9); [symmetry; apply X5; reflexivity|].
    destruct (fo_command x) as [[]|]; [exfalso..|reflexivity].
    - discriminate (proj2 X4 eq_refl).
    - discriminate (proj2 X5 eq_refl). }
  split.
  - intros u Hu. rewrite Hu in Hv. subst u. exists x. auto.
  - intros Hnone. rewrite Hnone in Hv. unfold cell in Hv. rewrite N in Hv. specialize (HPh k v Hv). cbn [physical_output] in HPh.
    destruct HPh as (d & D1 & D2 & ->). cbn [preset] in X1. apply Some_inj in X1. subst x. cbn [fo_duration fo_command] in W, C.
    change (registers (output_bytes (MFCNT ch))) with 6%nat in HR.
    assert (R : forall t, (t < 6)%nat -> reg (registers_at 0x0800 (read_registers r1 ADDR_PACKED_PROCESS_OUTPUT_DATA k0) off) t = r1 (off / 16 + Z.of_nat t)).
    { intros t Ht. unfold registers_at. rewrite E0. cbn [Z.eqb]. rewrite skipn_reg. change ADDR_PACKED_PROCESS_OUTPUT_DATA with 0x0800.
      rewrite read_reg by lia. f_equal. lia. }
    do 2 rewrite R in D2 by lia. rewrite R in C by lia.
    assert (W1 : wire_preset r1 off k = nanoseconds d / 1000).
    { rewrite D2, Z.mul_comm, Z_div_mult by lia. unfold wire_preset. f_equal; f_equal; lia. }
    split; [congruence|]. rewrite C. unfold wire_command. replace (off / 16 + 4 + Z.of_nat k) with (off / 16 + Z.of_nat (4 + k)) by lia. reflexivity.
Qed.

Lemma C99_counter_all : forall prof register c0 h cs register' i m o off k,
  (forall a, is_u16 (register a)) -> register 0x27FE <= 64 -> start_up prof register = Ok c0 ->
  together prof (fun _ => c0) register h cs register' ->
  alone c0 i m o off -> 0x8000 <= off -> (exists ch, m = MFCNT ch) -> (k < 2)%nat ->
  match in_force (after_history (mk_address i k) h) with
  | Some v => exists x, preset v = Some x /\ nanoseconds (fo_duration x) <= max_preset /\
      wire_preset register' off k = nanoseconds (fo_duration x) / 1000 /\ wire_command register' off k = fo_command x
  | None => wire_preset register' off k = wire_preset register off k /\ wire_command register' off k = wire_command register off k
  end.
Proof.
  intros prof register c0 h cs register' i m o off k Hu Hle Hs H Hal Hoff Hm Hk.
  assert (Hkc : (k < channels m)%nat) by (destruct Hm as (ch & ->); exact Hk).
  refine (kg_force _ _ _ _ _ _ _ _ (keeping_all prof register c0 i m o off k (fun f r => match f with
    | Some v => exists x, preset v = Some x /\ nanoseconds (fo_duration x) <= max_preset /\
      wire_preset r off k = nanoseconds (fo_duration x) / 1000 /\ wire_command r off k = fo_command x
    | None => wire_preset r off k = wire_preset register off k /\ wire_command r off k = wire_command register off k end)
    Hu Hle Hs Hal Hkc (conj eq_refl eq_refl) _ _ h cs register' H)).
  - intros c r1 c' r2 f Hr Ha HX HP. destruct (exchange_counter _ _ _ _ _ _ _ _ _ _ Hr HX Ha Hm Hk) as [B1 B2].
    destruct (requested c (mk_address i k)) as [v|]; [apply B1; reflexivity|]. destruct (B2 eq_refl) as [-> ->]. exact HP.
  - intros f r1 r2 HP E. unfold wire_preset, wire_command in *.
    pose proof (input_only off r1 r2 (2 * Z.of_nat k) Hoff ltac:(lia) E) as X1.
    pose proof (input_only off r1 r2 (2 * Z.of_nat k + 1) Hoff ltac:(lia) E) as X2.
    pose proof (input_only off r1 r2 (4 + Z.of_nat k) Hoff ltac:(lia) E) as X3. rewrite !Z.add_assoc in X2, X3.
    rewrite X1, X2, X3. exact HP.
Qed.

(** ** Channels used by one program only *)
Lemma done_by_all p a h : (forall q v, In (Asks q a v) h -> q = p) ->
  in_force (after_history a h) = in_force (after_history a (done_by p h)) /\
  waiting (after_history a h) p = waiting (after_history a (done_by p h)) p /\
  forall q, q <> p -> waiting (after_history a h) q = None.
Proof.
  induction h as [|e h IH] using rev_ind; intros Hq; [auto|].
  destruct IH as (I1 & I2 & I3). { intros q v Hi. apply (Hq q v). apply in_or_app. left. exact Hi. }
  unfold done_by. rewrite filter_app. fold (done_by p h). unfold after_history in *. rewrite !fold_left_app. cbn [fold_left filter].
  set (b := fold_left (follow a) h _) in *. set (b' := fold_left (follow a) (done_by p h) _) in *.
  assert (T : forall q f v, q <> p -> note f q v p = f p) by (intros q f v N; apply note_other; congruence).
  destruct e as [q a' v|q|q|q|q i size|q i buf|q|]; cbn [of_program]; try (destruct (Nat.eqb_spec q p) as [->|N]); cbn [fold_left follow];
    try (split; [exact I1|]; split; [exact I2|exact I3]).
  - destruct (address_eqb_spec a' a) as [->|_]; cbn [waiting in_force]; [|auto]. split; [exact I1|]. rewrite !note_same. split; [reflexivity|].
    intros q Hn. rewrite note_other by exact Hn. apply I3. exact Hn.
  - destruct (address_eqb_spec a' a) as [->|_]; [|auto]. exfalso. apply N. apply (Hq q v). apply in_or_app. right. left. reflexivity.
  - cbn [waiting in_force]. rewrite I2, I1, !note_same. split; [reflexivity|]. split; [reflexivity|].
    intros q Hn. rewrite note_other by exact Hn. apply I3. exact Hn.
  - cbn [waiting in_force]. rewrite (I3 q N), T by exact N. split; [exact I1|]. split; [exact I2|]. intros q' Hn. unfold note.
    destruct (Nat.eqb q' q); [reflexivity|]. apply I3. exact Hn.
  - cbn [waiting in_force]. rewrite !note_same. split; [exact I1|]. split; [reflexivity|]. intros q Hn. rewrite note_other by exact Hn. apply I3. exact Hn.
  - cbn [waiting in_force]. rewrite T by exact N. split; [exact I1|]. split; [exact I2|]. intros q' Hn. unfold note.
    destruct (Nat.eqb q' q); [reflexivity|]. apply I3. exact Hn.
  - cbn [waiting in_force]. rewrite !note_same. split; [exact I1|]. split; [reflexivity|]. intros q Hn. rewrite note_other by exact Hn. apply I3. exact Hn.
  - cbn [waiting in_force]. rewrite T by exact N. split; [exact I1|]. split; [exact I2|]. intros q' Hn. unfold note.
    destruct (Nat.eqb q' q); [reflexivity|]. apply I3. exact Hn.
Qed.

Lemma C99_own_all : forall prof register c0 h cs register' h2 cs2 register2 p i m o off n k,
  (forall a, is_u16 (register a)) -> register 0x27FE <= 64 -> start_up prof register = Ok c0 ->
  together prof (fun _ => c0) register h cs register' -> together prof (fun _ => c0) register h2 cs2 register2 ->
  alone c0 i m o off -> 0x8000 <= off -> digital_outputs m = Some n -> (k < n)%nat ->
  (forall q v, In (Asks q (mk_address i k) v) h -> q = p) -> (forall q v, In (Asks q (mk_address i k) v) h2 -> q = p) ->
  done_by p h = done_by p h2 ->
  wire_bit register' off k = wire_bit register2 off k.
Proof.
  intros prof register c0 h cs register' h2 cs2 register2 p i m o off n k Hu Hle Hs H H2 Hal Hoff Hn Hk Q1 Q2 E.
  pose proof (C99_digital_all _ _ _ _ _ _ _ _ _ _ _ _ Hu Hle Hs H Hal Hoff Hn Hk) as A.
  pose proof (C99_digital_all _ _ _ _ _ _ _ _ _ _ _ _ Hu Hle Hs H2 Hal Hoff Hn Hk) as B.
  destruct (done_by_all p _ _ Q1) as (E1 & _). destruct (done_by_all p _ _ Q2) as (E2 & _). rewrite E1, E in A. rewrite E2 in B.
  destruct (in_force (after_history (mk_address i k) (done_by p h2))) as [v|]; congruence.
Qed.

(** What the program sees of the outputs set by others. *)
Lemma C99_seen_all : forall prof register c0 h cs register' p c r2 i m o off n k,
  (forall a, is_u16 (register a)) -> register 0x27FE <= 64 -> start_up prof register = Ok c0 ->
  together prof (fun _ => c0) register h cs register' -> exchange prof (cs p) register' c r2 ->
  alone c0 i m o off -> 0x8000 <= off -> digital_outputs m = Some n -> (k < n)%nat ->
  exists b, cell (outputs c) i k = Some (Bit b) /\
  match in_force (after_history (mk_address i k) h) with
  | Some v => switches v = Some b
  | None => b = wire_bit register off k
  end.
Proof.
  intros prof register c0 h cs register' p c r2 i m o off n k Hu Hle Hs H HX Hal Hoff Hn Hk.
  exists (wire_bit register' off k). split; [|exact (C99_digital_all _ _ _ _ _ _ _ _ _ _ _ _ Hu Hle Hs H Hal Hoff Hn Hk)].
  assert (Hkc : (k < channels m)%nat) by (destruct (digital_not_serial m n Hn) as (_ & Hx & _); rewrite Hx; exact Hk).
  destruct (keeping_all prof register c0 i m o off k (fun _ _ => True) Hu Hle Hs Hal Hkc I (fun _ _ _ _ _ _ _ _ _ => I) (fun _ _ _ _ _ => I) h cs register' H)
    as [K1 K2 _ _ _].
  destruct (K2 p) as [M1 M2]. pose proof (alone_static c0 (cs p) i m o off M1 M2 Hal) as Hal1.
  destruct HX as (n0 & k0 & image & Hn0 & Hk0 & HC & _). pose proof Hal1 as (Hat & Eo & Hns & HP & _).
  destruct (exchange_place _ _ _ _ _ _ _ _ _ _ _ (K1 p) Hn0 Hk0 HC Hat Eo) as (Hz & Hmod & Hlo & _ & HR).
  assert (0 < registers (output_bytes m))%nat by (unfold registers; lia).
  assert (Pl : SpecLossless.placed off (output_bytes m)) by (unfold SpecLossless.placed; lia).
  destruct (C83_outputs_any _ _ _ _ _ _ _ _ _ _ (K1 p) HC Hat Hns Eo Pl) as (row & N & L & HPh).
  destruct (nth_error_lt_Some row k) as (v & Hv); [lia|]. unfold cell. rewrite N, Hv. specialize (HPh k v Hv).
  assert (v = Bit (bit (reg (registers_at 0x0800 (read_registers register' ADDR_PACKED_PROCESS_OUTPUT_DATA k0) off) 0) k)) as ->.
  { destruct m; try discriminate Hn; exact HPh. }
  do 2 f_equal. unfold registers_at. change ADDR_PACKED_PROCESS_OUTPUT_DATA with 0x0800.
  assert (R : reg (skipn (Z.to_nat (off / 16 - 0x0800)) (read_registers register' 0x0800 k0)) 0 = register' (off / 16)).
  { rewrite skipn_reg, read_reg by lia. f_equal. lia. }
  unfold wire_bit. destruct Hmod as [E|E]; rewrite E; [change (0 =? 8) with false|change (8 =? 8) with true]; cbv iota.
  - rewrite R. reflexivity.
  - unfold reg at 1. cbn [nth]. rewrite R. unfold bit. change 256 with (2 ^ 8). rewrite <- (Z.shiftr_div_pow2 (register' (off / 16)) 8) by lia.
    rewrite Z.shiftr_spec by lia. f_equal. lia.
Qed.
