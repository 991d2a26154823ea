(** Proofs for C72: a control loop that has made one successful cycle goes on. *)
From Coq Require Import ZArith List Bool Lia ZifyBool ZifyNat.
From Verif Require Import Base Facts F32 Types Lib Util Digital Analog Fcnt Com Fbc
  SpecCodec SpecSerial SpecCoupler SpecImage SpecAnalog SpecOutcome SpecIdle SpecSteady ProofsAddr ProofsCodec ProofsFcnt ProofsSerialCodec
  ProofsModule ProofsImage ProofsLayout ProofsDigital ProofsSerial ProofsLoop ProofsCycle ProofsCoupler ProofsAnalog
  ProofsWitness ProofsOrder ProofsIdle ProofsOutcome.
Import ListNotations.
Local Open Scope Z_scope.
Ltac Zify.zify_post_hook ::= Z.div_mod_to_equations.

Lemma image_u16 prof c input output c' image : coupler_ok c -> cycle prof c input output c' (Ok image) -> Forall is_u16 image.
Proof.
  intros Hok H. destruct (ok_cycle _ _ _ _ _ _ Hok H) as (ins & outs & sent & E1 & E2 & E3 & E4 & E4' & _ & _ & E7).
  assert (Huo : Forall is_u16 output) by apply H.
  pose proof (sent_wire _ _ _ _ _ _ _ _ Hok Huo E4 E7) as Hw.
  destruct (process_lays _ _ _ _ (off_all c Hok) E3) as (_ & ps & Lps & HL & Hps).
  apply (lays_u16 _ _ _ HL); [constructor|]. intros o d Hi. apply In_nth_error in Hi. destruct Hi as (i & Hi).
  destruct (nth_error_lt_Some (infos c) i) as ((m & o') & Hm); [apply nth_error_Some_lt in Hi; lia|].
  destruct (Hps i m o' Hm) as (d' & Hp & Hn & Henc). rewrite Hi in Hp. apply Some_inj, pair_inj in Hp. destruct Hp as [-> ->].
  destruct (mo_output o') eqn:Eo; [|rewrite Hn by reflexivity; constructor].
  destruct Henc as (vs & Hvs & Hev); [congruence|].
  assert (Hwv : Forall wire_value vs) by (exact (proj1 (Forall_forall _ _) Hw _ (nth_error_In _ _ Hvs))).
  apply (encoded_words _ _ _ _ Hwv Hev).
Qed.

Lemma image_ready prof c input output c' image : reachable prof c -> byte_wide c -> cycle prof c input output c' (Ok image) ->
  outputs_readable c image /\
  (forall i ch o off k, module_at c i (MFCNT ch) o -> mo_output o = Some off -> (k < 2)%nat -> preset_micros image off k <= 8388607) /\
  outputs_packed c.
Proof.
  intros Hr Hbw H. pose proof (reachable_ok _ _ Hr) as Hok. pose proof (image_u16 _ _ _ _ _ _ Hok H) as Hui.
  pose proof (proj1 (C59_all _ _ _ _ _ _ Hr H) (ex_intro _ image eq_refl)) as (_ & Ro & _ & _ & Hpk).
  destruct (ok_cycle _ _ _ _ _ _ Hok H) as (ins & outs & sent & E1 & E2 & E3 & E4 & E4' & _ & _ & E7).
  assert (Huo : Forall is_u16 output) by apply H.
  pose proof (sent_wire _ _ _ _ _ _ _ _ Hok Huo E4 E7) as Hw.
  destruct (process_lays _ _ _ _ (off_all c Hok) E3) as (_ & ps & Lps & HL & Hps).
  assert (Key : forall i m o off, module_at c i m o -> mo_output o = Some off ->
    exists raw ov d', prepare_raw_data_to_process prof off 0x0800 (output_bytes m) image = Ok raw /\ 0x8000 <= off /\ is_u16 off /\
      output_bytes m <> 0%nat /\ complete m /\ length raw = registers (output_bytes m) /\ Forall is_u16 raw /\
      mod_process_output_data m raw = Ok ov /\ mod_process_output_values prof m ov = Ok d').
  { intros i m o off Hm Eo. pose proof Hm as Hi. apply infos_at in Hi.
    destruct (Hps i m o Hi) as (d & Hp & _ & Henc). destruct Henc as (vs & Hvs & Hev); [congruence|].
    destruct (Ro i m o off Hm Eo) as ((Hz & _ & Hbase & _) & _).
    assert (Ho : is_u16 off) by (exact (infos_off c Hok i m o off Hi Eo)).
    assert (Hwv : Forall wire_value vs) by (exact (proj1 (Forall_forall _ _) Hw _ (nth_error_In _ _ Hvs))).
    destruct (encoded_words _ _ _ _ Hwv Hev) as (Ld & Hdu). rewrite (split_at ps i _ Hp) in HL.
    destruct (prepare_there prof _ _ _ _ _ off m HL Hui Eo Ho Hz Ld (Hbw i m o off Hm Eo)) as (raw & Hraw).
    destruct (reads_own _ _ _ _ _ _ _ _ _ HL Hui Eo Ho Hz Ld Hdu Hraw) as (Lr & Hru & H0 & _).
    assert (Hcm : complete m) by (eapply complete_at; [exact Hok|apply Hm]).
    destruct (total prof m vs d raw) as (ov' & d' & Hd & He'); auto.
    { destruct (lays_own _ _ _ _ _ _ _ HL Eo) as (_ & [E0|[E8 _]] & _); [left; apply (H0 E0)|right; exact (Hbw i m o off Hm Eo E8)]. }
    exists raw, ov', d'. split; [exact Hraw|]. split; [lia|]. split; [exact Ho|]. split; [exact Hz|]. split; [exact Hcm|].
    split; [rewrite Lr, Ld, <- words_count by exact Hz; apply registers_count|]. auto. }
  split; [|split; [|exact Hpk]].
  - intros i m o off Hm Eo. destruct (Key i m o off Hm Eo) as (raw & ov & d' & K1 & K2 & K3 & K4 & K5 & K6 & K7 & K8 & K9).
    apply (proj1 (out_row_iff prof m o image K5 (ok_off c Hok i m o Hm) Hui ltac:(intros off' E; rewrite Eo in E; apply Some_inj in E; lia))); [|exact Eo].
    exists ov. unfold output_row. cbn [fst snd]. rewrite Eo, K1. exact K8.
  - intros i ch o off k Hm Eo Hk. destruct (Key i _ o off Hm Eo) as (raw & ov & d' & K1 & K2 & K3 & K4 & K5 & K6 & K7 & K8 & K9).
    pose proof (output_length _ _ _ K8) as Lov. destruct (nth_error_lt_Some ov k) as (v & Hv); [rewrite Lov; exact Hk|].
    assert (Hwo : Forall wire_value ov).
    { destruct (ok_off c Hok i _ o Hm) as [_ O1]. apply (out_row_wire prof (MFCNT ch, o) image ov Hui O1).
      unfold output_row. cbn [fst snd]. rewrite Eo, K1. exact K8. }
    assert (Hcan : can_output (MFCNT ch) v).
    { apply (encode_accepts prof (MFCNT ch) ov d'); try assumption; try reflexivity. eapply nth_error_In; exact Hv. }
    pose proof (proj1 (shown_accepted (MFCNT ch) raw ov k v K5 K6 K7 eq_refl K4 K8 Hv) Hcan ch eq_refl) as Hp.
    assert (Hb : 0 <= 2048 <= off / 16) by lia.
    unfold preset_micros. change (registers (output_bytes (MFCNT ch))) with 6%nat in K6.
    rewrite !(prepared_byte _ _ _ _ _ _ _ K3 Hb Hui K1) in Hp by (change (registers (output_bytes (MFCNT ch))) with 6%nat; lia).
    rewrite Nat.add_0_r. exact Hp.
Qed.

Definition high (c : coupler) : Prop := forall i m o off, module_at c i m o -> mo_output o = Some off -> 0x8000 <= off.

Lemma high_static c c' : c_modules c' = c_modules c -> c_offsets c' = c_offsets c -> high c -> high c'.
Proof. intros E1 E2. unfold high, module_at. rewrite E1, E2. auto. Qed.

Lemma runs_reach prof c1 cs c2 ans : runs prof c1 cs c2 ans -> reachable prof c1 -> high c1 ->
  reachable prof c2 /\ c_modules c2 = c_modules c1 /\ c_offsets c2 = c_offsets c1.
Proof.
  induction 1 as [c|c x c' a cs c2 ans Hx HR IH]; intros Hr Hp; [auto|].
  assert (K : reachable prof c' /\ c_modules c' = c_modules c /\ c_offsets c' = c_offsets c).
  { destruct Hx as [c b v Hv|c j n|c j buf Hb|c input output c' r Hc].
    - destruct (set_static c b v) as (_ & _ & S3 & S4 & _). split; [apply R_set; assumption|auto].
    - destruct (read_static c j n) as (_ & _ & S3 & S4 & _). split; [apply R_read; assumption|auto].
    - destruct (write_static c j buf) as (_ & _ & S3 & S4 & _). split; [apply R_write; assumption|auto].
    - split; [|exact (cycle_static _ _ _ _ _ _ Hc)]. apply (cycle_reachable _ c input output _ r Hr Hc).
      apply (C43_partial_all _ _ _ _ _ _ Hr (or_intror Hp) Hc). }
  destruct K as (K1 & K2 & K3). destruct (IH K1 (high_static _ _ K2 K3 Hp)) as (I1 & I2 & I3).
  split; [exact I1|]. split; congruence.
Qed.

Lemma cycle_high prof c input output c' image : reachable prof c -> cycle prof c input output c' (Ok image) -> high c.
Proof.
  intros Hr H. pose proof (proj1 (C59_all _ _ _ _ _ _ Hr H) (ex_intro _ image eq_refl)) as (_ & Ro & _).
  intros i m o off Hm Eo. destruct (Ro i m o off Hm Eo) as ((_ & _ & Hb & _) & _). lia.
Qed.

Lemma readable_static c c' image : c_modules c' = c_modules c -> c_offsets c' = c_offsets c ->
  outputs_readable c image -> outputs_readable c' image.
Proof. intros E1 E2. unfold outputs_readable, module_at. rewrite E1, E2. auto. Qed.

Lemma ready_cycle prof c input output c1 image : reachable prof c -> byte_wide c -> cycle prof c input output c1 (Ok image) ->
  forall c2, c_modules c2 = c_modules c -> c_offsets c2 = c_offsets c -> reachable prof c2 ->
  forall input2 c3 r, cycle prof c2 input2 image c3 r ->
  (exists image', r = Ok image') <-> inputs_readable c2 input2 /\ requests_accepted c2.
Proof.
  intros Hr Hbw H c2 E1 E2 Hr2 input2 c3 r H2. destruct (image_ready _ _ _ _ _ _ Hr Hbw H) as (A & B & C).
  rewrite (C59_all _ _ _ _ _ _ Hr2 H2). unfold cycle_possible. split; [tauto|]. intros [H3 H4].
  split; [exact H3|]. split; [exact (readable_static _ _ _ E1 E2 A)|]. split; [exact H4|]. split.
  - intros i ch o off k Hm Eo Hk _. apply (B i ch o off k); auto. unfold module_at in *. rewrite <- E1, <- E2. exact Hm.
  - unfold outputs_packed in *. rewrite E1, E2. exact C.
Qed.

Lemma steady_run prof c0 input0 output0 c1 image cs c2 ans :
  reachable prof c0 -> cycle prof c0 input0 output0 c1 (Ok image) -> runs prof c1 cs c2 ans ->
  reachable prof c2 /\ c_modules c2 = c_modules c0 /\ c_offsets c2 = c_offsets c0.
Proof.
  intros Hr H HR.
  assert (Hr1 : reachable prof c1) by (apply (cycle_reachable _ c0 input0 output0 _ (Ok image) Hr H); discriminate).
  destruct (cycle_static _ _ _ _ _ _ H) as [M1 M2].
  destruct (runs_reach _ _ _ _ _ HR Hr1 (high_static _ _ M1 M2 (cycle_high _ _ _ _ _ _ Hr H))) as (Hr2 & N1 & N2).
  split; [exact Hr2|]. split; congruence.
Qed.

Lemma C72_steady_all : forall prof c0 input0 output0 c1 image cs c2 ans input c3 r,
  reachable prof c0 -> byte_wide c0 -> cycle prof c0 input0 output0 c1 (Ok image) ->
  runs prof c1 cs c2 ans -> cycle prof c2 input image c3 r ->
  (exists image', r = Ok image') <-> inputs_readable c2 input /\ requests_accepted c2.
Proof.
  intros prof c0 input0 output0 c1 image cs c2 ans input c3 r Hr Hbw H HR H2.
  destruct (steady_run _ _ _ _ _ _ _ _ _ Hr H HR) as (Hr2 & N1 & N2).
  exact (ready_cycle prof c0 input0 output0 c1 image Hr Hbw H c2 N1 N2 Hr2 input c3 r H2).
Qed.

(** After a cycle that got as far as the requests, none is left. *)
Lemma requests_taken prof c input output c' r : coupler_ok c -> cycle prof c input output c' r ->
  (exists ins, process_input_data prof (infos c) input = Ok ins) -> (exists outs, process_output_data prof (infos c) output = Ok outs) ->
  forall i m o k, module_at c i m o -> is_serial m = false -> requested c' (mk_address i k) = None.
Proof.
  intros Hok H (ins & Hi) (outs & Ho) i m o k Hat Hs.
  destruct (cycle_inv _ _ _ _ _ _ Hok H) as [(_ & Hn & _)|[(_ & _ & _ & Hn & _)|(ins1 & outs1 & sent' & F1 & F2 & F3 & F4 & _ & _ & _ & _ & F7)]].
  { exfalso. exact (Hn ins Hi). }
  { exfalso. exact (Hn outs Ho). }
  destruct (F7 i m o Hat) as (iv & ov & _ & _ & _ & _ & Hc).
  destruct Hc as [row S1 S2 S3 S4 S5 S6|l ch rin rout p0 p' rs last -> _ _ _ _ _ _ _|l ch -> _]; try discriminate.
  auto.
Qed.

Lemma set_all_origin reqs : forall c a v, requested (set_all c reqs) a = Some v -> In (a, v) reqs \/ requested c a = Some v.
Proof.
  induction reqs as [|(b & w) reqs IH]; intros c a v H; [right; exact H|]. cbn [set_all] in H.
  destruct (IH _ _ _ H) as [Hi|Hi]; [left; right; exact Hi|].
  destruct (valid_address_dec c b) as [Hb|Hb].
  - rewrite set_requested in Hi by exact Hb. destruct (address_eqb_spec b a) as [->|N].
    + apply Some_inj in Hi. subst w. left. left. reflexivity.
    + right. exact Hi.
  - rewrite set_output_invalid in Hi by exact Hb. right. exact Hi.
Qed.

Lemma set_all_reach prof reqs : forall c, Forall (fun av => rust_value (snd av)) reqs -> reachable prof c -> reachable prof (set_all c reqs).
Proof.
  induction reqs as [|(b & w) reqs IH]; intros c HF H; [exact H|]. inversion HF; subst. cbn [set_all]. apply IH; [assumption|].
  apply R_set; assumption.
Qed.

Lemma C72_recovers_all : forall prof c0 input0 output0 c1 image cs c2 ans input c3 r reqs input' image' c4 r',
  reachable prof c0 -> byte_wide c0 -> cycle prof c0 input0 output0 c1 (Ok image) ->
  runs prof c1 cs c2 ans -> cycle prof c2 input image c3 r -> inputs_readable c2 input ->
  image' = image \/ r = Ok image' ->
  acceptable c3 reqs -> Forall (fun av => rust_value (snd av)) reqs ->
  cycle prof (set_all c3 reqs) input' image' c4 r' -> inputs_readable c3 input' ->
  exists image'', r' = Ok image''.
Proof.
  intros prof c0 input0 output0 c1 image cs c2 ans input c3 r reqs input' image' c4 r' Hr Hbw H HR H2 Hin Him Hacc Hv H4 Hin'.
  destruct (steady_run _ _ _ _ _ _ _ _ _ Hr H HR) as (Hr2 & N1 & N2). pose proof (reachable_ok _ _ Hr2) as Hok2.
  destruct (image_ready _ _ _ _ _ _ Hr Hbw H) as (A & _ & _).
  assert (Hhigh : high c2) by (exact (high_static _ _ N1 N2 (cycle_high _ _ _ _ _ _ Hr H))).
  assert (Hr3 : reachable prof c3) by (apply (cycle_reachable _ c2 input image _ r Hr2 H2); apply (C43_partial_all _ _ _ _ _ _ Hr2 (or_intror Hhigh) H2)).
  destruct (cycle_static _ _ _ _ _ _ H2) as [M1 M2].
  assert (Ei : exists ins, process_input_data prof (infos c2) input = Ok ins) by (apply (proj2 (inputs_iff prof c2 input Hok2 ltac:(apply H2))); exact Hin).
  assert (Eo : exists outs, process_output_data prof (infos c2) image = Ok outs).
  { apply (proj2 (outputs_iff prof c2 image Hok2 ltac:(apply H2) Hhigh)). exact (readable_static _ _ _ N1 N2 A). }
  pose proof (requests_taken _ _ _ _ _ _ Hok2 H2 Ei Eo) as Hnone.
  destruct (set_all_static reqs c3) as (_ & _ & T1 & T2 & _).
  assert (Hra : requests_accepted (set_all c3 reqs)).
  { intros i m o k v Hat Ho Hs Hreq. assert (Hat3 : module_at c3 i m o) by (unfold module_at in *; rewrite <- T1, <- T2; exact Hat).
    destruct (set_all_origin _ _ _ _ Hreq) as [Hi|Hi]; [exact (Hacc _ v m o Hi Hat3 Ho Hs)|].
    rewrite (Hnone i m o k) in Hi; [discriminate| |exact Hs]. unfold module_at in *. rewrite <- M1, <- M2. exact Hat3. }
  assert (Hrs : reachable prof (set_all c3 reqs)) by (apply set_all_reach; assumption).
  assert (Hinr : inputs_readable (set_all c3 reqs) input') by (unfold inputs_readable, module_at in *; rewrite T1, T2; exact Hin').
  destruct Him as [Him|Him]; subst.
  - apply (ready_cycle prof c0 input0 output0 c1 image Hr Hbw H (set_all c3 reqs) ltac:(congruence) ltac:(congruence) Hrs input' c4 r' H4). auto.
  - assert (Hbw2 : byte_wide c2) by (unfold byte_wide, module_at in *; rewrite N1, N2; exact Hbw).
    apply (ready_cycle prof c2 input image c3 image' Hr2 Hbw2 H2 (set_all c3 reqs) ltac:(congruence) ltac:(congruence) Hrs input' c4 r' H4). auto.
Qed.

(** ** The first cycle *)

Lemma blank_byte n k : nth k (bytes_of_words (blank n)) 0 = 0.
Proof.
  unfold blank. revert k. induction n as [|n IH]; intros k; [destruct k; reflexivity|]. cbn [repeat bytes_of_words flat_map app].
  destruct k as [|[|k]]; [reflexivity|reflexivity|]. exact (IH k).
Qed.

Lemma packed_aligned l : forall n i m o off, packed n l -> nth_error l i = Some (m, o) -> mo_output o = Some off -> off mod 16 = 0 \/ off mod 16 = 8.
Proof.
  induction l as [|(m & o) l IH]; intros n [|i] m' o' off H Hi Eo; try discriminate; cbn [packed nth_error] in *.
  - apply Some_inj, pair_inj in Hi. destruct Hi as [-> ->]. rewrite Eo in H. destruct H as [[H _]|[H [Hn _]]]; lia.
  - destruct (mo_output o) as [off1|]; [destruct H as [[_ H]|(_ & _ & H)]|]; eapply IH; eassumption.
Qed.

Lemma C72_first_all : forall prof c input n c' r, reachable prof c -> outputs_packed c -> outputs_within c n ->
  cycle prof c input (blank n) c' r ->
  (exists image, r = Ok image) <-> inputs_readable c input /\ requests_accepted c.
Proof.
  intros prof c input n c' r Hr Hp Hw H. rewrite (C59_all _ _ _ _ _ _ Hr H). unfold cycle_possible. split; [tauto|]. intros [H1 H2].
  split; [exact H1|]. split; [|split; [exact H2|split; [|exact Hp]]].
  - intros i m o off Hm Eo. destruct (Hw i m o off Hm Eo) as [Hz Hle].
    assert (Hi : nth_error (combine (c_modules c) (c_offsets c)) i = Some (m, o)) by (destruct Hm as [Ha Hb]; rewrite nth_error_combine, Ha, Hb; reflexivity).
    split.
    + split; [exact Hz|]. split; [exact (packed_aligned _ _ _ _ _ _ Hp Hi Eo)|].
      pose proof (packed_high _ _ _ _ _ _ Hp Hi Eo). split; [lia|]. unfold blank. rewrite repeat_length. exact Hle.
    + intros l ch _. unfold data_byte. rewrite blank_byte. lia.
  - intros i ch o off k _ _ _ _. unfold preset_micros, data_byte. rewrite !blank_byte. vm_compute. discriminate.
Qed.
