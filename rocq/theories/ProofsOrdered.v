(** Proofs for C102: interrupted writes of serial messages. *)
From Coq Require Import ZArith List Bool Lia ZifyBool ZifyNat.
From Verif Require Import Base Facts F32 Types Lib Util Com Fbc SpecCodec ProofsSerialCodec SpecSerial SpecCoupler SpecImage SpecOutcome
  SpecSystem SpecGlitch SpecFault SpecOrdered ProofsSerial ProofsModule ProofsImage ProofsLayout ProofsLoop ProofsCycle ProofsCoupler ProofsNew ProofsOrder ProofsOutcome
  ProofsGlitch ProofsSerialSystem ProofsSystem ProofsFault.
From Verif Require ProofsTorn.
Import ListNotations.
Local Open Scope Z_scope.
Ltac Zify.zify_post_hook ::= Z.div_mod_to_equations.

(** *** Bytes of a partly written message *)

Definition set_data (o : rs_out) (d : list Z) : rs_out :=
  mk_rs_out (ro_rx_buf_flush o) (ro_tx_buf_flush o) (ro_disable_tx_hw_buffer o) (ro_tx_cnt o) (ro_rx_cnt_ack o) (ro_reset o) d.

Lemma out_decode st n rest : rs_out_from_bytes (st :: n :: rest) =
  if Nat.ltb (length rest) (Z.to_nat n) then Err BufferLength
  else Ok (mk_rs_out (test_bit st 0) (test_bit st 1) (test_bit st 2) (cnt_from_status_byte st) (cnt_ack_from_status_byte st)
             (test_bit st 7) (firstn (Z.to_nat n) rest)).
Proof.
  unfold rs_out_from_bytes. replace (Nat.ltb (length (st :: n :: rest)) 2) with false by (cbn [length]; lia).
  cbn [index nth_error bind].
  destruct (Nat.ltb_spec (length rest) (Z.to_nat n)) as [H|H].
  - replace (Nat.ltb (length (st :: n :: rest)) (Z.to_nat n + 2)) with true by (cbn [length]; lia). reflexivity.
  - replace (Nat.ltb (length (st :: n :: rest)) (Z.to_nat n + 2)) with false by (cbn [length]; lia).
    unfold slice. replace (Nat.leb 2 (Z.to_nat n + 2) && Nat.leb (Z.to_nat n + 2) (length (st :: n :: rest))) with true by (cbn [length]; lia).
    replace (Z.to_nat n + 2 - 2)%nat with (Z.to_nat n) by lia. reflexivity.
Qed.

Lemma nth_error_firstn {A} (x : list A) n k : nth_error (firstn n x) k = if Nat.ltb k n then nth_error x k else None.
Proof.
  revert n k. induction x as [|a x IH]; intros [|n] [|k]; cbn [firstn nth_error]; try reflexivity.
  - destruct (Nat.ltb _ _); reflexivity.
  - rewrite IH. reflexivity.
Qed.

Lemma out_part_nth l ooff image k : ooff mod 16 = 0 -> nth_error (out_part l ooff image) k =
  if Nat.ltb k (message_size l) then
    match nth_error image (header ooff + k / 2) with
    | Some w => Some (if Nat.even k then w mod 256 else w / 256) | None => None end
  else None.
Proof.
  intros H. unfold out_part, image_bytes. rewrite nth_error_firstn. destruct (Nat.ltb k (message_size l)); [|reflexivity].
  rewrite nth_error_skipn, ProofsTorn.bytes_nth.
  assert (E : first_byte 0x0800 ooff = (2 * header ooff)%nat) by (unfold first_byte, header; rewrite H; cbn [Z.div]; lia).
  rewrite E.
  replace ((2 * header ooff + k) / 2)%nat with (header ooff + k / 2)%nat by lia.
  rewrite Nat.even_add, Nat.even_mul. cbn [Nat.even orb]. destruct (Nat.even k); reflexivity.
Qed.

Lemma message_half l k : (k < message_size l)%nat -> (k / 2 < message_registers l)%nat.
Proof. destruct l; cbn [message_size message_registers]; lia. Qed.

Definition mixture (written : nat -> bool) (image register mixed : list Z) : Prop :=
  forall a, nth_error mixed a = nth_error (if written a then image else register) a.

Lemma mixed_nth l ooff written image register mixed k : ooff mod 16 = 0 -> mixture written image register mixed ->
  nth_error (out_part l ooff mixed) k =
  nth_error (out_part l ooff (if written (header ooff + k / 2)%nat then image else register)) k.
Proof. intros H M. rewrite !out_part_nth by exact H. rewrite M. reflexivity. Qed.

Lemma nth_error_eq {A} (x : list A) : forall y, (forall k, nth_error x k = nth_error y k) -> x = y.
Proof.
  induction x as [|a x IH]; intros [|b y] H; [reflexivity|specialize (H 0%nat); discriminate..|].
  f_equal; [specialize (H 0%nat); apply Some_inj in H; exact H|]. apply IH. intros k. exact (H (S k)).
Qed.

Lemma out_part_le l ooff image : (length (out_part l ooff image) <= message_size l)%nat.
Proof. unfold out_part, image_bytes. apply firstn_le_length. Qed.

Lemma mixed_length l ooff written image register mixed : ooff mod 16 = 0 -> mixture written image register mixed ->
  length (out_part l ooff image) = message_size l -> length (out_part l ooff register) = message_size l ->
  length (out_part l ooff mixed) = message_size l.
Proof.
  intros H M Li Lr. apply Nat.le_antisymm; [apply out_part_le|].
  destruct (Nat.le_gt_cases (message_size l) (length (out_part l ooff mixed))) as [G|G]; [exact G|exfalso].
  assert (E : nth_error (out_part l ooff mixed) (length (out_part l ooff mixed)) = None) by (apply nth_error_None; lia).
  rewrite (mixed_nth _ _ _ _ _ _ _ H M) in E. apply nth_error_None in E. destruct (written _); lia.
Qed.

Lemma two_more (x : list Z) l : length x = message_size l -> exists st n rest, x = st :: n :: rest.
Proof. destruct x as [|st [|n rest]]; intros H; [destruct l; discriminate..|eauto]. Qed.

(** With the first register, the whole message is written; without it, only its data can change. *)
Lemma mixed_decode l ooff written image register mixed oi orr : ooff mod 16 = 0 -> mixture written image register mixed ->
  (written (header ooff) = true -> forall k, (k < message_registers l)%nat -> written (header ooff + k)%nat = true) ->
  length (out_part l ooff image) = message_size l -> length (out_part l ooff register) = message_size l ->
  rs_out_from_bytes (out_part l ooff image) = Ok oi -> rs_out_from_bytes (out_part l ooff register) = Ok orr ->
  rs_out_from_bytes (out_part l ooff mixed) = Ok oi \/
  exists d, rs_out_from_bytes (out_part l ooff mixed) = Ok (set_data orr d) /\ length d = length (ro_data orr) /\
    (ro_data orr = ro_data oi -> d = ro_data orr).
Proof.
  intros H M Hl Li Lr Di Dr. destruct (written (header ooff)) eqn:Ew.
  - left. rewrite <- Di. f_equal. apply nth_error_eq. intros k. rewrite (mixed_nth _ _ _ _ _ _ _ H M).
    destruct (Nat.lt_ge_cases k (message_size l)) as [G|G].
    + rewrite (Hl eq_refl (k / 2)%nat (message_half _ _ G)). reflexivity.
    + pose proof (proj2 (nth_error_None (out_part l ooff image) k)) as N1. pose proof (proj2 (nth_error_None (out_part l ooff register) k)) as N2.
      rewrite Li in N1. rewrite Lr in N2. destruct (written (header ooff + k / 2)%nat); rewrite ?N1, ?N2 by exact G; reflexivity.
  - right. pose proof (mixed_length _ _ _ _ _ _ H M Li Lr) as Lm.
    assert (N : forall k, nth_error (out_part l ooff mixed) k =
              nth_error (out_part l ooff (if written (header ooff + k / 2)%nat then image else register)) k)
      by (intros k; apply mixed_nth; assumption).
    destruct (two_more _ _ Li) as (sti & ni & ri & Ei). destruct (two_more _ _ Lr) as (str & nr & rr & Er).
    destruct (two_more _ _ Lm) as (stm & nm & rm & Em). rewrite Ei in *. rewrite Er in *. rewrite Em in *. clear Em.
    assert (N0 := N 0%nat). assert (N1 := N 1%nat). change (0 / 2)%nat with 0%nat in N0. change (1 / 2)%nat with 0%nat in N1.
    rewrite Nat.add_0_r, Ew, Er in N0, N1. apply Some_inj in N0. apply Some_inj in N1. subst stm nm.
    rewrite out_decode in *. cbn [length] in Li, Lr, Lm.
    destruct (Nat.ltb_spec (length rr) (Z.to_nat nr)) as [G|G]; [discriminate|]. apply Ok_inj in Dr. subst orr.
    destruct (Nat.ltb_spec (length ri) (Z.to_nat ni)) as [G'|G']; [discriminate|]. apply Ok_inj in Di. subst oi.
    replace (Nat.ltb (length rm) (Z.to_nat nr)) with false by lia.
    exists (firstn (Z.to_nat nr) rm). unfold set_data. cbn [ro_rx_buf_flush ro_tx_buf_flush ro_disable_tx_hw_buffer ro_tx_cnt ro_rx_cnt_ack ro_reset ro_data].
    split; [reflexivity|]. split; [rewrite !firstn_length; lia|]. intros E. apply nth_error_eq. intros k. rewrite !nth_error_firstn.
    destruct (Nat.ltb_spec k (Z.to_nat nr)) as [K|K]; [|reflexivity]. specialize (N (S (S k))). cbn [nth_error] in N. rewrite N.
    destruct (written (header ooff + S (S k) / 2)%nat); [rewrite Ei|rewrite Er; reflexivity]. cbn [nth_error].
    assert (F : nth_error (firstn (Z.to_nat nr) rr) k = nth_error (firstn (Z.to_nat ni) ri) k) by (rewrite E; reflexivity).
    assert (Q : Z.to_nat nr = Z.to_nat ni).
    { apply (f_equal (@length Z)) in E. rewrite !firstn_length in E. lia. }
    rewrite !nth_error_firstn in F. rewrite <- Q in F. replace (Nat.ltb k (Z.to_nat nr)) with true in F by lia. symmetry. exact F.
Qed.

(** *** The message processor *)

Definition smudged (s : system) (d : list Z) : system :=
  mk_system (s_proc s) (s_latch s) (s_image s) (set_data (s_register s) d) (s_device s)
    (s_written s) (s_taken s) (s_offered s) (s_delivered s) (s_cycles s).

Lemma smudged_fault l n s d : inv_fault l n s -> length d = length (ro_data (s_register s)) ->
  (ro_data (s_register s) = ro_data (s_image s) -> d = ro_data (s_register s)) -> inv_fault l n (smudged s d).
Proof.
  intros [(w & [I1 I2 I3 I4 I5 I6 I7 I8] & Hs & Hn) Q Im Rg] Ld Hd.
  unfold idle, busy, wr, tx, reg, ack, lat in *. sfields.
  constructor; unfold smudged; sfields; auto.
  - exists w. split; [|split; assumption].
    constructor; unfold idle, busy, wr, tx, reg, ack, lat; sfields; unfold set_data; cbn [ro_tx_cnt ro_data]; auto.
    destruct I7 as [J|(B1 & [B2|(B2 & B3 & B4)])]; [left; exact J|right; split; [exact B1|left; exact B2]|].
    right. split; [exact B1|]. right. rewrite (Hd B3). auto.
  - unfold set_data. cbn [ro_data]. lia.
Qed.

Lemma smudged_frx lost r0 s a g i m d : inv_frx lost r0 s a g i m -> inv_frx lost r0 (smudged s d) a g i m.
Proof. intros [(O0 & O1 & O2) Erg Eim Elt Edv Plt Pdv Rin Rrc]. constructor; unfold smudged; sfields; auto. Qed.

(** *** The plant *)

Definition whole (l : process_data_length) (ooff : Z) (t : plant) : Prop :=
  length (out_part l ooff (t_image t)) = message_size l /\ length (out_part l ooff (t_register t)) = message_size l.

Lemma whole_start i l ioff ooff t : plant_start i l ioff ooff t -> whole l ooff t.
Proof. intros (_ & _ & _ & _ & Ei & _ & Hl & _). split; [exact Hl|rewrite <- Ei; exact Hl]. Qed.

Lemma whole_step prof i l ioff ooff t e t' s : alike_plant i l ioff ooff t s -> whole l ooff t ->
  torn_step prof i l ioff ooff t e t' -> whole l ooff t'.
Proof.
  intros Ha (W1 & W2) H. destruct H as [t e t' H|t written register M].
  - destruct H as [t e t' H|t input output c' H|t]; [|split; assumption..].
    destruct H; unfold whole, with_coupler, with_device; try (destruct (_ =? _)); plain; auto.
    destruct (serial_cycle _ _ _ _ _ _ _ _ _ _ (ap_ok _ _ _ _ _ _ Ha) H (ap_at _ _ _ _ _ _ Ha)) as (p & p' & rin & rout & rs & _ & _ & _ & _ & _ & _ & _ & _ & _ & _ & L & _).
    auto.
  - split; plain; [exact W1|]. refine (mixed_length _ _ written (t_image t) (t_register t) _ _ M W1 W2).
    destruct (ap_at _ _ _ _ _ _ Ha) as (_ & _ & Ho & _). exact Ho.
Qed.

Definition count (l : process_data_length) (ooff : Z) (t : plant) (e : torn_event) : nat :=
  match e with Disturbed e' => forgotten l ooff t e' | PartlyWritten _ => 0%nat end.

Lemma torn_simulates prof i l ioff ooff t e t' s : alike_plant i l ioff ooff t s -> whole l ooff t ->
  header_last l ooff e -> torn_step prof i l ioff ooff t e t' ->
  exists s', alike_plant i l ioff ooff t' s' /\
    ((count l ooff t e = 0%nat /\ exists evs, schedule prof s evs = Ok s') \/
     (s' = back s /\ (s_image s = s_register s \/ count l ooff t e = 1%nat)) \/
     (count l ooff t e = 0%nat /\ exists d, s' = smudged s d /\ length d = length (ro_data (s_register s)) /\
        (ro_data (s_register s) = ro_data (s_image s) -> d = ro_data (s_register s)))).
Proof.
  intros Ha (W1 & W2) Hh H. destruct H as [t e t' H|t written register M].
  - destruct (faulty_simulates _ _ _ _ _ _ _ _ _ Ha H) as (s' & A & [(Ne & evs & G)|(Ee & -> & Hk)]); exists s' + exists (back s).
    + split; [exact A|]. left. split; [destruct e; [reflexivity..|congruence]|eauto].
    + split; [exact A|]. right. left. split; [reflexivity|exact Hk].
  - assert (Ho : ooff mod 16 = 0) by (destruct (ap_at _ _ _ _ _ _ Ha) as (_ & _ & Ho & _); exact Ho).
    destruct (mixed_decode l ooff written (t_image t) (t_register t) register (s_image s) (s_register s) Ho M Hh W1 W2
                (ap_image _ _ _ _ _ _ Ha) (ap_register _ _ _ _ _ _ Ha)) as [D|(d & D & Ld & Hd)].
    + exists (mk_system (s_proc s) (s_latch s) (s_image s) (s_image s) (s_device s)
        (s_written s) (s_taken s) (s_offered s) (s_delivered s) (s_cycles s)).
      split; [destruct Ha; split; plain; auto|]. left. split; [reflexivity|]. exists [HostWrite]. reflexivity.
    + exists (smudged s d). split; [destruct Ha; split; unfold smudged; plain; auto|].
      right. right. split; [reflexivity|]. exists d. auto.
Qed.

Lemma torn_tx prof i l ioff ooff t es t' n : torn_runs prof i l ioff ooff t es t' n -> Forall (header_last l ooff) es -> forall s k,
  alike_plant i l ioff ooff t s -> whole l ooff t -> inv_fault l k s ->
  exists s', alike_plant i l ioff ooff t' s' /\ whole l ooff t' /\ inv_fault l (n + k) s'.
Proof.
  induction 1 as [t|t e t1 es t2 n H1 H2 IH]; intros Hf s k Ha Hw Hi.
  - exists s. auto.
  - inversion Hf as [|? ? Hh Hf']; subst. fold (count l ooff t e).
    pose proof (whole_step _ _ _ _ _ _ _ _ _ Ha Hw H1) as Hw1.
    destruct (torn_simulates _ _ _ _ _ _ _ _ _ Ha Hw Hh H1) as (s1 & A1 & [(E & evs & G)|[(-> & Hk)|(E & d & -> & Ld & Hd)]]).
    + destruct (IH Hf' s1 k A1 Hw1 (fault_schedule _ _ _ _ _ _ Hi G)) as (s2 & A2 & W2 & I2). exists s2. rewrite E. auto.
    + destruct (IH Hf' (back s) (count l ooff t e + k)%nat A1 Hw1 (fault_back _ _ _ _ Hi Hk)) as (s2 & A2 & W2 & I2).
      exists s2. split; [exact A2|]. split; [exact W2|].
      replace (count l ooff t e + n + k)%nat with (n + (count l ooff t e + k))%nat by lia. exact I2.
    + destruct (IH Hf' (smudged s d) k A1 Hw1 (smudged_fault _ _ _ _ Hi Ld Hd)) as (s2 & A2 & W2 & I2). exists s2. rewrite E. auto.
Qed.

Lemma C102_transmission_all : forall prof i l ioff ooff t0 es t n, plant_start i l ioff ooff t0 ->
  torn_runs prof i l ioff ooff t0 es t n -> Forall (header_last l ooff) es ->
  subsequence (t_taken t ++ on_its_way l ooff t ++ waiting_in (t_coupler t) i) (t_written t) /\
  (length (t_written t) <=
     length (t_taken t ++ on_its_way l ooff t ++ waiting_in (t_coupler t) i) + n * payload_size l)%nat /\
  (n = 0%nat -> t_written t = t_taken t ++ on_its_way l ooff t ++ waiting_in (t_coupler t) i).
Proof.
  intros prof i l ioff ooff t0 es t n H0 H Hf. destruct (plant_starts _ _ _ _ _ H0) as (s0 & S0 & A0).
  destruct (torn_tx _ _ _ _ _ _ _ _ _ H Hf s0 0%nat A0 (whole_start _ _ _ _ _ H0) (fault_start _ _ S0)) as (s & A & _ & Hi). rewrite Nat.add_0_r in Hi.
  destruct (fault_accounted _ _ _ Hi) as (F1 & F2).
  destruct (alike_on_its_way _ _ _ _ _ _ A) as (-> & -> & _).
  destruct A as [_ _ _ _ _ _ _ -> -> _ _ _].
  split; [exact F1|]. split; [exact F2|]. intros ->. symmetry. apply sub_equal; [exact F1|]. cbn [Nat.mul] in F2. lia.
Qed.

Lemma progress_from prof i l ioff ooff t n s rounds t' : alike_plant i l ioff ooff t s -> inv_fault l n s -> (2 <= t_cycles t)%nat ->
  Forall plant_round rounds -> (outstanding i l ooff t <= length rounds)%nat ->
  plant_runs prof i l ioff ooff t (concat rounds) t' ->
  exists rest, t_taken t' = (t_taken t ++ on_its_way l ooff t ++ waiting_in (t_coupler t) i) ++ rest.
Proof.
  intros A Hi Hc Hf Hn H2.
  destruct (plant_rounds_simulate _ _ _ _ _ _ _ _ _ A Hf H2) as (ev2 & s2 & L2 & F2 & G2 & A2).
  destruct (alike_on_its_way _ _ _ _ _ _ A) as (-> & -> & _ & En). rewrite En in Hn.
  assert (Hc1 : (2 <= s_cycles s)%nat) by (destruct A; congruence).
  destruct Hi as [(w & Hi & _ & _) _ _ _].
  assert (Gw : exists w', schedule prof (wr s w) (concat ev2) = Ok (wr s2 w')).
  { clear - G2. revert s w s2 G2. induction (concat ev2) as [|e es IH]; intros s w s2 G; cbn [schedule] in *.
    - apply Ok_inj in G. subst. eauto.
    - apply bind_ok in G. destruct G as (s1 & G1 & G). destruct (happen_wr _ _ _ _ w G1) as (_ & ->). cbn [bind]. eauto. }
  destruct Gw as (w' & Gw).
  destruct (run_rounds prof l ev2 (wr s w) Hi Hc1 F2) as (s3 & p2 & n2 & R2 & I2 & U2 & W2 & K2 & L3).
  rewrite Gw in R2. apply Ok_inj in R2. subst s3.
  assert (Eu : untaken (wr s w) = in_flight s ++ waiting s) by reflexivity.
  assert (HL : (length (untaken (wr s w)) <= length p2)%nat).
  { rewrite Eu, app_length in *. lia. }
  destruct (prefix_concat _ _ _ _ U2 HL) as (rest & ->).
  exists (concat rest). destruct A as [_ _ _ _ _ _ _ _ -> _ _ _]. destruct A2 as [_ _ _ _ _ _ _ _ -> _ _ _].
  unfold wr in K2. sfields. rewrite K2, concat_app. unfold wr, untaken, in_flight, waiting, queued. sfields.
  rewrite concat_app, <- !app_assoc. reflexivity.
Qed.

Lemma C102_progress_all : forall prof i l ioff ooff t0 es t n rounds t', plant_start i l ioff ooff t0 ->
  torn_runs prof i l ioff ooff t0 es t n -> Forall (header_last l ooff) es -> (2 <= t_cycles t)%nat ->
  Forall plant_round rounds -> (outstanding i l ooff t <= length rounds)%nat ->
  plant_runs prof i l ioff ooff t (concat rounds) t' ->
  exists rest, t_taken t' = (t_taken t ++ on_its_way l ooff t ++ waiting_in (t_coupler t) i) ++ rest.
Proof.
  intros prof i l ioff ooff t0 es t n rounds t' H0 H Hh Hc Hf Hn H2. destruct (plant_starts _ _ _ _ _ H0) as (s0 & S0 & A0).
  destruct (torn_tx _ _ _ _ _ _ _ _ _ H Hh s0 0%nat A0 (whole_start _ _ _ _ _ H0) (fault_start _ _ S0)) as (s & A & _ & Hi).
  eapply progress_from; eassumption.
Qed.

(** *** Reception *)

Lemma torn_rx_init prof i l ioff ooff r0 t es t' n : torn_runs prof i l ioff ooff t es t' n -> Forall (header_last l ooff) es ->
  forall s lost a g k m,
  alike_plant i l ioff ooff t s -> whole l ooff t -> p_init_state (s_proc s) = stage (s_cycles s) -> (lost <= length (s_offered s))%nat ->
  inv_frx lost r0 s a g k m ->
  exists s', alike_plant i l ioff ooff t' s' /\ whole l ooff t' /\ p_init_state (s_proc s') = stage (s_cycles s') /\
    exists lost' a' g' k' m', (lost' <= length (s_offered s'))%nat /\ inv_frx lost' r0 s' a' g' k' m'.
Proof.
  induction 1 as [t|t e t1 es t2 n H1 H2 IH]; intros Hf s lost a g k m Ha Hw Hst Hl Hi.
  - exists s. split; [exact Ha|]. split; [exact Hw|]. split; [exact Hst|]. exists lost, a, g, k, m. auto.
  - inversion Hf as [|? ? Hh Hf']; subst.
    pose proof (whole_step _ _ _ _ _ _ _ _ _ Ha Hw H1) as Hw1.
    destruct (torn_simulates _ _ _ _ _ _ _ _ _ Ha Hw Hh H1) as (s1 & A1 & [(E & evs & G)|[(-> & Hk)|(E & d & -> & Ld & Hd)]]).
    + destruct (run_frx_init _ _ _ _ _ _ _ _ _ _ Hst Hl Hi G) as (Hst1 & lost1 & a1 & g1 & k1 & m1 & Hl1 & Hi1).
      exact (IH Hf' s1 _ _ _ _ _ A1 Hw1 Hst1 Hl1 Hi1).
    + exact (IH Hf' (back s) lost a a k m A1 Hw1 Hst Hl (back_frx _ _ _ _ _ _ _ Hi)).
    + exact (IH Hf' (smudged s d) lost a g k m A1 Hw1 Hst Hl (smudged_frx _ _ _ _ _ _ _ _ Hi)).
Qed.

Lemma torn_rx_done prof i l ioff ooff r0 t es t' n : torn_runs prof i l ioff ooff t es t' n -> Forall (header_last l ooff) es ->
  forall s lost a g k m,
  alike_plant i l ioff ooff t s -> whole l ooff t -> p_init_state (s_proc s) = stage (s_cycles s) -> (2 <= s_cycles s)%nat ->
  inv_frx lost r0 s a g k m ->
  exists s', alike_plant i l ioff ooff t' s' /\ whole l ooff t' /\ p_init_state (s_proc s') = stage (s_cycles s') /\ (2 <= s_cycles s')%nat /\
    exists a' g' k' m', inv_frx lost r0 s' a' g' k' m' /\ (k <= k')%nat /\ (m <= m')%nat.
Proof.
  induction 1 as [t|t e t1 es t2 n H1 H2 IH]; intros Hf s lost a g k m Ha Hw Hst Hc Hi.
  - exists s. split; [exact Ha|]. split; [exact Hw|]. split; [exact Hst|]. split; [exact Hc|]. exists a, g, k, m. split; [exact Hi|lia].
  - inversion Hf as [|? ? Hh Hf']; subst.
    pose proof (whole_step _ _ _ _ _ _ _ _ _ Ha Hw H1) as Hw1.
    destruct (torn_simulates _ _ _ _ _ _ _ _ _ Ha Hw Hh H1) as (s1 & A1 & [(E & evs & G)|[(-> & Hk)|(E & d & -> & Ld & Hd)]]).
    + destruct (run_frx_done _ _ _ _ _ _ _ _ _ _ Hst Hc Hi G) as (Hst1 & Hc1 & a1 & g1 & k1 & m1 & Hi1 & L1 & L2).
      destruct (IH Hf' s1 _ _ _ _ _ A1 Hw1 Hst1 Hc1 Hi1) as (s2 & A2 & Hw2 & Hst2 & Hc2 & a2 & g2 & k2 & m2 & Hi2 & L3 & L4).
      exists s2. split; [exact A2|]. split; [exact Hw2|]. split; [exact Hst2|]. split; [exact Hc2|]. exists a2, g2, k2, m2. split; [exact Hi2|lia].
    + exact (IH Hf' (back s) lost a a k m A1 Hw1 Hst Hc (back_frx _ _ _ _ _ _ _ Hi)).
    + exact (IH Hf' (smudged s d) lost a g k m A1 Hw1 Hst Hc (smudged_frx _ _ _ _ _ _ _ _ Hi)).
Qed.

Lemma C102_reception_all : forall prof i l ioff ooff t0 es1 t1 n1 es2 t2 n2, plant_start i l ioff ooff t0 ->
  torn_runs prof i l ioff ooff t0 es1 t1 n1 -> Forall (header_last l ooff) es1 -> (2 <= t_cycles t1)%nat ->
  torn_runs prof i l ioff ooff t1 es2 t2 n2 -> Forall (header_last l ooff) es2 ->
  exists lost fetched,
    (lost <= length (t_offered t1))%nat /\
    (lost + fetched <= length (t_offered t2) <= lost + fetched + 1)%nat /\
    t_delivered t2 ++ readable_in (t_coupler t2) i = concat (firstn fetched (skipn lost (t_offered t2))).
Proof.
  intros prof i l ioff ooff t0 es1 t1 n1 es2 t2 n2 H0 H1 Hf1 Hc H2 Hf2. destruct (plant_starts _ _ _ _ _ H0) as (s0 & S0 & A0).
  destruct (torn_rx_init _ _ _ _ _ _ _ _ _ _ H1 Hf1 s0 0%nat _ _ _ _ A0 (whole_start _ _ _ _ _ H0) (it_stage _ _ (start_inv_tx _ _ S0)) ltac:(lia) (start_frx _ _ S0))
    as (s1 & A1 & Hw1 & Hst1 & lost & a & g & k & m & Hl & Hi).
  assert (Hc1 : (2 <= s_cycles s1)%nat) by (destruct A1; congruence).
  destruct (torn_rx_done _ _ _ _ _ _ _ _ _ _ H2 Hf2 s1 lost a g k m A1 Hw1 Hst1 Hc1 Hi)
    as (s2 & A2 & _ & Hst2 & Hc2 & a2 & g2 & k2 & m2 & Hi2 & _).
  destruct (frx_accounted _ _ _ _ _ _ _ Hi2 Hc2) as (lost' & f & F1 & F2 & F3 & F4).
  exists lost', f. destruct (alike_on_its_way _ _ _ _ _ _ A2) as (_ & _ & -> & _). unfold received in *.
  destruct A1 as [_ _ _ _ _ _ _ _ _ -> _ _]. destruct A2 as [_ _ _ _ _ _ _ _ _ -> -> _]. repeat split; auto; lia.
Qed.

Lemma torn_runs_app prof i l ioff ooff es1 : forall t es2 t' n, torn_runs prof i l ioff ooff t (es1 ++ es2) t' n ->
  exists t1 n1 n2, torn_runs prof i l ioff ooff t es1 t1 n1 /\ torn_runs prof i l ioff ooff t1 es2 t' n2.
Proof.
  induction es1 as [|e es1 IH]; intros t es2 t' n H; cbn [app] in H.
  - exists t, 0%nat, n. split; [constructor|exact H].
  - inversion H; subst. match goal with B : torn_runs _ _ _ _ _ ?t1 (es1 ++ es2) t' _ |- _ => destruct (IH t1 es2 t' _ B) as (t2 & n1 & n2 & H1 & H2) end.
    eexists t2, _, n2. split; [econstructor; eassumption|exact H2].
Qed.

Lemma torn_offered prof i l ioff ooff t es t' n : torn_runs prof i l ioff ooff t es t' n ->
  (length (t_offered t) <= length (t_offered t'))%nat.
Proof.
  induction 1 as [t|t e t1 es t2 n H1 H2 IH]; [lia|]. refine (Nat.le_trans _ _ _ _ IH). clear - H1.
  destruct H1 as [t e t' H|t w r M]; [|cbn; lia]. destruct H as [t e t' H|t input output c' H|t]; [|cbn; lia..].
  destruct H; cbn; try lia; destruct (_ =? _); cbn; rewrite ?app_length; lia.
Qed.

Lemma torn_plain prof i l ioff ooff t e t' : torn_step prof i l ioff ooff t (Disturbed (Undisturbed e)) t' -> plant_step prof i l ioff ooff t e t'.
Proof. intros H. inversion H as [? ? ? F|]; subst. inversion F; subst. assumption. Qed.

Lemma C102_reception_progress_all : forall prof i l ioff ooff t0 es ti n es1 t1 n1 a input b c t2 n2, plant_start i l ioff ooff t0 ->
  torn_runs prof i l ioff ooff t0 es ti n -> Forall (header_last l ooff) es -> (2 <= t_cycles ti)%nat ->
  torn_runs prof i l ioff ooff ti es1 t1 n1 -> Forall (header_last l ooff) es1 ->
  torn_runs prof i l ioff ooff t1 (a ++ [Disturbed (Undisturbed (PInput input))] ++ b ++ [Disturbed (Undisturbed PCycle)] ++ c) t2 n2 ->
  Forall (header_last l ooff) (a ++ b ++ c) ->
  exists lost fetched,
    (lost <= length (t_offered ti))%nat /\
    (length (t_offered t1) <= lost + fetched <= length (t_offered t2))%nat /\
    t_delivered t2 ++ readable_in (t_coupler t2) i = concat (firstn fetched (skipn lost (t_offered t2))).
Proof.
  intros prof i l ioff ooff t0 es ti n es1 t1 n1 a input b c t2 n2 H0 Hi Hfi Hc H1 Hf1 H2 Hf2.
  apply Forall_app in Hf2. destruct Hf2 as (Hfa & Hf2). apply Forall_app in Hf2. destruct Hf2 as (Hfb & Hfc).
  destruct (plant_starts _ _ _ _ _ H0) as (s0 & S0 & A0).
  destruct (torn_rx_init _ _ _ _ _ _ _ _ _ _ Hi Hfi s0 0%nat _ _ _ _ A0 (whole_start _ _ _ _ _ H0) (it_stage _ _ (start_inv_tx _ _ S0)) ltac:(lia) (start_frx _ _ S0))
    as (si & Ai & Wi & Hsti & lost & ai & gi & ki & mi & Hl & Ii).
  assert (Hci : (2 <= s_cycles si)%nat) by (destruct Ai; congruence).
  destruct (torn_rx_done _ _ _ _ _ _ _ _ _ _ H1 Hf1 si _ _ _ _ _ Ai Wi Hsti Hci Ii) as (s1 & A1 & W1 & Hst1 & Hc1 & a1 & g1 & k1 & m1 & I1 & _ & _).
  apply torn_runs_app in H2. destruct H2 as (u1 & x1 & y1 & U1 & H2).
  pose proof (torn_offered _ _ _ _ _ _ _ _ _ U1) as O1.
  destruct (torn_rx_done _ _ _ _ _ _ _ _ _ _ U1 Hfa s1 _ _ _ _ _ A1 W1 Hst1 Hc1 I1) as (v1 & B1 & V1 & St1 & C1 & a2 & g2 & k2 & m2 & J1 & _ & _).
  cbn [app] in H2. inversion H2 as [|? ? u2 ? ? ? U2 H3]; subst. clear H2.
  pose proof (whole_step _ _ _ _ _ _ _ _ _ B1 V1 U2) as V2. apply torn_plain in U2.
  destruct (plant_simulates _ _ _ _ _ _ _ _ _ B1 U2) as (e2 & v2 & G2 & B2 & ->).
  cbn [schedule] in G2. apply bind_ok in G2. destruct G2 as (v2' & G2 & G2'). apply Ok_inj in G2'. subst v2'.
  destruct (step_frx _ _ _ _ _ _ _ _ _ _ St1 J1 G2) as (St2 & a3 & g3 & k3 & m3 & J2 & _ & _ & M3 & _).
  specialize (M3 eq_refl). replace (Nat.ltb (s_cycles v1) 2) with false in J2 by lia.
  pose proof (happen_mono _ _ _ _ G2) as (C2 & _).
  apply torn_runs_app in H3. destruct H3 as (u3 & x3 & y3 & U3 & H3).
  destruct (torn_rx_done _ _ _ _ _ _ _ _ _ _ U3 Hfb v2 _ _ _ _ _ B2 V2 St2 ltac:(lia) J2) as (v3 & B3 & V3 & St3 & C3 & a4 & g4 & k4 & m4 & J3 & _ & M4).
  cbn [app] in H3. inversion H3 as [|? ? u4 ? ? ? U4 H4]; subst. clear H3.
  pose proof (whole_step _ _ _ _ _ _ _ _ _ B3 V3 U4) as V4. apply torn_plain in U4.
  destruct (plant_simulates _ _ _ _ _ _ _ _ _ B3 U4) as (e4 & v4 & G4 & B4 & (w & ->)).
  rewrite schedule_app in G4. apply bind_ok in G4. destruct G4 as (v4' & G4 & G5).
  destruct (run_frx_done _ _ _ _ _ _ _ _ _ _ St3 C3 J3 G4) as (St4 & C4 & a5 & g5 & k5 & m5 & J4 & _ & M5).
  cbn [schedule] in G5. apply bind_ok in G5. destruct G5 as (v4'' & G5 & G5'). apply Ok_inj in G5'. subst v4''.
  destruct (step_frx _ _ _ _ _ _ _ _ _ _ St4 J4 G5) as (St5 & a6 & g6 & k6 & m6 & J5 & _ & _ & _ & K6).
  specialize (K6 eq_refl). replace (Nat.ltb (s_cycles v4') 2) with false in J5 by lia.
  pose proof (happen_mono _ _ _ _ G5) as (C5 & _).
  destruct (torn_rx_done _ _ _ _ _ _ _ _ _ _ H4 Hfc v4 _ _ _ _ _ B4 V4 St5 ltac:(lia) J5) as (s2 & A2 & _ & St6 & C6 & a7 & g7 & k7 & m7 & J6 & K7 & _).
  destruct (frx_accounted _ _ _ _ _ _ _ J6 C6) as (lost' & f & F1 & F2 & F3 & F4).
  exists lost', f. destruct (alike_on_its_way _ _ _ _ _ _ A2) as (_ & _ & -> & _). unfold received in *.
  destruct Ai as [_ _ _ _ _ _ _ _ _ Eoi _ _]. destruct B1 as [_ _ _ _ _ _ _ _ _ Eo1 _ _].
  destruct A2 as [_ _ _ _ _ _ _ _ _ Eo2 Ed2 _]. rewrite Eo1 in O1. rewrite Eoi, Eo2, Ed2.
  repeat split; auto; lia.
Qed.
