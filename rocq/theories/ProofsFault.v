(** Proofs for C69 and C70: serial dialogues over a disturbed communication. *)
From Coq Require Import ZArith List Bool Lia ZifyBool ZifyNat.
From Verif Require Import Base Facts F32 Types Lib Util Com Fbc SpecCodec ProofsSerialCodec SpecSerial SpecCoupler SpecImage SpecOutcome
  SpecSystem SpecGlitch SpecFault ProofsSerial ProofsModule ProofsImage ProofsLayout ProofsLoop ProofsCycle ProofsCoupler ProofsNew ProofsOrder ProofsOutcome
  ProofsGlitch ProofsSerialSystem ProofsSystem.
Import ListNotations.
Local Open Scope Z_scope.
Ltac Zify.zify_post_hook ::= Z.div_mod_to_equations.

(** *** Subsequences *)

Lemma sub_refl {A} (a : list A) : subsequence a a.
Proof. induction a; constructor; assumption. Qed.

Lemma sub_nil {A} (a : list A) : subsequence [] a.
Proof. induction a; constructor; assumption. Qed.

Lemma sub_app {A} (a b x y : list A) : subsequence a b -> subsequence x y -> subsequence (a ++ x) (b ++ y).
Proof. intros H Hx. induction H; cbn [app]; [exact Hx|constructor; assumption..]. Qed.

Lemma sub_trans {A} (b c : list A) : subsequence b c -> forall a, subsequence a b -> subsequence a c.
Proof.
  induction 1 as [|x b c H IH|x b c H IH]; intros a Ha; [exact Ha| |constructor; auto].
  inversion Ha; subst; constructor; auto.
Qed.

Lemma sub_length {A} (a b : list A) : subsequence a b -> (length a <= length b)%nat.
Proof. induction 1; cbn [length]; lia. Qed.

Lemma sub_equal {A} (a b : list A) : subsequence a b -> (length b <= length a)%nat -> a = b.
Proof.
  induction 1 as [|x a b H IH|x a b H IH]; cbn [length]; intros L; [reflexivity| |].
  - f_equal. apply IH. lia.
  - apply sub_length in H. lia.
Qed.

(** *** Transmission of a processor *)

Definition wr (s : system) (w : list Z) : system :=
  mk_system (s_proc s) (s_latch s) (s_image s) (s_register s) (s_device s)
    w (s_taken s) (s_offered s) (s_delivered s) (s_cycles s).

Definition back (s : system) : system :=
  mk_system (s_proc s) (s_latch s) (s_register s) (s_register s) (s_device s)
    (s_written s) (s_taken s) (s_offered s) (s_delivered s) (s_cycles s).

Lemma happen_wr prof s e s' w : happen prof s e = Ok s' ->
  s_written s' = s_written s ++ written_by [e] /\ happen prof (wr s w) e = Ok (wr s' (w ++ written_by [e])).
Proof.
  intros H. destruct e as [buf|size| | | | |seg| |full ready]; cbn [happen written_by] in *; unfold wr; sfields; rewrite ?app_nil_r.
  - apply Ok_inj in H. subst s'. auto.
  - destruct (processor_read (s_proc s) size). apply Ok_inj in H. subst s'. auto.
  - apply Ok_inj in H. subst s'. auto.
  - apply bind_ok in H. destruct H as ((p & r) & H & E). apply Ok_inj in E. subst s'. rewrite H. auto.
  - apply Ok_inj in H. subst s'. auto.
  - destruct (_ =? _); apply Ok_inj in H; subst s'; auto.
  - destruct (_ =? _); apply Ok_inj in H; subst s'; auto.
  - destruct (_ =? _); apply Ok_inj in H; subst s'; auto.
  - apply Ok_inj in H. subst s'. auto.
Qed.

Record inv_fault (l : process_data_length) (n : nat) (s : system) : Prop := mk_inv_fault {
  if_kept : exists w, inv_tx l (wr s w) /\ subsequence w (s_written s) /\
    (length (s_written s) <= length w + n * payload_size l)%nat;
  if_queue : Forall (fun c => (length c <= payload_size l)%nat) (p_out_data (s_proc s));
  if_image : (length (ro_data (s_image s)) <= payload_size l)%nat;
  if_register : (length (ro_data (s_register s)) <= payload_size l)%nat }.

Lemma fault_happen prof l n s e s' : inv_fault l n s -> happen prof s e = Ok s' -> inv_fault l n s'.
Proof.
  intros [(w & Hi & Hs & Hn) Q Im Rg] H. destruct (happen_wr prof s e s' w H) as (E & Hw).
  assert (Hl : p_process_data_len (s_proc s) = l) by apply (it_len _ _ Hi).
  assert (Hst : p_init_state (s_proc s) = stage (s_cycles s)) by apply (it_stage _ _ Hi).
  constructor.
  - destruct (step_tx_ok prof l e (wr s w) Hi) as (s1 & popped & new & H1 & T). rewrite Hw in H1. apply Ok_inj in H1. subst s1.
    exists (w ++ written_by [e]). split; [apply T|]. rewrite E. split; [apply sub_app; [exact Hs|apply sub_refl]|].
    rewrite !app_length. lia.
  - destruct e as [buf|size| | | | |seg| |full ready]; cbn [happen] in H.
    + apply Ok_inj in H. subst s'. cbn [processor_write fst s_proc p_out_data]. apply Forall_app. split; [exact Q|].
      rewrite Hl. pose proof (chunks_spec (payload_size l) buf (payload_pos l)) as Hc.
      assert (Hx : forall k b ss, segmented k b ss -> Forall (fun c => (length c <= k)%nat) ss).
      { induction 1; constructor; auto; lia. }
      exact (Hx _ _ _ Hc).
    + destruct (processor_read (s_proc s) size) as (p & bytes) eqn:Er.
      destruct (read_spec (s_proc s) size) as (R1 & R2 & R3 & R4 & R5 & R6). rewrite Er in *. cbn [fst snd] in *.
      apply Ok_inj in H. subst s'. sfields. congruence.
    + apply Ok_inj in H. subst s'. exact Q.
    + apply bind_ok in H. destruct H as ((p & r) & H & E1). apply Ok_inj in E1. subst s'. sfields.
      destruct (next_cases prof _ _ _ p r (s_cycles s) Hst H) as (S1 & S2 & S3 & S4 & S5 & S6).
      destruct (Nat.ltb_spec (s_cycles s) 2) as [Hlt|Hge].
      * destruct (S5 Hlt) as (_ & _ & _ & _ & _ & -> & _). exact Q.
      * destruct (S6 Hge) as (_ & _ & _ & [(-> & _)|(c & D & _)] & _); [exact Q|]. rewrite D in Q. inversion Q. assumption.
    + apply Ok_inj in H. subst s'. exact Q.
    + destruct (_ =? _); apply Ok_inj in H; subst s'; exact Q.
    + destruct (_ =? _); apply Ok_inj in H; subst s'; exact Q.
    + destruct (_ =? _); apply Ok_inj in H; subst s'; exact Q.
    + apply Ok_inj in H. subst s'. exact Q.
  - destruct e as [buf|size| | | | |seg| |full ready]; cbn [happen] in H.
    + apply Ok_inj in H. subst s'. exact Im.
    + destruct (processor_read (s_proc s) size) as (p & bytes). apply Ok_inj in H. subst s'. exact Im.
    + apply Ok_inj in H. subst s'. exact Im.
    + apply bind_ok in H. destruct H as ((p & r) & H & E1). apply Ok_inj in E1. subst s'. sfields.
      destruct (next_cases prof _ _ _ p r (s_cycles s) Hst H) as (S1 & S2 & S3 & S4 & S5 & S6).
      destruct (Nat.ltb_spec (s_cycles s) 2) as [Hlt|Hge].
      * destruct (S5 Hlt) as (_ & _ & _ & -> & _). cbn [length]. lia.
      * destruct (S6 Hge) as (_ & _ & _ & [(_ & _ & -> & _)|(c & D & -> & _)] & _); [exact Im|].
        rewrite D in Q. inversion Q. assumption.
    + apply Ok_inj in H. subst s'. exact Im.
    + destruct (_ =? _); apply Ok_inj in H; subst s'; exact Im.
    + destruct (_ =? _); apply Ok_inj in H; subst s'; exact Im.
    + destruct (_ =? _); apply Ok_inj in H; subst s'; exact Im.
    + apply Ok_inj in H. subst s'. exact Im.
  - destruct e as [buf|size| | | | |seg| |full ready]; cbn [happen] in H.
    + apply Ok_inj in H. subst s'. exact Rg.
    + destruct (processor_read (s_proc s) size) as (p & bytes). apply Ok_inj in H. subst s'. exact Rg.
    + apply Ok_inj in H. subst s'. exact Rg.
    + apply bind_ok in H. destruct H as ((p & r) & H & E1). apply Ok_inj in E1. subst s'. exact Rg.
    + apply Ok_inj in H. subst s'. exact Im.
    + destruct (_ =? _); apply Ok_inj in H; subst s'; exact Rg.
    + destruct (_ =? _); apply Ok_inj in H; subst s'; exact Rg.
    + destruct (_ =? _); apply Ok_inj in H; subst s'; exact Rg.
    + apply Ok_inj in H. subst s'. exact Rg.
Qed.

Lemma fault_schedule prof l n es : forall s s', inv_fault l n s -> schedule prof s es = Ok s' -> inv_fault l n s'.
Proof.
  induction es as [|e es IH]; intros s s' Hi H; cbn [schedule] in H; [apply Ok_inj in H; congruence|].
  apply bind_ok in H. destruct H as (s1 & H1 & H2). exact (IH _ _ (fault_happen _ _ _ _ _ _ Hi H1) H2).
Qed.

(** Reading back an image that has been written changes nothing; reading back another one drops a segment at most. *)
Lemma fault_back l n k s : inv_fault l n s -> (s_image s = s_register s \/ k = 1%nat) -> inv_fault l (k + n) (back s).
Proof.
  intros [(w & Hi & Hs & Hn) Q Im Rg] Hk. constructor; auto.
  pose proof Hi as [I1 I2 I3 I4 I5 I6 I7 I8]. unfold idle, busy, wr, tx, reg, ack, lat in *. sfields.
  assert (Same : ro_tx_cnt (s_image s) = ro_tx_cnt (s_register s) -> in_flight (back s) = in_flight s ->
            inv_tx l (wr (back s) w)).
  { intros E Ef. constructor; unfold idle, busy, wr, back, tx, reg, ack, lat; sfields; auto.
    - congruence.
    - intros Hc. destruct (I6 Hc) as (J1 & J2 & J3). rewrite <- E. auto.
    - rewrite <- E. destruct I7 as [(J1 & J2 & J3)|(B1 & [(B2 & B3)|(B2 & B3 & B4)])]; [left; auto|right..]; (split; [exact B1|]);
        right; auto.
    - rewrite I8. unfold untaken, waiting, in_flight, back in *. sfields. f_equal. f_equal. f_equal. symmetry. exact Ef. }
  assert (Small : forall m, (length (s_written s) <= length w + n * payload_size l)%nat ->
            (length (s_written s) <= length w + (m + n) * payload_size l)%nat).
  { intros m Hx. rewrite Nat.mul_add_distr_r. lia. }
  destruct I7 as [(J1 & J2 & J3)|(B1 & [(B2 & B3)|(B2 & B3 & B4)])].
  - exists w. split; [|split; [exact Hs|apply Small; exact Hn]]. apply Same; [congruence|].
    unfold in_flight, back. sfields. rewrite J2, J3, Z.eqb_refl. reflexivity.
  - (* a segment that has not been written *)
    assert (Hne : ro_tx_cnt (s_image s) <> ro_tx_cnt (s_register s)).
    { rewrite <- B1, B2. apply succ4_ne. exact I5. }
    destruct Hk as [Hk|Hk]; [rewrite Hk in Hne; congruence|]. subst k.
    assert (Ef : in_flight s = [ro_data (s_image s)]).
    { unfold in_flight. replace (ro_tx_cnt (s_image s) =? ri_tx_cnt_ack (s_device s)) with false by (rewrite B3; lia). reflexivity. }
    exists (s_taken s ++ concat (waiting s)).
    assert (Ew : w = s_taken s ++ ro_data (s_image s) ++ concat (waiting s)).
    { rewrite I8. unfold untaken, in_flight, waiting in *. sfields. rewrite Ef. reflexivity. }
    split; [|split].
    + constructor; unfold idle, busy, wr, back, tx, reg, ack, lat; sfields; rewrite ?B2, ?B3; auto.
      * unfold untaken, in_flight, waiting, back. sfields. rewrite B2, B3, Z.eqb_refl. reflexivity.
    + refine (sub_trans _ _ Hs _ _). rewrite Ew. apply sub_app; [apply sub_refl|].
      refine (sub_app [] _ _ _ (sub_nil _) (sub_refl _)).
    + unfold back. sfields. rewrite Ew, !app_length in Hn. rewrite app_length. cbn [Nat.add Nat.mul]. lia.
  - exists w. split; [|split; [exact Hs|apply Small; exact Hn]]. apply Same; [congruence|].
    unfold in_flight, back. sfields. rewrite B2, B3. reflexivity.
Qed.

Lemma fault_start l s : start l s -> inv_fault l 0 s.
Proof.
  intros H. pose proof (start_inv_tx l s H) as Hi.
  destruct H as (H1 & (D1 & D2) & (E1 & E2 & E3) & H2 & H3 & H4 & H5 & H6 & H7 & H8 & H9 & H10 & H11).
  constructor.
  - exists (s_written s). split; [destruct s; exact Hi|]. split; [apply sub_refl|lia].
  - rewrite H1. constructor.
  - rewrite H6. exact E3.
  - exact E3.
Qed.

(** *** Reception of a processor *)

(** As [inv_rx]; the image may acknowledge fewer segments ([g]) than have been fetched ([i]). *)
Record inv_frx (lost : nat) (r0 : Z) (s : system) (a g i m : nat) : Prop := mk_inv_frx {
  fx_order : (a <= g <= i)%nat /\ (i <= m)%nat /\ (m <= length (s_offered s) <= a + 1)%nat;
  fx_reg : ro_rx_cnt_ack (s_register s) = (r0 + Z.of_nat a) mod 4;
  fx_image : ro_rx_cnt_ack (s_image s) = (r0 + Z.of_nat g) mod 4;
  fx_latch : ri_rx_cnt (s_latch s) = (r0 + Z.of_nat m) mod 4;
  fx_device : ri_rx_cnt (s_device s) = (r0 + Z.of_nat (length (s_offered s))) mod 4;
  fx_latched : presents (ri_data_available (s_latch s)) (ri_data (s_latch s)) m a (s_offered s);
  fx_presented : presents (ri_data_available (s_device s)) (ri_data (s_device s))
                   (length (s_offered s)) a (s_offered s);
  fx_init : (s_cycles s < 2)%nat -> received s = [];
  fx_received : (2 <= s_cycles s)%nat ->
    (p_last_rx_cnt (s_proc s) = 4 /\ received s = [] /\ (i <= lost)%nat) \/
    (exists d, (d <= lost)%nat /\ (d < i)%nat /\ p_last_rx_cnt (s_proc s) = (r0 + Z.of_nat i) mod 4 /\
       received s = concat (firstn (i - d) (skipn d (s_offered s)))) }.

Ltac frame a g i m := exists a, g, i, m; (split; [|repeat split; intros; try discriminate; lia]).

Lemma step_frx prof lost r0 e s s' a g i m :
  p_init_state (s_proc s) = stage (s_cycles s) ->
  inv_frx lost r0 s a g i m -> happen prof s e = Ok s' ->
  p_init_state (s_proc s') = stage (s_cycles s') /\
  exists a' g' i' m', inv_frx (if Nat.ltb (s_cycles s) 2 then length (s_offered s') else lost) r0 s' a' g' i' m' /\
    (i <= i')%nat /\ (m <= m')%nat /\
    (e = HostRead -> m' = length (s_offered s)) /\ (e = HostCycle -> i' = m).
Proof.
  intros Hst [(O0 & O1 & O2) Erg Eim Elt Edv Plt Pdv Rin Rrc] H.
  set (lost' := fun s' => if Nat.ltb (s_cycles s) 2 then length (s_offered s') else lost).
  change (p_init_state (s_proc s') = stage (s_cycles s') /\
          exists a' g' i' m', inv_frx (lost' s') r0 s' a' g' i' m' /\
            (i <= i')%nat /\ (m <= m')%nat /\
            (e = HostRead -> m' = length (s_offered s)) /\ (e = HostCycle -> i' = m)).
  assert (Hlost : (2 <= s_cycles s)%nat -> forall x, lost' x = lost).
  { intros Hk x. unfold lost'. replace (Nat.ltb (s_cycles s) 2) with false by lia. reflexivity. }
  destruct e as [buf|size| | | | |seg| |full ready]; cbn [happen] in H.
  - apply Ok_inj in H. subst s'. sfields. split; [exact Hst|]. frame a g i m.
    constructor; sfields; auto. intros Hk. rewrite Hlost by exact Hk. apply Rrc. exact Hk.
  - destruct (processor_read (s_proc s) size) as (p & bytes) eqn:E.
    destruct (read_spec (s_proc s) size) as (R1 & R2 & R3 & R4 & R5 & R6). rewrite E in *. cbn [fst snd] in *.
    apply Ok_inj in H. subst s'.
    assert (Er : received (mk_system p (s_latch s) (s_image s) (s_register s) (s_device s)
            (s_written s) (s_taken s) (s_offered s) (s_delivered s ++ bytes) (s_cycles s)) = received s).
    { unfold received, buffered. sfields. rewrite <- app_assoc, R1, R2, firstn_skipn. reflexivity. }
    sfields. rewrite R4. split; [exact Hst|]. frame a g i m. constructor; sfields; rewrite ?Er; auto.
    intros Hk. rewrite Hlost by exact Hk. rewrite R5. apply Rrc. exact Hk.
  - apply Ok_inj in H. subst s'. sfields. split; [exact Hst|]. frame a g i (length (s_offered s)).
    constructor; sfields; auto; [lia|]. intros Hk. rewrite Hlost by exact Hk. apply Rrc. exact Hk.
  - apply bind_ok in H. destruct H as ((p & r) & H & E). apply Ok_inj in E. subst s'. sfields.
    destruct (next_cases prof (s_proc s) (s_latch s) (s_image s) p r (s_cycles s) Hst H)
      as (S1 & S2 & S3 & S4 & S5 & S6).
    split; [exact S1|]. frame a m m m.
    destruct (Nat.ltb_spec (s_cycles s) 2) as [Hlt|Hge].
    + destruct (S5 Hlt) as (_ & _ & _ & _ & _ & _ & F1 & F2). specialize (Rin Hlt).
      constructor; sfields; auto; try lia; try congruence.
      * intros _. unfold received, buffered in *. sfields. rewrite F1. exact Rin.
      * intros Hk. left. split; [apply F2; lia|]. unfold lost'. sfields.
        replace (Nat.ltb (s_cycles s) 2) with true by lia.
        split; [|lia]. unfold received, buffered in *. sfields. rewrite F1. exact Rin.
    + destruct (S6 Hge) as (_ & _ & _ & _ & F1 & F2). specialize (Rrc Hge).
      constructor; sfields; auto; try lia; try congruence. intros _. rewrite Hlost by exact Hge.
      unfold received, buffered in *. sfields.
      destruct (ri_data_available (s_latch s)) eqn:Ea; cbn [presents] in Plt.
      * destruct Plt as (P1 & P2).
        destruct Rrc as [(L1 & L2 & L3)|(d & L0 & L1 & L2 & L3)].
        -- destruct F1 as (G1 & G2); [reflexivity|rewrite L1, Elt; lia|]. right. exists (m - 1)%nat.
           split; [lia|]. split; [lia|]. split; [congruence|]. rewrite G1, app_assoc, L2.
           replace (m - (m - 1))%nat with 1%nat by lia. cbn [app].
           rewrite (firstn_snoc _ 0 (ri_data (s_latch s))) by (rewrite nth_error_skipn, Nat.add_0_r; exact P2).
           cbn [firstn app concat]. rewrite app_nil_r. reflexivity.
        -- right. exists d. split; [exact L0|]. split; [lia|].
           assert (Hm : m = i \/ m = S i) by lia. destruct Hm as [->| ->].
           ++ destruct F2 as (G1 & G2); [right; congruence|]. rewrite G1, G2. auto.
           ++ destruct F1 as (G1 & G2); [reflexivity|rewrite L2, Elt; lia|].
              split; [congruence|]. rewrite G1, app_assoc, L3.
              replace (S i - d)%nat with (S (i - d)) by lia.
              rewrite (firstn_snoc _ (i - d) (ri_data (s_latch s))).
              ** rewrite concat_app. cbn [concat]. rewrite app_nil_r. reflexivity.
              ** rewrite nth_error_skipn. replace (d + (i - d))%nat with (S i - 1)%nat by lia. exact P2.
      * destruct F2 as (G1 & G2); [left; reflexivity|]. rewrite G1, G2.
        assert (Em : m = i) by lia. subst m. exact Rrc.
  - apply Ok_inj in H. subst s'. sfields. split; [exact Hst|]. frame g g i m.
    constructor; sfields; auto; try lia.
    + apply (presents_mono _ _ _ a); [lia|exact Plt].
    + apply (presents_mono _ _ _ a); [lia|exact Pdv].
    + intros Hk. rewrite Hlost by exact Hk. apply Rrc. exact Hk.
  - destruct (ro_tx_cnt (s_register s) =? ri_tx_cnt_ack (s_device s)); apply Ok_inj in H; subst s'; sfields;
      (split; [exact Hst|]); frame a g i m; (constructor; sfields; auto);
      intros Hk; rewrite Hlost by exact Hk; apply Rrc; exact Hk.
  - destruct (Z.eqb_spec (ro_rx_cnt_ack (s_register s)) (ri_rx_cnt (s_device s))) as [E|E];
      apply Ok_inj in H; subst s'; sfields; (split; [exact Hst|]); frame a g i m.
    + assert (Ea : length (s_offered s) = a) by lia.
      constructor; sfields; auto; rewrite ?app_length; cbn [length]; try lia.
      * unfold succ4. rewrite Edv. lia.
      * apply presents_app; [lia|exact Plt].
      * cbn [presents]. split; [lia|]. rewrite nth_error_app2 by lia.
        replace (length (s_offered s) + 1 - 1 - length (s_offered s))%nat with 0%nat by lia. reflexivity.
      * intros Hk. rewrite Hlost by exact Hk. specialize (Rrc Hk). unfold received, buffered in *. sfields.
        destruct Rrc as [Rrc|(d & L0 & L1 & L2 & L3)]; [left; exact Rrc|right]. exists d.
        rewrite firstn_skipn_app by lia. auto.
    + constructor; sfields; auto. intros Hk. rewrite Hlost by exact Hk. apply Rrc. exact Hk.
  - destruct (Z.eqb_spec (ro_rx_cnt_ack (s_register s)) (ri_rx_cnt (s_device s))) as [E|E];
      apply Ok_inj in H; subst s'; sfields; (split; [exact Hst|]); frame a g i m.
    + assert (Ea : length (s_offered s) = a) by lia.
      constructor; sfields; auto.
      * cbn [presents]. lia.
      * intros Hk. rewrite Hlost by exact Hk. apply Rrc. exact Hk.
    + constructor; sfields; auto. intros Hk. rewrite Hlost by exact Hk. apply Rrc. exact Hk.
  - apply Ok_inj in H. subst s'. sfields. split; [exact Hst|]. frame a g i m.
    constructor; sfields; auto. intros Hk. rewrite Hlost by exact Hk. apply Rrc. exact Hk.
Qed.

Lemma back_frx lost r0 s a g i m : inv_frx lost r0 s a g i m -> inv_frx lost r0 (back s) a a i m.
Proof. intros [(O0 & O1 & O2) Erg Eim Elt Edv Plt Pdv Rin Rrc]. constructor; unfold back; sfields; auto; lia. Qed.

Lemma run_frx_init prof r0 es : forall s s' lost a g i m, p_init_state (s_proc s) = stage (s_cycles s) ->
  (lost <= length (s_offered s))%nat -> inv_frx lost r0 s a g i m -> schedule prof s es = Ok s' ->
  p_init_state (s_proc s') = stage (s_cycles s') /\
  exists lost' a' g' i' m', (lost' <= length (s_offered s'))%nat /\ inv_frx lost' r0 s' a' g' i' m'.
Proof.
  induction es as [|e es IH]; intros s s' lost a g i m Hst Hl Hi H; cbn [schedule] in H.
  - apply Ok_inj in H. subst s'. split; [exact Hst|]. exists lost, a, g, i, m. auto.
  - apply bind_ok in H. destruct H as (s1 & H1 & H2).
    destruct (step_frx prof lost r0 e s s1 a g i m Hst Hi H1) as (Hst1 & a1 & g1 & i1 & m1 & Hi1 & Ho1 & Ho2 & _).
    destruct (happen_mono prof s e s1 H1) as (_ & Hm).
    eapply IH; [exact Hst1| |exact Hi1|exact H2]. destruct (Nat.ltb _ _); lia.
Qed.

Lemma run_frx_done prof r0 es : forall s s' lost a g i m, p_init_state (s_proc s) = stage (s_cycles s) ->
  (2 <= s_cycles s)%nat -> inv_frx lost r0 s a g i m -> schedule prof s es = Ok s' ->
  p_init_state (s_proc s') = stage (s_cycles s') /\ (2 <= s_cycles s')%nat /\
  exists a' g' i' m', inv_frx lost r0 s' a' g' i' m' /\ (i <= i')%nat /\ (m <= m')%nat.
Proof.
  induction es as [|e es IH]; intros s s' lost a g i m Hst Hk Hi H; cbn [schedule] in H.
  - apply Ok_inj in H. subst s'. split; [exact Hst|]. split; [exact Hk|]. exists a, g, i, m. split; [exact Hi|lia].
  - apply bind_ok in H. destruct H as (s1 & H1 & H2).
    destruct (step_frx prof lost r0 e s s1 a g i m Hst Hi H1) as (Hst1 & a1 & g1 & i1 & m1 & Hi1 & Ho1 & Ho2 & _).
    destruct (happen_mono prof s e s1 H1) as (Hm & _).
    replace (Nat.ltb (s_cycles s) 2) with false in Hi1 by lia.
    destruct (IH s1 s' lost a1 g1 i1 m1 Hst1 ltac:(lia) Hi1 H2) as (G1 & G2 & a2 & g2 & i2 & m2 & G3 & G4 & G5).
    split; [exact G1|]. split; [exact G2|]. exists a2, g2, i2, m2. split; [exact G3|lia].
Qed.

Lemma start_frx l s : start l s -> inv_frx 0 (ri_rx_cnt (s_device s)) s 0 0 0 0.
Proof. intros H. destruct (start_inv_rx l s H) as [O Erg Eim Elt Edv Plt Pdv Rin Rrc]. constructor; auto. lia. Qed.

(** *** The plant *)

Definition alike_fault i l ioff ooff n t s : Prop := alike_plant i l ioff ooff t s /\ inv_fault l n s.

Lemma garbled_alike prof i l ioff ooff t s input output c' : alike_plant i l ioff ooff t s ->
  cycle prof (t_coupler t) input output c' (Err BufferLength) -> alike_plant i l ioff ooff (with_coupler t c') s.
Proof.
  intros [Hok Hat Hp Hl Hi Hr Hd Hw Ht Ho Hde Hc] H.
  pose proof (cycle_ok _ _ _ _ _ _ Hok H) as Hok'.
  destruct (short_cycle _ _ _ _ _ Hok H) as (ins & ->).
  split; plain; auto.
Qed.

(** A step of the plant is a schedule of the processor, possibly preceded by reading back. *)
Lemma faulty_simulates prof i l ioff ooff t e t' s : alike_plant i l ioff ooff t s ->
  faulty_step prof i l ioff ooff t e t' ->
  exists s', alike_plant i l ioff ooff t' s' /\
    ((e <> ReadBack /\ exists evs, schedule prof s evs = Ok s') \/
     (e = ReadBack /\ s' = back s /\ (s_image s = s_register s \/ forgotten l ooff t e = 1%nat))).
Proof.
  intros Ha H. destruct H as [t e t' H|t input output c' H|t].
  - destruct (plant_simulates _ _ _ _ _ _ _ _ _ Ha H) as (evs & s' & G & A & _).
    exists s'. split; [exact A|]. left. split; [discriminate|eauto].
  - exists s. split; [eapply garbled_alike; eassumption|]. left. split; [discriminate|]. exists []. reflexivity.
  - exists (back s). split; [destruct Ha; split; unfold back; plain; auto|]. right. split; [reflexivity|]. split; [reflexivity|].
    unfold forgotten. destruct (list_eq_dec _ _ _) as [E|E]; [left|right; reflexivity].
    destruct Ha as [_ _ _ _ Hi Hr _ _ _ _ _ _]. rewrite E, Hr in Hi. apply Ok_inj in Hi. auto.
Qed.

Lemma faulty_tx prof i l ioff ooff t es t' n : faulty_runs prof i l ioff ooff t es t' n -> forall s k,
  alike_plant i l ioff ooff t s -> inv_fault l k s ->
  exists s', alike_plant i l ioff ooff t' s' /\ inv_fault l (n + k) s'.
Proof.
  induction 1 as [t|t e t1 es t2 n H1 H2 IH]; intros s k Ha Hi.
  - exists s. auto.
  - destruct (faulty_simulates _ _ _ _ _ _ _ _ _ Ha H1) as (s1 & A1 & [(Ne & evs & G)|(Ee & -> & Hk)]).
    + destruct (IH s1 k A1 (fault_schedule _ _ _ _ _ _ Hi G)) as (s2 & A2 & I2). exists s2. split; [exact A2|].
      replace (forgotten l ooff t e) with 0%nat; [exact I2|]. destruct e; [reflexivity..|congruence].
    + destruct (IH (back s) (forgotten l ooff t e + k)%nat A1 (fault_back _ _ _ _ Hi Hk)) as (s2 & A2 & I2).
      exists s2. split; [exact A2|]. replace (forgotten l ooff t e + n + k)%nat with (n + (forgotten l ooff t e + k))%nat by lia. exact I2.
Qed.

Lemma fault_accounted l n s : inv_fault l n s ->
  subsequence (s_taken s ++ concat (in_flight s) ++ queued (s_proc s)) (s_written s) /\
  (length (s_written s) <= length (s_taken s ++ concat (in_flight s) ++ queued (s_proc s)) + n * payload_size l)%nat.
Proof.
  intros [(w & Hi & Hs & Hn) _ _ _]. pose proof (it_written _ _ Hi) as E. unfold wr in E. sfields.
  unfold untaken, in_flight, waiting in E. sfields. rewrite concat_app in E. unfold in_flight, queued. rewrite <- E. auto.
Qed.

Lemma C69_partial_all : forall prof i l ioff ooff t0 es t n, plant_start i l ioff ooff t0 ->
  faulty_runs prof i l ioff ooff t0 es t n ->
  subsequence (t_taken t ++ on_its_way l ooff t ++ waiting_in (t_coupler t) i) (t_written t) /\
  (length (t_written t) <=
     length (t_taken t ++ on_its_way l ooff t ++ waiting_in (t_coupler t) i) + n * payload_size l)%nat /\
  (n = 0%nat -> t_written t = t_taken t ++ on_its_way l ooff t ++ waiting_in (t_coupler t) i).
Proof.
  intros prof i l ioff ooff t0 es t n H0 H. destruct (plant_starts _ _ _ _ _ H0) as (s0 & S0 & A0).
  destruct (faulty_tx _ _ _ _ _ _ _ _ _ H s0 0%nat A0 (fault_start _ _ S0)) as (s & A & Hi). rewrite Nat.add_0_r in Hi.
  destruct (fault_accounted _ _ _ Hi) as (F1 & F2).
  destruct (alike_on_its_way _ _ _ _ _ _ A) as (-> & -> & _).
  destruct A as [_ _ _ _ _ _ _ -> -> _ _ _].
  split; [exact F1|]. split; [exact F2|]. intros ->. symmetry. apply sub_equal; [exact F1|]. cbn [Nat.mul] in F2. lia.
Qed.

Lemma C69_progress_all : forall prof i l ioff ooff t0 es t n rounds t', plant_start i l ioff ooff t0 ->
  faulty_runs prof i l ioff ooff t0 es t n -> (2 <= t_cycles t)%nat ->
  Forall plant_round rounds -> (outstanding i l ooff t <= length rounds)%nat ->
  plant_runs prof i l ioff ooff t (concat rounds) t' ->
  exists rest, t_taken t' = (t_taken t ++ on_its_way l ooff t ++ waiting_in (t_coupler t) i) ++ rest.
Proof.
  intros prof i l ioff ooff t0 es t n rounds t' H0 H Hc Hf Hn H2. destruct (plant_starts _ _ _ _ _ H0) as (s0 & S0 & A0).
  destruct (faulty_tx _ _ _ _ _ _ _ _ _ H s0 0%nat A0 (fault_start _ _ S0)) as (s & A & Hi).
  destruct (plant_rounds_simulate _ _ _ _ _ _ _ _ _ A Hf H2) as (ev2 & s2 & L2 & F2 & G2 & A2).
  destruct (alike_on_its_way _ _ _ _ _ _ A) as (-> & -> & _ & En). rewrite En in Hn.
  assert (Hc1 : (2 <= s_cycles s)%nat) by (destruct A; congruence).
  destruct Hi as [(w & Hi & _ & _) _ _ _].
  assert (Gw : exists w', schedule prof (wr s w) (concat ev2) = Ok (wr s2 w')).
  { clear - G2. revert s w s2 G2. induction (concat ev2) as [|e es IH]; intros s w s2 G; cbn [schedule] in *.
    - apply Ok_inj in G. subst. eauto.
    - apply bind_ok in G. destruct G as (s1 & G1 & G). destruct (happen_wr _ _ _ _ w G1) as (_ & ->). cbn [bind]. eauto. }
  destruct Gw as (w' & Gw).
  destruct (run_rounds prof l ev2 (wr s w) Hi Hc1 F2) as (s3 & p2 & n2 & R2 & I2 & U2 & W2 & K2 & L3).
  rewrite Gw in R2. apply Ok_inj in R2. subst s3.
  assert (Eu : untaken (wr s w) = in_flight s ++ waiting s) by reflexivity.
  assert (HL : (length (untaken (wr s w)) <= length p2)%nat).
  { rewrite Eu, app_length in *. lia. }
  destruct (prefix_concat _ _ _ _ U2 HL) as (rest & ->).
  exists (concat rest). destruct A as [_ _ _ _ _ _ _ _ -> _ _ _]. destruct A2 as [_ _ _ _ _ _ _ _ -> _ _ _].
  unfold wr in K2. sfields. rewrite K2, concat_app. unfold wr, untaken, in_flight, waiting, queued. sfields.
  rewrite concat_app, <- !app_assoc. reflexivity.
Qed.

Lemma faulty_rx_init prof i l ioff ooff r0 t es t' n : faulty_runs prof i l ioff ooff t es t' n -> forall s lost a g k m,
  alike_plant i l ioff ooff t s -> p_init_state (s_proc s) = stage (s_cycles s) -> (lost <= length (s_offered s))%nat ->
  inv_frx lost r0 s a g k m ->
  exists s', alike_plant i l ioff ooff t' s' /\ p_init_state (s_proc s') = stage (s_cycles s') /\
    exists lost' a' g' k' m', (lost' <= length (s_offered s'))%nat /\ inv_frx lost' r0 s' a' g' k' m'.
Proof.
  induction 1 as [t|t e t1 es t2 n H1 H2 IH]; intros s lost a g k m Ha Hst Hl Hi.
  - exists s. split; [exact Ha|]. split; [exact Hst|]. exists lost, a, g, k, m. auto.
  - destruct (faulty_simulates _ _ _ _ _ _ _ _ _ Ha H1) as (s1 & A1 & [(Ne & evs & G)|(Ee & -> & Hk)]).
    + destruct (run_frx_init _ _ _ _ _ _ _ _ _ _ Hst Hl Hi G) as (Hst1 & lost1 & a1 & g1 & k1 & m1 & Hl1 & Hi1).
      exact (IH s1 _ _ _ _ _ A1 Hst1 Hl1 Hi1).
    + exact (IH (back s) lost a a k m A1 Hst Hl (back_frx _ _ _ _ _ _ _ Hi)).
Qed.

Lemma faulty_rx_done prof i l ioff ooff r0 t es t' n : faulty_runs prof i l ioff ooff t es t' n -> forall s lost a g k m,
  alike_plant i l ioff ooff t s -> p_init_state (s_proc s) = stage (s_cycles s) -> (2 <= s_cycles s)%nat ->
  inv_frx lost r0 s a g k m ->
  exists s', alike_plant i l ioff ooff t' s' /\ p_init_state (s_proc s') = stage (s_cycles s') /\ (2 <= s_cycles s')%nat /\
    exists a' g' k' m', inv_frx lost r0 s' a' g' k' m' /\ (k <= k')%nat /\ (m <= m')%nat.
Proof.
  induction 1 as [t|t e t1 es t2 n H1 H2 IH]; intros s lost a g k m Ha Hst Hc Hi.
  - exists s. split; [exact Ha|]. split; [exact Hst|]. split; [exact Hc|]. exists a, g, k, m. split; [exact Hi|lia].
  - destruct (faulty_simulates _ _ _ _ _ _ _ _ _ Ha H1) as (s1 & A1 & [(Ne & evs & G)|(Ee & -> & Hk)]).
    + destruct (run_frx_done _ _ _ _ _ _ _ _ _ _ Hst Hc Hi G) as (Hst1 & Hc1 & a1 & g1 & k1 & m1 & Hi1 & L1 & L2).
      destruct (IH s1 _ _ _ _ _ A1 Hst1 Hc1 Hi1) as (s2 & A2 & Hst2 & Hc2 & a2 & g2 & k2 & m2 & Hi2 & L3 & L4).
      exists s2. split; [exact A2|]. split; [exact Hst2|]. split; [exact Hc2|]. exists a2, g2, k2, m2. split; [exact Hi2|lia].
    + exact (IH (back s) lost a a k m A1 Hst Hc (back_frx _ _ _ _ _ _ _ Hi)).
Qed.

Lemma frx_accounted lost r0 s a g k m : inv_frx lost r0 s a g k m -> (2 <= s_cycles s)%nat ->
  exists lost' fetched, (lost' <= lost)%nat /\ (lost' + fetched)%nat = k /\
    (lost' + fetched <= length (s_offered s) <= lost' + fetched + 1)%nat /\
    received s = concat (firstn fetched (skipn lost' (s_offered s))).
Proof.
  intros [(O0 & O1 & O2) _ _ _ _ _ _ _ R] Hc. destruct (R Hc) as [(_ & R1 & R2)|(d & R0 & R1 & _ & R3)].
  - exists k, 0%nat. cbn [firstn concat]. repeat split; auto; lia.
  - exists d, (k - d)%nat. repeat split; auto; lia.
Qed.

Lemma C70_all : forall prof i l ioff ooff t0 es1 t1 n1 es2 t2 n2, plant_start i l ioff ooff t0 ->
  faulty_runs prof i l ioff ooff t0 es1 t1 n1 -> (2 <= t_cycles t1)%nat ->
  faulty_runs prof i l ioff ooff t1 es2 t2 n2 ->
  exists lost fetched,
    (lost <= length (t_offered t1))%nat /\
    (lost + fetched <= length (t_offered t2) <= lost + fetched + 1)%nat /\
    t_delivered t2 ++ readable_in (t_coupler t2) i = concat (firstn fetched (skipn lost (t_offered t2))).
Proof.
  intros prof i l ioff ooff t0 es1 t1 n1 es2 t2 n2 H0 H1 Hc H2. destruct (plant_starts _ _ _ _ _ H0) as (s0 & S0 & A0).
  destruct (faulty_rx_init _ _ _ _ _ _ _ _ _ _ H1 s0 0%nat _ _ _ _ A0 (it_stage _ _ (start_inv_tx _ _ S0)) ltac:(lia) (start_frx _ _ S0))
    as (s1 & A1 & Hst1 & lost & a & g & k & m & Hl & Hi).
  assert (Hc1 : (2 <= s_cycles s1)%nat) by (destruct A1; congruence).
  destruct (faulty_rx_done _ _ _ _ _ _ _ _ _ _ H2 s1 lost a g k m A1 Hst1 Hc1 Hi)
    as (s2 & A2 & Hst2 & Hc2 & a2 & g2 & k2 & m2 & Hi2 & _).
  destruct (frx_accounted _ _ _ _ _ _ _ Hi2 Hc2) as (lost' & f & F1 & F2 & F3 & F4).
  exists lost', f. destruct (alike_on_its_way _ _ _ _ _ _ A2) as (_ & _ & -> & _). unfold received in *.
  destruct A1 as [_ _ _ _ _ _ _ _ _ -> _ _]. destruct A2 as [_ _ _ _ _ _ _ _ _ -> -> _]. repeat split; auto; lia.
Qed.

Lemma faulty_runs_app prof i l ioff ooff es1 : forall t es2 t' n, faulty_runs prof i l ioff ooff t (es1 ++ es2) t' n ->
  exists t1 n1 n2, faulty_runs prof i l ioff ooff t es1 t1 n1 /\ faulty_runs prof i l ioff ooff t1 es2 t' n2.
Proof.
  induction es1 as [|e es1 IH]; intros t es2 t' n H; cbn [app] in H.
  - exists t, 0%nat, n. split; [constructor|exact H].
  - inversion H; subst. match goal with B : faulty_runs _ _ _ _ _ ?t1 (es1 ++ es2) t' _ |- _ => destruct (IH t1 es2 t' _ B) as (t2 & n1 & n2 & H1 & H2) end.
    exists t2, (forgotten l ooff t e + n1)%nat, n2. split; [econstructor; eassumption|exact H2].
Qed.

Lemma faulty_offered prof i l ioff ooff t es t' n : faulty_runs prof i l ioff ooff t es t' n ->
  (length (t_offered t) <= length (t_offered t'))%nat.
Proof.
  induction 1 as [t|t e t1 es t2 n H1 H2 IH]; [lia|]. refine (Nat.le_trans _ _ _ _ IH). clear - H1.
  destruct H1 as [t e t' H|t input output c' H|t]; [|cbn; lia..].
  destruct H; cbn; try lia; destruct (_ =? _); cbn; rewrite ?app_length; lia.
Qed.

Lemma C70_progress_all : forall prof i l ioff ooff t0 es ti n es1 t1 n1 a input b c t2 n2, plant_start i l ioff ooff t0 ->
  faulty_runs prof i l ioff ooff t0 es ti n -> (2 <= t_cycles ti)%nat ->
  faulty_runs prof i l ioff ooff ti es1 t1 n1 ->
  faulty_runs prof i l ioff ooff t1 (a ++ [Undisturbed (PInput input)] ++ b ++ [Undisturbed PCycle] ++ c) t2 n2 ->
  exists lost fetched,
    (lost <= length (t_offered ti))%nat /\
    (length (t_offered t1) <= lost + fetched <= length (t_offered t2))%nat /\
    t_delivered t2 ++ readable_in (t_coupler t2) i = concat (firstn fetched (skipn lost (t_offered t2))).
Proof.
  intros prof i l ioff ooff t0 es ti n es1 t1 n1 a input b c t2 n2 H0 Hi Hc H1 H2.
  destruct (plant_starts _ _ _ _ _ H0) as (s0 & S0 & A0).
  destruct (faulty_rx_init _ _ _ _ _ _ _ _ _ _ Hi s0 0%nat _ _ _ _ A0 (it_stage _ _ (start_inv_tx _ _ S0)) ltac:(lia) (start_frx _ _ S0))
    as (si & Ai & Hsti & lost & ai & gi & ki & mi & Hl & Ii).
  assert (Hci : (2 <= s_cycles si)%nat) by (destruct Ai; congruence).
  destruct (faulty_rx_done _ _ _ _ _ _ _ _ _ _ H1 si _ _ _ _ _ Ai Hsti Hci Ii) as (s1 & A1 & Hst1 & Hc1 & a1 & g1 & k1 & m1 & I1 & _ & _).
  apply faulty_runs_app in H2. destruct H2 as (u1 & x1 & y1 & U1 & H2).
  pose proof (faulty_offered _ _ _ _ _ _ _ _ _ U1) as O1.
  destruct (faulty_rx_done _ _ _ _ _ _ _ _ _ _ U1 s1 _ _ _ _ _ A1 Hst1 Hc1 I1) as (v1 & B1 & St1 & C1 & a2 & g2 & k2 & m2 & J1 & _ & _).
  cbn [app] in H2. inversion H2 as [|? ? u2 ? ? ? U2 H3]; subst. clear H2.
  inversion U2 as [? ? ? P2| |]; subst.
  destruct (plant_simulates _ _ _ _ _ _ _ _ _ B1 P2) as (e2 & v2 & G2 & B2 & ->).
  cbn [schedule] in G2. apply bind_ok in G2. destruct G2 as (v2' & G2 & G2'). apply Ok_inj in G2'. subst v2'.
  destruct (step_frx _ _ _ _ _ _ _ _ _ _ St1 J1 G2) as (St2 & a3 & g3 & k3 & m3 & J2 & _ & _ & M3 & _).
  specialize (M3 eq_refl). replace (Nat.ltb (s_cycles v1) 2) with false in J2 by lia.
  pose proof (happen_mono _ _ _ _ G2) as (C2 & _).
  apply faulty_runs_app in H3. destruct H3 as (u3 & x3 & y3 & U3 & H3).
  destruct (faulty_rx_done _ _ _ _ _ _ _ _ _ _ U3 v2 _ _ _ _ _ B2 St2 ltac:(lia) J2) as (v3 & B3 & St3 & C3 & a4 & g4 & k4 & m4 & J3 & _ & M4).
  cbn [app] in H3. inversion H3 as [|? ? u4 ? ? ? U4 H4]; subst. clear H3.
  inversion U4 as [? ? ? P4| |]; subst.
  destruct (plant_simulates _ _ _ _ _ _ _ _ _ B3 P4) as (e4 & v4 & G4 & B4 & (w & ->)).
  rewrite schedule_app in G4. apply bind_ok in G4. destruct G4 as (v4' & G4 & G5).
  destruct (run_frx_done _ _ _ _ _ _ _ _ _ _ St3 C3 J3 G4) as (St4 & C4 & a5 & g5 & k5 & m5 & J4 & _ & M5).
  cbn [schedule] in G5. apply bind_ok in G5. destruct G5 as (v4'' & G5 & G5'). apply Ok_inj in G5'. subst v4''.
  destruct (step_frx _ _ _ _ _ _ _ _ _ _ St4 J4 G5) as (St5 & a6 & g6 & k6 & m6 & J5 & _ & _ & _ & K6).
  specialize (K6 eq_refl). replace (Nat.ltb (s_cycles v4') 2) with false in J5 by lia.
  pose proof (happen_mono _ _ _ _ G5) as (C5 & _).
  destruct (faulty_rx_done _ _ _ _ _ _ _ _ _ _ H4 v4 _ _ _ _ _ B4 St5 ltac:(lia) J5) as (s2 & A2 & St6 & C6 & a7 & g7 & k7 & m7 & J6 & K7 & _).
  destruct (frx_accounted _ _ _ _ _ _ _ J6 C6) as (lost' & f & F1 & F2 & F3 & F4).
  exists lost', f. destruct (alike_on_its_way _ _ _ _ _ _ A2) as (_ & _ & -> & _). unfold received in *.
  destruct Ai as [_ _ _ _ _ _ _ _ _ Eoi _ _]. destruct B1 as [_ _ _ _ _ _ _ _ _ Eo1 _ _].
  destruct A2 as [_ _ _ _ _ _ _ _ _ Eo2 Ed2 _]. rewrite Eo1 in O1. rewrite Eoi, Eo2, Ed2.
  repeat split; auto; lia.
Qed.
