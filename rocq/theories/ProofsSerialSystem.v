(** Proofs for C33 - C35: host and serial module under every schedule. *)
From Coq Require Import ZArith List Bool Lia ZifyBool ZifyNat.
From Verif Require Import Base Facts Types Lib Util Com SpecCodec ProofsSerialCodec SpecSerial ProofsSerial.
Import ListNotations.
Local Open Scope Z_scope.
Ltac Zify.zify_post_hook ::= Z.div_mod_to_equations.

Ltac sfields :=
  cbn [s_proc s_latch s_image s_register s_device s_written s_taken s_offered s_delivered s_cycles
       ri_data_available ri_buffer_nearly_full ri_rx_cnt ri_tx_cnt_ack ri_ready ri_data
       set_proc] in *.

(** *** Transmission *)

(** Everything written that the module has not taken over. *)
Definition untaken (s : system) : list (list Z) := in_flight s ++ waiting s.

Definition tx (s : system) : Z := ro_tx_cnt (s_image s).
Definition reg (s : system) : Z := ro_tx_cnt (s_register s).
Definition ack (s : system) : Z := ri_tx_cnt_ack (s_device s).
Definition lat (s : system) : Z := ri_tx_cnt_ack (s_latch s).

Definition idle (s : system) : Prop := lat s = tx s /\ reg s = tx s /\ ack s = tx s.
Definition busy (s : system) : Prop :=
  succ4 (lat s) = tx s /\
  ((reg s = lat s /\ ack s = lat s) \/
   (reg s = tx s /\ ro_data (s_register s) = ro_data (s_image s) /\ (ack s = lat s \/ ack s = tx s))).

Record inv_tx (l : process_data_length) (s : system) : Prop := mk_inv_tx {
  it_len : p_process_data_len (s_proc s) = l;
  it_stage : p_init_state (s_proc s) = stage (s_cycles s);
  it_tx : counter (tx s);
  it_ack : counter (ack s);
  it_lat : counter (lat s);
  it_init : (s_cycles s < 2)%nat -> idle s;
  it_state : idle s \/ busy s;
  it_written : s_written s = s_taken s ++ concat (untaken s) }.

Lemma succ4_ne z : counter z -> succ4 z <> z.
Proof. unfold counter, succ4. lia. Qed.

Lemma succ4_counter z : counter (succ4 z).
Proof. unfold counter, succ4. lia. Qed.

Lemma untaken_eq s s' : s_image s' = s_image s -> ack s' = ack s ->
  untaken s' = in_flight s ++ waiting s'.
Proof. intros H1 H2. unfold untaken, in_flight, ack in *. rewrite H1, H2. reflexivity. Qed.

Definition st1 (s : system) : Prop := lat s = tx s \/ ack s <> tx s.
Definition st2 (s : system) : Prop := ack s <> tx s.
Definition st3 (s : system) : Prop := ack s <> tx s /\ reg s = tx s.

Record step_tx (l : process_data_length) (e : event) (s s' : system)
  (popped new : list (list Z)) : Prop := mk_step_tx {
  tx_inv : inv_tx l s';
  tx_queue : untaken s ++ new = popped ++ untaken s';
  tx_written : s_written s' = s_written s ++ concat new;
  tx_new : concat new = written_by [e];
  tx_taken : s_taken s' = s_taken s ++ concat popped;
  tx_cycles : (s_cycles s <= s_cycles s')%nat;
  tx_st1 : popped = [] -> st1 s -> st1 s';
  tx_st2 : popped = [] -> st2 s -> st2 s';
  tx_st3 : popped = [] -> st3 s -> st3 s';
  tx_read : e = HostRead -> st1 s';
  tx_cycle : e = HostCycle -> (2 <= s_cycles s)%nat -> st1 s -> untaken s <> [] -> st2 s';
  tx_write : e = HostWrite -> st2 s -> st3 s';
  tx_take : e = DevTake -> st3 s -> popped <> [] }.

(** Events that leave the transmission alone. *)
Lemma same_tx l e s s' : inv_tx l s ->
  p_process_data_len (s_proc s') = p_process_data_len (s_proc s) ->
  p_init_state (s_proc s') = p_init_state (s_proc s) ->
  p_out_data (s_proc s') = p_out_data (s_proc s) ->
  tx s' = tx s -> reg s' = reg s -> ack s' = ack s -> lat s' = lat s ->
  ro_data (s_image s') = ro_data (s_image s) ->
  ro_data (s_register s') = ro_data (s_register s) ->
  s_written s' = s_written s -> s_taken s' = s_taken s -> s_cycles s' = s_cycles s ->
  (match e with HostRead | HostCycle | HostWrite | DevTake | UserWrite _ => False | _ => True end) ->
  step_tx l e s s' [] [].
Proof.
  intros Hi E1 E2 E3 E4 E5 E6 E7 E8 E9 E10 E11 E12 He.
  assert (Eu : untaken s' = untaken s).
  { unfold untaken, in_flight, waiting. unfold tx, ack in *. rewrite E3, E4, E6, E8. reflexivity. }
  destruct Hi as [I1 I2 I3 I4 I5 I6 I7 I8].
  constructor; unfold st1, st2, st3; rewrite ?Eu, ?E4, ?E5, ?E6, ?E7, ?E10, ?E11, ?E12; cbn [concat app];
    rewrite ?app_nil_r; auto; try (intros ->; destruct He).
  - constructor; unfold idle, busy in *; rewrite ?Eu, ?E1, ?E2, ?E4, ?E5, ?E6, ?E7, ?E8, ?E9, ?E10, ?E11, ?E12; auto.
  - destruct e; try destruct He; reflexivity.
Qed.

Lemma step_tx_ok prof l e s : inv_tx l s ->
  exists s' popped new, happen prof s e = Ok s' /\ step_tx l e s s' popped new.
Proof.
  intros Hi. pose proof Hi as [I1 I2 I3 I4 I5 I6 I7 I8]. destruct e as [buf|size| | | | |seg| |full ready]; cbn [happen].
  - (* UserWrite *)
    eexists. exists [], (chunks (user_data_len (p_process_data_len (s_proc s))) buf). split; [reflexivity|].
    set (new := chunks _ buf).
    assert (Ec : concat new = buf).
    { apply (segmented_concat (payload_size (p_process_data_len (s_proc s)))).
      apply (chunks_spec (payload_size (p_process_data_len (s_proc s)))), payload_pos. }
    constructor; sfields; cbn [app]; rewrite ?Ec; auto; try discriminate.
    + constructor; sfields; auto.
      unfold untaken, in_flight, waiting in *. cbn [processor_write fst] in *. sfields.
      cbn [p_out_data]. fold new. rewrite I8, !concat_app, Ec, !app_assoc. reflexivity.
    + unfold untaken, in_flight, waiting. sfields. cbn [p_out_data]. fold new. rewrite !app_assoc. reflexivity.
    + cbn [written_by]. rewrite app_nil_r. reflexivity.
    + rewrite app_nil_r. reflexivity.
  - (* UserRead *)
    destruct (processor_read (s_proc s) size) as (p & bytes) eqn:E.
    destruct (read_spec (s_proc s) size) as (R1 & R2 & R3 & R4 & R5 & R6). rewrite E in *. cbn [fst snd] in *.
    eexists. exists [], []. split; [reflexivity|]. apply same_tx; auto.
  - (* HostRead *)
    eexists. exists [], []. split; [reflexivity|].
    constructor; sfields; cbn [app concat]; rewrite ?app_nil_r; auto; try discriminate.
    + constructor; sfields; auto.
      * intros H. specialize (I6 H). unfold idle, tx, reg, ack, lat in *. sfields. intuition congruence.
      * unfold idle, busy, tx, reg, ack, lat in *. sfields. intuition congruence.
    + unfold st1, tx, ack, lat. sfields. lia.
    + unfold st1, tx, ack, lat. sfields. lia.
  - (* HostCycle *)
    destruct (next_ok prof (s_proc s) (s_latch s) (s_image s) (s_cycles s)) as (p & r & H); [exact I2|exact I5|].
    rewrite H. cbn [bind]. eexists. exists [], []. split; [reflexivity|].
    destruct (next_cases prof (s_proc s) (s_latch s) (s_image s) p r (s_cycles s) I2 H) as (S1 & S2 & S3 & S4 & S5 & S6).
    destruct (Nat.ltb_spec (s_cycles s) 2) as [Hlt|Hge].
    + destruct (S5 Hlt) as (_ & _ & _ & D1 & D2 & D3 & _). specialize (I6 Hlt).
      destruct I6 as (J1 & J2 & J3).
      assert (Hidle : idle (mk_system p (s_latch s) r (s_register s) (s_device s)
            (s_written s) (s_taken s) (s_offered s) (s_delivered s) (S (s_cycles s)))).
      { unfold idle, tx, reg, ack, lat in *. sfields. lia. }
      assert (Eu : untaken (mk_system p (s_latch s) r (s_register s) (s_device s)
            (s_written s) (s_taken s) (s_offered s) (s_delivered s) (S (s_cycles s))) = untaken s).
      { unfold untaken, in_flight, waiting, tx, ack in *. sfields. rewrite D2, D3, J3, Z.eqb_refl. reflexivity. }
      constructor; sfields; cbn [app concat]; rewrite ?app_nil_r, ?Eu; auto; try discriminate; try lia.
      * constructor; auto; sfields; unfold tx, ack, lat in *; sfields; try congruence.
      * intros _ _. destruct Hidle. left. assumption.
      * unfold st2, tx, ack in *. sfields. lia.
      * unfold st3, tx, ack in *. sfields. lia.
    + destruct (S6 Hge) as (_ & _ & _ & Hc & _).
      destruct Hc as [(D1 & D2 & D3 & D4)|(c & D1 & D2 & D3 & D4)].
      * assert (Eu : untaken (mk_system p (s_latch s) r (s_register s) (s_device s)
            (s_written s) (s_taken s) (s_offered s) (s_delivered s) (S (s_cycles s))) = untaken s).
        { unfold untaken, in_flight, waiting, tx, ack in *. sfields. rewrite D1, D2, D3. reflexivity. }
        constructor; sfields; cbn [app concat]; rewrite ?app_nil_r, ?Eu; auto; try discriminate; try lia.
        -- constructor; auto; sfields; unfold tx, ack, lat in *; sfields; try congruence.
           ++ lia.
           ++ unfold idle, busy, tx, reg, ack, lat in *. sfields. rewrite D2, D3. exact I7.
        -- unfold st1, tx, ack, lat in *. sfields. rewrite D2. auto.
        -- unfold st2, tx, ack in *. sfields. rewrite D2. auto.
        -- unfold st3, tx, ack, reg in *. sfields. rewrite D2. auto.
        -- intros _ _ Hs Hu. unfold st1, st2, tx, ack, lat in *. sfields. rewrite D2.
           destruct Hs as [Hs|Hs]; [|exact Hs]. intros E. apply Hu. unfold untaken, in_flight, waiting.
           rewrite <- E, Z.eqb_refl. destruct D4 as [D4|D4]; [exact D4|].
           rewrite inc_cnt_counter in D4 by exact I5. apply Ok_inj in D4. rewrite Hs in D4.
           exfalso. apply (succ4_ne (ro_tx_cnt (s_image s))); assumption.
      * rewrite inc_cnt_counter in D3 by exact I5. apply Ok_inj in D3.
        assert (Hidle : idle s).
        { destruct I7 as [I7|I7]; [exact I7|]. exfalso. apply D4. rewrite <- D3. apply I7. }
        destruct Hidle as (J1 & J2 & J3).
        assert (Hne : ro_tx_cnt r <> ack s).
        { rewrite <- D3. unfold lat in *. rewrite J1, J3. apply succ4_ne. exact I3. }
        assert (Eu : untaken (mk_system p (s_latch s) r (s_register s) (s_device s)
            (s_written s) (s_taken s) (s_offered s) (s_delivered s) (S (s_cycles s))) = untaken s).
        { unfold untaken, in_flight, waiting, tx, ack in *. sfields. rewrite D1, D2.
          replace (ro_tx_cnt r =? ri_tx_cnt_ack (s_device s)) with false by lia.
          replace (ro_tx_cnt (s_image s) =? ri_tx_cnt_ack (s_device s)) with true by lia. reflexivity. }
        assert (Hst2 : st2 (mk_system p (s_latch s) r (s_register s) (s_device s)
            (s_written s) (s_taken s) (s_offered s) (s_delivered s) (S (s_cycles s)))).
        { unfold st2, tx, ack in *. sfields. congruence. }
        constructor; sfields; cbn [app concat]; rewrite ?app_nil_r, ?Eu; auto; try discriminate; try lia.
        -- constructor; auto; sfields; unfold tx, ack, lat in *; sfields; try congruence.
           ++ rewrite <- D3. apply succ4_counter.
           ++ lia.
           ++ right. unfold busy, tx, reg, ack, lat in *. sfields. split; [exact D3|]. left. split; congruence.
        -- intros _ _. right. exact Hst2.
        -- intros _ Hs. exfalso. destruct Hs as (Hs & _). apply Hs. exact J3.
  - (* HostWrite *)
    eexists. exists [], []. split; [reflexivity|].
    constructor; sfields; cbn [app concat]; rewrite ?app_nil_r; auto; try discriminate.
    + constructor; sfields; auto.
      * intros H. specialize (I6 H). unfold idle, tx, reg, ack, lat in *. sfields. intuition congruence.
      * unfold idle, busy, tx, reg, ack, lat in *. sfields. intuition congruence.
    + unfold st3, tx, ack, reg. sfields. intuition.
    + unfold st2, st3, tx, ack, reg. sfields. intuition.
  - (* DevTake *)
    destruct (Z.eqb_spec (ro_tx_cnt (s_register s)) (ri_tx_cnt_ack (s_device s))) as [E|E].
    + exists s, [], []. split; [reflexivity|]. constructor; cbn [app concat]; rewrite ?app_nil_r; auto; try discriminate.
      unfold st3, tx, ack, reg. intros _ [H1 H2]. exfalso. congruence.
    + eexists. exists (in_flight s), []. split; [reflexivity|].
      assert (Hb : busy s).
      { destruct I7 as [(J1 & J2 & J3)|I7]; [|exact I7]. exfalso. unfold reg, ack, tx in *. congruence. }
      destruct Hb as (B1 & B2). unfold reg, ack, lat, tx in *.
      assert (B : ro_tx_cnt (s_register s) = ro_tx_cnt (s_image s) /\
                  ro_data (s_register s) = ro_data (s_image s) /\
                  ri_tx_cnt_ack (s_device s) = ri_tx_cnt_ack (s_latch s)).
      { destruct B2 as [(B2 & B3)|(B2 & B3 & [B4|B4])]; [congruence|auto|congruence]. }
      destruct B as (B3 & B4 & B5).
      assert (Ef : in_flight s = [ro_data (s_image s)]).
      { unfold in_flight. rewrite B3 in E. destruct (Z.eqb_spec (ro_tx_cnt (s_image s)) (ri_tx_cnt_ack (s_device s)));
          [contradiction|reflexivity]. }
      constructor; sfields; rewrite ?app_nil_r; auto; try discriminate; rewrite ?Ef; try discriminate.
      * constructor; sfields; unfold tx, ack, lat in *; sfields; auto.
        -- rewrite B3. exact I3.
        -- intros H. specialize (I6 H). exfalso. unfold idle, reg, ack, tx in I6. destruct I6 as (_ & J2 & J3). congruence.
        -- right. unfold busy, tx, reg, ack, lat. sfields. split; [exact B1|]. right.
           rewrite B3. auto.
        -- rewrite I8. unfold untaken. rewrite Ef. unfold in_flight, waiting. sfields. rewrite B3, Z.eqb_refl, B4.
           cbn [app concat]. rewrite <- app_assoc. reflexivity.
      * unfold untaken. rewrite Ef. unfold in_flight, waiting. sfields. rewrite B3, Z.eqb_refl. reflexivity.
      * cbn [concat]. rewrite app_nil_r, B4. reflexivity.
  - (* DevOffer *)
    destruct (ro_rx_cnt_ack (s_register s) =? ri_rx_cnt (s_device s));
      eexists; exists [], []; (split; [reflexivity|]); apply same_tx; auto.
  - destruct (ro_rx_cnt_ack (s_register s) =? ri_rx_cnt (s_device s));
      eexists; exists [], []; (split; [reflexivity|]); apply same_tx; auto.
  - eexists; exists [], []; (split; [reflexivity|]); apply same_tx; auto.
Qed.

Lemma start_inv_tx l s : start l s -> inv_tx l s.
Proof.
  intros (H1 & (D1 & D2) & (E1 & E2 & E3) & H2 & H3 & H4 & H5 & H6 & H7 & H8 & H9 & H10 & H11).
  assert (Hidle : idle s).
  { unfold idle, lat, tx, reg, ack. rewrite H5, H6, H3. auto. }
  constructor; auto; unfold tx, ack, lat.
  - rewrite H1. reflexivity.
  - rewrite H1, H11. reflexivity.
  - rewrite H6. exact E1.
  - rewrite H5. exact D2.
  - rewrite H7, H8. unfold untaken, in_flight, waiting. rewrite H6, H3, Z.eqb_refl, H1. reflexivity.
Qed.

Lemma run_tx prof l es : forall s, inv_tx l s ->
  exists s' popped new, schedule prof s es = Ok s' /\ inv_tx l s' /\
    untaken s ++ new = popped ++ untaken s' /\
    s_written s' = s_written s ++ concat new /\ concat new = written_by es /\
    s_taken s' = s_taken s ++ concat popped /\
    (s_cycles s <= s_cycles s')%nat /\
    (popped = [] -> st1 s -> st1 s') /\ (popped = [] -> st2 s -> st2 s') /\ (popped = [] -> st3 s -> st3 s').
Proof.
  induction es as [|e es IH]; intros s Hi; cbn [schedule].
  - exists s, [], []. cbn [app concat written_by]. rewrite !app_nil_r.
    repeat match goal with |- _ /\ _ => split end; auto.
  - destruct (step_tx_ok prof l e s Hi) as (s1 & p1 & n1 & -> & [T1 T2 T3 T4 T5 T6 T7 T8 T9 _ _ _ _]).
    cbn [bind]. destruct (IH s1 T1) as (s2 & p2 & n2 & -> & J & U2 & W2 & N2 & K2 & C2 & A1 & A2 & A3).
    exists s2, (p1 ++ p2), (n1 ++ n2). split; [reflexivity|]. split; [exact J|].
    assert (Hpop : p1 ++ p2 = [] -> p1 = [] /\ p2 = []) by apply app_eq_nil.
    split; [|split; [|split; [|split; [|split; [|split; [|split]]]]]].
    + rewrite app_assoc, T2, <- app_assoc, U2, app_assoc. reflexivity.
    + rewrite W2, T3, concat_app, app_assoc. reflexivity.
    + rewrite concat_app, T4, N2. destruct e; cbn [written_by app]; rewrite ?app_nil_r; reflexivity.
    + rewrite K2, T5, concat_app, app_assoc. reflexivity.
    + lia.
    + intros Hp. apply Hpop in Hp. destruct Hp; auto.
    + intros Hp. apply Hpop in Hp. destruct Hp; auto.
    + intros Hp. apply Hpop in Hp. destruct Hp; auto.
Qed.

Lemma schedule_app prof es1 : forall s es2,
  schedule prof s (es1 ++ es2) = let? s' := schedule prof s es1 in schedule prof s' es2.
Proof.
  induction es1 as [|e es1 IH]; intros s es2; cbn [app schedule bind]; [reflexivity|].
  destruct (happen prof s e); cbn [bind]; auto.
Qed.

Lemma C33_all : forall prof l s0 es, start l s0 ->
  exists s, schedule prof s0 es = Ok s /\
    s_written s = written_by es /\
    s_written s = s_taken s ++ concat (in_flight s) ++ queued (s_proc s).
Proof.
  intros prof l s0 es Hs. destruct (run_tx prof l es s0 (start_inv_tx l s0 Hs))
    as (s & p & n & H & [I1 I2 I3 I4 I5 I6 I7 I8] & U & W & N & _).
  exists s. split; [exact H|]. split.
  - rewrite W, N. destruct Hs as (_ & _ & _ & _ & _ & _ & _ & _ & -> & _). reflexivity.
  - rewrite I8. unfold untaken, queued, waiting. rewrite concat_app. reflexivity.
Qed.

(** *** Progress *)

Lemma run_round prof l es s : inv_tx l s -> (2 <= s_cycles s)%nat -> fair_round es ->
  untaken s <> [] ->
  exists s' popped new, schedule prof s es = Ok s' /\ inv_tx l s' /\
    untaken s ++ new = popped ++ untaken s' /\
    s_written s' = s_written s ++ concat new /\
    s_taken s' = s_taken s ++ concat popped /\
    (s_cycles s <= s_cycles s')%nat /\ popped <> [].
Proof.
  intros Hi Hk (a & b & c & d & e & ->) Hu.
  destruct (run_tx prof l a s Hi) as (s1 & p1 & n1 & R1 & I1 & U1 & W1 & _ & K1 & C1 & _).
  destruct (step_tx_ok prof l HostRead s1 I1) as (s2 & p2 & n2 & R2 & [I2 U2 W2 _ K2 C2 _ _ _ E2 _ _ _]).
  specialize (E2 eq_refl).
  destruct (run_tx prof l b s2 I2) as (s3 & p3 & n3 & R3 & I3 & U3 & W3 & _ & K3 & C3 & A3 & _ & _).
  destruct (step_tx_ok prof l HostCycle s3 I3) as (s4 & p4 & n4 & R4 & [I4 U4 W4 _ K4 C4 _ _ _ _ E4 _ _]).
  destruct (run_tx prof l c s4 I4) as (s5 & p5 & n5 & R5 & I5 & U5 & W5 & _ & K5 & C5 & _ & A5 & _).
  destruct (step_tx_ok prof l HostWrite s5 I5) as (s6 & p6 & n6 & R6 & [I6 U6 W6 _ K6 C6 _ _ _ _ _ E6 _]).
  destruct (run_tx prof l d s6 I6) as (s7 & p7 & n7 & R7 & I7 & U7 & W7 & _ & K7 & C7 & _ & _ & A7).
  destruct (step_tx_ok prof l DevTake s7 I7) as (s8 & p8 & n8 & R8 & [I8 U8 W8 _ K8 C8 _ _ _ _ _ _ E8]).
  destruct (run_tx prof l e s8 I8) as (s9 & p9 & n9 & R9 & I9 & U9 & W9 & _ & K9 & C9 & _).
  exists s9, (p1 ++ p2 ++ p3 ++ p4 ++ p5 ++ p6 ++ p7 ++ p8 ++ p9),
             (n1 ++ n2 ++ n3 ++ n4 ++ n5 ++ n6 ++ n7 ++ n8 ++ n9).
  split.
  { rewrite schedule_app, R1. cbn [bind app schedule]. rewrite R2. cbn [bind].
    rewrite schedule_app, R3. cbn [bind app schedule]. rewrite R4. cbn [bind].
    rewrite schedule_app, R5. cbn [bind app schedule]. rewrite R6. cbn [bind].
    rewrite schedule_app, R7. cbn [bind app schedule]. rewrite R8. cbn [bind]. exact R9. }
  split; [exact I9|]. split; [|split; [|split; [|split]]].
  - rewrite app_assoc, U1, <- !app_assoc. f_equal. rewrite (app_assoc (untaken s1)), U2, <- !app_assoc. f_equal.
    rewrite (app_assoc (untaken s2)), U3, <- !app_assoc. f_equal.
    rewrite (app_assoc (untaken s3)), U4, <- !app_assoc. f_equal.
    rewrite (app_assoc (untaken s4)), U5, <- !app_assoc. f_equal.
    rewrite (app_assoc (untaken s5)), U6, <- !app_assoc. f_equal.
    rewrite (app_assoc (untaken s6)), U7, <- !app_assoc. f_equal.
    rewrite (app_assoc (untaken s7)), U8, <- !app_assoc. f_equal. exact U9.
  - rewrite W9, W8, W7, W6, W5, W4, W3, W2, W1, !concat_app, <- !app_assoc. reflexivity.
  - rewrite K9, K8, K7, K6, K5, K4, K3, K2, K1, !concat_app, <- !app_assoc. reflexivity.
  - lia.
  - intros Hn. repeat match goal with H : _ ++ _ = [] |- _ => apply app_eq_nil in H; destruct H end. subst.
    refine (E8 eq_refl (A7 eq_refl (E6 eq_refl (A5 eq_refl _))) eq_refl).
    refine (E4 eq_refl _ (A3 eq_refl E2) _); [lia|].
    cbn [app] in U1, U2, U3. rewrite <- U3, <- U2, <- U1. intros Hn.
    apply app_eq_nil in Hn. destruct Hn as [Hn _]. apply app_eq_nil in Hn. destruct Hn as [Hn _].
    apply app_eq_nil in Hn. destruct Hn as [Hn _]. contradiction.
Qed.

Lemma run_rounds prof l rounds : forall s, inv_tx l s -> (2 <= s_cycles s)%nat -> Forall fair_round rounds ->
  exists s' popped new, schedule prof s (concat rounds) = Ok s' /\ inv_tx l s' /\
    untaken s ++ new = popped ++ untaken s' /\
    s_written s' = s_written s ++ concat new /\
    s_taken s' = s_taken s ++ concat popped /\
    (length rounds <= length popped \/ length (untaken s) <= length popped)%nat.
Proof.
  induction rounds as [|es rounds IH]; intros s Hi Hk Hf; cbn [concat].
  - exists s, [], []. cbn [schedule app concat length]. rewrite !app_nil_r.
    repeat match goal with |- _ /\ _ => split end; auto.
  - inversion Hf as [|? ? Hes Hf']; subst. destruct (untaken s) as [|u us] eqn:Eu.
    + destruct (run_tx prof l (es ++ concat rounds) s Hi) as (s1 & p1 & n1 & R1 & I1 & U1 & W1 & _ & K1 & C1 & _).
      rewrite Eu in U1. exists s1, p1, n1.
      repeat match goal with |- _ /\ _ => split end; auto. right. cbn [length]. lia.
    + destruct (run_round prof l es s Hi Hk Hes) as (s1 & p1 & n1 & R1 & I1 & U1 & W1 & K1 & C1 & N1).
      { rewrite Eu. discriminate. }
      destruct (IH s1 I1 ltac:(lia) Hf') as (s2 & p2 & n2 & R2 & I2 & U2 & W2 & K2 & L2).
      exists s2, (p1 ++ p2), (n1 ++ n2). rewrite schedule_app, R1. cbn [bind].
      split; [exact R2|]. split; [exact I2|]. split; [|split; [|split]].
      * rewrite <- Eu, app_assoc, U1, <- !app_assoc, U2. reflexivity.
      * rewrite W2, W1, concat_app, app_assoc. reflexivity.
      * rewrite K2, K1, concat_app, app_assoc. reflexivity.
      * rewrite app_length. destruct p1 as [|x p1]; [contradiction|]. cbn [length]. destruct L2 as [L2|L2]; [left; lia|].
        apply (f_equal (@length (list Z))) in U1. rewrite Eu, !app_length in U1. cbn [length] in U1. right. lia.
Qed.

Lemma prefix_concat {A} (u new p u' : list (list A)) : u ++ new = p ++ u' -> (length u <= length p)%nat ->
  exists rest, p = u ++ rest.
Proof.
  intros H Hl. exists (skipn (length u) p). rewrite <- (firstn_skipn (length u) p) at 1. f_equal.
  apply (f_equal (firstn (length u))) in H. rewrite !firstn_app in H.
  rewrite Nat.sub_diag, firstn_all in H. cbn [firstn] in H. rewrite app_nil_r in H.
  replace (length u - length p)%nat with 0%nat in H by lia. cbn [firstn] in H. rewrite app_nil_r in H.
  symmetry. exact H.
Qed.

Lemma C34_rounds : forall prof l s0 es s rounds, start l s0 -> schedule prof s0 es = Ok s ->
  (2 <= s_cycles s)%nat -> Forall fair_round rounds ->
  (length (in_flight s) + length (waiting s) <= length rounds)%nat ->
  exists s' rest, schedule prof s (concat rounds) = Ok s' /\ s_taken s' = s_written s ++ rest.
Proof.
  intros prof l s0 es s rounds Hs Hr Hk Hf Hl.
  destruct (run_tx prof l es s0 (start_inv_tx l s0 Hs)) as (s1 & p1 & n1 & R1 & I1 & _).
  rewrite Hr in R1. apply Ok_inj in R1. subst s1.
  destruct (run_rounds prof l rounds s I1 Hk Hf) as (s2 & p2 & n2 & R2 & I2 & U2 & W2 & K2 & L2).
  assert (HL : (length (untaken s) <= length p2)%nat).
  { unfold untaken in *. rewrite app_length in *. lia. }
  destruct (prefix_concat _ _ _ _ U2 HL) as (rest & ->).
  exists s2, (concat rest). split; [exact R2|]. rewrite K2, concat_app, app_assoc. f_equal.
  symmetry. apply I1.
Qed.

(** A cycle that sees its last segment acknowledged sends the next one. *)
Lemma C34_cycle : forall prof l ops p os i o c rest,
  history prof (processor_new l) ops = Ok (p, os) -> (2 <= length (cycles os))%nat ->
  p_out_data p = c :: rest -> counter (ro_tx_cnt o) -> ri_tx_cnt_ack i = ro_tx_cnt o ->
  exists p' r, processor_next prof p i o = Ok (p', r) /\
    p_out_data p' = rest /\ ro_data r = c /\ ro_tx_cnt r = succ4 (ro_tx_cnt o).
Proof.
  intros prof l ops p os i o c rest H Hk Hq Hc Ha.
  assert (Hst : forall ops k p0 p os, p_init_state p0 = stage k -> history prof p0 ops = Ok (p, os) ->
            p_init_state p = stage (k + length (cycles os))).
  { clear. induction ops as [|op ops IH]; intros k p0 p os H0 H.
    - cbn [history] in H. apply Ok_inj, pair_inj in H. destruct H as [<- <-]. cbn [cycles length].
      rewrite Nat.add_0_r. exact H0.
    - apply history_cons in H. destruct H as (p1 & ob & os' & H1 & H2 & ->). destruct op as [buf|size|i0 o0].
      + rewrite operate_write in H1. apply Ok_inj, pair_inj in H1. destruct H1 as [<- <-].
        apply (IH k (fst (processor_write p0 buf)) _ _ H0 H2).
      + rewrite operate_read in H1. apply Ok_inj, pair_inj in H1. destruct H1 as [<- <-].
        apply (IH k (fst (processor_read p0 size)) p os'); [|exact H2].
        destruct (read_spec p0 size) as (_ & _ & _ & -> & _). exact H0.
      + apply operate_cycle in H1. destruct H1 as (r0 & H1 & ->).
        destruct (next_cases prof p0 i0 o0 p1 r0 k H0 H1) as (S1 & _).
        cbn [cycles length]. rewrite <- Nat.add_succ_comm. apply (IH (S k) p1 p os' S1 H2). }
  assert (Hs : p_init_state p = stage (length (cycles os))).
  { apply (Hst ops 0%nat (processor_new l)); [reflexivity|exact H]. }
  rewrite <- Ha in Hc.
  destruct (next_ok prof p i o _ Hs Hc) as (p' & r & Hn). exists p', r. split; [exact Hn|].
  destruct (next_cases prof p i o p' r _ Hs Hn) as (_ & _ & _ & _ & _ & S6).
  destruct (S6 Hk) as (_ & _ & _ & Hcase & _).
  rewrite inc_cnt_counter, Ha in Hcase by exact Hc. rewrite Ha in Hc. rewrite Hq in Hcase.
  destruct Hcase as [(_ & _ & _ & [D|D])|(c' & D1 & D2 & D3 & D4)].
  - discriminate.
  - apply Ok_inj in D. exfalso. apply (succ4_ne _ Hc D).
  - apply Ok_inj in D3. inversion D1; subst. auto.
Qed.

(** *** Reception *)

Definition presents (avail : bool) (data : list Z) (n acked : nat) (offered : list (list Z)) : Prop :=
  if avail then (1 <= n)%nat /\ nth_error offered (n - 1) = Some data else (n <= acked)%nat.

Record inv_rx (lost : nat) (r0 : Z) (s : system) (a i m : nat) : Prop := mk_inv_rx {
  ir_order : (a <= i <= m)%nat /\ (m <= length (s_offered s) <= a + 1)%nat;
  ir_reg : ro_rx_cnt_ack (s_register s) = (r0 + Z.of_nat a) mod 4;
  ir_image : ro_rx_cnt_ack (s_image s) = (r0 + Z.of_nat i) mod 4;
  ir_latch : ri_rx_cnt (s_latch s) = (r0 + Z.of_nat m) mod 4;
  ir_device : ri_rx_cnt (s_device s) = (r0 + Z.of_nat (length (s_offered s))) mod 4;
  ir_latched : presents (ri_data_available (s_latch s)) (ri_data (s_latch s)) m a (s_offered s);
  ir_presented : presents (ri_data_available (s_device s)) (ri_data (s_device s))
                   (length (s_offered s)) a (s_offered s);
  ir_init : (s_cycles s < 2)%nat -> received s = [];
  ir_received : (2 <= s_cycles s)%nat ->
    (p_last_rx_cnt (s_proc s) = 4 /\ received s = [] /\ (i <= lost)%nat) \/
    (exists d, (d <= lost)%nat /\ (d < i)%nat /\ p_last_rx_cnt (s_proc s) = (r0 + Z.of_nat i) mod 4 /\
       received s = concat (firstn (i - d) (skipn d (s_offered s)))) }.

Lemma presents_app avail data n a offered seg : (n <= length offered)%nat ->
  presents avail data n a offered -> presents avail data n a (offered ++ [seg]).
Proof.
  intros Hn. unfold presents. destruct avail; [|auto]. intros (H1 & H2). split; [exact H1|].
  rewrite nth_error_app1 by lia. exact H2.
Qed.

Lemma presents_mono avail data n a a' offered : (a <= a')%nat ->
  presents avail data n a offered -> presents avail data n a' offered.
Proof. unfold presents. destruct avail; [auto|lia]. Qed.

Lemma firstn_skipn_app {A} (l x : list A) d k : (d + k <= length l)%nat ->
  firstn k (skipn d (l ++ x)) = firstn k (skipn d l).
Proof.
  intros H. rewrite skipn_app, firstn_app, skipn_length.
  replace (k - (length l - d))%nat with 0%nat by lia. cbn [firstn]. apply app_nil_r.
Qed.

Lemma firstn_snoc {A} (l : list A) k x : nth_error l k = Some x -> firstn (S k) l = firstn k l ++ [x].
Proof.
  revert k. induction l as [|y l IH]; intros [|k] H; cbn in H; try discriminate.
  - apply Some_inj in H. subst. reflexivity.
  - change (firstn (S (S k)) (y :: l)) with (y :: firstn (S k) l). rewrite (IH k H). reflexivity.
Qed.

Lemma nth_error_skipn {A} (l : list A) d k : nth_error (skipn d l) k = nth_error l (d + k).
Proof.
  revert l. induction d as [|d IH]; intros l; [reflexivity|]. destruct l as [|x l].
  - rewrite skipn_nil. destruct k; reflexivity.
  - apply IH.
Qed.

Lemma step_rx prof lost r0 e s s' a i m :
  p_init_state (s_proc s) = stage (s_cycles s) ->
  inv_rx lost r0 s a i m -> happen prof s e = Ok s' ->
  p_init_state (s_proc s') = stage (s_cycles s') /\
  exists a' i' m', inv_rx (if Nat.ltb (s_cycles s) 2 then length (s_offered s') else lost) r0 s' a' i' m' /\
    (i <= i')%nat /\ (m <= m')%nat /\
    (e = HostRead -> m' = length (s_offered s)) /\ (e = HostCycle -> i' = m).
Proof.
  intros Hst [(O1 & O2) Erg Eim Elt Edv Plt Pdv Rin Rrc] H.
  set (lost' := fun s' => if Nat.ltb (s_cycles s) 2 then length (s_offered s') else lost).
  change (p_init_state (s_proc s') = stage (s_cycles s') /\
          exists a' i' m', inv_rx (lost' s') r0 s' a' i' m' /\
            (i <= i')%nat /\ (m <= m')%nat /\
            (e = HostRead -> m' = length (s_offered s)) /\ (e = HostCycle -> i' = m)).
  assert (Hlost : (2 <= s_cycles s)%nat -> forall x, lost' x = lost).
  { intros Hk x. unfold lost'. replace (Nat.ltb (s_cycles s) 2) with false by lia. reflexivity. }
  destruct e as [buf|size| | | | |seg| |full ready]; cbn [happen] in H.
  - apply Ok_inj in H. subst s'. sfields. split; [exact Hst|]. exists a, i, m; (split; [|repeat split; intros; try discriminate; lia]).
    constructor; sfields; auto. intros Hk. rewrite Hlost by exact Hk. apply Rrc. exact Hk.
  - destruct (processor_read (s_proc s) size) as (p & bytes) eqn:E.
    destruct (read_spec (s_proc s) size) as (R1 & R2 & R3 & R4 & R5 & R6). rewrite E in *. cbn [fst snd] in *.
    apply Ok_inj in H. subst s'.
    assert (Er : received (mk_system p (s_latch s) (s_image s) (s_register s) (s_device s)
            (s_written s) (s_taken s) (s_offered s) (s_delivered s ++ bytes) (s_cycles s)) = received s).
    { unfold received, buffered. sfields. rewrite <- app_assoc, R1, R2, firstn_skipn. reflexivity. }
    sfields. rewrite R4. split; [exact Hst|]. exists a, i, m; (split; [|repeat split; intros; try discriminate; lia]). constructor; sfields; rewrite ?Er; auto.
    intros Hk. rewrite Hlost by exact Hk. rewrite R5. apply Rrc. exact Hk.
  - apply Ok_inj in H. subst s'. sfields. split; [exact Hst|]. exists a, i, (length (s_offered s)); (split; [|repeat split; intros; try discriminate; lia]).
    constructor; sfields; auto; [lia|]. intros Hk. rewrite Hlost by exact Hk. apply Rrc. exact Hk.
  - apply bind_ok in H. destruct H as ((p & r) & H & E). apply Ok_inj in E. subst s'. sfields.
    destruct (next_cases prof (s_proc s) (s_latch s) (s_image s) p r (s_cycles s) Hst H)
      as (S1 & S2 & S3 & S4 & S5 & S6).
    split; [exact S1|]. exists a, m, m; (split; [|repeat split; intros; try discriminate; lia]).
    destruct (Nat.ltb_spec (s_cycles s) 2) as [Hlt|Hge].
    + destruct (S5 Hlt) as (_ & _ & _ & _ & _ & _ & F1 & F2). specialize (Rin Hlt).
      constructor; sfields; auto; try lia; try congruence.
      * intros _. unfold received, buffered in *. sfields. rewrite F1. exact Rin.
      * intros Hk. left. split; [apply F2; lia|]. unfold lost'. sfields.
        replace (Nat.ltb (s_cycles s) 2) with true by lia.
        split; [|lia]. unfold received, buffered in *. sfields. rewrite F1. exact Rin.
    + destruct (S6 Hge) as (_ & _ & _ & _ & F1 & F2). specialize (Rrc Hge).
      constructor; sfields; auto; try lia; try congruence. intros _. rewrite Hlost by exact Hge.
      unfold received, buffered in *. sfields.
      destruct (ri_data_available (s_latch s)) eqn:Ea; cbn [presents] in Plt.
      * destruct Plt as (P1 & P2).
        destruct Rrc as [(L1 & L2 & L3)|(d & L0 & L1 & L2 & L3)].
        -- destruct F1 as (G1 & G2); [reflexivity|rewrite L1, Elt; lia|]. right. exists (m - 1)%nat.
           split; [lia|]. split; [lia|]. split; [congruence|]. rewrite G1, app_assoc, L2.
           replace (m - (m - 1))%nat with 1%nat by lia. cbn [app].
           rewrite (firstn_snoc _ 0 (ri_data (s_latch s))) by (rewrite nth_error_skipn, Nat.add_0_r; exact P2).
           cbn [firstn app concat]. rewrite app_nil_r. reflexivity.
        -- right. exists d. split; [exact L0|]. split; [lia|].
           assert (Hm : m = i \/ m = S i) by lia. destruct Hm as [->| ->].
           ++ destruct F2 as (G1 & G2); [right; congruence|]. rewrite G1, G2. auto.
           ++ destruct F1 as (G1 & G2); [reflexivity|rewrite L2, Elt; lia|].
              split; [congruence|]. rewrite G1, app_assoc, L3.
              replace (S i - d)%nat with (S (i - d)) by lia.
              rewrite (firstn_snoc _ (i - d) (ri_data (s_latch s))).
              ** rewrite concat_app. cbn [concat]. rewrite app_nil_r. reflexivity.
              ** rewrite nth_error_skipn. replace (d + (i - d))%nat with (S i - 1)%nat by lia. exact P2.
      * destruct F2 as (G1 & G2); [left; reflexivity|]. rewrite G1, G2.
        assert (Em : m = i) by lia. subst m. exact Rrc.
  - apply Ok_inj in H. subst s'. sfields. split; [exact Hst|]. exists i, i, m; (split; [|repeat split; intros; try discriminate; lia]).
    constructor; sfields; auto; try lia.
    + apply (presents_mono _ _ _ a); [lia|exact Plt].
    + apply (presents_mono _ _ _ a); [lia|exact Pdv].
    + intros Hk. rewrite Hlost by exact Hk. apply Rrc. exact Hk.
  - destruct (ro_tx_cnt (s_register s) =? ri_tx_cnt_ack (s_device s)); apply Ok_inj in H; subst s'; sfields;
      (split; [exact Hst|]); exists a, i, m; (split; [|repeat split; intros; try discriminate; lia]); (constructor; sfields; auto);
      intros Hk; rewrite Hlost by exact Hk; apply Rrc; exact Hk.
  - destruct (Z.eqb_spec (ro_rx_cnt_ack (s_register s)) (ri_rx_cnt (s_device s))) as [E|E];
      apply Ok_inj in H; subst s'; sfields; (split; [exact Hst|]); exists a, i, m; (split; [|repeat split; intros; try discriminate; lia]).
    + assert (Ea : length (s_offered s) = a) by lia.
      constructor; sfields; auto; rewrite ?app_length; cbn [length]; try lia.
      * unfold succ4. rewrite Edv. lia.
      * apply presents_app; [lia|exact Plt].
      * cbn [presents]. split; [lia|]. rewrite nth_error_app2 by lia.
        replace (length (s_offered s) + 1 - 1 - length (s_offered s))%nat with 0%nat by lia. reflexivity.
      * intros Hk. rewrite Hlost by exact Hk. specialize (Rrc Hk). unfold received, buffered in *. sfields.
        destruct Rrc as [Rrc|(d & L0 & L1 & L2 & L3)]; [left; exact Rrc|right]. exists d.
        rewrite firstn_skipn_app by lia. auto.
    + constructor; sfields; auto. intros Hk. rewrite Hlost by exact Hk. apply Rrc. exact Hk.
  - destruct (Z.eqb_spec (ro_rx_cnt_ack (s_register s)) (ri_rx_cnt (s_device s))) as [E|E];
      apply Ok_inj in H; subst s'; sfields; (split; [exact Hst|]); exists a, i, m; (split; [|repeat split; intros; try discriminate; lia]).
    + assert (Ea : length (s_offered s) = a) by lia.
      constructor; sfields; auto.
      * cbn [presents]. lia.
      * intros Hk. rewrite Hlost by exact Hk. apply Rrc. exact Hk.
    + constructor; sfields; auto. intros Hk. rewrite Hlost by exact Hk. apply Rrc. exact Hk.
  - apply Ok_inj in H. subst s'. sfields. split; [exact Hst|]. exists a, i, m; (split; [|repeat split; intros; try discriminate; lia]).
    constructor; sfields; auto. intros Hk. rewrite Hlost by exact Hk. apply Rrc. exact Hk.
Qed.

Lemma happen_mono prof s e s' : happen prof s e = Ok s' ->
  (s_cycles s <= s_cycles s')%nat /\ (length (s_offered s) <= length (s_offered s'))%nat.
Proof.
  intros H. destruct e as [buf|size| | | | |seg| |full ready]; cbn [happen] in H.
  - apply Ok_inj in H. subst s'. sfields. lia.
  - destruct (processor_read (s_proc s) size). apply Ok_inj in H. subst s'. sfields. lia.
  - apply Ok_inj in H. subst s'. sfields. lia.
  - apply bind_ok in H. destruct H as ((p & r) & H & E). apply Ok_inj in E. subst s'. sfields. lia.
  - apply Ok_inj in H. subst s'. sfields. lia.
  - destruct (_ =? _); apply Ok_inj in H; subst s'; sfields; lia.
  - destruct (_ =? _); apply Ok_inj in H; subst s'; sfields; rewrite ?app_length; lia.
  - destruct (_ =? _); apply Ok_inj in H; subst s'; sfields; lia.
  - apply Ok_inj in H. subst s'. sfields. lia.
Qed.

(** Before and up to the end of the initialisation. *)
Lemma run_rx_init prof r0 es : forall s s' lost a i m, p_init_state (s_proc s) = stage (s_cycles s) ->
  (lost <= length (s_offered s))%nat -> inv_rx lost r0 s a i m -> schedule prof s es = Ok s' ->
  p_init_state (s_proc s') = stage (s_cycles s') /\
  exists lost' a' i' m', (lost' <= length (s_offered s'))%nat /\ inv_rx lost' r0 s' a' i' m'.
Proof.
  induction es as [|e es IH]; intros s s' lost a i m Hst Hl Hi H; cbn [schedule] in H.
  - apply Ok_inj in H. subst s'. split; [exact Hst|]. exists lost, a, i, m. auto.
  - apply bind_ok in H. destruct H as (s1 & H1 & H2).
    destruct (step_rx prof lost r0 e s s1 a i m Hst Hi H1) as (Hst1 & a1 & i1 & m1 & Hi1 & Ho1 & Ho2 & _).
    destruct (happen_mono prof s e s1 H1) as (_ & Hm).
    eapply IH; [exact Hst1| |exact Hi1|exact H2]. destruct (Nat.ltb _ _); lia.
Qed.

(** Afterwards no further segment gets lost. *)
Lemma run_rx_done prof r0 es : forall s s' lost a i m, p_init_state (s_proc s) = stage (s_cycles s) ->
  (2 <= s_cycles s)%nat -> inv_rx lost r0 s a i m -> schedule prof s es = Ok s' ->
  p_init_state (s_proc s') = stage (s_cycles s') /\ (2 <= s_cycles s')%nat /\
  exists a' i' m', inv_rx lost r0 s' a' i' m' /\ (i <= i')%nat /\ (m <= m')%nat.
Proof.
  induction es as [|e es IH]; intros s s' lost a i m Hst Hk Hi H; cbn [schedule] in H.
  - apply Ok_inj in H. subst s'. split; [exact Hst|]. split; [exact Hk|]. exists a, i, m. split; [exact Hi|lia].
  - apply bind_ok in H. destruct H as (s1 & H1 & H2).
    destruct (step_rx prof lost r0 e s s1 a i m Hst Hi H1) as (Hst1 & a1 & i1 & m1 & Hi1 & Ho1 & Ho2 & _).
    destruct (happen_mono prof s e s1 H1) as (Hm & _).
    replace (Nat.ltb (s_cycles s) 2) with false in Hi1 by lia.
    destruct (IH s1 s' lost a1 i1 m1 Hst1 ltac:(lia) Hi1 H2) as (G1 & G2 & a2 & i2 & m2 & G3 & G4 & G5).
    split; [exact G1|]. split; [exact G2|]. exists a2, i2, m2. split; [exact G3|lia].
Qed.

Lemma start_inv_rx l s : start l s -> inv_rx 0 (ri_rx_cnt (s_device s)) s 0 0 0.
Proof.
  intros (H1 & (D1 & D2) & (E1 & E2 & E3) & H2 & H3 & H4 & H5 & H6 & H7 & H8 & H9 & H10 & H11).
  unfold counter in *.
  constructor; rewrite ?H9; cbn [length]; auto; try lia.
  - rewrite H6, H4. lia.
  - rewrite H5. lia.
  - rewrite H5, H2. cbn [presents]. lia.
  - rewrite H2. cbn [presents]. lia.
  - intros _. unfold received, buffered. rewrite H1, H10. reflexivity.
Qed.

Definition ready_rx (s : system) : Prop :=
  p_init_state (s_proc s) = stage (s_cycles s) /\ exists r0 a i m, inv_rx 0 r0 s a i m.

Lemma start_ready l s : start l s -> ready_rx s.
Proof.
  intros Hs. split; [destruct (start_inv_tx l s Hs); assumption|].
  eexists _, _, _, _. apply (start_inv_rx l). exact Hs.
Qed.

Lemma C35_gen : forall prof s0 es1 s1 es2 s2, ready_rx s0 ->
  schedule prof s0 es1 = Ok s1 -> schedule prof s1 es2 = Ok s2 -> (2 <= s_cycles s1)%nat ->
  exists lost fetched,
    (lost <= length (s_offered s1))%nat /\
    (lost + fetched <= length (s_offered s2) <= lost + fetched + 1)%nat /\
    received s2 = concat (firstn fetched (skipn lost (s_offered s2))).
Proof.
  intros prof s0 es1 s1 es2 s2 (Hs0 & r0 & a0 & i0 & m0 & Hi0) H1 H2 Hk.
  destruct (run_rx_init prof r0 es1 s0 s1 0 a0 i0 m0 Hs0 ltac:(lia) Hi0 H1) as (Hst & lost & a & i & m & Hl & Hi).
  destruct (run_rx_done prof _ es2 s1 s2 lost a i m Hst Hk Hi H2) 
    as (_ & Hk2 & a' & i' & m' & [(O1 & O2) _ _ _ _ _ _ _ R] & _).
  destruct (R Hk2) as [(_ & R1 & R2)|(d & R0 & R1 & _ & R3)].
  - exists i', 0%nat. cbn [firstn concat]. split; [lia|]. split; [lia|exact R1].
  - exists d, (i' - d)%nat. split; [lia|]. split; [lia|exact R3].
Qed.

Lemma C35_partial_all : forall prof l s0 es1 s1 es2, start l s0 ->
  schedule prof s0 es1 = Ok s1 -> (2 <= s_cycles s1)%nat ->
  exists s2, schedule prof s1 es2 = Ok s2 /\
  (exists lost fetched,
    (lost <= length (s_offered s1))%nat /\
    (lost + fetched <= length (s_offered s2) <= lost + fetched + 1)%nat /\
    received s2 = concat (firstn fetched (skipn lost (s_offered s2)))) /\
  (s_offered s1 = [] ->
   exists fetched, (fetched <= length (s_offered s2) <= fetched + 1)%nat /\
     received s2 = concat (firstn fetched (s_offered s2))).
Proof.
  intros prof l s0 es1 s1 es2 Hs H1 Hk.
  destruct (run_tx prof l es1 s0 (start_inv_tx l s0 Hs)) as (s1' & p1 & n1 & R1 & I1 & _).
  rewrite H1 in R1. apply Ok_inj in R1. subst s1'.
  destruct (run_tx prof l es2 s1 I1) as (s2 & p2 & n2 & R2 & I2 & _).
  exists s2. split; [exact R2|].
  destruct (C35_gen prof s0 es1 s1 es2 s2 (start_ready l s0 Hs) H1 R2 Hk) as (lost & f & G1 & G2 & G3).
  split; [exists lost, f; auto|]. intros E. rewrite E in G1. cbn [length] in G1.
  assert (lost = 0)%nat by lia. subst lost. exists f. split; [lia|]. exact G3.
Qed.

(** After the input has been read and processed, everything offered before has arrived. *)
Lemma C53_gen : forall prof s0 es0 si es1 s1 b c d s2, ready_rx s0 ->
  schedule prof s0 es0 = Ok si -> (2 <= s_cycles si)%nat -> schedule prof si es1 = Ok s1 ->
  schedule prof s1 (b ++ [HostRead] ++ c ++ [HostCycle] ++ d) = Ok s2 ->
  exists lost fetched,
    (lost <= length (s_offered si))%nat /\
    (length (s_offered s1) <= lost + fetched <= length (s_offered s2))%nat /\
    received s2 = concat (firstn fetched (skipn lost (s_offered s2))).
Proof.
  intros prof s0 es0 si es1 s1 b c d s2 (Hss & r0 & as0 & is0 & ms0 & His) H0 Hk0 H1 H2.
  destruct (run_rx_init prof r0 es0 s0 si 0 as0 is0 ms0 Hss ltac:(lia) His H0) as (Hst0 & lost & a0 & i0 & m0 & Hl & Hi0).
  destruct (run_rx_done prof _ es1 si s1 lost a0 i0 m0 Hst0 Hk0 Hi0 H1) as (Hst & Hk & a & i & m & Hi & _ & _).
  rewrite schedule_app in H2. apply bind_ok in H2. destruct H2 as (t1 & T1 & H2).
  cbn [app schedule] in H2. apply bind_ok in H2. destruct H2 as (t2 & T2 & H2).
  rewrite schedule_app in H2. apply bind_ok in H2. destruct H2 as (t3 & T3 & H2).
  cbn [app schedule] in H2. apply bind_ok in H2. destruct H2 as (t4 & T4 & T5).
  assert (Hoff : forall es s s', schedule prof s es = Ok s' -> (length (s_offered s) <= length (s_offered s'))%nat).
  { induction es as [|e es IH]; intros s s' H; cbn [schedule] in H.
    - apply Ok_inj in H. subst. lia.
    - apply bind_ok in H. destruct H as (x & X1 & X2). apply happen_mono in X1. apply IH in X2. lia. }
  pose proof (Hoff _ _ _ T1) as HT1.
  destruct (run_rx_done prof _ b s1 t1 lost a i m Hst Hk Hi T1) as (A1 & A2 & a1 & i1 & m1 & A3 & A4 & A5).
  destruct (step_rx prof lost _ _ t1 t2 a1 i1 m1 A1 A3 T2) as (B1 & a2 & i2 & m2 & B3 & B4 & B5 & B6 & _).
  replace (Nat.ltb (s_cycles t1) 2) with false in B3 by lia. specialize (B6 eq_refl).
  destruct (happen_mono _ _ _ _ T2) as (B2 & _).
  destruct (run_rx_done prof _ c t2 t3 lost a2 i2 m2 B1 ltac:(lia) B3 T3) as (D1 & D2 & a3 & i3 & m3 & D3 & D4 & D5).
  destruct (step_rx prof lost _ _ t3 t4 a3 i3 m3 D1 D3 T4) as (E1 & a4 & i4 & m4 & E3 & E4 & E5 & _ & E6).
  replace (Nat.ltb (s_cycles t3) 2) with false in E3 by lia. specialize (E6 eq_refl).
  destruct (happen_mono _ _ _ _ T4) as (E2 & _).
  destruct (run_rx_done prof _ d t4 s2 lost a4 i4 m4 E1 ltac:(lia) E3 T5)
    as (F1 & F2 & a5 & i5 & m5 & [(O1 & O2) _ _ _ _ _ _ _ R] & F4 & F5).
  destruct (R F2) as [(_ & R1 & R2)|(d0 & R0 & R1 & _ & R3)].
  - exists i5, 0%nat. cbn [firstn concat]. split; [lia|]. split; [lia|exact R1].
  - exists d0, (i5 - d0)%nat. split; [lia|]. split; [lia|exact R3].
Qed.

Lemma C53_all : forall prof l s0 es0 si es1 s1 b c d s2, start l s0 ->
  schedule prof s0 es0 = Ok si -> (2 <= s_cycles si)%nat -> schedule prof si es1 = Ok s1 ->
  schedule prof s1 (b ++ [HostRead] ++ c ++ [HostCycle] ++ d) = Ok s2 ->
  exists lost fetched,
    (lost <= length (s_offered si))%nat /\
    (length (s_offered s1) <= lost + fetched <= length (s_offered s2))%nat /\
    received s2 = concat (firstn fetched (skipn lost (s_offered s2))).
Proof.
  intros prof l s0 es0 si es1 s1 b c d s2 Hs. apply C53_gen. apply (start_ready l). exact Hs.
Qed.
