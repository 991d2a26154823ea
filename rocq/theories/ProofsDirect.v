(** Proofs about a message processor that is used directly (C94). *)
From Coq Require Import ZArith List Bool Lia ZifyBool ZifyNat.
From Verif Require Import Base Facts Types Com SpecCodec SpecSerial SpecDirect ProofsSerial.
Import ListNotations.
Local Open Scope Z_scope.

Lemma inc_any prof z : is_usize z -> inc_cnt prof z = if (match prof with Debug => true | Release => false end) && (z =? max_usize) then Panic ArithmeticOverflow else Ok (following z).
Proof.
  intros H. unfold is_usize in H. unfold inc_cnt, add_usize, arith, following, max_usize.
  destruct (Z.eqb_spec z 18446744073709551615) as [->|N]; [destruct prof; reflexivity|].
  replace ((0 <=? z + 1) && (z + 1 <? 18446744073709551616)) with true by lia. cbn [bind].
  replace (3 <? z + 1) with (negb (z <? 3)) by lia. destruct (z <? 3), prof; reflexivity.
Qed.

Definition sized (p : processor) : Prop :=
  Forall (fun c => (0 < length c <= payload_size (p_process_data_len p))%nat) (p_out_data p).

Lemma write_sized p buf : sized p -> sized (fst (processor_write p buf)).
Proof.
  intros H. unfold sized, processor_write. cbn [fst p_out_data p_process_data_len]. apply Forall_app. split; [exact H|].
  exact (segmented_sizes _ _ _ (payload_pos _) (chunks_spec (payload_size (p_process_data_len p)) buf (payload_pos _))).
Qed.
Lemma read_sized p n : sized p -> sized (fst (processor_read p n)).
Proof. intros H. destruct (read_spec p n) as (_ & _ & R3 & _ & _ & R6). unfold sized. rewrite R3, R6. exact H. Qed.

Lemma streams_gen prof ops : forall k last p p' os, p_init_state p = stage k -> ((2 <= k)%nat -> p_last_rx_cnt p = last) -> ((k < 2)%nat -> last = 4) ->
  sized p -> Forall any_operation ops -> history prof p ops = Ok (p', os) ->
  queued p ++ all_written os = sendings k os ++ queued p' /\
  all_read os ++ buffered p' = buffered p ++ receptions k (Some last) os /\
  forall n i o r, nth_error (cycles os) n = Some (i, o, r) -> (2 <= k + n)%nat ->
    ro_rx_cnt_ack r = ri_rx_cnt i /\
    (ro_tx_cnt r = ro_tx_cnt o /\ ro_data r = ro_data o \/
     ro_tx_cnt r <> ro_tx_cnt o /\ ro_tx_cnt r = following (ri_tx_cnt_ack i) /\ (0 < length (ro_data r) <= payload_size (p_process_data_len p))%nat).
Proof.
  induction ops as [|op ops IH]; intros k last p p' os Hk Hl Hn Hz Hops H.
  - cbn [history] in H. apply Ok_inj, pair_inj in H. destruct H as [<- <-].
    cbn [all_written all_read sendings receptions cycles app]. rewrite !app_nil_r. split; [reflexivity|]. split; [reflexivity|].
    intros n i o r E. destruct n; discriminate.
  - apply history_cons in H. destruct H as (p1 & ob & os' & H1 & H2 & ->). inversion Hops as [|? ? Hop Hops']; subst.
    destruct op as [buf|size|i0 o0].
    + rewrite operate_write in H1. apply Ok_inj, pair_inj in H1. destruct H1 as [<- <-].
      destruct (IH k last (fst (processor_write p buf)) _ _ Hk Hl Hn (write_sized _ _ Hz) Hops' H2) as (I1 & I2 & I3).
      cbn [all_written all_read sendings receptions cycles]. rewrite write_queued, <- app_assoc in I1. auto.
    + rewrite operate_read in H1. apply Ok_inj, pair_inj in H1. destruct H1 as [<- <-].
      destruct (read_spec p size) as (R1 & R2 & R3 & R4 & R5 & R6). rewrite <- R4 in Hk. rewrite <- R5 in Hl.
      destruct (IH k last _ _ _ Hk Hl Hn (read_sized _ size Hz) Hops' H2) as (I1 & I2 & I3).
      cbn [all_written all_read sendings receptions cycles]. unfold queued, buffered in *. rewrite R3 in I1. rewrite R6 in I3.
      split; [exact I1|]. split; [|exact I3]. rewrite R1, R2 in *. rewrite <- app_assoc, I2, app_assoc, firstn_skipn. reflexivity.
    + apply operate_cycle in H1. destruct H1 as (r0 & H1 & ->). destruct Hop as (_ & Ua & _).
      destruct (next_cases prof p i0 o0 p1 r0 k Hk H1) as (S1 & S2 & S3 & S4 & S5 & S6).
      cbn [all_written all_read sendings receptions cycles]. destruct (Nat.leb_spec 2 k) as [Hge|Hlt]; cbn [andb].
      * destruct (S6 Hge) as (_ & _ & _ & Hs & F1 & F2). specialize (Hl Hge).
        assert (Z1 : sized p1).
        { unfold sized in *. rewrite S2. destruct Hs as [(E & _)|(c & E & _)]; [rewrite E; exact Hz|]. rewrite E in Hz. inversion Hz; assumption. }
        assert (Q : queued p ++ all_written os' = (if negb (ro_tx_cnt r0 =? ro_tx_cnt o0) then ro_data r0 else []) ++ queued p1 ++ all_written os').
        { unfold queued. destruct Hs as [(E & E1 & _)|(c & E & E1 & _ & E2)].
          - rewrite E, E1, Z.eqb_refl. reflexivity.
          - rewrite E. cbn [concat]. destruct (Z.eqb_spec (ro_tx_cnt r0) (ro_tx_cnt o0)); [contradiction|]. cbn [negb]. rewrite E1, <- app_assoc. reflexivity. }
        assert (HM : ro_rx_cnt_ack r0 = ri_rx_cnt i0 /\ (ro_tx_cnt r0 = ro_tx_cnt o0 /\ ro_data r0 = ro_data o0 \/
           ro_tx_cnt r0 <> ro_tx_cnt o0 /\ ro_tx_cnt r0 = following (ri_tx_cnt_ack i0) /\ (0 < length (ro_data r0) <= payload_size (p_process_data_len p))%nat)).
        { split; [exact S3|]. destruct Hs as [(_ & E1 & E2 & _)|(c & E & E1 & E2 & E3)]; [left; auto|right]. split; [exact E3|].
          rewrite inc_any in E2 by exact Ua. destruct (_ && _) in E2; [discriminate|]. apply Ok_inj in E2. split; [auto|].
          rewrite E1. unfold sized in Hz. rewrite E in Hz. inversion Hz; assumption. }
        assert (HR : exists last', p_last_rx_cnt p1 = last' /\
          (forall Y, (if ri_data_available i0 && negb (last =? ri_rx_cnt i0) then ri_data i0 ++ receptions (S k) (Some (ri_rx_cnt i0)) Y else receptions (S k) (Some last) Y)
            = (if ri_data_available i0 && negb (last =? ri_rx_cnt i0) then ri_data i0 else []) ++ receptions (S k) (Some last') Y) /\
          buffered p1 = buffered p ++ (if ri_data_available i0 && negb (last =? ri_rx_cnt i0) then ri_data i0 else [])).
        { unfold buffered. destruct (ri_data_available i0) eqn:Ea, (Z.eqb_spec last (ri_rx_cnt i0)) as [E|E]; cbn [andb negb].
          - destruct F2 as (G1 & G2); [right; congruence|]. exists last. rewrite app_nil_r. split; [congruence|auto].
          - destruct F1 as (G1 & G2); [reflexivity|congruence|]. exists (ri_rx_cnt i0). auto.
          - destruct F2 as (G1 & G2); [auto|]. exists last. rewrite app_nil_r. split; [congruence|auto].
          - destruct F2 as (G1 & G2); [auto|]. exists last. rewrite app_nil_r. split; [congruence|auto]. }
        destruct HR as (last' & L1 & L2 & L3).
        destruct (IH (S k) last' p1 p' os' S1 (fun _ => L1)) as (I1 & I2 & I3); [lia|exact Z1|exact Hops'|exact H2|].
        split; [rewrite Q, I1, app_assoc; reflexivity|]. split.
        -- rewrite L2, app_assoc, <- L3. exact I2.
        -- intros [|n] i o r En Hg; cbn [nth_error] in En.
           ++ apply Some_inj, pair_inj in En. destruct En as [En <-]. apply pair_inj in En. destruct En as [<- <-]. exact HM.
           ++ rewrite <- S2. apply (I3 n i o r En). lia.
      * destruct (S5 Hlt) as (_ & _ & _ & _ & E1 & E2 & E3 & G). specialize (Hn Hlt). subst last.
        assert (Z1 : sized p1) by (unfold sized; rewrite E2, S2; exact Hz).
        destruct (IH (S k) 4 p1 p' os' S1) as (I1 & I2 & I3); [intros Hg; apply G; lia|reflexivity|exact Z1|exact Hops'|exact H2|].
        unfold queued, buffered in *. rewrite E2 in I1. rewrite E3 in I2. split; [exact I1|]. split; [exact I2|].
        intros [|n] i o r En Hg; [lia|]. cbn [nth_error] in En. rewrite <- S2. apply (I3 n i o r En). lia.
Qed.

Lemma C94_streams_all : forall prof l ops p os, Forall any_operation ops -> history prof (processor_new l) ops = Ok (p, os) ->
  all_written os = sendings 0 os ++ queued p /\ all_read os ++ buffered p = receptions 0 (Some 4) os /\
  forall n i o r, nth_error (cycles os) n = Some (i, o, r) -> (2 <= n)%nat ->
    ro_rx_cnt_ack r = ri_rx_cnt i /\
    (ro_tx_cnt r = ro_tx_cnt o /\ ro_data r = ro_data o \/
     ro_tx_cnt r <> ro_tx_cnt o /\ ro_tx_cnt r = following (ri_tx_cnt_ack i) /\ (0 < length (ro_data r) <= payload_size l)%nat).
Proof.
  intros prof l ops p os Hops H.
  destruct (streams_gen prof ops 0 4 (processor_new l) p os) as (I1 & I2 & I3);
    [reflexivity|lia|reflexivity|apply Forall_nil|exact Hops|exact H|]. auto.
Qed.

Lemma next_any prof p i o : is_usize (ri_tx_cnt_ack i) ->
  (exists p' r, processor_next prof p i o = Ok (p', r)) /\ ~ (prof = Debug /\ p_init_state p = Done /\ p_out_data p <> [] /\ ri_tx_cnt_ack i = max_usize) \/
  (exists q, processor_next prof p i o = Panic q) /\ prof = Debug /\ p_init_state p = Done /\ p_out_data p <> [] /\ ri_tx_cnt_ack i = max_usize.
Proof.
  intros Hu. unfold processor_next. destruct (p_init_state p).
  - left. split; [eauto|]. intros (_ & E & _). discriminate.
  - left. split; [eauto|]. intros (_ & E & _). discriminate.
  - destruct (p_out_data p) as [|c rest].
    + left. cbn [bind]. split; [eauto|]. intros (_ & _ & E & _). congruence.
    + rewrite inc_any by exact Hu. destruct prof; cbn [andb].
      * destruct (Z.eqb_spec (ri_tx_cnt_ack i) max_usize) as [E|E]; cbn [bind].
        -- right. split; [eauto|]. repeat split; [discriminate|exact E].
        -- left. split; [|tauto]. destruct (negb _); cbn [bind]; eauto.
      * left. cbn [bind]. split; [destruct (negb _); cbn [bind]; eauto|]. intros (E & _). discriminate.
Qed.

Lemma history_panic_gen prof ops : forall k p, p_init_state p = stage k -> sized p -> Forall any_operation ops ->
  (exists p' os, history prof p ops = Ok (p', os)) /\
    ~ (prof = Debug /\ exists before i o after p' os, ops = before ++ Cycle i o :: after /\ history prof p before = Ok (p', os) /\
         (2 <= k + length (cycles os))%nat /\ queued p' <> [] /\ ri_tx_cnt_ack i = max_usize) \/
  (exists q, history prof p ops = Panic q) /\ prof = Debug /\
    exists before i o after p' os, ops = before ++ Cycle i o :: after /\ history prof p before = Ok (p', os) /\
         (2 <= k + length (cycles os))%nat /\ queued p' <> [] /\ ri_tx_cnt_ack i = max_usize.
Proof.
  induction ops as [|op ops IH]; intros k p Hk Hz Hops.
  - left. split; [cbn [history]; eauto|]. intros (_ & before & i & o & after & _ & _ & E & _). destruct before; discriminate.
  - inversion Hops as [|? ? Hop Hops']; subst.
    assert (HQ : forall q, sized q -> (queued q <> [] <-> p_out_data q <> [])).
    { intros q Zq. unfold queued, sized in *. destruct (p_out_data q) as [|c t]; [split; auto|]. inversion Zq as [|? ? Hc _]; subst.
      split; [discriminate|]. intros _. cbn [concat]. destruct c; [cbn in Hc; lia|discriminate]. }
    (* a step that succeeds *)
    assert (HS : forall p1 ob k1, operate prof p op = Ok (p1, ob) -> p_init_state p1 = stage k1 -> sized p1 -> (k1 = k + length (cycles [ob]))%nat ->
      ~ (prof = Debug /\ exists i o, op = Cycle i o /\ (2 <= k)%nat /\ queued p <> [] /\ ri_tx_cnt_ack i = max_usize) ->
      (exists p' os, history prof p (op :: ops) = Ok (p', os)) /\
    ~ (prof = Debug /\ exists before i o after p' os, op :: ops = before ++ Cycle i o :: after /\ history prof p before = Ok (p', os) /\
         (2 <= k + length (cycles os))%nat /\ queued p' <> [] /\ ri_tx_cnt_ack i = max_usize) \/
  (exists q, history prof p (op :: ops) = Panic q) /\ prof = Debug /\
    exists before i o after p' os, op :: ops = before ++ Cycle i o :: after /\ history prof p before = Ok (p', os) /\
         (2 <= k + length (cycles os))%nat /\ queued p' <> [] /\ ri_tx_cnt_ack i = max_usize).
    { intros p1 ob k1 H1 K1 Z1 Ek Hno. assert (HC : forall os, length (cycles (ob :: os)) = (length (cycles [ob]) + length (cycles os))%nat) by (intros os; destruct ob; reflexivity).
      destruct (IH k1 p1 K1 Z1 Hops') as [((p' & os & E) & N)|((q & E) & D & before & i & o & after & p' & os & E1 & E2 & E3 & E4 & E5)].
      - left. split; [exists p', (ob :: os); cbn [history]; rewrite H1; cbn [bind]; rewrite E; reflexivity|].
        intros (D & before & i & o & after & p2 & os2 & E1 & E2 & E3 & E4 & E5). destruct before as [|op0 before]; cbn [app] in E1.
        + cbn [history] in E2. apply Ok_inj, pair_inj in E2. destruct E2 as [<- <-]. apply Hno. split; [exact D|]. injection E1 as -> _. exists i, o. cbn [cycles length] in E3. split; [reflexivity|]. split; [lia|auto].
        + injection E1 as <- E1. apply history_cons in E2. destruct E2 as (p3 & ob3 & os3 & G1 & G2 & ->). rewrite H1 in G1. apply Ok_inj, pair_inj in G1. destruct G1 as [<- <-].
          apply N. split; [exact D|]. exists before, i, o, after, p2, os3. rewrite HC in E3. split; [exact E1|]. split; [exact G2|]. split; [lia|auto].
      - right. split; [exists q; cbn [history]; rewrite H1; cbn [bind]; rewrite E; reflexivity|]. split; [exact D|].
        exists (op :: before), i, o, after, p', (ob :: os). split; [rewrite E1; reflexivity|]. split; [cbn [history]; rewrite H1; cbn [bind]; rewrite E2; reflexivity|].
        rewrite HC. split; [lia|auto]. }
    destruct op as [buf|size|i0 o0].
    + apply (HS _ _ k (operate_write prof p buf)); [exact Hk|apply write_sized; exact Hz|cbn; lia|]. intros (_ & i & o & E & _). discriminate.
    + destruct (read_spec p size) as (_ & _ & _ & R4 & _).
      apply (HS _ _ k (operate_read prof p size)); [rewrite R4; exact Hk|apply read_sized; exact Hz|cbn; lia|]. intros (_ & i & o & E & _). discriminate.
    + destruct Hop as (_ & Ua & _). assert (HK : p_init_state p = Done <-> (2 <= k)%nat).
      { rewrite Hk. split; [destruct k as [|[|k]]; cbn; [discriminate|discriminate|lia]|apply stage_done]. }
      destruct (next_any prof p i0 o0 Ua) as [((p1 & r & E) & N)|((q & E) & D & I & O & M)].
      * destruct (next_cases prof p i0 o0 p1 r k Hk E) as (S1 & S2 & _ & _ & S5 & S6).
        apply (HS p1 (Cycled i0 o0 r) (S k)); [cbn [operate]; rewrite E; reflexivity|exact S1| |cbn; lia|].
        -- unfold sized in *. rewrite S2. destruct (Nat.lt_ge_cases k 2) as [L|L]; [destruct (S5 L) as (_ & _ & _ & _ & _ & -> & _); exact Hz|].
           destruct (S6 L) as (_ & _ & _ & [(-> & _)|(c & E' & _)] & _); [exact Hz|]. rewrite E' in Hz. inversion Hz; assumption.
        -- intros (D & i & o & E1 & K2 & Q & M). injection E1 as <- <-. apply N. split; [exact D|]. split; [apply HK; exact K2|]. split; [apply HQ; assumption|exact M].
      * right. split; [exists q; cbn [history operate]; rewrite E; reflexivity|]. split; [exact D|].
        exists [], i0, o0, ops, p, []. split; [reflexivity|]. split; [reflexivity|]. cbn [cycles length].
        split; [rewrite Nat.add_0_r; apply HK; exact I|]. split; [apply HQ; assumption|exact M].
Qed.

Lemma C94_total_all : forall prof l ops, Forall any_operation ops ->
  let overflow := prof = Debug /\ exists before i o after p os, ops = before ++ Cycle i o :: after /\
    history prof (processor_new l) before = Ok (p, os) /\ (2 <= length (cycles os))%nat /\ queued p <> [] /\ ri_tx_cnt_ack i = max_usize in
  ((exists p os, history prof (processor_new l) ops = Ok (p, os)) <-> ~ overflow) /\
  ((exists q, history prof (processor_new l) ops = Panic q) <-> overflow).
Proof.
  intros prof l ops Hops overflow.
  destruct (history_panic_gen prof ops 0 (processor_new l) eq_refl (Forall_nil _) Hops) as [(E & N)|(E & O)].
  - split; split; intros X; [exact N|exact E| |contradiction]. destruct E as (p & os & E), X as (q & X). congruence.
  - split; split; intros X; [|contradiction|exact O|exact E]. intros _. destruct X as (p & os & X), E as (q & E). congruence.
Qed.
