(** Proofs of C109: the cost of serial transmission in segments and cycles. *)
From Coq Require Import ZArith List Bool Lia ZifyBool ZifyNat.
From Verif Require Import Base Facts F32 Types Lib Util Com Fbc SpecCodec SpecSerial ProofsSerial ProofsSerialSystem
  SpecCoupler SpecImage ProofsLoop ProofsCycle ProofsCoupler SpecSystem ProofsSystem SpecThroughput.
Import ListNotations.
Local Open Scope Z_scope.

(** Segments of a byte string. *)
Lemma segmented_count n buf segs : (0 < n)%nat -> segmented n buf segs -> length segs = Nat.div (length buf + n - 1) n.
Proof.
  intros Hn. induction 1 as [| c H | c rest segs H1 H2 H3 IH].
  - cbn [length]. symmetry. apply Nat.div_small. lia.
  - cbn [length]. apply (Nat.div_unique _ _ _ (length c - 1)%nat); lia.
  - cbn [length]. rewrite IH, app_length, H1.
    replace (n + length rest + n - 1)%nat with (length rest + n - 1 + 1 * n)%nat by lia.
    rewrite Nat.div_add by lia. lia.
Qed.

Definition proper (l : process_data_length) (seg : list Z) : Prop := (0 < length seg <= payload_size l)%nat.

Lemma chunks_proper l buf : let segs := chunks (user_data_len l) buf in
  length segs = segments_for l (length buf) /\ Forall (proper l) segs.
Proof.
  assert (H : segmented (payload_size l) buf (chunks (user_data_len l) buf)).
  { apply (chunks_spec (payload_size l)), payload_pos. }
  split; [exact (segmented_count _ _ _ (payload_pos l) H)|].
  exact (segmented_sizes _ _ _ (payload_pos l) H).
Qed.

(** What an event does to the segments that the module has not taken over. *)
Definition counts (l : process_data_length) (e : event) (s s' : system) : Prop :=
  match e with
  | UserWrite buf => exists new, untaken s' = untaken s ++ new /\ length new = segments_for l (length buf) /\
      Forall (proper l) new /\ in_flight s' = in_flight s /\ s_taken s' = s_taken s
  | HostCycle => untaken s' = untaken s /\ s_taken s' = s_taken s /\
      (in_flight s' = in_flight s \/ exists c, In c (waiting s) /\ in_flight s' = [c])
  | DevTake => s' = s \/ exists c, in_flight s = [c] /\ in_flight s' = [] /\ untaken s = c :: untaken s' /\
      s_taken s' = s_taken s ++ c
  | _ => untaken s' = untaken s /\ in_flight s' = in_flight s /\ s_taken s' = s_taken s
  end.

Lemma step_counts prof l e s s' : inv_tx l s -> happen prof s e = Ok s' -> counts l e s s'.
Proof.
  intros Hi H. pose proof Hi as [I1 I2 I3 I4 I5 I6 I7 I8]. destruct e as [buf|size| | | | |seg| |full ready]; cbn [happen counts] in *.
  - apply Ok_inj in H. subst s'. destruct (chunks_proper l buf) as (L & F).
    exists (chunks (user_data_len l) buf). split; [|auto].
    unfold untaken, in_flight, waiting. sfields. cbn [p_out_data]. rewrite I1, app_assoc. reflexivity.
  - destruct (processor_read (s_proc s) size) as (p & bytes) eqn:E.
    destruct (read_spec (s_proc s) size) as (_ & _ & R3 & _). rewrite E in R3. cbn [fst] in R3.
    apply Ok_inj in H. subst s'. unfold untaken, in_flight, waiting. sfields. rewrite R3. auto.
  - apply Ok_inj in H. subst s'. auto.
  - destruct (processor_next prof (s_proc s) (s_latch s) (s_image s)) as [(p & r)| |] eqn:E; cbn [bind] in H; try discriminate.
    apply Ok_inj in H. subst s'.
    destruct (next_cases prof (s_proc s) (s_latch s) (s_image s) p r (s_cycles s) I2 E) as (S1 & S2 & S3 & S4 & S5 & S6).
    destruct (Nat.ltb_spec (s_cycles s) 2) as [Hlt|Hge].
    + destruct (S5 Hlt) as (_ & _ & _ & D1 & D2 & D3 & _). specialize (I6 Hlt). destruct I6 as (J1 & J2 & J3).
      unfold untaken, in_flight, waiting, tx, ack in *. sfields. rewrite D2, D3, J3, Z.eqb_refl. auto.
    + destruct (S6 Hge) as (_ & _ & _ & [(D1 & D2 & D3 & D4)|(c & D1 & D2 & D3 & D4)] & _).
      * unfold untaken, in_flight, waiting. sfields. rewrite D1, D2, D3. auto.
      * rewrite inc_cnt_counter in D3 by exact I5. apply Ok_inj in D3.
        assert (Hidle : idle s).
        { destruct I7 as [I7|I7]; [exact I7|]. exfalso. apply D4. rewrite <- D3. apply I7. }
        destruct Hidle as (J1 & J2 & J3).
        assert (Hne : ro_tx_cnt r <> ack s).
        { rewrite <- D3. unfold lat in *. rewrite J1, J3. apply succ4_ne. exact I3. }
        unfold untaken, in_flight, waiting, tx, ack in *. sfields.
        replace (ro_tx_cnt r =? ri_tx_cnt_ack (s_device s)) with false by lia.
        replace (ro_tx_cnt (s_image s) =? ri_tx_cnt_ack (s_device s)) with true by lia.
        rewrite D1, D2. split; [reflexivity|]. split; [reflexivity|]. right. exists c. split; [left; reflexivity|reflexivity].
  - apply Ok_inj in H. subst s'. auto.
  - destruct (Z.eqb_spec (ro_tx_cnt (s_register s)) (ri_tx_cnt_ack (s_device s))) as [E|E]; apply Ok_inj in H; subst s'; [left; reflexivity|].
    right. assert (Hb : busy s).
    { destruct I7 as [(J1 & J2 & J3)|I7]; [|exact I7]. exfalso. unfold reg, ack, tx in *. congruence. }
    destruct Hb as (B1 & B2). unfold reg, ack, lat, tx in *.
    assert (B : ro_tx_cnt (s_register s) = ro_tx_cnt (s_image s) /\ ro_data (s_register s) = ro_data (s_image s)).
    { destruct B2 as [(B2 & B3)|(B2 & B3 & [B4|B4])]; [congruence|auto|congruence]. }
    destruct B as (B3 & B4). exists (ro_data (s_image s)). unfold untaken, in_flight, waiting. sfields.
    rewrite B3 in *. rewrite Z.eqb_refl, B4.
    replace (ro_tx_cnt (s_image s) =? ri_tx_cnt_ack (s_device s)) with false by lia. auto.
  - destruct (ro_rx_cnt_ack (s_register s) =? ri_rx_cnt (s_device s)); apply Ok_inj in H; subst s'; auto.
  - destruct (ro_rx_cnt_ack (s_register s) =? ri_rx_cnt (s_device s)); apply Ok_inj in H; subst s'; auto.
  - apply Ok_inj in H. subst s'. auto.
Qed.

(** All segments under way are proper ones. *)
Definition inv_count (l : process_data_length) (s : system) : Prop := inv_tx l s /\ Forall (proper l) (untaken s).

Lemma count_step prof l e s s' : inv_count l s -> happen prof s e = Ok s' -> inv_count l s' /\ counts l e s s'.
Proof.
  intros (Hi & Hf) H. pose proof (step_counts prof l e s s' Hi H) as Hc.
  destruct (step_tx_ok prof l e s Hi) as (s1 & p & n & H1 & [T1 _ _ _ _ _ _ _ _ _ _ _ _]).
  rewrite H in H1. apply Ok_inj in H1. subst s1. split; [|exact Hc]. split; [exact T1|].
  destruct e; cbn [counts] in Hc.
  - destruct Hc as (new & -> & _ & Hn & _). apply Forall_app. auto.
  - destruct Hc as (-> & _). exact Hf.
  - destruct Hc as (-> & _). exact Hf.
  - destruct Hc as (-> & _). exact Hf.
  - destruct Hc as (-> & _). exact Hf.
  - destruct Hc as [-> |(c & _ & _ & E & _)]; [exact Hf|]. rewrite E in Hf. inversion Hf; assumption.
  - destruct Hc as (-> & _). exact Hf.
  - destruct Hc as (-> & _). exact Hf.
  - destruct Hc as (-> & _). exact Hf.
Qed.

Lemma count_run prof l es : forall s s', inv_count l s -> schedule prof s es = Ok s' -> inv_count l s'.
Proof.
  induction es as [|e es IH]; intros s s' Hi H; cbn [schedule] in H.
  - apply Ok_inj in H. subst s'. exact Hi.
  - destruct (happen prof s e) as [s1| |] eqn:E; cbn [bind] in H; try discriminate.
    destruct (count_step prof l e s s1 Hi E) as (Hi1 & _). exact (IH s1 s' Hi1 H).
Qed.

Lemma start_count l s : start l s -> inv_count l s.
Proof.
  intros H. split; [exact (start_inv_tx l s H)|].
  destruct H as (H1 & _ & _ & _ & H3 & _ & _ & H6 & _).
  unfold untaken, in_flight, waiting. rewrite H6, H3, Z.eqb_refl, H1. constructor.
Qed.

(** The plant: [evs] are the events of the message processor for an event of the plant. *)
Definition exact_events (i : nat) (t : plant) (e : plant_event) (evs : list event) : Prop :=
  match e with
  | PWrite j buf => evs = if Nat.eqb j i then [UserWrite buf] else []
  | PCycle => evs = [UserWrite (pending (t_coupler t) i); HostCycle] \/ pending (t_coupler t) i = [] /\ evs = [HostCycle]
  | PTake => evs = [DevTake]
  | PInput _ => evs = [HostRead]
  | POutput => evs = [HostWrite]
  | POffer seg => evs = [DevOffer seg]
  | _ => evs = [] \/ exists x, evs = [x] /\ match x with UserWrite _ | HostCycle | DevTake => False | _ => True end
  end.

Lemma plant_exact prof i l ioff ooff t e t' s : alike_plant i l ioff ooff t s ->
  plant_step prof i l ioff ooff t e t' ->
  exists evs s', schedule prof s evs = Ok s' /\ alike_plant i l ioff ooff t' s' /\ exact_events i t e evs.
Proof.
  intros [Hok Hat Hp Hl Hi Hr Hd Hw Ht Ho Hde Hc] H. unfold exact_events.
  destruct H as [t a v Hv|t j n c r Er|t j b Hb|t input Hu Hin|t c' image Hcy|t|t o Eo|t seg o Eo|t o Eo|t full ready].
  - exists [], s. split; [reflexivity|]. split; [|left; reflexivity].
    destruct (set_static (t_coupler t) a v) as (_ & _ & M1 & M2 & M3 & _).
    split; plain; auto.
    + apply set_ok; assumption.
    + eapply serial_at_static; [exact M1|exact M2|exact Hat].
    + unfold serial. rewrite M3. exact Hp.
  - pose proof (read_ok (t_coupler t) j n Hok) as Hok'. destruct (read_static (t_coupler t) j n) as (_ & _ & M1 & M2 & _).
    rewrite Er in Hok', M1, M2. cbn [fst] in Hok', M1, M2.
    unfold coupler_read in Er. destruct (Nat.eqb_spec j i) as [->|Ej].
    + unfold serial in Hp. rewrite Hp in Er. destruct (processor_read (s_proc s) n) as (p' & bytes) eqn:Ep.
      apply pair_inj in Er. destruct Er as [<- <-].
      eexists [UserRead n], _. split; [cbn [schedule happen bind]; rewrite Ep; reflexivity|].
      split; [|right; eexists; split; [reflexivity|exact I]].
      split; plain; auto; try (eapply serial_at_static; [exact M1|exact M2|exact Hat]); [|congruence].
      rewrite serial_with, Nat.eqb_refl. reflexivity.
    + exists [], s. split; [reflexivity|]. split; [|left; reflexivity].
      assert (Hs : serial c i = serial (t_coupler t) i /\ match r with Some bytes => [] | None => [] end = @nil Z).
      { destruct (map_get Nat.eqb j (c_processors (t_coupler t))) as [q|].
        - destruct (processor_read q n) as (q' & bytes). apply pair_inj in Er. destruct Er as [<- <-].
          rewrite serial_with. replace (Nat.eqb j i) with false by lia. auto.
        - apply pair_inj in Er. destruct Er as [<- <-]. auto. }
      destruct Hs as [Hs ->]. rewrite app_nil_r.
      split; plain; auto; [eapply serial_at_static; [exact M1|exact M2|exact Hat]|congruence].
  - pose proof (write_ok (t_coupler t) j b Hok Hb) as Hok'. destruct (write_static (t_coupler t) j b) as (_ & _ & M1 & M2 & _).
    destruct (Nat.eqb_spec j i) as [->|Ej].
    + destruct (processor_write (s_proc s) b) as (p' & n) eqn:Ep.
      eexists [UserWrite b], _. split; [cbn [schedule happen]; rewrite Ep; reflexivity|]. split; [|reflexivity].
      split; plain; auto; try (eapply serial_at_static; [exact M1|exact M2|exact Hat]); [|congruence].
      unfold coupler_write. unfold serial in Hp. rewrite Hp, Ep. cbn [fst]. rewrite serial_with, Nat.eqb_refl. reflexivity.
    + exists [], s. split; [reflexivity|]. split; [|reflexivity]. rewrite app_nil_r.
      split; plain; auto; [eapply serial_at_static; [exact M1|exact M2|exact Hat]|].
      unfold coupler_write. destruct (map_get Nat.eqb j (c_processors (t_coupler t))) as [q|]; [|exact Hp].
      destruct (processor_write q b) as (q' & n). cbn [fst]. rewrite serial_with.
      replace (Nat.eqb j i) with false by lia. exact Hp.
  - eexists [HostRead], _. split; [reflexivity|]. split; [|reflexivity].
    split; plain; auto. rewrite <- Hd. exact Hin.
  - destruct (serial_cycle _ _ _ _ _ _ _ _ _ _ Hok Hcy Hat)
      as (p0 & p' & rin & rout & rs & S1 & S2 & S3 & _ & S4 & _ & S5 & _ & S6 & S6' & _ & S7 & S8).
    rewrite Hp in S1. apply Some_inj in S1. subst p0. rewrite Hl in S3. apply Ok_inj in S3. subst rin.
    rewrite Hi in S4. apply Ok_inj in S4. subst rout.
    pose proof (cycle_ok _ _ _ _ _ _ Hok Hcy) as Hok'. destruct (cycle_static _ _ _ _ _ _ Hcy) as (M1 & M2).
    assert (Hw' : exists w s1, schedule prof s w = Ok s1 /\ s_proc s1 = fed (s_proc s) (requested (t_coupler t) (mk_address i 0)) /\
       s1 = mk_system (s_proc s1) (s_latch s) (s_image s) (s_register s) (s_device s)
            (s_written s ++ pending (t_coupler t) i) (s_taken s) (s_offered s) (s_delivered s) (s_cycles s) /\
       (w = [UserWrite (pending (t_coupler t) i)] \/ pending (t_coupler t) i = [] /\ w = [])).
    { unfold pending. destruct (bytes_or_not (requested (t_coupler t) (mk_address i 0))) as [(b & ->)|(N1 & N2)].
      - destruct (processor_write (s_proc s) b) as (p1 & n) eqn:Ew.
        eexists [UserWrite b], _. cbn [schedule happen bind fed]. rewrite Ew. plain. split; [reflexivity|].
        split; [reflexivity|]. split; [reflexivity|left; reflexivity].
      - exists [], s. rewrite N1, N2, app_nil_r. clear. destruct s. auto 6. }
    destruct Hw' as (w & s1 & Hs1 & Ep1 & Es1 & Ew).
    eexists (w ++ [HostCycle]), _. split.
    { rewrite ProofsSystem.schedule_app, Hs1. cbn [bind schedule happen]. rewrite Ep1. rewrite Es1. plain. rewrite S5. cbn [bind]. reflexivity. }
    split; [|destruct Ew as [-> |(E & ->)]; [left; reflexivity|right; split; [exact E|reflexivity]]].
    split; plain; auto; try congruence. eapply serial_at_static; [exact M1|exact M2|exact Hat].
  - eexists [HostWrite], _. split; [reflexivity|]. split; [|reflexivity]. split; plain; auto.
  - rewrite Hr in Eo. apply Ok_inj in Eo. subst o.
    exists [DevTake]. cbn [schedule happen]. rewrite Hd. destruct (ro_tx_cnt (s_register s) =? ri_tx_cnt_ack (s_device s)).
    + exists s. split; [reflexivity|]. split; [|reflexivity]. split; auto.
    + eexists. split; [reflexivity|]. split; [|reflexivity]. split; plain; auto; try congruence.
  - rewrite Hr in Eo. apply Ok_inj in Eo. subst o.
    exists [DevOffer seg]. cbn [schedule happen]. rewrite Hd. destruct (ro_rx_cnt_ack (s_register s) =? ri_rx_cnt (s_device s)).
    + eexists. split; [reflexivity|]. split; [|reflexivity]. split; plain; auto; try congruence.
    + exists s. split; [reflexivity|]. split; [|reflexivity]. split; auto.
  - rewrite Hr in Eo. apply Ok_inj in Eo. subst o.
    exists [DevClear]. cbn [schedule happen]. rewrite Hd. destruct (ro_rx_cnt_ack (s_register s) =? ri_rx_cnt (s_device s)).
    + eexists. split; [reflexivity|]. split; [|right; eexists; split; [reflexivity|exact I]]. split; plain; auto; try congruence.
    + exists s. split; [reflexivity|]. split; [|right; eexists; split; [reflexivity|exact I]]. split; auto.
  - exists [DevStatus full ready]. cbn [schedule happen]. rewrite Hd. eexists. split; [reflexivity|].
    split; [|right; eexists; split; [reflexivity|exact I]]. split; plain; auto; try congruence.
Qed.

Lemma outstanding_untaken i l ioff ooff t s : alike_plant i l ioff ooff t s -> outstanding i l ooff t = length (untaken s).
Proof.
  intros H. destruct (alike_on_its_way _ _ _ _ _ _ H) as (_ & _ & _ & ->). unfold untaken. rewrite app_length. reflexivity.
Qed.

(** A state of the plant and the corresponding one of the message processor. *)
Lemma plant_counted prof i l ioff ooff t0 es t : plant_start i l ioff ooff t0 -> plant_runs prof i l ioff ooff t0 es t ->
  exists s, alike_plant i l ioff ooff t s /\ inv_count l s.
Proof.
  intros H0 H. destruct (plant_starts _ _ _ _ _ H0) as (s0 & S0 & A0).
  destruct (plant_run_simulates _ _ _ _ _ _ _ _ _ A0 H) as (evs & s & G & A).
  exists s. split; [exact A|]. exact (count_run prof l evs s0 s (start_count l s0 S0) G).
Qed.

(** One step, with everything that is needed below. *)
Lemma plant_step_counts prof i l ioff ooff t s e t' : alike_plant i l ioff ooff t s -> inv_count l s ->
  plant_step prof i l ioff ooff t e t' ->
  (exists s', alike_plant i l ioff ooff t' s' /\ inv_count l s') /\
  match e with
  | PWrite j buf => outstanding i l ooff t' = (outstanding i l ooff t + if Nat.eqb j i then segments_for l (length buf) else 0)%nat
  | PCycle => outstanding i l ooff t' = (outstanding i l ooff t + segments_for l (length (pending (t_coupler t) i)))%nat
  | PTake => t_taken t' = t_taken t /\ outstanding i l ooff t' = outstanding i l ooff t \/
      exists seg, proper l seg /\ t_taken t' = t_taken t ++ seg /\ outstanding i l ooff t = S (outstanding i l ooff t')
  | _ => outstanding i l ooff t' = outstanding i l ooff t
  end /\
  (e <> PTake -> t_taken t' = t_taken t) /\
  (length (t_taken t' ++ on_its_way l ooff t') <=
   length (t_taken t ++ on_its_way l ooff t) + match e with PCycle => payload_size l | _ => 0 end)%nat.
Proof.
  intros A (Hi & Hf) H.
  destruct (plant_exact _ _ _ _ _ _ _ _ _ A H) as (evs & s' & G & A' & Ev).
  assert (Hi' : inv_count l s') by exact (count_run prof l evs s s' (conj Hi Hf) G).
  split; [exists s'; auto|].
  rewrite (outstanding_untaken _ _ _ _ _ _ A), (outstanding_untaken _ _ _ _ _ _ A').
  destruct (alike_on_its_way _ _ _ _ _ _ A) as (-> & _). destruct (alike_on_its_way _ _ _ _ _ _ A') as (-> & _).
  assert (Et : t_taken t = s_taken s) by apply A. assert (Et' : t_taken t' = s_taken s') by apply A'.
  rewrite Et, Et', !app_length.
  assert (Quiet : forall evs, (evs = [] \/ exists x, evs = [x] /\ match x with UserWrite _ | HostCycle | DevTake => False | _ => True end) ->
    schedule prof s evs = Ok s' -> untaken s' = untaken s /\ in_flight s' = in_flight s /\ s_taken s' = s_taken s).
  { intros l0 [-> |(x & -> & Hx)] G0; cbn [schedule] in G0.
    - apply Ok_inj in G0. subst s'. auto.
    - destruct (happen prof s x) as [s1| |] eqn:Ex; cbn [bind] in G0; try discriminate. apply Ok_inj in G0. subst s1.
      pose proof (step_counts prof l x s s' Hi Ex) as Hc. destruct x; try contradiction; exact Hc. }
  assert (Same : untaken s' = untaken s /\ in_flight s' = in_flight s /\ s_taken s' = s_taken s ->
    length (untaken s') = length (untaken s) /\ (e <> PTake -> s_taken s' = s_taken s) /\
    (length (s_taken s') + length (concat (in_flight s')) <= length (s_taken s) + length (concat (in_flight s)) + 0)%nat).
  { intros (-> & -> & ->). split; [reflexivity|]. split; [reflexivity|lia]. }
  destruct e; cbn [exact_events] in Ev.
  1,2,9,10: exact (Same (Quiet evs Ev G)).
  2,4,6: exact (Same (Quiet evs (or_intror (ex_intro _ _ (conj Ev I))) G)).
  - (* PWrite *)
    destruct (Nat.eqb j i).
    + subst evs. cbn [schedule] in G. destruct (happen prof s (UserWrite buf)) as [s1| |] eqn:Ex; cbn [bind] in G; try discriminate.
      apply Ok_inj in G. subst s1. destruct (step_counts prof l _ s s' Hi Ex) as (new & E1 & E2 & _ & E3 & E4).
      rewrite E1, E3, E4, app_length, E2. split; [reflexivity|]. split; [reflexivity|lia].
    + rewrite Nat.add_0_r. exact (Same (Quiet evs (or_introl Ev) G)).
  - (* PCycle *)
    assert (Hcyc : exists s1, inv_count l s1 /\ happen prof s1 HostCycle = Ok s' /\ s_taken s1 = s_taken s /\
      in_flight s1 = in_flight s /\ length (untaken s1) = (length (untaken s) + segments_for l (length (pending (t_coupler t) i)))%nat).
    { destruct Ev as [-> |(Hn & ->)]; cbn [schedule] in G.
      - destruct (happen prof s (UserWrite (pending (t_coupler t) i))) as [s1| |] eqn:Ex; cbn [bind] in G; try discriminate.
        destruct (happen prof s1 HostCycle) as [s2| |] eqn:Ey; cbn [bind] in G; try discriminate. apply Ok_inj in G. subst s2.
        destruct (count_step prof l _ s s1 (conj Hi Hf) Ex) as (J & (new & E1 & E2 & _ & E3 & E4)).
        exists s1. rewrite E1, app_length, E2. auto.
      - destruct (happen prof s HostCycle) as [s2| |] eqn:Ey; cbn [bind] in G; try discriminate. apply Ok_inj in G. subst s2.
        exists s. rewrite Hn. replace (segments_for l (length (@nil Z))) with 0%nat by (destruct l; reflexivity).
        rewrite Nat.add_0_r. split; [split; assumption|]. auto. }
    destruct Hcyc as (s1 & (J & Jf) & Hh & E1 & E2 & E3).
    destruct (step_counts prof l _ s1 s' J Hh) as (F1 & F2 & F3).
    rewrite F1, E3. split; [reflexivity|]. rewrite F2, E1. split; [reflexivity|].
    destruct F3 as [F3|(c & Hin & F3)]; rewrite F3, ?E2; [lia|]. cbn [concat]. rewrite app_nil_r.
    assert (Hc : proper l c).
    { apply (proj1 (Forall_forall _ _) Jf). unfold untaken. apply in_or_app. right. exact Hin. }
    unfold proper in Hc. lia.
  - (* PTake *)
    subst evs. cbn [schedule] in G. destruct (happen prof s DevTake) as [s1| |] eqn:Ex; cbn [bind] in G; try discriminate.
    apply Ok_inj in G. subst s1. destruct (step_counts prof l _ s s' Hi Ex) as [-> |(c & E1 & E2 & E3 & E4)].
    + split; [left; auto|]. split; [reflexivity|lia].
    + split; [|split; [intros N; contradiction|]].
      * right. exists c. rewrite E3 in Hf |- *. inversion Hf; subst. auto.
      * rewrite E1, E2, E4, app_length. cbn [concat app length]. rewrite app_nil_r. lia.
Qed.

Lemma C109_account_all : forall prof i l ioff ooff t0 es t e t', plant_start i l ioff ooff t0 ->
  plant_runs prof i l ioff ooff t0 es t -> plant_step prof i l ioff ooff t e t' ->
  match e with
  | PWrite j buf => outstanding i l ooff t' = (outstanding i l ooff t + if Nat.eqb j i then segments_for l (length buf) else 0)%nat
  | PCycle => outstanding i l ooff t' = (outstanding i l ooff t + segments_for l (length (pending (t_coupler t) i)))%nat
  | PTake => t_taken t' = t_taken t /\ outstanding i l ooff t' = outstanding i l ooff t \/
      exists seg, (0 < length seg <= payload_size l)%nat /\ t_taken t' = t_taken t ++ seg /\
        outstanding i l ooff t = S (outstanding i l ooff t')
  | _ => outstanding i l ooff t' = outstanding i l ooff t
  end.
Proof.
  intros prof i l ioff ooff t0 es t e t' H0 H1 H2. destruct (plant_counted _ _ _ _ _ _ _ _ H0 H1) as (s & A & Hi).
  destruct (plant_step_counts _ _ _ _ _ _ _ _ _ A Hi H2) as (_ & H & _). exact H.
Qed.

(** Nothing is outstanding if everything has been taken over. *)
Lemma nothing_outstanding i l ioff ooff t s : alike_plant i l ioff ooff t s -> inv_count l s -> t_taken t = t_written t ->
  outstanding i l ooff t = 0%nat /\ on_its_way l ooff t = [].
Proof.
  intros A (Hi & Hf) E. destruct Hi as [_ _ _ _ _ _ _ I8]. destruct A as [A1 A2 A3 A4 A5 A6 A7 A8 A9 A10 A11 A12].
  assert (En : concat (untaken s) = []).
  { apply (app_inv_head (s_taken s)). rewrite app_nil_r. congruence. }
  assert (Eu : untaken s = []).
  { destruct (untaken s) as [|c us]; [reflexivity|]. exfalso. inversion Hf as [|? ? Hc _]; subst. cbn [concat] in En.
    apply app_eq_nil in En. destruct En as [-> _]. unfold proper in Hc. cbn [length] in Hc. lia. }
  assert (A : alike_plant i l ioff ooff t s) by (constructor; assumption).
  split.
  - rewrite (outstanding_untaken _ _ _ _ _ _ A), Eu. reflexivity.
  - destruct (alike_on_its_way _ _ _ _ _ _ A) as (-> & _). unfold untaken in Eu. apply app_eq_nil in Eu. destruct Eu as [-> _]. reflexivity.
Qed.

Lemma C109_enough_all : forall prof i l ioff ooff t0 es t buf t1 rounds t2, plant_start i l ioff ooff t0 ->
  plant_runs prof i l ioff ooff t0 es t -> (2 <= t_cycles t)%nat -> t_taken t = t_written t ->
  plant_step prof i l ioff ooff t (PWrite i buf) t1 ->
  Forall plant_round rounds -> (segments_for l (length buf) <= length rounds)%nat ->
  plant_runs prof i l ioff ooff t1 (concat rounds) t2 ->
  exists rest, t_taken t2 = t_taken t ++ buf ++ rest.
Proof.
  intros prof i l ioff ooff t0 es t buf t1 rounds t2 H0 H1 Hc Et H2 Hf Hn H3.
  destruct (plant_counted _ _ _ _ _ _ _ _ H0 H1) as (s & A & Hi).
  destruct (nothing_outstanding _ _ _ _ _ _ A Hi Et) as (Ho & _).
  pose proof (C109_account_all _ _ _ _ _ _ _ _ _ _ H0 H1 H2) as Hq. cbv beta iota in Hq. rewrite Nat.eqb_refl, Ho in Hq.
  assert (Hr : plant_runs prof i l ioff ooff t0 (es ++ [PWrite i buf]) t1).
  { clear - H1 H2. induction H1; cbn [app]; econstructor; eauto. constructor. }
  assert (W : t_written t1 = t_written t ++ buf /\ t_cycles t1 = t_cycles t).
  { inversion H2; subst. plain. rewrite Nat.eqb_refl. auto. }
  destruct W as (W1 & W2).
  destruct (proj1 C56_all prof i l ioff ooff t0 _ t1 rounds t2 H0 Hr) as (rest & E); [lia|exact Hf|lia|exact H3|].
  exists rest. rewrite E, W1, Et, <- app_assoc. reflexivity.
Qed.

Lemma sent_bound prof i l ioff ooff es : forall t s t', alike_plant i l ioff ooff t s -> inv_count l s ->
  plant_runs prof i l ioff ooff t es t' ->
  (length (t_taken t' ++ on_its_way l ooff t') <= length (t_taken t ++ on_its_way l ooff t) + payload_size l * cycles_in es)%nat.
Proof.
  induction es as [|e es IH]; intros t s t' A Hi H; inversion H; subst; cbn [cycles_in].
  - lia.
  - match goal with X : plant_step _ _ _ _ _ t e ?u, Y : plant_runs _ _ _ _ _ ?u es t' |- _ =>
      destruct (plant_step_counts _ _ _ _ _ _ _ _ _ A Hi X) as ((s1 & A1 & Hi1) & _ & _ & L1);
      pose proof (IH u s1 t' A1 Hi1 Y) as L2 end.
    destruct e; rewrite ?Nat.mul_succ_r; lia.
Qed.

Lemma C109_needed_all : forall prof i l ioff ooff t0 es t buf es' t', plant_start i l ioff ooff t0 ->
  plant_runs prof i l ioff ooff t0 es t -> plant_runs prof i l ioff ooff t es' t' ->
  (length (t_taken t') <= length (t_taken t) + length (on_its_way l ooff t) + payload_size l * cycles_in es')%nat /\
  (t_taken t = t_written t -> (exists rest, t_taken t' = t_taken t ++ buf ++ rest) ->
   (segments_for l (length buf) <= cycles_in es')%nat).
Proof.
  intros prof i l ioff ooff t0 es t buf es' t' H0 H1 H2.
  destruct (plant_counted _ _ _ _ _ _ _ _ H0 H1) as (s & A & Hi).
  pose proof (sent_bound _ _ _ _ _ _ _ _ _ A Hi H2) as L. rewrite !app_length in L. split; [lia|].
  intros Et (rest & E). destruct (nothing_outstanding _ _ _ _ _ _ A Hi Et) as (_ & Ew). rewrite Ew, E, !app_length in L. cbn [length] in L.
  unfold segments_for. pose proof (payload_pos l) as Hp.
  apply Nat.lt_succ_r. apply Nat.div_lt_upper_bound; lia.
Qed.
