(** Proofs about control programs (C121). *)
From Coq Require Import ZArith List Bool Lia ZifyBool ZifyNat.
From Verif Require Import Base F32 Types Lib Util Digital Analog Fcnt Com Fbc Facts SpecCodec SpecSerial SpecCoupler SpecImage SpecFeedback SpecKeep SpecLossless SpecOutcome SpecIdle SpecTerminal SpecWire SpecController
  ProofsWitness ProofsCoupler ProofsLayout ProofsDigital ProofsCycle ProofsSteady ProofsKeep ProofsTerminal ProofsWire ProofsMachine.
Import ListNotations.
Local Open Scope Z_scope.

Lemma watched_static c c' p : same_rack c c' -> watched_at c p -> watched_at c' p.
Proof. intros [E1 E2]. unfold watched_at, module_at. rewrite E1, E2. auto. Qed.
Lemma driven_static c c' p : same_rack c c' -> driven_at c p -> driven_at c' p.
Proof. intros [E1 E2] (o & H & H'). exists o. split; [exact (alone_static _ _ _ _ _ _ E1 E2 H)|exact H']. Qed.
Definition pairs (ps : list place) (values : list channel_value) : list (address * channel_value) :=
  map (fun pv => (p_address (fst pv), snd pv)) (combine ps values).
Lemma requested_pairs ps : forall values, requested_values ps values = map (fun av => Request (fst av) (snd av)) (pairs ps values).
Proof. intros values. unfold requested_values, pairs. rewrite map_map. reflexivity. Qed.
Lemma requests_pairs ps : forall values, requests (requested_values ps values) = pairs ps values.
Proof.
  unfold requested_values, pairs. induction ps as [|p ps IH]; intros values; [reflexivity|]. destruct values as [|v values]; [reflexivity|].
  cbn [combine map fst snd requests]. rewrite IH. reflexivity.
Qed.
Lemma pairs_in ps values a v : In (a, v) (pairs ps values) -> exists p, In p ps /\ p_address p = a.
Proof.
  intros H. unfold pairs in H. apply in_map_iff in H as ((p & w) & E & H). apply pair_inj in E as [<- <-]. exists p.
  split; [exact (in_combine_l _ _ _ _ H)|reflexivity].
Qed.
Lemma value_latest ps aside : (forall a v, In (a, v) (requests aside) -> ~ In a (map p_address ps)) -> NoDup (map p_address ps) ->
  forall values n p v, nth_error ps n = Some p -> nth_error values n = Some v ->
  latest (requests (requested_values ps values ++ aside)) (p_address p) (Some v).
Proof.
  intros Ha Hd values n p v Hn Hv. rewrite requests_app, requests_pairs.
  assert (Na : forall w, ~ In (p_address p, w) (requests aside)) by (intros w Hw; apply (Ha _ w Hw); apply in_map; exact (nth_error_In _ _ Hn)).
  clear Ha. revert values n Hn Hv. induction ps as [|x ps IH]; intros values n Hn Hv; [destruct n; discriminate|].
  cbn [map] in Hd. inversion Hd as [|? ? Hx Hd']; subst. destruct values as [|w values]; [destruct n; discriminate|].
  unfold pairs. cbn [combine map fst snd app]. destruct n as [|n]; cbn [nth_error] in Hn, Hv.
  - apply Some_inj in Hn, Hv. subst x w. apply (Latest_some [] _ (p_address p) v). intros w Hw. apply in_app_or in Hw as [Hw|Hw]; [|exact (Na w Hw)].
    apply pairs_in in Hw as (q & Hq & Eq). apply Hx. rewrite <- Eq. apply in_map. exact Hq.
  - specialize (IH Hd' values n Hn Hv). inversion IH as [|l1 l2 a u N E1 E2 E3]; subst. unfold pairs in E1. rewrite <- E1.
    apply (Latest_some ((p_address x, w) :: l1) l2 (p_address p) v N).
Qed.
Lemma Forall2_build {A B} (R : A -> B -> Prop) l1 : forall l2, length l2 = length l1 ->
  (forall n a b, nth_error l1 n = Some a -> nth_error l2 n = Some b -> R a b) -> Forall2 R l1 l2.
Proof.
  induction l1 as [|a l1 IH]; intros [|b l2] L H; try discriminate L; constructor.
  - apply (H 0%nat); reflexivity.
  - apply IH; [cbn [length] in L; lia|]. intros n. exact (H (S n)).
Qed.
(** A request is still pending when the cycle is made. *)
Lemma still_requested prof c image before c0 image0 p v : reachable prof c -> driven_at c p -> requested c (p_address p) = None ->
  loops prof c image before c0 image0 -> between_ticks before -> latest (requests before) (p_address p) (Some v) ->
  requested c0 (p_address p) = Some v.
Proof.
  destruct p as [[i k] m off]. unfold driven_at. cbn [p_address p_module p_offset a_module a_channel]. intros Hr (o & Hal & Hk) Hq H Hb Hl.
  pose proof (keeps_loops prof _ _ _ _ _ _ _ nothing c image c0 image0 Hk (keeps_start _ _ _ _ _ _ _ image Hr Hal Hq) H) as [_ _ K _ _ _].
  rewrite K. pose proof (tracks_total (mk_address i k) before nothing) as T.
  destruct (tracks_quiet (mk_address i k) before Hb nothing) as [F _]. rewrite F in T.
  apply last_for_latest in Hl. rewrite Hl in T. cbn [nothing k_force k_pending newest] in T.
  destruct (k_pending _) as [u|]; cbn [newest] in T; [exact T|discriminate T].
Qed.
Lemma between_app xs ys : between_ticks xs -> between_ticks ys -> between_ticks (xs ++ ys).
Proof. intros H1 H2 input H. apply in_app_or in H as [H|H]; [exact (H1 _ H)|exact (H2 _ H)]. Qed.
Lemma between_values ps values : between_ticks (requested_values ps values).
Proof. intros input H. unfold requested_values in H. apply in_map_iff in H as (pv & E & _). discriminate E. Qed.

Lemma values_sent prof c input image c1 image1 ps values : reachable prof c -> cycle prof c input image c1 (Ok image1) ->
  length values = length ps -> Forall (driven_at c) ps ->
  (forall n p v, nth_error ps n = Some p -> nth_error values n = Some v -> requested c (p_address p) = Some v) ->
  Forall2 (sent_as image1) ps values.
Proof.
  intros Hr Hc L Hd Hq. apply Forall2_build; [exact L|]. intros n p v Hn Hv. specialize (Hq n p v Hn Hv).
  destruct (proj1 (Forall_forall _ _) Hd p (nth_error_In _ _ Hn)) as (o & Hal & Hk).
  destruct (C85_all _ _ _ _ _ _ _ _ _ _ Hr Hc Hal _ Hk) as (_ & u & E & C). rewrite address_eta, Hq in E. subst u. exact C.
Qed.
Lemma values_seen prof c input image c1 image1 ps : reachable prof c -> cycle prof c input image c1 (Ok image1) -> Forall (watched_at c) ps ->
  (forall seen, Forall2 (shows c1) ps seen -> Forall2 (read_as input) ps seen) /\ exists seen, Forall2 (shows c1) ps seen.
Proof.
  intros Hr Hc Hw. induction Hw as [|p ps (o & Hat & Hs & Eo & P & Hk) Hw [IH1 [seen0 IH2]]].
  - split; [intros seen H; inversion H; constructor|exists []; constructor].
  - destruct (C83_inputs_all _ _ _ _ _ _ _ _ _ _ Hr Hc Hat Hs Eo P) as (row & Er & Lr & Hp). split.
    + intros seen H. inversion H as [|? v ? seen' Hv H']; subst. constructor; [|exact (IH1 _ H')].
      unfold shows, cell in Hv. rewrite Er in Hv. exact (Hp _ _ Hv).
    + destruct (nth_error row (a_channel (p_address p))) as [x|] eqn:Ex; [|apply nth_error_None in Ex; lia].
      exists (x :: seen0). constructor; [|exact IH2]. unfold shows, cell. rewrite Er. exact Ex.
Qed.
Lemma driven_quiet prof c input image c1 image1 ps : reachable prof c -> cycle prof c input image c1 (Ok image1) -> Forall (driven_at c) ps ->
  forall p, In p ps -> requested c1 (p_address p) = None.
Proof.
  intros Hr Hc Hd p Hp. destruct (proj1 (Forall_forall _ _) Hd p Hp) as (o & Hal & Hk).
  rewrite <- (address_eta (p_address p)). apply (C85_all _ _ _ _ _ _ _ _ _ _ Hr Hc Hal _ Hk).
Qed.
Lemma split_tick prof c image xs input c1 image1 : reachable prof c -> loops prof c image (xs ++ [Tick input]) c1 image1 ->
  exists c0 image0, loops prof c image xs c0 image0 /\ reachable prof c0 /\ same_rack c c0 /\ cycle prof c0 input image0 c1 (Ok image1).
Proof.
  intros Hr H. apply loops_app in H. destruct H as (c0 & image0 & H0 & H1). destruct (loops_kept _ _ _ _ _ _ Hr H0) as [R S].
  exists c0, image0. split; [exact H0|]. split; [exact R|]. split; [exact S|].
  inversion H1 as [| | | |? ? ? c2 image2 ? ? ? Hc H'|]; subst. inversion H'; subst. exact Hc.
Qed.
Lemma Forall_weaken {A} (R R' : A -> Prop) l : (forall a, R a -> R' a) -> Forall R l -> Forall R' l.
Proof. intros K H. induction H; constructor; auto. Qed.

Lemma C121_all : forall state prof (P : controller state) s values c image inputs images, reachable prof c ->
  Forall (watched_at c) (watched P) -> Forall (driven_at c) (driven P) -> NoDup (map p_address (driven P)) ->
  (forall p, In p (driven P) -> requested c (p_address p) = None) ->
  control_rounds prof P s values c image inputs images -> controls P s values inputs images.
Proof.
  intros state prof P s values c image inputs images Hr Hw Hd Hn Hq H. revert Hr Hw Hd Hq.
  induction H as [s values c image|s values c image aside input c1 image1 seen inputs images L HL Hb Ha Hi H IH]; intros Hr Hw Hd Hq; [constructor|].
  rewrite app_assoc in HL. destruct (split_tick _ _ _ _ _ _ _ Hr HL) as (c0 & image0 & H0 & Hr0 & S0 & Hc).
  assert (Hw0 : Forall (watched_at c0) (watched P)) by (eapply Forall_weaken; [|exact Hw]; intros p; exact (watched_static _ _ _ S0)).
  assert (Hd0 : Forall (driven_at c0) (driven P)) by (eapply Forall_weaken; [|exact Hd]; intros p; exact (driven_static _ _ _ S0)).
  destruct (loops_kept _ _ _ _ _ _ Hr HL) as [Hr1 S1].
  apply Controls_S with (seen := seen).
  - apply (values_sent _ _ _ _ _ _ _ _ Hr0 Hc L Hd0). intros n p v En Ev.
    pose proof (nth_error_In _ _ En) as Hin.
    apply (still_requested _ _ _ _ _ _ _ _ Hr (proj1 (Forall_forall _ _) Hd p Hin) (Hq p Hin) H0).
    + apply between_app; [apply between_values|exact Hb].
    + exact (value_latest _ _ Ha Hn _ _ _ _ En Ev).
  - exact (proj1 (values_seen _ _ _ _ _ _ _ Hr0 Hc Hw0) _ Hi).
  - apply IH; [exact Hr1| | |].
    + eapply Forall_weaken; [|exact Hw]. intros p. exact (watched_static _ _ _ S1).
    + eapply Forall_weaken; [|exact Hd]. intros p. exact (driven_static _ _ _ S1).
    + exact (driven_quiet _ _ _ _ _ _ _ Hr0 Hc Hd0).
Qed.

(** ** There is a next round *)
Lemma sendable_pair ps values a v : sendable ps values -> In (a, v) (pairs ps values) -> exists p, In p ps /\ p_address p = a /\ can_output (p_module p) v /\ rust_value v.
Proof.
  intros H. induction H as [|p w ps values Hp H IH]; [intros []|]. unfold pairs. cbn [combine map fst snd]. intros [E|E].
  - apply pair_inj in E as [<- <-]. exists p. split; [left; reflexivity|]. split; [reflexivity|exact Hp].
  - destruct (IH E) as (q & Hq & K). exists q. split; [right; exact Hq|exact K].
Qed.
Lemma C121_goes_on_all : forall state prof (P : controller state) c0 input0 output0 c image, reachable prof c0 -> byte_wide c0 ->
  cycle prof c0 input0 output0 c (Ok image) -> Forall (watched_at c) (watched P) -> Forall (driven_at c) (driven P) ->
  (forall s input seen, Forall is_u16 input -> Forall2 (read_as input) (watched P) seen -> sendable (driven P) (snd (control P s seen))) ->
  forall inputs s values, sendable (driven P) values -> Forall (fun input => Forall is_u16 input /\ inputs_readable c input) inputs ->
  exists images, control_rounds prof P s values c image inputs images.
Proof.
  intros state prof P c0 input0 output0 c image Hr Hbw H Hw Hd HP inputs. revert c0 input0 output0 c image Hr Hbw H Hw Hd.
  induction inputs as [|input inputs IH]; intros c0 input0 output0 c image Hr Hbw H Hw Hd s values HV HF; [exists []; constructor|].
  inversion HF as [|? ? [Hu Hi] HF']; subst. clear HF.
  pose proof (cycle_static _ _ _ _ _ _ H) as S0.
  assert (Hr' : reachable prof c) by (apply (cycle_reachable _ c0 input0 output0 _ (Ok image) Hr H); discriminate).
  set (reqs := pairs (driven P) values).
  assert (Fr : Forall (fun av => rust_value (snd av)) reqs).
  { apply Forall_forall. intros (a & v) Hin. destruct (sendable_pair _ _ _ _ HV Hin) as (p & _ & _ & _ & R). exact R. }
  pose proof (set_requests_loop prof reqs c image Fr) as HL. unfold reqs in HL at 1. rewrite <- requested_pairs in HL.
  destruct (loops_kept _ _ _ _ _ _ Hr' HL) as [Hr2 S2].
  destruct (next prof as_is as_is (set_all c reqs) input image) as [c1 r] eqn:En.
  assert (Hc : cycle prof (set_all c reqs) input image c1 r).
  { split; [exact Hu|]. split; [exact (image_u16 _ _ _ _ _ _ (reachable_ok _ _ Hr) H)|]. exists as_is, as_is. auto using as_is_order. }
  assert (A : exists image1, r = Ok image1).
  { destruct S0 as [S01 S02]. destruct S2 as [S21 S22].
    apply (ready_cycle prof c0 input0 output0 c image Hr Hbw H (set_all c reqs) ltac:(congruence) ltac:(congruence) Hr2 input c1 r Hc). split.
    - unfold inputs_readable, module_at in *. rewrite S21, S22. exact Hi.
    - intros i m o k v Hat Ho Hn Hq. destruct (set_all_origin _ _ _ _ Hq) as [Hin|Hq'].
      + destruct (sendable_pair _ _ _ _ HV Hin) as (p & Hp & Ep & Hcan & _).
        destruct (proj1 (Forall_forall _ _) Hd p Hp) as (o' & [[M _] _] & _). rewrite Ep in M. cbn [a_module] in M.
        assert (p_module p = m) as <- by (destruct Hat as [M' _]; congruence). exact Hcan.
      + exfalso. assert (Q : requested c (mk_address i k) = None); [|congruence].
        destruct (C38_all _ _ _ _ _ _ Hr H) as (readback & sent & E1 & _).
        apply (requests_taken _ _ _ _ _ _ (reachable_ok _ _ Hr) H) with (m := m) (o := o); [|exists readback; exact E1| |exact Hn].
        * destruct (cycle_inv _ _ _ _ _ _ (reachable_ok _ _ Hr) H) as [(_ & _ & _ & _ & X)|[(_ & _ & _ & _ & _ & _ & X)|(ins & _ & _ & E & _)]];
            [destruct (X _ eq_refl)|destruct (X _ eq_refl)|exists ins; exact E].
        * destruct Hat as [M1 M2]. split; congruence. }
  destruct A as [image1 ->].
  assert (Hw2 : Forall (watched_at (set_all c reqs)) (watched P)) by (eapply Forall_weaken; [|exact Hw]; intros p; exact (watched_static _ _ _ S2)).
  destruct (values_seen _ _ _ _ _ _ _ Hr2 Hc Hw2) as [Hread [seen Hb]].
  pose proof (same_rack_trans _ _ _ S2 (cycle_static _ _ _ _ _ _ Hc)) as S1.
  assert (Hbw2 : byte_wide (set_all c reqs)).
  { destruct S0 as [S01 S02]. destruct S2 as [S21 S22]. unfold byte_wide, module_at in *. rewrite S21, S22, S01, S02. exact Hbw. }
  destruct (IH (set_all c reqs) input image c1 image1 Hr2 Hbw2 Hc) with (s := fst (control P s seen)) (values := snd (control P s seen)) as [images HR].
  - eapply Forall_weaken; [|exact Hw]. intros p. exact (watched_static _ _ _ S1).
  - eapply Forall_weaken; [|exact Hd]. intros p. exact (driven_static _ _ _ S1).
  - exact (HP s input seen Hu (Hread _ Hb)).
  - eapply Forall_weaken; [|exact HF']. intros x [X1 X2]. split; [exact X1|]. destruct S1 as [S11 S12].
    unfold inputs_readable, module_at in *. rewrite S11, S12. exact X2.
  - exists (image1 :: images). apply (Control_S _ _ s values c image [] input c1 image1 seen); [|cbn [app]|intros x []|intros a v []|exact Hb|exact HR].
    + pose proof HV as L. unfold sendable in L. apply Forall2_length in L. symmetry. exact L.
    + apply (loops_join _ _ _ _ _ _ _ _ _ HL). apply (L_tick _ _ _ _ _ _ _ _ _ Hc). constructor.
Qed.

(** A round that is computed. *)
Lemma round_computed {state} prof (P : controller state) s values c image input c1 image1 seen inputs images :
  length values = length (driven P) -> Forall rust_value values -> forallb fits input = true -> forallb fits image = true ->
  next prof as_is as_is (set_all c (pairs (driven P) values)) input image = (c1, Ok image1) -> Forall2 (shows c1) (watched P) seen ->
  control_rounds prof P (fst (control P s seen)) (snd (control P s seen)) c1 image1 inputs images ->
  control_rounds prof P s values c image (input :: inputs) (image1 :: images).
Proof.
  intros L R F1 F2 H Hs HR. apply (Control_S _ _ s values c image [] input c1 image1 seen); [exact L| |intros x []|intros a v []|exact Hs|exact HR].
  cbn [app]. rewrite requested_pairs. apply loops_join with (c1 := set_all c (pairs (driven P) values)) (image1 := image).
  - apply set_requests_loop. apply Forall_forall. intros (a & v) Hin. unfold pairs in Hin. apply in_map_iff in Hin as ((p & w) & E & Hin).
    apply pair_inj in E as [_ <-]. exact (proj1 (Forall_forall _ _) R _ (in_combine_r _ _ _ _ Hin)).
  - apply (L_tick _ _ _ _ c1 image1); [apply step_cycle; assumption|constructor].
Qed.
