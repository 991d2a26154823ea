(** Proofs about a program that forwards between two serial modules (C114). *)
From Coq Require Import ZArith List Bool Lia.
From Verif Require Import Base Facts F32 Types Lib Com Fbc SpecCodec SpecSerial SpecCoupler SpecImage SpecSystem SpecLink SpecRelay
  ProofsLoop ProofsCoupler ProofsCycle ProofsNew ProofsMemory ProofsEffect ProofsSystem ProofsWitness ProofsPlant ProofsLink ProofsStdio.
Import ListNotations.
Local Open Scope Z_scope.

Lemma relay_sides l r s es s' : relay_runs l r s es s' ->
  side_runs l (y_left s) (relay_left l r es) (y_left s') /\ side_runs r (y_right s) (relay_right l r es) (y_right s').
Proof.
  unfold side_runs. induction 1 as [s|s e s1 es s2 Hs Hr [IHl IHr]]; [split; constructor|].
  unfold relay_left, relay_right in *. cbn [flat_map].
  destruct Hs; cbn [as_left as_right app y_left y_right] in *;
    try match goal with H : in_both _ _ _ _ _ _ _ |- _ => destruct H as (? & ? & ?) end;
    (split; [|]); try assumption; econstructor; eassumption.
Qed.

(** What is not requested for a serial module stays so. *)
Definition unasked (c : coupler) (i : nat) : Prop := coupler_ok c /\ requested c (mk_address i 0) = None.

Lemma unasked_step s t e t' i : side_step s t e t' -> unasked (t_coupler t) i ->
  (forall a v, e = PSet a v -> a_module a <> i) -> unasked (t_coupler t') i.
Proof.
  intros H [Hok Hn] He. destruct H as [t a v Hv|t j size c x Hr|t j buf Hb|t input Hu Hd|t c' image Hc|t|t o Ho|t seg o Ho|t o Ho|t full ready];
    cbn [t_coupler with_coupler with_device];
    try (match goal with |- context [if ?b then _ else _] => destruct b end; cbn [t_coupler with_device]); try (split; assumption).
  - split; [apply set_ok; assumption|]. specialize (He a v eq_refl).
    destruct (valid_address_dec (t_coupler t) a) as [Ha|Ha].
    + rewrite set_requested by exact Ha. destruct (address_eqb_spec a (mk_address i 0)) as [->|]; [cbn in He; congruence|exact Hn].
    + rewrite set_output_invalid by exact Ha. exact Hn.
  - pose proof (read_static (t_coupler t) j size) as (_ & _ & _ & _ & E & _). pose proof (read_ok _ j size Hok) as K.
    rewrite Hr in E, K. cbn [fst] in *. split; [exact K|]. unfold requested in *. rewrite E. exact Hn.
  - pose proof (write_static (t_coupler t) j buf) as (_ & _ & _ & _ & E & _).
    split; [apply write_ok; assumption|]. unfold requested in *. rewrite E. exact Hn.
  - split; [exact (cycle_ok _ _ _ _ _ _ Hok Hc)|exact (request_stays_none _ _ _ _ _ _ _ Hok Hc Hn)].
Qed.

(** Bytes written to a module and bytes read from it. *)
Definition wrote (i : nat) (e : plant_event) : list Z := match e with PWrite j b => if Nat.eqb j i then b else [] | _ => [] end.
Lemma written_step s t e t' : side_step s t e t' -> unasked (t_coupler t) (s_module s) ->
  t_written t' = t_written t ++ wrote (s_module s) e.
Proof.
  intros H [_ Hn]. destruct H; cbn [t_written with_coupler with_device wrote]; rewrite ?app_nil_r; try reflexivity;
    try (match goal with |- context [if ?b then _ else _] => destruct b end; reflexivity).
  unfold pending. rewrite Hn, app_nil_r. reflexivity.
Qed.
Lemma delivered_step s t e t' : side_step s t e t' ->
  t_delivered t' = t_delivered t ++
    match e with PRead j n => if Nat.eqb j (s_module s) then match snd (coupler_read (t_coupler t) j n) with Some b => b | None => [] end else []
               | _ => [] end.
Proof.
  destruct 1 as [t a v Hv|t j size c x Hr|t j buf Hb|t input Hu Hd|t c' image Hc|t|t o Ho|t seg o Ho|t o Ho|t full ready];
    cbn [t_delivered with_coupler with_device]; rewrite ?app_nil_r; try reflexivity;
    try (match goal with |- context [if ?b then _ else _] => destruct b end; reflexivity).
  rewrite Hr. cbn [snd]. destruct x; destruct (Nat.eqb j (s_module s)); reflexivity.
Qed.
Lemma cycles_step s t e t' : side_step s t e t' -> t_cycles t' = (t_cycles t + match e with PCycle => 1 | _ => 0 end)%nat.
Proof.
  destruct 1; cbn [t_cycles with_coupler with_device]; try lia;
    match goal with |- context [if ?b then _ else _] => destruct b end; cbn [t_cycles with_device]; lia.
Qed.

Definition relayed (l r : side) (s : relay) : Prop :=
  unasked (t_coupler (y_left s)) (s_module l) /\ unasked (t_coupler (y_left s)) (s_module r) /\
  t_coupler (y_left s) = t_coupler (y_right s) /\ t_cycles (y_left s) = t_cycles (y_right s) /\
  t_delivered (y_left s) = t_written (y_right s) ++ y_to_right s /\
  t_delivered (y_right s) = t_written (y_left s) ++ y_to_left s.

Lemma module_coupler s t e t' : by_module e -> side_step s t e t' -> t_coupler t' = t_coupler t.
Proof.
  intros B H. destruct H; cbn in B; try contradiction; try reflexivity;
    match goal with |- context [if ?b then _ else _] => destruct b end; reflexivity.
Qed.

Lemma relayed_step l r s e s' : s_module l <> s_module r -> relay_step l r s e s' -> relayed l r s -> relayed l r s'.
Proof.
  intros N H (U1 & U2 & C & T & D1 & D2).
  assert (Both : forall a b e a' b', in_both l r a b e a' b' -> t_coupler a = t_coupler b -> t_cycles a = t_cycles b ->
    (forall x v, e = PSet x v -> a_module x <> s_module l /\ a_module x <> s_module r) ->
    unasked (t_coupler a) (s_module l) -> unasked (t_coupler a) (s_module r) ->
    unasked (t_coupler a') (s_module l) /\ unasked (t_coupler a') (s_module r) /\ t_coupler a' = t_coupler b' /\ t_cycles a' = t_cycles b').
  { intros a b e0 a' b' (S1 & S2 & (E1 & _)) Ec Et He V1 V2.
    split; [|split; [|split]].
    - apply (unasked_step _ _ _ _ _ S1 V1). intros x v Hx. apply (He x v Hx).
    - apply (unasked_step _ _ _ _ _ S1 V2). intros x v Hx. apply (He x v Hx).
    - exact E1.
    - rewrite (cycles_step _ _ _ _ S1), (cycles_step _ _ _ _ S2), Et. reflexivity. }
  destruct H as [a b x y e a' b' He Hb|a b x y size bytes a' b' Hr Hb|a b x y size bytes a' b' Hr Hb|a b bytes x y a' b' Hb
                |a b x bytes y a' b' Hb|a b x y e a' He Hs|a b x y e b' He Hs];
    unfold relayed; cbn [y_left y_right y_to_right y_to_left] in *.
  - destruct (Both _ _ _ _ _ Hb C T) as (W1 & W2 & W3 & W4); [intros q v ->; exact He|exact U1|exact U2|].
    do 4 (split; [assumption|]). destruct Hb as (S1 & S2 & _).
    rewrite (delivered_step _ _ _ _ S1), (delivered_step _ _ _ _ S2), (written_step _ _ _ _ S1 U1), (written_step _ _ _ _ S2 ltac:(rewrite <- C; exact U2)).
    rewrite D1, D2. destruct e as [q v|j n|j n| | | | | | |]; cbn [wrote]; cbn in He; rewrite ?app_nil_r; auto;
      destruct He as [H1 H2];
      (destruct (Nat.eqb_spec j (s_module l)); [congruence|]); (destruct (Nat.eqb_spec j (s_module r)); [congruence|]);
      rewrite ?app_nil_r; auto.
  - destruct (Both _ _ _ _ _ Hb C T) as (W1 & W2 & W3 & W4); [discriminate|exact U1|exact U2|].
    do 4 (split; [assumption|]). destruct Hb as (S1 & S2 & _).
    rewrite (delivered_step _ _ _ _ S1), (delivered_step _ _ _ _ S2), (written_step _ _ _ _ S1 U1), (written_step _ _ _ _ S2 ltac:(rewrite <- C; exact U2)).
    cbn [wrote]. rewrite Nat.eqb_refl, Hr. destruct (Nat.eqb_spec (s_module l) (s_module r)); [congruence|].
    rewrite !app_nil_r, D1, D2, app_assoc. auto.
  - destruct (Both _ _ _ _ _ Hb C T) as (W1 & W2 & W3 & W4); [discriminate|exact U1|exact U2|].
    do 4 (split; [assumption|]). destruct Hb as (S1 & S2 & _).
    rewrite (delivered_step _ _ _ _ S1), (delivered_step _ _ _ _ S2), (written_step _ _ _ _ S1 U1), (written_step _ _ _ _ S2 ltac:(rewrite <- C; exact U2)).
    cbn [wrote]. rewrite Nat.eqb_refl, Hr. destruct (Nat.eqb_spec (s_module r) (s_module l)); [congruence|].
    rewrite !app_nil_r, D1, D2, app_assoc. auto.
  - destruct (Both _ _ _ _ _ Hb C T) as (W1 & W2 & W3 & W4); [discriminate|exact U1|exact U2|].
    do 4 (split; [assumption|]). destruct Hb as (S1 & S2 & _).
    rewrite (delivered_step _ _ _ _ S1), (delivered_step _ _ _ _ S2), (written_step _ _ _ _ S1 U1), (written_step _ _ _ _ S2 ltac:(rewrite <- C; exact U2)).
    cbn [wrote]. rewrite Nat.eqb_refl. destruct (Nat.eqb_spec (s_module r) (s_module l)); [congruence|].
    rewrite !app_nil_r, D1, D2, <- app_assoc. auto.
  - destruct (Both _ _ _ _ _ Hb C T) as (W1 & W2 & W3 & W4); [discriminate|exact U1|exact U2|].
    do 4 (split; [assumption|]). destruct Hb as (S1 & S2 & _).
    rewrite (delivered_step _ _ _ _ S1), (delivered_step _ _ _ _ S2), (written_step _ _ _ _ S1 U1), (written_step _ _ _ _ S2 ltac:(rewrite <- C; exact U2)).
    cbn [wrote]. rewrite Nat.eqb_refl. destruct (Nat.eqb_spec (s_module l) (s_module r)); [congruence|].
    rewrite !app_nil_r, D1, D2, <- app_assoc. auto.
  - rewrite (module_coupler _ _ _ _ He Hs), (cycles_step _ _ _ _ Hs), (delivered_step _ _ _ _ Hs), (written_step _ _ _ _ Hs U1).
    destruct e; cbn in He; try contradiction; cbn [wrote]; rewrite !app_nil_r, Nat.add_0_r; auto 10.
  - rewrite C in U2. rewrite (module_coupler _ _ _ _ He Hs), (cycles_step _ _ _ _ Hs), (delivered_step _ _ _ _ Hs), (written_step _ _ _ _ Hs U2).
    rewrite <- C in U2. destruct e; cbn in He; try contradiction; cbn [wrote]; rewrite !app_nil_r, Nat.add_0_r; auto 10.
Qed.

Lemma relayed_runs l r s es s' : s_module l <> s_module r -> relay_runs l r s es s' -> relayed l r s -> relayed l r s'.
Proof. intros N. induction 1 as [|s e s1 es s2 Hs Hr IH]; intros H; [exact H|]. apply IH. exact (relayed_step _ _ _ _ _ N Hs H). Qed.

Lemma relayed_start l r s : relay_start l r s -> relayed l r s.
Proof.
  intros (_ & _ & Hl & Hr & (Hc & _) & Hx & Hy).
  assert (U : forall j, unasked (t_coupler (y_left s)) j).
  { intros j. destruct Hl as ((cfg & Hcfg & Hn) & _). split; [exact (new_ok _ _ Hcfg Hn)|exact (new_requests _ _ Hn _)]. }
  destruct Hl as (_ & _ & _ & _ & _ & _ & _ & _ & Wl & _ & _ & Dl & Cl).
  destruct Hr as (_ & _ & _ & _ & _ & _ & _ & _ & Wr & _ & _ & Dr & Cr).
  unfold relayed. rewrite Hx, Hy, Wl, Wr, Dl, Dr, Cl, Cr. auto 10.
Qed.

(** One direction. *)
Lemma carried_side sa sb a0 ea1 a1 ea2 a b0 eb b held :
  side_start sa a0 -> side_start sb b0 -> side_runs sa a0 ea1 a1 -> (2 <= t_cycles a1)%nat -> t_offered a1 = [] ->
  side_runs sa a1 ea2 a -> side_runs sb b0 eb b -> t_delivered a = t_written b ++ held -> carried sa sb a b held.
Proof.
  intros Ha0 Hb0 H1 H2 Ho Ha Hb E.
  destruct (proj2 (C55_partial_all _ _ _ _ _ _ _ _ _ _ Ha0 H1 H2 Ha) Ho) as (n & Hn & Hd).
  destruct (last_segment _ _ Hn) as (last & Hl & Hc). exists last. split; [exact Hl|].
  rewrite Hc, <- Hd, E, (C50_all _ _ _ _ _ _ _ _ Hb0 Hb), <- !app_assoc. reflexivity.
Qed.

Lemma C114_all : forall l r s0 es1 s1 es2 s2, relay_start l r s0 -> relay_runs l r s0 es1 s1 ->
  (2 <= t_cycles (y_left s1))%nat -> t_offered (y_left s1) = [] -> t_offered (y_right s1) = [] ->
  relay_runs l r s1 es2 s2 ->
  carried l r (y_left s2) (y_right s2) (y_to_right s2) /\ carried r l (y_right s2) (y_left s2) (y_to_left s2).
Proof.
  intros l r s0 es1 s1 es2 s2 H0 H1 Hc Ol Or H2. pose proof H0 as (N & _ & Sl & Sr & _).
  pose proof (relayed_runs _ _ _ _ _ N H1 (relayed_start _ _ _ H0)) as I1.
  pose proof (relayed_runs _ _ _ _ _ N H2 I1) as (_ & _ & _ & _ & D1 & D2). destruct I1 as (_ & _ & _ & T & _).
  apply relay_sides in H1 as [A1 B1]. apply relay_sides in H2 as [A2 B2].
  split.
  - exact (carried_side _ _ _ _ _ _ _ _ _ _ _ Sl Sr A1 Hc Ol A2 (plant_runs_app _ _ _ _ _ _ _ _ B1 _ _ B2) D1).
  - exact (carried_side _ _ _ _ _ _ _ _ _ _ _ Sr Sl B1 ltac:(rewrite <- T; exact Hc) Or B2 (plant_runs_app _ _ _ _ _ _ _ _ A1 _ _ A2) D2).
Qed.

(** ** Progress *)
Lemma delivered_runs s t es t' : side_runs s t es t' -> exists more, t_delivered t' = t_delivered t ++ more.
Proof.
  unfold side_runs. induction 1 as [t|t e t1 es t2 Hs Hr [more IH]]; [exists []; rewrite app_nil_r; reflexivity|].
  rewrite IH, (delivered_step s _ _ _ Hs), <- app_assoc. eauto.
Qed.
Lemma cycles_runs s t es t' : side_runs s t es t' -> (t_cycles t <= t_cycles t')%nat.
Proof.
  unfold side_runs. induction 1 as [t|t e t1 es t2 Hs Hr IH]; [lia|]. rewrite (cycles_step s _ _ _ Hs) in IH. lia.
Qed.

Lemma fetch_all s t n t' p : side_step s t (PRead (s_module s) n) t' -> serial (t_coupler t) (s_module s) = Some p ->
  (length (readable_in (t_coupler t) (s_module s)) <= n)%nat ->
  t_delivered t' = t_delivered t ++ readable_in (t_coupler t) (s_module s).
Proof.
  intros H Hp Hn. rewrite (delivered_step _ _ _ _ H), Nat.eqb_refl, (read_is _ _ _ n Hp). cbn [snd].
  unfold readable_in in *. rewrite Hp in *. rewrite firstn_all2 by exact Hn. reflexivity.
Qed.

Lemma C114_progress_all : forall l r s0 es1 s1 es2 s2 es3 s3 size s4 es4 s5 s6 es6 s7 x input y z rounds,
  relay_start l r s0 -> relay_runs l r s0 es1 s1 -> (2 <= t_cycles (y_left s1))%nat -> t_offered (y_left s1) = [] ->
  relay_runs l r s1 es2 s2 ->
  relay_runs l r s2 es3 s3 -> relay_left l r es3 = x ++ [PInput input] ++ y ++ [PCycle] ++ z ->
  relay_step l r s3 (FetchLeft size) s4 -> (length (readable_in (t_coupler (y_left s3)) (s_module l)) <= size)%nat ->
  relay_runs l r s4 es4 s5 -> relay_step l r s5 (SendRight (y_to_right s5)) s6 ->
  relay_runs l r s6 es6 s7 -> relay_right l r es6 = concat rounds -> Forall plant_round rounds ->
  (outstanding (s_module r) (s_length r) (s_output r) (y_right s6) <= length rounds)%nat ->
  exists more, t_taken (y_right s7) = concat (t_offered (y_left s2)) ++ more.
Proof.
  intros l r s0 es1 s1 es2 s2 es3 s3 size s4 es4 s5 s6 es6 s7 x input y z rounds
    H0 H1 Hc Ol H2 H3 E3 H4 Hs H5 H6 H7 E7 Hr Hn. pose proof H0 as (N & _ & Sl & Sr & _).
  assert (R4 : relay_runs l r s3 [FetchLeft size] s4) by (econstructor; [exact H4|constructor]).
  assert (R6 : relay_runs l r s5 [SendRight (y_to_right s5)] s6) by (econstructor; [exact H6|constructor]).
  pose proof (relayed_runs _ _ _ _ _ N H1 (relayed_start _ _ _ H0)) as I1.
  pose proof (relayed_runs _ _ _ _ _ N H2 I1) as I2. pose proof (relayed_runs _ _ _ _ _ N H3 I2) as I3.
  pose proof (relayed_runs _ _ _ _ _ N R4 I3) as I4. pose proof (relayed_runs _ _ _ _ _ N H5 I4) as I5.
  pose proof (relayed_runs _ _ _ _ _ N R6 I5) as (_ & _ & _ & _ & D6 & _).
  assert (Z6 : y_to_right s6 = []).
  { clear - H6. inversion H6 as [| | |a b bytes x0 y0 a' b' Hb E1 E2 E3| | |]. subst. cbn [y_to_right] in *.
    assert (L : length (bytes ++ x0) = length bytes) by congruence. rewrite app_length in L. destruct x0; [reflexivity|cbn in L; lia]. }
  rewrite Z6, app_nil_r in D6.
  assert (T1 : t_cycles (y_right s1) = t_cycles (y_left s1)) by (symmetry; apply I1).
  apply relay_sides in H1 as [A1 B1]. apply relay_sides in H2 as [A2 B2]. apply relay_sides in H3 as [A3 B3].
  pose proof R4 as R4'. apply relay_sides in R4' as [A4 B4]. apply relay_sides in H5 as [A5 B5]. apply relay_sides in R6 as [A6 B6].
  apply relay_sides in H7 as [A7 B7].
  rewrite E3 in A3. rewrite E7 in B7.
  (* everything offered at [s2] is fetched at [s3] *)
  destruct (proj2 C56_all _ _ _ _ _ _ _ _ _ _ _ _ _ _ _ Sl A1 Hc A2 A3) as (lost & fetched & Hlost & Hf & Hd).
  rewrite Ol in Hlost. cbn in Hlost. assert (lost = O) by lia. subst lost. cbn [skipn Nat.add] in *.
  destruct (offered_runs _ _ _ _ _ _ _ _ A3) as [m3 O3].
  assert (P3 : exists m, t_delivered (y_left s3) ++ readable_in (t_coupler (y_left s3)) (s_module l) = concat (t_offered (y_left s2)) ++ m).
  { rewrite Hd, O3, firstn_app, firstn_all2 by lia. rewrite concat_app. eauto. }
  destruct P3 as [m P3].
  (* and read at [s4] *)
  assert (P4 : t_delivered (y_left s4) = t_delivered (y_left s3) ++ readable_in (t_coupler (y_left s3)) (s_module l)).
  { clear - H4 Hs. inversion H4 as [|a b x0 y0 size0 bytes a' b' Hb (S1 & _) E1 E2 E3| | | | |]. subst. cbn [y_left] in *.
    assert (Hp : exists p, serial (t_coupler a) (s_module l) = Some p).
    { unfold coupler_read in Hb. unfold serial. destruct (map_get Nat.eqb (s_module l) (c_processors (t_coupler a))); [eauto|discriminate]. }
    destruct Hp as [p Hp]. exact (fetch_all _ _ _ _ _ S1 Hp Hs). }
  destruct (delivered_runs _ _ _ _ A5) as [m5 P5]. destruct (delivered_runs _ _ _ _ A6) as [m6 P6].
  (* written at [s6], taken at [s7] *)
  assert (C6 : (2 <= t_cycles (y_right s6))%nat).
  { pose proof (cycles_runs _ _ _ _ B2). pose proof (cycles_runs _ _ _ _ B3). pose proof (cycles_runs _ _ _ _ B4).
    pose proof (cycles_runs _ _ _ _ B5). pose proof (cycles_runs _ _ _ _ B6). lia. }
  pose proof (plant_runs_app _ _ _ _ _ _ _ _ B1 _ _ (plant_runs_app _ _ _ _ _ _ _ _ B2 _ _ (plant_runs_app _ _ _ _ _ _ _ _ B3 _ _
    (plant_runs_app _ _ _ _ _ _ _ _ B4 _ _ (plant_runs_app _ _ _ _ _ _ _ _ B5 _ _ B6))))) as B16.
  destruct (proj1 C56_all _ _ _ _ _ _ _ _ _ _ Sr B16 C6 Hr Hn B7) as [m7 P7].
  rewrite P7, <- D6, P6, P5, P4, P3, <- !app_assoc. eexists. reflexivity.
Qed.

(** Executable steps, for examples. *)
Definition elsewhere_test (l r : side) (e : plant_event) : bool :=
  match e with
  | PSet a _ => negb (Nat.eqb (a_module a) (s_module l)) && negb (Nat.eqb (a_module a) (s_module r))
  | PRead j _ | PWrite j _ => negb (Nat.eqb j (s_module l)) && negb (Nat.eqb j (s_module r))
  | PInput _ | PCycle | POutput => true
  | _ => false
  end.
Definition by_module_test (e : plant_event) : bool :=
  match e with PTake | POffer _ | PClear | PStatus _ _ => true | _ => false end.
Definition relay_exec (l r : side) (s : relay) (e : relay_event) : option relay :=
  let (a, b, x, y) := s in
  let both e x y := match side_exec l a e, side_exec r b e with Some a', Some b' => Some (mk_relay a' b' x y) | _, _ => None end in
  match e with
  | Program e => if elsewhere_test l r e then both e x y else None
  | FetchLeft n => match snd (coupler_read (t_coupler a) (s_module l) n) with Some bytes => both (PRead (s_module l) n) (x ++ bytes) y | None => None end
  | FetchRight n => match snd (coupler_read (t_coupler b) (s_module r) n) with Some bytes => both (PRead (s_module r) n) x (y ++ bytes) | None => None end
  | SendRight bytes =>
      if list_eq_dec Z.eq_dec (firstn (length bytes) x) bytes then both (PWrite (s_module r) bytes) (skipn (length bytes) x) y else None
  | SendLeft bytes =>
      if list_eq_dec Z.eq_dec (firstn (length bytes) y) bytes then both (PWrite (s_module l) bytes) x (skipn (length bytes) y) else None
  | LeftModule e => if by_module_test e then match side_exec l a e with Some a' => Some (mk_relay a' b x y) | None => None end else None
  | RightModule e => if by_module_test e then match side_exec r b e with Some b' => Some (mk_relay a b' x y) | None => None end else None
  end.
Fixpoint relay_execs (l r : side) (s : relay) (es : list relay_event) : option relay :=
  match es with
  | [] => Some s
  | e :: es' => match relay_exec l r s e with Some s' => relay_execs l r s' es' | None => None end
  end.

Lemma exec_shared l r a b e a' b' : s_profile l = s_profile r -> by_module_test e = false -> shared a b ->
  side_exec l a e = Some a' -> side_exec r b e = Some b' -> shared a' b'.
Proof.
  intros Hp He (E1 & E2 & E3 & E4) Ha Hb. unfold side_exec in *. rewrite Hp in Ha.
  destruct e as [q v|j n|j n|input| | | |seg| |full ready]; cbn in He; try discriminate; cbn [plant_exec] in *.
  - destruct (good_value v); [|discriminate]. apply Some_inj in Ha, Hb. subst. unfold shared, with_coupler. cbn. rewrite E1. auto.
  - rewrite E1 in Ha. destruct (coupler_read (t_coupler b) j n). apply Some_inj in Ha, Hb. subst. unfold shared. cbn. auto.
  - destruct (byte_values n); [|discriminate]. apply Some_inj in Ha, Hb. subst. unfold shared. cbn. rewrite E1. auto.
  - destruct (rs_in_from_bytes (in_part (s_length l) (s_input l) input)); try discriminate.
    match type of Ha with (if ?c then _ else _) = _ => destruct c; [|discriminate] end. apply Some_inj in Ha. subst a'.
    destruct (rs_in_from_bytes (in_part (s_length r) (s_input r) input)); try discriminate.
    match type of Hb with (if ?c then _ else _) = _ => destruct c; [|discriminate] end. apply Some_inj in Hb. subst b'.
    unfold shared. cbn. auto.
  - rewrite E1, E2, E3 in Ha. destruct (next (s_profile r) as_is as_is (t_coupler b) (t_latch b) (t_image b)) as [c' [image| |]]; try discriminate.
    match type of Ha with (if ?c then _ else _) = _ => destruct c; [|discriminate] end. apply Some_inj in Ha, Hb. subst.
    unfold shared. cbn. auto.
  - apply Some_inj in Ha, Hb. subst. unfold shared. cbn. auto.
Qed.

Lemma module_shared s t e t' : by_module e -> side_step s t e t' ->
  t_coupler t' = t_coupler t /\ t_latch t' = t_latch t /\ t_image t' = t_image t /\ t_register t' = t_register t.
Proof.
  intros B H. destruct H; cbn in B; try contradiction; try (cbn; auto);
    match goal with |- context [if ?b then _ else _] => destruct b end; cbn; auto.
Qed.

Lemma relay_exec_step l r s e s' : s_profile l = s_profile r -> shared (y_left s) (y_right s) ->
  relay_exec l r s e = Some s' -> relay_step l r s e s' /\ shared (y_left s') (y_right s').
Proof.
  intros Hp Hs H. destruct s as [a b x y]. cbn [y_left y_right] in Hs.
  assert (Both : forall e0 x0 y0 s0, by_module_test e0 = false ->
    match side_exec l a e0, side_exec r b e0 with Some a', Some b' => Some (mk_relay a' b' x0 y0) | _, _ => None end = Some s0 ->
    exists a' b', s0 = mk_relay a' b' x0 y0 /\ in_both l r a b e0 a' b').
  { intros e0 x0 y0 s0 He0 Hb. destruct (side_exec l a e0) as [a'|] eqn:Ea; [|discriminate].
    destruct (side_exec r b e0) as [b'|] eqn:Eb; [|discriminate]. apply Some_inj in Hb. exists a', b'. split; [auto|].
    split; [apply exec_step; exact Ea|]. split; [apply exec_step; exact Eb|]. exact (exec_shared _ _ _ _ _ _ _ Hp He0 Hs Ea Eb). }
  destruct e as [e|n|n|bytes|bytes|e|e]; cbn [relay_exec] in H.
  - destruct (elsewhere_test l r e) eqn:Ee; [|discriminate].
    destruct (Both e x y s') as (a' & b' & -> & Hb); [destruct e; cbn in Ee; try discriminate; reflexivity|exact H|].
    split; [|apply Hb]. apply Y_program; [|exact Hb].
    destruct e as [q v|j k|j k| | | | | | |]; cbn in *; try exact I; try discriminate;
      apply andb_prop in Ee as [E1 E2]; apply negb_true_iff in E1, E2; apply Nat.eqb_neq in E1, E2; auto.
  - destruct (snd (coupler_read (t_coupler a) (s_module l) n)) as [bytes|] eqn:Er; [|discriminate].
    destruct (Both (PRead (s_module l) n) (x ++ bytes) y s' eq_refl H) as (a' & b' & -> & Hb).
    split; [|apply Hb]. apply Y_fetch_left; [exact Er|exact Hb].
  - destruct (snd (coupler_read (t_coupler b) (s_module r) n)) as [bytes|] eqn:Er; [|discriminate].
    destruct (Both (PRead (s_module r) n) x (y ++ bytes) s' eq_refl H) as (a' & b' & -> & Hb).
    split; [|apply Hb]. apply Y_fetch_right; [exact Er|exact Hb].
  - destruct (list_eq_dec Z.eq_dec (firstn (length bytes) x) bytes) as [E|]; [|discriminate].
    destruct (Both (PWrite (s_module r) bytes) (skipn (length bytes) x) y s' eq_refl H) as (a' & b' & -> & Hb).
    split; [|apply Hb]. rewrite <- (firstn_skipn (length bytes) x) at 1. rewrite E. apply Y_send_right. exact Hb.
  - destruct (list_eq_dec Z.eq_dec (firstn (length bytes) y) bytes) as [E|]; [|discriminate].
    destruct (Both (PWrite (s_module l) bytes) x (skipn (length bytes) y) s' eq_refl H) as (a' & b' & -> & Hb).
    split; [|apply Hb]. rewrite <- (firstn_skipn (length bytes) y) at 1. rewrite E. apply Y_send_left. exact Hb.
  - destruct (by_module_test e) eqn:Ee; [|discriminate]. destruct (side_exec l a e) as [a'|] eqn:Ea; [|discriminate].
    apply Some_inj in H. subst s'. assert (B : by_module e) by (destruct e; cbn in *; try discriminate; exact I).
    apply exec_step in Ea. split; [apply Y_left_module; assumption|]. cbn [y_left y_right].
    destruct (module_shared l _ _ _ B Ea) as (F1 & F2 & F3 & F4); unfold shared; rewrite F1, F2, F3, F4; exact Hs.
  - destruct (by_module_test e) eqn:Ee; [|discriminate]. destruct (side_exec r b e) as [b'|] eqn:Ea; [|discriminate].
    apply Some_inj in H. subst s'. assert (B : by_module e) by (destruct e; cbn in *; try discriminate; exact I).
    apply exec_step in Ea. split; [apply Y_right_module; assumption|]. cbn [y_left y_right].
    destruct (module_shared r _ _ _ B Ea) as (F1 & F2 & F3 & F4); unfold shared; rewrite F1, F2, F3, F4; exact Hs.
Qed.
Lemma relay_exec_runs l r es : s_profile l = s_profile r -> forall s s', shared (y_left s) (y_right s) ->
  relay_execs l r s es = Some s' -> relay_runs l r s es s'.
Proof.
  intros Hp. induction es as [|e es IH]; intros s s' Hs H; cbn [relay_execs] in H.
  - apply Some_inj in H. subst s'. constructor.
  - destruct (relay_exec l r s e) as [s1|] eqn:E; [|discriminate].
    destruct (relay_exec_step _ _ _ _ _ Hp Hs E) as [H1 H2]. econstructor; [exact H1|apply IH; assumption].
Qed.
