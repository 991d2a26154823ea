(** Property theorems C104: two programs talk over a serial line while both sides are disturbed. *)
From Coq Require Import ZArith List Bool Lia.
From Verif Require Import Base Facts F32 Types Lib Com Fbc SpecCodec SpecSerial SpecCoupler SpecImage SpecSystem SpecLink SpecFault SpecOrdered
  SpecRough ProofsCoupler ProofsWitness ProofsSystem ProofsPlant ProofsLink ProofsFault ProofsOrdered ProofsRough
  PropsCoupler PropsSystem PropsFault PropsOrdered PropsLink.
Import ListNotations.
Local Open Scope Z_scope.

(** The two couplers of PropsLink.v.  The left program writes nine bytes; writing its output image is interrupted and
    repeated.  The right program hands over 21 and then 22; it forgets the image with 22, which is lost. *)
Definition rough (e : link_event) : rough_event := match e with OnLeft e' => RoughLeft (plain e') | OnRight e' => RoughRight (plain e') end.
Lemma rough_links l r s es s1 : link_runs l r s es s1 -> forall es' s2 n m, rough_runs l r s1 es' s2 n m ->
  rough_runs l r s (map rough es ++ es') s2 n m.
Proof.
  induction 1 as [s|s e s1 es s2 H1 H2 IH]; intros es' s3 n m H; [exact H|]. cbn [map app].
  destruct H1 as [a b e a' Hf Hs|a b e b' Hf Hs]; cbn [rough].
  - refine (RO_left _ _ _ _ (plain e) a' _ _ n m Hf _ (IH _ _ _ _ H)). split; [|exact I]. apply T_disturbed, F_undisturbed, Hs.
  - refine (RO_right _ _ _ _ (plain e) b' _ _ n m Hf _ (IH _ _ _ _ H)). split; [|exact I]. apply T_disturbed, F_undisturbed, Hs.
Qed.
Lemma rough_links_only l r s es s1 : link_runs l r s es s1 -> rough_runs l r s (map rough es) s1 0 0.
Proof. intros H. rewrite <- (app_nil_r (map _ _)). exact (rough_links _ _ _ _ _ H _ _ _ _ (RO_nil _ _ _)). Qed.

Lemma rough_forgets l r a b e b' es s n m k : rough_from_line a b e -> rough_side_step r b e b' -> side_forgets r b e = k ->
  rough_runs l r (a, b') es s n m -> rough_runs l r (a, b) (RoughRight e :: es) s n (k + m).
Proof. intros Hf Hs <- H. exact (RO_right _ _ _ _ _ _ _ _ _ _ Hf Hs H). Qed.

Definition rough_events_2a : list link_event :=
  [OnLeft (PWrite 2 [1; 2; 3; 4; 5; 6; 7; 8; 9]); OnRight (PSet (mk_address 0 0) (Bytes [21]));
   OnRight PCycle; OnRight POutput; OnRight PTake; OnLeft (POffer [21]); OnLeft PCycle].
Definition rough_events_2b : list link_event :=
  [OnLeft PTake; OnRight (PInput [0x0020; 0; 0; 0]); OnRight (PWrite 0 [22]); OnRight PCycle].
Definition rough_events_2c : list link_event := [OnLeft POutput; OnLeft PTake].
Definition rough_state_2a := link_exec link_state_1 rough_events_2a.
Definition rough_torn := (tear without_header (fst rough_state_2a), snd rough_state_2a).
Definition rough_state_2b := link_exec rough_torn rough_events_2b.
Definition rough_forgot := (fst rough_state_2b, forget (snd rough_state_2b)).
Definition rough_state_2 := link_exec rough_forgot rough_events_2c.
Definition rough_events_2 : list rough_event :=
  map rough rough_events_2a ++ RoughLeft (PartlyWritten without_header) :: map rough rough_events_2b ++
  RoughRight (Disturbed ReadBack) :: map rough rough_events_2c.
Definition rough_state_3 := link_exec rough_state_2 link_events_3.
Definition rough_state_4 := link_exec rough_state_3 link_events_4.
Definition rough_state_5 := link_exec rough_state_4 link_events_5.

Lemma rough_example_runs : rough_runs link_left link_right link_state_1 rough_events_2 rough_state_2 0 1.
Proof.
  unfold rough_events_2. apply rough_links with (s1 := rough_state_2a); [apply link_exec_runs; vm_compute; reflexivity|].
  rewrite (surjective_pairing rough_state_2a).
  refine (RO_left _ _ (fst rough_state_2a) (snd rough_state_2a) (PartlyWritten without_header) (fst rough_torn) _ _ 0 _ I _ _).
  { split; [apply tear_step; vm_compute; reflexivity|].
    intros H. vm_compute in H. discriminate H. }
  apply rough_links with (s1 := rough_state_2b); [apply link_exec_runs; vm_compute; reflexivity|].
  rewrite (surjective_pairing rough_state_2b).
  apply (rough_forgets link_left link_right (fst rough_state_2b) (snd rough_state_2b) (Disturbed ReadBack) (forget (snd rough_state_2b)) _ _ 0 0 1);
    [exact I|split; [|exact I]; apply T_disturbed, F_read_back|vm_compute; reflexivity|].
  apply rough_links_only. apply link_exec_runs. vm_compute. reflexivity.
Qed.

(** C104: the statement of C86 when both programs are disturbed as in C69 and writing the output images is interrupted
    as in C102.  What has arrived and what is under way are bytes written on the other side, in this order and none
    twice; missing are at most as many as fit into one process image for each time the program that wrote them has
    forgotten an image, and none if it never did.  What the other program forgets does not matter. *)
Theorem C104_rough_link : forall l r a0 b0 es1 a1 b1 n1 m1 es2 a2 b2 n2 m2,
  side_start l a0 -> side_start r b0 ->
  rough_runs l r (a0, b0) es1 (a1, b1) n1 m1 ->
  (2 <= t_cycles a1)%nat -> (2 <= t_cycles b1)%nat -> t_offered a1 = [] -> t_offered b1 = [] ->
  rough_runs l r (a1, b1) es2 (a2, b2) n2 m2 ->
  rough_accounted l r a2 b2 (n1 + n2) /\ rough_accounted r l b2 a2 (m1 + m2).
Proof. exact C104_all. Qed.
Print Assumptions C104_rough_link.

Example C104_rough_link_nontrivial :
  side_start link_left example_start /\ side_start link_right link_start /\
  rough_runs link_left link_right (example_start, link_start) (map rough link_events_1) link_state_1 0 0 /\
  rough_runs link_left link_right link_state_1 rough_events_2 rough_state_2 0 1 /\
  (t_cycles (fst link_state_1), t_cycles (snd link_state_1)) = (2, 2)%nat /\
  t_offered (fst link_state_1) = [] /\ t_offered (snd link_state_1) = [] /\
  (* after the interrupted write the module on the left finds nothing *)
  t_register (fst rough_torn) <> t_image (fst rough_torn) /\ t_taken (fst rough_state_2b) = [] /\
  (t_written (fst rough_state_2), on_line (fst rough_state_2) (snd rough_state_2)) = ([1; 2; 3; 4; 5; 6; 7; 8; 9], [1; 2; 3; 4; 5; 6]) /\
  t_written (snd rough_state_2) = [21; 22] /\ readable_in (t_coupler (fst rough_state_2)) 2 = [] /\
  t_offered (fst rough_state_2) = [[21]] /\ on_its_way EightBytes 0x8000 (snd rough_state_2) = [] /\
  waiting_in (t_coupler (snd rough_state_2)) 0 = [].
Proof.
  split; [exact (proj1 C86_example_starts)|]. split; [exact (proj2 C86_example_starts)|].
  split; [apply rough_links_only, link_exec_runs; vm_compute; reflexivity|]. split; [exact rough_example_runs|].
  do 3 (split; [vm_compute; reflexivity|]). split; [vm_compute; intros H; discriminate H|]. vm_compute. auto 10.
Qed.

(** C104: and the bytes arrive: after as many undisturbed rounds of the left program as segments are outstanding, once
    the line has carried what the left module has taken over, and after a cycle of the right program with a fresh input
    image, everything the left program had written and not forgotten is read or ready to be read on the right, whatever
    else disturbs the right program meanwhile. *)
Theorem C104_rough_progress : forall l r a0 b0 es1 a1 b1 n1 m1 es2 a2 b2 n2 m2 es3 a3 b3 n3 m3 rounds es4 a4 b4 n4 m4
    es5 a5 b5 n5 m5 x input y z,
  side_start l a0 -> side_start r b0 ->
  rough_runs l r (a0, b0) es1 (a1, b1) n1 m1 -> (2 <= t_cycles a1)%nat -> (2 <= t_cycles b1)%nat -> t_offered b1 = [] ->
  rough_runs l r (a1, b1) es2 (a2, b2) n2 m2 ->
  rough_runs l r (a2, b2) es3 (a3, b3) n3 m3 -> rough_left es3 = map (fun e => Disturbed (Undisturbed e)) (concat rounds) ->
  Forall plant_round rounds -> (outstanding (s_module l) (s_length l) (s_output l) a2 <= length rounds)%nat ->
  rough_runs l r (a3, b3) es4 (a4, b4) n4 m4 -> (length (t_taken a3) <= length (concat (t_offered b4)))%nat ->
  rough_runs l r (a4, b4) es5 (a5, b5) n5 m5 ->
  rough_right es5 = x ++ [Disturbed (Undisturbed (PInput input))] ++ y ++ [Disturbed (Undisturbed PCycle)] ++ z ->
  exists kept more, t_delivered b5 ++ readable_in (t_coupler b5) (s_module r) = kept ++ more /\
    subsequence kept (t_written a2) /\ (length (t_written a2) <= length kept + (n1 + n2) * payload_size (s_length l))%nat /\
    ((n1 + n2)%nat = 0%nat -> kept = t_written a2).
Proof. exact C104_progress_all. Qed.
Print Assumptions C104_rough_progress.

Example C104_rough_progress_nontrivial :
  outstanding 2 EightBytes 0x8010 (fst rough_state_2) = 1%nat /\
  rough_runs link_left link_right rough_state_2 (map rough link_events_3) rough_state_3 0 0 /\
  rough_left (map rough link_events_3) = map (fun e => Disturbed (Undisturbed e)) (concat [link_round]) /\ Forall plant_round [link_round] /\
  rough_runs link_left link_right rough_state_3 (map rough link_events_4) rough_state_4 0 0 /\
  length (t_taken (fst rough_state_3)) = length (concat (t_offered (snd rough_state_4))) /\
  rough_runs link_left link_right rough_state_4 (map rough link_events_5) rough_state_5 0 0 /\
  rough_right (map rough link_events_5) = [] ++ [Disturbed (Undisturbed (PInput [0x0331; 0x0807; 0x0009; 0]))] ++ [] ++
    [Disturbed (Undisturbed PCycle)] ++ [plain (PRead 0 1)] /\
  t_delivered (snd rough_state_5) = [1; 2; 3; 4; 5] /\
  readable_in (t_coupler (snd rough_state_5)) 0 = [6; 7; 8; 9].
Proof.
  split; [vm_compute; reflexivity|]. split; [apply rough_links_only, link_exec_runs; vm_compute; reflexivity|].
  split; [vm_compute; reflexivity|]. split.
  { repeat constructor. exists [], [5; 0x0129; 0x0015; 0; 0], [], [], [], []. reflexivity. }
  split; [apply rough_links_only, link_exec_runs; vm_compute; reflexivity|]. split; [vm_compute; reflexivity|].
  split; [apply rough_links_only, link_exec_runs; vm_compute; reflexivity|]. split; [vm_compute; reflexivity|].
  vm_compute. auto.
Qed.
