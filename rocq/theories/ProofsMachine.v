(** Proofs about digital control programs (C120). *)
From Coq Require Import ZArith List Bool Lia ZifyBool ZifyNat.
From Verif Require Import Base F32 Types Lib Util Digital Analog Fcnt Com Fbc Facts SpecCodec SpecSerial SpecCoupler SpecImage SpecFeedback SpecKeep SpecLossless SpecOutcome SpecIdle SpecTerminal SpecMachine
  ProofsWitness ProofsCoupler ProofsLayout ProofsDigital ProofsCycle ProofsSteady ProofsKeep ProofsTerminal ProofsWire.
Import ListNotations.
Local Open Scope Z_scope.

Lemma requests_app xs : forall ys, requests (xs ++ ys) = requests xs ++ requests ys.
Proof. induction xs as [|x xs IH]; intros ys; [reflexivity|]. destruct x; cbn [app requests]; rewrite IH; reflexivity. Qed.

(** ** The coupler in between *)
Definition same_rack (c c' : coupler) : Prop := c_modules c' = c_modules c /\ c_offsets c' = c_offsets c.
Lemma same_rack_trans c1 c2 c3 : same_rack c1 c2 -> same_rack c2 c3 -> same_rack c1 c3.
Proof. unfold same_rack. intros [H1 H2] [H3 H4]. split; congruence. Qed.
Lemma loops_kept prof xs : forall c image c' image', reachable prof c -> loops prof c image xs c' image' -> reachable prof c' /\ same_rack c c'.
Proof.
  induction xs as [|x xs IH]; intros c image c' image' Hr H; [inversion H; subst; split; [exact Hr|split; reflexivity]|].
  inversion H as [|? ? a v ? ? ? Hv H'|? ? j size ? ? ? H'|? ? j buf ? ? ? Hb H'|? ? input c1 image1 ? ? ? Hc H'
                  |? ? input output c1 ? ? ? Hc H']; subst.
  - destruct (set_static c a v) as (_ & _ & S3 & S4 & _). destruct (IH _ _ _ _ (R_set _ _ _ _ Hr Hv) H') as [R Q].
    split; [exact R|]. apply (same_rack_trans _ _ _ (conj S3 S4) Q).
  - destruct (read_static c j size) as (_ & _ & S3 & S4 & _). destruct (IH _ _ _ _ (R_read _ _ j size Hr) H') as [R Q].
    split; [exact R|]. apply (same_rack_trans _ _ _ (conj S3 S4) Q).
  - destruct (write_static c j buf) as (_ & _ & S3 & S4 & _). destruct (IH _ _ _ _ (R_write _ _ j buf Hr Hb) H') as [R Q].
    split; [exact R|]. apply (same_rack_trans _ _ _ (conj S3 S4) Q).
  - assert (Hr1 : reachable prof c1) by (apply (cycle_reachable _ c input image _ (Ok image1) Hr Hc); discriminate).
    destruct (IH _ _ _ _ Hr1 H') as [R Q]. split; [exact R|]. exact (same_rack_trans _ _ _ (cycle_static _ _ _ _ _ _ Hc) Q).
  - assert (Hr1 : reachable prof c1) by (apply (cycle_reachable _ c input output _ (Err BufferLength) Hr Hc); discriminate).
    destruct (IH _ _ _ _ Hr1 H') as [R Q]. split; [exact R|]. exact (same_rack_trans _ _ _ (cycle_static _ _ _ _ _ _ Hc) Q).
Qed.
Lemma sensor_static c c' a off : same_rack c c' -> sensor_at c a off -> sensor_at c' a off.
Proof. intros [E1 E2]. unfold sensor_at, module_at. rewrite E1, E2. auto. Qed.
Lemma actor_static c c' a off : same_rack c c' -> actor_at c a off -> actor_at c' a off.
Proof. intros [E1 E2] (m & o & n & H & H'). exists m, o, n. split; [exact (alone_static _ _ _ _ _ _ E1 E2 H)|exact H']. Qed.

(** ** Commands *)
Lemma commanded_in actors commands : forall a v, In (a, v) (requests (requested_by actors commands)) -> In a actors.
Proof.
  unfold requested_by. revert commands. induction actors as [|x actors IH]; intros commands a v H; [destruct H|].
  destruct commands as [|[b|] commands]; cbn [combine flat_map fst snd app requests] in H; [destruct H| |].
  - destruct H as [H|H]; [left; apply pair_inj in H as [-> _]; reflexivity|right; exact (IH _ _ _ H)].
  - right. exact (IH _ _ _ H).
Qed.
Lemma command_latest actors aside : (forall a v, In (a, v) (requests aside) -> ~ In a actors) -> NoDup actors ->
  forall commands n a, nth_error actors n = Some a ->
  latest (requests (requested_by actors commands ++ aside)) a
    (match nth_error commands n with Some (Some b) => Some (Bit b) | _ => None end).
Proof.
  intros Ha Hd commands n a Hn. rewrite requests_app.
  assert (Na : forall w, ~ In (a, w) (requests aside)) by (intros w Hw; apply (Ha a w Hw); exact (nth_error_In _ _ Hn)).
  clear Ha. revert commands n Hn. unfold requested_by. induction Hd as [|x actors Hx Hd IH]; intros commands n Hn; [destruct n; discriminate|].
  destruct n as [|n]; cbn [nth_error] in Hn.
  - apply Some_inj in Hn. subst x.
    assert (N : forall cs w, ~ In (a, w) (requests (requested_by actors cs) ++ requests aside)).
    { intros cs w Hw. apply in_app_or in Hw as [Hw|Hw]; [exact (Hx (commanded_in _ _ _ _ Hw))|exact (Na w Hw)]. }
    destruct commands as [|[b|] commands]; cbn [combine flat_map fst snd app requests nth_error].
    + apply Latest_none. exact Na.
    + apply (Latest_some [] _ a (Bit b)). exact (N commands).
    + apply Latest_none. exact (N commands).
  - destruct commands as [|[b|] commands]; cbn [combine flat_map fst snd app requests nth_error].
    + apply Latest_none. exact Na.
    + specialize (IH commands n Hn). remember (match nth_error commands n with Some (Some b0) => Some (Bit b0) | _ => None end) as r.
      destruct IH as [l a N|l1 l2 a v N].
      * apply Latest_none. intros v [E|E]; [|exact (N v E)]. apply pair_inj in E as [-> _]. exact (Hx (nth_error_In _ _ Hn)).
      * apply (Latest_some ((x, Bit b) :: l1) l2 a v N).
    + exact (IH commands n Hn).
Qed.
Lemma obey_nth outs : forall commands n, nth_error (obey outs commands) n =
  match nth_error outs n with Some o => Some (match nth_error commands n with Some (Some b) => b | _ => o end) | None => None end.
Proof.
  induction outs as [|o outs IH]; intros commands n; [destruct commands, n; reflexivity|].
  destruct commands as [|[b|] commands]; destruct n as [|n]; cbn [obey nth_error]; try reflexivity.
  - destruct (nth_error outs n); reflexivity.
  - apply IH.
  - apply IH.
Qed.

(** ** One round *)
Lemma bits_nth at_place image channels : forall offs n, length offs = length channels -> nth_error (bits_at at_place image channels offs) n =
  match nth_error channels n, nth_error offs n with Some a, Some off => Some (at_place image off (a_channel a)) | _, _ => None end.
Proof.
  induction channels as [|a channels IH]; intros [|off offs] n L; try discriminate L; [destruct n; reflexivity|].
  destruct n as [|n]; [reflexivity|]. cbn [bits_at combine map nth_error]. apply IH. cbn [length] in L. lia.
Qed.
Lemma Forall2_at {A B} (R : A -> B -> Prop) l1 l2 : Forall2 R l1 l2 -> forall n a b, nth_error l1 n = Some a -> nth_error l2 n = Some b -> R a b.
Proof.
  intros H. induction H as [|x y l1 l2 Hxy H IH]; intros [|n] a b Ha Hb; try discriminate; cbn [nth_error] in Ha, Hb; [congruence|exact (IH _ _ _ Ha Hb)].
Qed.
Lemma Forall2_weaken {A B} (R R' : A -> B -> Prop) l1 l2 : (forall a b, R a b -> R' a b) -> Forall2 R l1 l2 -> Forall2 R' l1 l2.
Proof. intros K H. induction H; constructor; auto. Qed.
Lemma address_eta a : mk_address (a_module a) (a_channel a) = a. Proof. destruct a. reflexivity. Qed.
Lemma round_outputs prof c image actors offs commands aside input c1 image1 : reachable prof c -> Forall2 (actor_at c) actors offs -> NoDup actors ->
  (forall a, In a actors -> requested c a = None) -> (forall a v, In (a, v) (requests aside) -> ~ In a actors) ->
  loops prof c image (requested_by actors commands ++ aside ++ [Tick input]) c1 image1 ->
  bits_at output_bit image1 actors offs = obey (bits_at output_bit image actors offs) commands.
Proof.
  intros Hr Hact Hd Hq Ha H. pose proof Hact as L. apply Forall2_length in L. symmetry in L.
  apply nth_error_ext. intros n. rewrite obey_nth, !bits_nth by exact L.
  destruct (nth_error actors n) as [a|] eqn:En; [|reflexivity]. destruct (nth_error offs n) as [off|] eqn:Eo; [|reflexivity]. f_equal.
  destruct (Forall2_at _ _ _ Hact _ _ _ En Eo) as (m & o & k & Hal & Hm & Hk).
  pose proof (command_latest actors aside Ha Hd commands n a En) as Lt.
  rewrite app_assoc in H.
  assert (B : between_ticks []) by (intros x []).
  assert (Q : requested c (mk_address (a_module a) (a_channel a)) = None) by (rewrite address_eta; apply Hq; exact (nth_error_In _ _ En)).
  destruct (C71_digital_all prof c image (requested_by actors commands ++ aside) input [] c1 image1 _ _ _ _ _ _ Hr Hal Hm Hk Q H B) as [C1 C2].
  rewrite address_eta in C1, C2. destruct (nth_error commands n) as [[b|]|].
  - specialize (C1 _ Lt). cbn in C1. apply Some_inj in C1. congruence.
  - exact (C2 Lt).
  - exact (C2 Lt).
Qed.
Lemma last_tick prof c image xs input c1 image1 : reachable prof c -> loops prof c image (xs ++ [Tick input]) c1 image1 ->
  exists c0 image0, reachable prof c0 /\ same_rack c c0 /\ cycle prof c0 input image0 c1 (Ok image1).
Proof.
  intros Hr H. apply loops_app in H. destruct H as (c0 & image0 & H0 & H1). destruct (loops_kept _ _ _ _ _ _ Hr H0) as [R S].
  exists c0, image0. split; [exact R|]. split; [exact S|].
  inversion H1 as [| | | |? ? ? c2 image2 ? ? ? Hc H'|]; subst. inversion H'; subst. exact Hc.
Qed.
Lemma nth_of_skipn (l : list Z) n : forall k, nth k (skipn n l) 0 = nth (n + k) l 0.
Proof. revert l. induction n as [|n IH]; intros [|x l] k; cbn [skipn Nat.add nth]; try reflexivity; [destruct k; reflexivity|apply IH]. Qed.
Lemma input_bit_registers input off k : off mod 16 = 0 \/ off mod 16 = 8 -> bit (reg (registers_at 0 input off) 0) k = input_bit input off k.
Proof.
  intros H. unfold registers_at, input_bit, reg, bit. cbv zeta. rewrite Z.sub_0_r. destruct H as [H|H]; rewrite H; cbn [Z.eqb Pos.eqb].
  - rewrite nth_of_skipn, Nat.add_0_r. reflexivity.
  - cbn [nth]. rewrite nth_of_skipn, Nat.add_0_r. change 256 with (2 ^ 8). rewrite <- Z.shiftr_div_pow2, Z.shiftr_spec by lia. f_equal. lia.
Qed.
Lemma round_inputs prof c input image c1 image1 sensors offs bits : reachable prof c -> cycle prof c input image c1 (Ok image1) ->
  Forall2 (sensor_at c) sensors offs -> Forall2 (sees c1) sensors bits -> bits = bits_at input_bit input sensors offs.
Proof.
  intros Hr Hc Hs. revert bits. induction Hs as [|a off sensors offs Ha Hs IH]; intros bits Hb; inversion Hb as [|? b ? bits' Sb Hb']; subst; [reflexivity|].
  cbn [bits_at combine map fst snd]. f_equal; [|exact (IH _ Hb')].
  destruct Ha as (v & ch & o & Hat & Eo & P & Hk). destruct (C83_inputs_all _ _ _ _ _ _ _ _ _ _ Hr Hc Hat eq_refl Eo P) as (row & Er & _ & Hp).
  unfold sees, cell in Sb. rewrite Er in Sb. specialize (Hp _ _ Sb). cbn [physical_input] in Hp. injection Hp as ->.
  apply input_bit_registers. destruct P as [P|[P _]]; auto.
Qed.
Lemma C120_all : forall state prof (P : program state) s commands c image inputs images in_offs out_offs, reachable prof c ->
  Forall2 (sensor_at c) (sensors P) in_offs -> Forall2 (actor_at c) (actors P) out_offs -> NoDup (actors P) ->
  (forall a, In a (actors P) -> requested c a = None) ->
  rounds prof P s commands c image inputs images ->
  map (fun x => bits_at output_bit x (actors P) out_offs) images =
  meant P s (bits_at output_bit image (actors P) out_offs) commands (map (fun x => bits_at input_bit x (sensors P) in_offs) inputs).
Proof.
  intros state prof P s commands c image inputs images in_offs out_offs Hr Hs Hact Hd Hq H. revert Hr Hs Hact Hq.
  induction H as [s commands c image|s commands c image aside input c1 image1 bits inputs images HL Hb Ha Hi H IH]; intros Hr Hs Hact Hq; [reflexivity|].
  pose proof (round_outputs _ _ _ _ _ _ _ _ _ _ Hr Hact Hd Hq Ha HL) as Eo. rewrite app_assoc in HL.
  destruct (last_tick _ _ _ _ _ _ _ Hr HL) as (c0 & image0 & Hr0 & S0 & Hc).
  assert (Hs0 : Forall2 (sensor_at c0) (sensors P) in_offs) by (eapply Forall2_weaken; [|exact Hs]; intros a off; exact (sensor_static _ _ _ _ S0)).
  pose proof (round_inputs _ _ _ _ _ _ _ _ _ Hr0 Hc Hs0 Hi) as Eb.
  destruct (loops_kept _ _ _ _ _ _ Hr HL) as [Hr1 S1].
  cbn [map meant]. f_equal; [exact Eo|]. rewrite <- Eb, <- Eo. apply IH.
  - exact Hr1.
  - eapply Forall2_weaken; [|exact Hs]. intros a off. exact (sensor_static _ _ _ _ S1).
  - eapply Forall2_weaken; [|exact Hact]. intros a off. exact (actor_static _ _ _ _ S1).
  - intros a Hin. destruct (In_nth_error _ _ Hin) as [n En]. pose proof Hact as L. apply Forall2_length in L.
    destruct (nth_error out_offs n) as [off|] eqn:Eoff.
    2:{ apply nth_error_None in Eoff. assert (n < length (actors P))%nat by (apply nth_error_Some; congruence). lia. }
    destruct (actor_static _ _ _ _ S0 (Forall2_at _ _ _ Hact _ _ _ En Eoff)) as (m & o & k & Hal & Hm & Hk).
    destruct (digital_not_serial m k Hm) as (_ & Hx & _).
    rewrite <- (address_eta a). apply (C85_all _ _ _ _ _ _ _ _ _ _ Hr0 Hc Hal). rewrite Hx. exact Hk.
Qed.

(** ** There is a next round *)
Lemma set_requests_loop prof reqs : forall c image, Forall (fun av => rust_value (snd av)) reqs ->
  loops prof c image (map (fun av => Request (fst av) (snd av)) reqs) (set_all c reqs) image.
Proof.
  induction reqs as [|(a & v) reqs IH]; intros c image H; [constructor|]. inversion H; subst. cbn [map set_all fst snd].
  apply L_request; [assumption|]. apply IH. assumption.
Qed.
Lemma loops_join prof xs : forall c image ys c1 image1 c2 image2, loops prof c image xs c1 image1 -> loops prof c1 image1 ys c2 image2 ->
  loops prof c image (xs ++ ys) c2 image2.
Proof. intros c image ys c1 image1 c2 image2 H. induction H; intros H'; cbn [app]; [exact H'|..]; econstructor; eauto. Qed.
Lemma requested_by_requests actors : forall commands, requested_by actors commands = map (fun av => Request (fst av) (snd av)) (requests (requested_by actors commands)).
Proof.
  unfold requested_by. induction actors as [|x actors IH]; intros commands; [reflexivity|].
  destruct commands as [|[b|] commands]; cbn [combine flat_map fst snd app requests map]; [reflexivity| |]; rewrite <- IH; reflexivity.
Qed.
Lemma commanded_bit actors commands : forall a v, In (a, v) (requests (requested_by actors commands)) -> exists b, v = Bit b.
Proof.
  unfold requested_by. revert commands. induction actors as [|x actors IH]; intros commands a v H; [destruct H|].
  destruct commands as [|[b|] commands]; cbn [combine flat_map fst snd app requests] in H; [destruct H| |exact (IH _ _ _ H)].
  destruct H as [H|H]; [|exact (IH _ _ _ H)]. apply pair_inj in H as [_ <-]. exists b. reflexivity.
Qed.
Lemma inputs_seen prof c input image c1 image1 sensors offs : reachable prof c -> cycle prof c input image c1 (Ok image1) ->
  Forall2 (sensor_at c) sensors offs -> exists bits, Forall2 (sees c1) sensors bits.
Proof.
  intros Hr Hc Hs. induction Hs as [|a off sensors offs Ha Hs IH]; [exists []; constructor|]. destruct IH as [bits IH].
  destruct Ha as (v & ch & o & Hat & Eo & P & Hk). destruct (C83_inputs_all _ _ _ _ _ _ _ _ _ _ Hr Hc Hat eq_refl Eo P) as (row & Er & Lr & Hp).
  destruct (nth_error row (a_channel a)) as [x|] eqn:Ex.
  2:{ apply nth_error_None in Ex. rewrite Lr in Ex. change (shown_inputs (MDI v ch)) with (channels (MDI v ch)) in Ex. lia. }
  specialize (Hp _ _ Ex). cbn [physical_input] in Hp. subst x. eexists. constructor; [|exact IH]. unfold sees, cell. rewrite Er. exact Ex.
Qed.
Lemma C120_goes_on_all : forall state prof (P : program state) c0 input0 output0 c image in_offs out_offs, reachable prof c0 -> byte_wide c0 ->
  cycle prof c0 input0 output0 c (Ok image) -> Forall2 (sensor_at c) (sensors P) in_offs -> Forall2 (actor_at c) (actors P) out_offs ->
  forall inputs s commands, Forall (fun input => Forall is_u16 input /\ inputs_readable c input) inputs ->
  exists images, rounds prof P s commands c image inputs images.
Proof.
  intros state prof P c0 input0 output0 c image in_offs out_offs Hr Hbw H Hs Hact inputs. revert c0 input0 output0 c image Hr Hbw H Hs Hact.
  induction inputs as [|input inputs IH]; intros c0 input0 output0 c image Hr Hbw H Hs Hact s commands HF; [exists []; constructor|].
  inversion HF as [|? ? [Hu Hi] HF']; subst. clear HF.
  pose proof (cycle_static _ _ _ _ _ _ H) as S0.
  assert (Hr' : reachable prof c) by (apply (cycle_reachable _ c0 input0 output0 _ (Ok image) Hr H); discriminate).
  set (reqs := requests (requested_by (actors P) commands)).
  assert (Fr : Forall (fun av => rust_value (snd av)) reqs).
  { apply Forall_forall. intros (a & v) Hin. destruct (commanded_bit _ _ _ _ Hin) as [b ->]. exact I. }
  pose proof (set_requests_loop prof reqs c image Fr) as HL. unfold reqs in HL at 1. rewrite <- requested_by_requests in HL.
  destruct (loops_kept _ _ _ _ _ _ Hr' HL) as [Hr2 S2].
  destruct (next prof as_is as_is (set_all c reqs) input image) as [c1 r] eqn:En.
  assert (Hc : cycle prof (set_all c reqs) input image c1 r).
  { split; [exact Hu|]. split; [exact (image_u16 _ _ _ _ _ _ (reachable_ok _ _ Hr) H)|]. exists as_is, as_is. auto using as_is_order. }
  assert (A : exists image1, r = Ok image1).
  { destruct S0 as [S01 S02]. destruct S2 as [S21 S22].
    apply (ready_cycle prof c0 input0 output0 c image Hr Hbw H (set_all c reqs) ltac:(congruence) ltac:(congruence) Hr2 input c1 r Hc). split.
    - unfold inputs_readable, module_at in *. rewrite S21, S22. exact Hi.
    - intros i m o k v Hat Ho Hn Hq. destruct (set_all_origin _ _ _ _ Hq) as [Hin|Hq'].
      + destruct (commanded_bit _ _ _ _ Hin) as [b ->]. apply commanded_in in Hin. destruct (In_nth_error _ _ Hin) as [n Ena].
        pose proof Hact as L. apply Forall2_length in L. destruct (nth_error out_offs n) as [off|] eqn:Eoff.
        2:{ apply nth_error_None in Eoff. assert (n < length (actors P))%nat by (apply nth_error_Some; congruence). lia. }
        destruct (Forall2_at _ _ _ Hact _ _ _ Ena Eoff) as (m' & o' & q & Hal & Hm & Hk). cbn [a_module a_channel] in Hal.
        assert (m' = m) as ->.
        { destruct Hal as [[M _] _]. destruct Hat as [M' _]. rewrite S21 in M'. congruence. }
        destruct m as [w ch|w ch| |ch|ch|ch|t ch|f ch|w f ch|f ch|t ch|ch|l ch| ]; try discriminate Hm; exists b; reflexivity.
      + exfalso. assert (Q : requested c (mk_address i k) = None); [|congruence].
        destruct (C38_all _ _ _ _ _ _ Hr H) as (readback & sent & E1 & _).
        apply (requests_taken _ _ _ _ _ _ (reachable_ok _ _ Hr) H) with (m := m) (o := o); [|exists readback; exact E1| |exact Hn].
        * destruct (cycle_inv _ _ _ _ _ _ (reachable_ok _ _ Hr) H) as [(_ & _ & _ & _ & X)|[(_ & _ & _ & _ & _ & _ & X)|(ins & _ & _ & E & _)]];
            [destruct (X _ eq_refl)|destruct (X _ eq_refl)|exists ins; exact E].
        * destruct Hat as [M1 M2]. split; congruence. }
  destruct A as [image1 ->].
  assert (Hs2 : Forall2 (sensor_at (set_all c reqs)) (sensors P) in_offs) by (eapply Forall2_weaken; [|exact Hs]; intros a off; exact (sensor_static _ _ _ _ S2)).
  destruct (inputs_seen _ _ _ _ _ _ _ _ Hr2 Hc Hs2) as [bits Hb].
  pose proof (same_rack_trans _ _ _ S2 (cycle_static _ _ _ _ _ _ Hc)) as S1.
  assert (Hbw2 : byte_wide (set_all c reqs)).
  { destruct S0 as [S01 S02]. destruct S2 as [S21 S22]. unfold byte_wide, module_at in *. rewrite S21, S22, S01, S02. exact Hbw. }
  destruct (IH (set_all c reqs) input image c1 image1 Hr2 Hbw2 Hc) with (s := fst (step P s bits)) (commands := snd (step P s bits)) as [images HR].
  - eapply Forall2_weaken; [|exact Hs]. intros a off. exact (sensor_static _ _ _ _ S1).
  - eapply Forall2_weaken; [|exact Hact]. intros a off. exact (actor_static _ _ _ _ S1).
  - eapply Forall_impl; [|exact HF']. intros x [X1 X2]. split; [exact X1|]. destruct S1 as [S11 S12].
    unfold inputs_readable, module_at in *. rewrite S11, S12. exact X2.
  - exists (image1 :: images). apply (Rounds_S _ _ s commands c image [] input c1 image1 bits); [|intros x []|intros a v []|exact Hb|exact HR].
    cbn [app]. apply (loops_join _ _ _ _ _ _ _ _ _ HL). apply (L_tick _ _ _ _ _ _ _ _ _ Hc). constructor.
Qed.
