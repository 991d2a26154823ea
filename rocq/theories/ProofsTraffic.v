(** Proofs about a program that exchanges data through the registers of a field bus coupler (C98). *)
From Coq Require Import ZArith List Bool Lia ZifyBool ZifyNat.
From Verif Require Import Base Facts F32 Types Lib Com Fbc SpecCatalogue SpecAddr SpecParams SpecCodec SpecSerial SpecCoupler SpecImage SpecKeep SpecOutcome
  SpecSize SpecLossless SpecTerminal SpecWire SpecContract SpecStartup SpecTraffic
  ProofsAddr ProofsNew ProofsStartup ProofsBoot ProofsModule ProofsImage ProofsCycle ProofsCoupler ProofsWitness ProofsOutcome ProofsSize ProofsTerminal ProofsWire.
Import ListNotations.
Local Open Scope Z_scope.
Ltac Zify.zify_post_hook ::= Z.div_mod_to_equations.

Lemma exchange_length prof c register n k c' image : reachable prof c -> n <= 0x0800 -> k <= 0x0800 ->
  cycle prof c (read_registers register ADDR_PACKED_PROCESS_INPUT_DATA n)
    (read_registers register ADDR_PACKED_PROCESS_OUTPUT_DATA k) c' (Ok image) -> Z.of_nat (length image) <= 0x0800.
Proof. intros Hr Hn Hk H. pose proof (C90_read_back_all _ _ _ _ _ _ Hr H) as L. rewrite read_length in L. lia. Qed.

Lemma C98_area_all : forall prof c register c' register', reachable prof c -> exchange prof c register c' register' ->
  forall a, ~ 0x0800 <= a < 0x1000 -> register' a = register a.
Proof.
  intros prof c register c' register' Hr (n & k & image & Hn & Hk & H & ->) a Ha.
  pose proof (exchange_length _ _ _ _ _ _ _ Hr Hn Hk H) as L. unfold write_registers. change ADDR_PACKED_PROCESS_OUTPUT_DATA with 0x0800.
  destruct ((0x0800 <=? a) && (a <? 0x0800 + Z.of_nat (length image))) eqn:E; [lia|reflexivity].
Qed.

Lemma operates_keeps prof c register c' register' : operates prof c register c' register' -> reachable prof c ->
  reachable prof c' /\ forall a, ~ 0 <= a < 0x1000 -> register' a = register a.
Proof.
  intros H. induction H as [c r|c r c1 r1 c2 r2 _ IH HX|c r c1 r1 c2 _ IH HX|c r c1 r1 a v _ IH Hv|c r c1 r1 i size _ IH|c r c1 r1 i buf _ IH Hb|c r c1 r1 r2 _ IH Hin]; intros Hr.
  - split; [exact Hr|reflexivity].
  - destruct (IH Hr) as [R K]. pose proof (C98_area_all _ _ _ _ _ R HX) as A. destruct HX as (n & k & image & _ & _ & H & _). split.
    + exact (cycle_reachable _ _ _ _ _ _ R H ltac:(discriminate)).
    + intros a Ha. rewrite A by lia. apply K. exact Ha.
  - destruct (IH Hr) as [R K]. destruct HX as (n & k & e & _ & _ & H). split; [|exact K].
    exact (cycle_reachable _ _ _ _ _ _ R H ltac:(discriminate)).
  - destruct (IH Hr) as [R K]. split; [apply R_set; assumption|exact K].
  - destruct (IH Hr) as [R K]. split; [apply R_read; assumption|exact K].
  - destruct (IH Hr) as [R K]. split; [apply R_write; assumption|exact K].
  - destruct (IH Hr) as [R K]. split; [exact R|]. intros a Ha. rewrite Hin by lia. apply K. exact Ha.
Qed.

Lemma C98_other_all : forall prof c register c' register', reachable prof c -> operates prof c register c' register' ->
  (forall a, ~ 0 <= a < 0x1000 -> register' a = register a) /\
  register' ADDR_COUPLER_ID = register 0x1000 /\ register' ADDR_COUPLER_STATUS = register 0x100C /\
  register' ADDR_PROCESS_OUTPUT_LEN = register 0x1010 /\ register' ADDR_PROCESS_INPUT_LEN = register 0x1011 /\
  register' ADDR_CURRENT_MODULE_COUNT = register 0x27FE /\ register' ADDR_CURRENT_MODULE_LIST = register 0x2A00 /\
  register' ADDR_MODULE_OFFSETS = register 0x2B00 /\ register' ADDR_MODULE_PARAMETERS = register 0xC000.
Proof.
  intros prof c register c' register' Hr H. destruct (operates_keeps _ _ _ _ _ H Hr) as [_ K]. split; [exact K|].
  repeat match goal with |- _ /\ _ => split end; apply K; intros [_ X]; vm_compute in X; discriminate X.
Qed.

Lemma shows_ext r r' rack : (forall a, ~ 0 <= a < 0x1000 -> r' a = r a) -> shows r rack -> shows r' rack.
Proof.
  intros K [Hn H]. split; [rewrite K by lia; exact Hn|]. intros i s Hi. destruct (H i s Hi) as ((id & A & B & C) & D & E & F).
  split; [exists id; split; [exact A|]; split; rewrite K by lia; assumption|]. split; [rewrite K by lia; exact D|]. split; [rewrite K by lia; exact E|].
  intros k p Hk. rewrite K by lia. apply F. exact Hk.
Qed.

(** Start-up depends on the rack only. *)
Lemma start_from_rack prof reg rack : rack <> [] -> (length rack <= 64)%nat -> shows reg rack -> Forall supported rack ->
  start_up prof reg = coupler_new (mk_config (map s_type rack)
    (flat_map (fun s => [address_register (s_output s); address_register (s_input s)]) rack) (map s_params rack)).
Proof.
  intros Hne Hlen Hsh Hsu. pose proof Hsh as [Hn Hreg]. unfold start_up. change ADDR_CURRENT_MODULE_COUNT with 0x27FE. rewrite Hn.
  rewrite (types_read reg rack Hsh Hne). cbn [bind].
  destruct C11_all as (_ & _ & _ & _ & _ & T).
  destruct (proj1 C08_all prof (map s_type rack)) as (l & -> & Hl & Hw & _).
  { now rewrite map_length. }
  { apply Forall_forall. intros t Ht. apply in_map_iff in Ht. destruct Ht as (s & <- & Hs).
    destruct (proj1 (proj1 (Forall_forall _ _) Hsu s Hs)) as (b & B & _). destruct (T _ _ B) as (D & _). now rewrite D. }
  cbn [bind]. rewrite map_length in Hl.
  rewrite (new_config_ok reg rack l Hsh Hsu Hl).
  2: { intros i s a c Hi. apply Hw. now rewrite nth_error_map, Hi. }
  rewrite (read_pairs reg (fun s => address_register (s_output s)) (fun s => address_register (s_input s)) rack); [reflexivity|].
  intros i s Hi. destruct (Hreg i s Hi) as (_ & A & B & _). now split.
Qed.

Lemma C98_restart_all : forall prof register c c' register', (forall a, is_u16 (register a)) -> register 0x27FE <= 64 ->
  start_up prof register = Ok c -> operates prof c register c' register' -> start_up prof register' = Ok c.
Proof.
  intros prof register c c' register' Hu Hle Hs H.
  destruct (proj1 (C73_success_all prof register Hu Hle) (ex_intro _ c Hs)) as (rack & Hne & Hsh & Hsu).
  assert (Hlen : (length rack <= 64)%nat) by (destruct Hsh as [Hn _]; lia).
  destruct (C60_all prof register rack Hne Hlen Hsh Hsu) as (c0 & Hc0 & Hr & _). rewrite Hs in Hc0. apply Ok_inj in Hc0. subst c0.
  destruct (operates_keeps _ _ _ _ _ H Hr) as [_ K].
  rewrite (start_from_rack prof register' rack Hne Hlen (shows_ext _ _ _ K Hsh) Hsu), <- (start_from_rack prof register rack Hne Hlen Hsh Hsu). exact Hs.
Qed.

Lemma skipn_reg l q j : reg (skipn q l) j = nth (q + j) l 0.
Proof. unfold reg. revert l. induction q as [|q IH]; intros l; [reflexivity|]. destruct l; cbn [skipn Nat.add]; [destruct j; reflexivity|]. apply IH. Qed.

Lemma read_reg register a n j : (j < Z.to_nat n)%nat -> nth j (read_registers register a n) 0 = register (a + Z.of_nat j).
Proof. intros H. apply nth_error_nth. apply read_nth. exact H. Qed.

Lemma words_in m : input_bytes m <> 0%nat -> word_count (input_bytes m) = registers_in m.
Proof. destruct m; intros H; try reflexivity; try (exfalso; apply H; reflexivity). destruct l; reflexivity. Qed.

Lemma C98_inputs_all : forall prof c register c' register' i m o off, reachable prof c -> exchange prof c register c' register' ->
  module_at c i m o -> is_serial m = false -> mo_input o = Some off -> placed off (input_bytes m) ->
  exists row, nth_error (inputs c') i = Some row /\ length row = shown_inputs m /\
    forall k v, nth_error row k = Some v -> physical_input m k (module_registers register off (registers_in m)) v.
Proof.
  intros prof c register c' register' i m o off Hr (n & k0 & image & Hn & _ & H & _) Hat Hs Eo P.
  destruct (C83_inputs_all _ _ _ _ _ _ _ _ _ _ Hr H Hat Hs Eo P) as (row & N & L & HP). exists row. split; [exact N|]. split; [exact L|].
  intros k v Hv. specialize (HP k v Hv).
  assert (Hm : complete m) by (apply (ok_complete c i m o (reachable_ok _ _ Hr)); apply infos_at; exact Hat).
  destruct (proj1 (C59_all _ _ _ _ _ _ Hr H) (ex_intro _ _ eq_refl)) as (HI & _).
  destruct (HI i m o off Hat Eo) as [(Hz & _ & Hlo & Hlen) _]. rewrite read_length in Hlen. rewrite Z.sub_0_r in Hlen.
  rewrite <- registers_count, (words_in m Hz) in Hlen.
  revert HP. apply input_registers; [exact Hm|rewrite <- L; exact (nth_error_Some_lt _ _ _ Hv)|].
  intros j Hj. rewrite (words_in m Hz) in Hj. unfold registers_at, module_registers. rewrite Z.sub_0_r.
  change ADDR_PACKED_PROCESS_INPUT_DATA with 0.
  assert (R : forall t, (t < registers_in m)%nat -> reg (skipn (Z.to_nat (off / 16)) (read_registers register 0 n)) t = register (off / 16 + Z.of_nat t)).
  { intros t Ht. rewrite skipn_reg, read_reg by lia. f_equal. lia. }
  destruct P as [P|[P P1]].
  - rewrite P. cbn [Z.eqb]. rewrite R by exact Hj. unfold reg. rewrite read_reg by lia. reflexivity.
  - rewrite P. cbn [Z.eqb]. rewrite R by lia. replace (off / 16 + Z.of_nat 0) with (off / 16) by lia. reflexivity.
Qed.

Lemma words_out m : output_bytes m <> 0%nat -> registers (output_bytes m) = registers_out m.
Proof. destruct m; intros H; try reflexivity; try (exfalso; apply H; reflexivity). destruct l; reflexivity. Qed.

Lemma packed_inside l : forall n, packed n l -> forall i m o off, nth_error l i = Some (m, o) -> mo_output o = Some off ->
  off / 16 - 0x0800 + (if off mod 16 =? 0 then Z.of_nat (registers (output_bytes m)) else 1) <= Z.of_nat (n + list_sum (map added_registers l)).
Proof.
  induction l as [|(m0 & o0) l IH]; intros n HP i m o off Hi Eo; [destruct i; discriminate Hi|].
  cbn [map]. match goal with |- context [list_sum (?a :: ?l)] => change (list_sum (a :: l)) with (a + list_sum l)%nat end.
  cbn [packed] in HP. destruct i as [|i]; cbn [nth_error] in Hi.
  - injection Hi as -> ->. unfold added_registers at 1. cbn [fst snd]. rewrite Eo in *. destruct HP as [[-> _]|(-> & Hp & _)].
    + replace (16 * (2048 + Z.of_nat n) mod 16 =? 0) with true by (symmetry; lia). lia.
    + replace ((16 * (2048 + Z.of_nat n - 1) + 8) mod 16 =? 0) with false by (symmetry; lia). lia.
  - unfold added_registers at 1. cbn [fst snd]. destruct (mo_output o0) as [off0|].
    + destruct HP as [[-> HP]|(-> & Hp & HP)].
      * replace (16 * (2048 + Z.of_nat n) mod 16 =? 0) with true by (symmetry; lia). specialize (IH _ HP i m o off Hi Eo). lia.
      * replace ((16 * (2048 + Z.of_nat n - 1) + 8) mod 16 =? 0) with false by (symmetry; lia). specialize (IH _ HP i m o off Hi Eo). lia.
    + specialize (IH _ HP i m o off Hi Eo). lia.
Qed.

Lemma carried m k v a b : (k < channels m)%nat -> (forall j, (j < registers_out m)%nat -> reg a j = reg b j) -> carries m k v a -> carries m k v b.
Proof.
  intros Hk HR. destruct m as [w ch|w ch| |ch|ch|ch|t ch|f ch|w f ch|f ch|t ch|ch|l ch| ]; cbn [registers_out carries] in *; try contradiction.
  1-3: rewrite (HR 0%nat) by lia; auto.
  1-2: rewrite (HR k) by exact Hk; auto.
  assert (k < 2)%nat by exact Hk. rewrite (HR (2 * k)%nat), (HR (2 * k + 1)%nat), (HR (4 + k)%nat) by lia. auto.
Qed.

Lemma written_reg register image t : (t < length image)%nat ->
  write_registers register ADDR_PACKED_PROCESS_OUTPUT_DATA image (0x0800 + Z.of_nat t) = nth t image 0.
Proof.
  intros H. unfold write_registers. change ADDR_PACKED_PROCESS_OUTPUT_DATA with 0x0800.
  replace ((0x0800 <=? 0x0800 + Z.of_nat t) && (0x0800 + Z.of_nat t <? 0x0800 + Z.of_nat (length image))) with true by (symmetry; lia).
  f_equal. lia.
Qed.

Lemma C98_outputs_all : forall prof c register c' register' i m o off, reachable prof c -> exchange prof c register c' register' ->
  alone c i m o off -> forall k, (k < channels m)%nat ->
  exists v, match requested c (mk_address i k) with Some u => v = u | None => cell (outputs c') i k = Some v end /\
    carries m k v (module_registers register' off (registers_out m)).
Proof.
  intros prof c register c' register' i m o off Hr (n & k0 & image & _ & _ & H & ->) HA k Hk.
  destruct (C85_all _ _ _ _ _ _ _ _ _ _ Hr H HA k Hk) as (_ & v & Hv & HC). exists v. split; [exact Hv|].
  destruct HA as (Hat & Eo & Hs & HP & _).
  destruct (proj1 (C59_all _ _ _ _ _ _ Hr H) (ex_intro _ _ eq_refl)) as (_ & HO & _ & _ & HPk).
  destruct (HO i m o off Hat Eo) as [(Hz & Hmod & Hlo & _) _].
  pose proof (packed_inside _ _ HPk i m o off (proj2 (infos_at c i m o) Hat) Eo) as HL. cbn [Nat.add] in HL. fold (SpecSize.output_registers c) in HL.
  rewrite <- (image_length _ _ _ _ _ _ (reachable_ok _ _ Hr) H) in HL. rewrite (words_out m Hz) in HL.
  revert HC. apply carried; [exact Hk|]. intros j Hj. unfold registers_at, module_registers.
  set (q := Z.to_nat (off / 16 - 2048)).
  assert (Q : off / 16 = 0x0800 + Z.of_nat q) by lia.
  destruct Hmod as [P|P].
  - rewrite P in *. cbn [Z.eqb] in *. rewrite skipn_reg. unfold reg. rewrite read_reg by lia.
    replace (off / 16 + Z.of_nat j) with (0x0800 + Z.of_nat (q + j)) by lia. rewrite written_reg by lia. reflexivity.
  - rewrite P in *. cbn [Z.eqb] in *. rewrite skipn_reg, Q, written_reg by lia. rewrite Nat.add_0_r. reflexivity.
Qed.
