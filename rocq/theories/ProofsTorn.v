(** Proofs about input images that were read while the registers changed (C101). *)
From Coq Require Import ZArith List Bool Lia SpecFloat ZifyBool ZifyNat.
From Verif Require Import Base F32 Types Lib Util Digital Analog Fcnt Com Fbc Facts SpecCodec SpecSerial SpecCoupler SpecAnalog SpecImage SpecOutcome SpecLossless SpecTerminal SpecTorn
  ProofsCodec ProofsSerialCodec ProofsModule ProofsImage ProofsCycle ProofsCoupler ProofsOutcome ProofsResolution ProofsLossless ProofsTerminal.
Import ListNotations.
Local Open Scope Z_scope.
Ltac Zify.zify_post_hook ::= Z.div_mod_to_equations.

(** The register of the inputs of a module in which input [k] is. *)
Definition register_of (m : module) (k : nat) : nat := match m with MDI _ _ | MSIL => 0%nat | _ => k end.

Lemma traverse_local {B} (f g : nat -> outcome B) n k r s : traverse f (seq 0 n) = Ok r -> traverse g (seq 0 n) = Ok s ->
  ((k < n)%nat -> f k = g k) -> nth_error r k = nth_error s k.
Proof.
  intros Hf Hg E. pose proof (traverse_seq_length _ _ _ Hf) as L1. pose proof (traverse_seq_length _ _ _ Hg) as L2.
  destruct (Nat.lt_ge_cases k n) as [K|K].
  - assert (S : nth_error (seq 0 n) k = Some k). { rewrite nth_error_nth' with (d := 0%nat) by (rewrite seq_length; exact K). rewrite seq_nth by exact K. reflexivity. }
    destruct (traverse_row_at _ _ _ _ _ Hf S) as (x & -> & X). destruct (traverse_row_at _ _ _ _ _ Hg S) as (y & -> & Y). rewrite (E K) in X. congruence.
  - rewrite (proj2 (nth_error_None r k)), (proj2 (nth_error_None s k)) by lia. reflexivity.
Qed.

Lemma index_same (a b : list Z) k : nth_error a k = nth_error b k -> index a k = index b k.
Proof. unfold index. intros ->. reflexivity. Qed.

Lemma combine_nth_error {A B} (a : list A) (b : list B) k : nth_error (combine a b) k =
  match nth_error a k, nth_error b k with Some x, Some y => Some (x, y) | _, _ => None end.
Proof.
  revert a b. induction k as [|k IH]; intros [|x a] [|y b]; cbn [combine nth_error]; try reflexivity; [destruct (nth_error a k); reflexivity|apply IH].
Qed.
Lemma combine_local {A B} (a a' : list A) (b : list B) k : nth_error a k = nth_error a' k -> nth_error (combine a b) k = nth_error (combine a' b) k.
Proof. intros E. rewrite !combine_nth_error, E. reflexivity. Qed.

Lemma local_input m k d1 d2 v1 v2 : one_register_each m = true -> mod_process_input_data m d1 = Ok v1 -> mod_process_input_data m d2 = Ok v2 ->
  nth_error d1 (register_of m k) = nth_error d2 (register_of m k) -> nth_error v1 k = nth_error v2 k.
Proof.
  intros Hm H1 H2 E.
  assert (HT : forall {P} (params : list P) (F : Z -> P -> outcome channel_value) n,
    traverse (fun i => let? d := index d1 i in let? p := index params i in F d p) (seq 0 n) = Ok v1 ->
    traverse (fun i => let? d := index d2 i in let? p := index params i in F d p) (seq 0 n) = Ok v2 -> register_of m k = k -> nth_error v1 k = nth_error v2 k).
  { intros P params F n X Y Ek. rewrite Ek in E. apply (traverse_local _ _ _ _ _ _ X Y). intros _. rewrite (index_same _ _ _ E). reflexivity. }
  destruct m as [w ch|w ch| |ch|ch|ch|t ch|f ch|w f ch|f ch|t ch|ch|l ch| ]; try discriminate Hm; cbn [mod_process_input_data register_of] in *;
    try (unfold default_process_data in *; destruct d1, d2; try discriminate; congruence).
  - unfold di_process_input_data in *. destruct (negb _) in H1; [discriminate|]. destruct (negb _) in H2; [discriminate|].
    rewrite (index_same _ _ _ E) in H1. congruence.
  - unfold rtd_process_input_data in *. repeat (destruct (negb _) in H1; [discriminate|]). repeat (destruct (negb _) in H2; [discriminate|]).
    exact (HT _ _ _ _ H1 H2 eq_refl).
  - unfold ai_ui_diag_process_input_data in *. repeat (destruct (negb _) in H1; [discriminate|]). repeat (destruct (negb _) in H2; [discriminate|]).
    exact (HT _ _ _ _ H1 H2 eq_refl).
  - unfold ai_ui_process_input_data in *. repeat (destruct (negb _) in H1; [discriminate|]). repeat (destruct (negb _) in H2; [discriminate|]).
    exact (HT _ _ _ _ H1 H2 eq_refl).
  - unfold ai_i_process_input_data in *. repeat (destruct (negb _) in H1; [discriminate|]). repeat (destruct (negb _) in H2; [discriminate|]).
    exact (HT _ _ _ _ H1 H2 eq_refl).
  - unfold tc_process_input_data in *. destruct (negb _) in H1; [discriminate|]. destruct (negb _) in H2; [discriminate|].
    apply Ok_inj in H1, H2. subst v1 v2. rewrite !nth_error_map. rewrite (combine_local d1 d2 ch k E). reflexivity.
  - unfold sil_process_input_data in *. destruct (negb _) in H1; [discriminate|]. destruct (negb _) in H2; [discriminate|].
    rewrite (index_same _ _ _ E) in H1. destruct (index d2 0) as [w0| |]; [|discriminate..]. cbn [bind] in H1, H2.
    destruct (index d1 1); [|discriminate..]. destruct (index d2 1); [|discriminate..]. cbn [bind] in H1, H2. congruence.
Qed.

(** The snapshot a register comes from. *)
Lemma from_snapshot snaps mixed b : read_over_time snaps mixed -> exists s, In s snaps /\ length s = length mixed /\ nth_error s b = nth_error mixed b.
Proof.
  intros (N & L & H). destruct (nth_error mixed b) as [w|] eqn:E.
  - destruct (H b w E) as (s & I & Es). exists s. auto.
  - destruct snaps as [|s snaps]; [contradiction|]. assert (I : In s (s :: snaps)) by (left; reflexivity). exists s. split; [exact I|]. split; [exact (L s I)|].
    apply nth_error_None in E. apply nth_error_None. rewrite (L s I). exact E.
Qed.

Lemma skipn_nth {A} (l : list A) n j : nth_error (skipn n l) j = nth_error l (n + j).
Proof. revert l. induction n as [|n IH]; intros l; [reflexivity|]. destruct l; [destruct j; reflexivity|]. apply IH. Qed.

Lemma registers_mixed base off (s mixed : list Z) n j : placed off n -> (j < word_count n)%nat ->
  nth_error s (Z.to_nat (off / 16 - base) + j) = nth_error mixed (Z.to_nat (off / 16 - base) + j) ->
  nth_error (registers_at base s off) j = nth_error (registers_at base mixed off) j.
Proof.
  intros P Hj E. unfold registers_at. cbv zeta. destruct (off mod 16 =? 8) eqn:E8.
  - destruct P as [P|[_ ->]]; [rewrite P in E8; discriminate|]. change (word_count 1) with 1%nat in Hj. assert (j = 0)%nat as -> by lia.
    cbn [nth_error]. f_equal. f_equal. unfold reg. rewrite <- !nth_default_eq. unfold nth_default. rewrite !skipn_nth, E. reflexivity.
  - rewrite !skipn_nth. exact E.
Qed.

Lemma register_in m k : complete m -> one_register_each m = true -> input_bytes m <> 0%nat -> (k < shown_inputs m)%nat -> (register_of m k < word_count (input_bytes m))%nat.
Proof.
  intros Hm H1 Hn Hk.
  destruct m as [w ch|w ch| |ch|ch|ch|t ch|f ch|w f ch|f ch|t ch|ch|l ch| ]; try discriminate H1; cbn [register_of input_bytes] in *; try contradiction;
    unfold word_count; try (destruct w); vm_compute; vm_compute in Hk; lia.
Qed.

Lemma input_row_split prof m o off input iv : mo_input o = Some off -> input_row prof (m, o) input = Ok iv ->
  exists raw, prepare_raw_data_to_process prof off ADDR_PACKED_PROCESS_INPUT_DATA (input_bytes m) input = Ok raw /\ mod_process_input_data m raw = Ok iv.
Proof. unfold input_row. cbn [fst snd]. intros ->. intros H. apply bind_ok in H. destruct H as (raw & H1 & H2). exists raw. auto. Qed.

Lemma C101_value_all : forall prof c snapshots mixed output c' image i m o off k, reachable prof c ->
  read_over_time snapshots mixed -> (forall s, In s snapshots -> exists c1 image1, cycle prof c s output c1 (Ok image1)) ->
  cycle prof c mixed output c' (Ok image) ->
  module_at c i m o -> one_register_each m = true -> mo_input o = Some off -> placed off (input_bytes m) ->
  exists s c1 image1, In s snapshots /\ cycle prof c s output c1 (Ok image1) /\ cell (inputs c') i k = cell (inputs c1) i k.
Proof.
  intros prof c snaps mixed output c' image i m o off k Hr RO HS H Hat H1 Eo P.
  assert (Hm : complete m) by (apply (ok_complete c i m o (reachable_ok _ _ Hr)); apply infos_at; exact Hat).
  assert (Hs : is_serial m = false) by (destruct m; try discriminate H1; reflexivity).
  destruct (from_snapshot _ _ (Z.to_nat (off / 16 - ADDR_PACKED_PROCESS_INPUT_DATA) + register_of m k) RO) as (s & I & Ls & Es).
  destruct (HS s I) as (c1 & im1 & Hc). exists s, c1, im1. split; [exact I|]. split; [exact Hc|].
  destruct (shown_rows _ _ _ _ _ _ _ _ _ Hr H Hat Hs) as (_ & (O1 & _) & Hu & _ & iv & ov & N1 & _ & R1 & _).
  destruct (shown_rows _ _ _ _ _ _ _ _ _ Hr Hc Hat Hs) as (_ & _ & Hu' & _ & iv' & ov' & N1' & _ & R1' & _).
  cbn [snd] in O1. specialize (O1 off Eo). unfold cell. rewrite N1, N1'.
  destruct (input_row_split _ _ _ _ _ _ Eo R1) as (raw & Q1 & Q2). destruct (input_row_split _ _ _ _ _ _ Eo R1') as (raw' & Q1' & Q2').
  destruct (prepared _ _ _ _ _ _ O1 (low_base _ O1) Hu P Q1) as (_ & L1 & K1).
  destruct (prepared _ _ _ _ _ _ O1 (low_base _ O1) Hu' P Q1') as (_ & L1' & K1').
  assert (L : length iv = shown_inputs m) by exact (input_length _ _ _ Hm Q2). assert (L' : length iv' = shown_inputs m) by exact (input_length _ _ _ Hm Q2').
  destruct (Nat.lt_ge_cases k (shown_inputs m)) as [Hk|Hk].
  - assert (Hn : input_bytes m <> 0%nat).
    { destruct (proj1 (C59_all _ _ _ _ _ _ Hr H) (ex_intro _ image eq_refl)) as (HI & _). apply (HI i m o off Hat Eo). }
    pose proof (register_in m k Hm H1 Hn Hk) as Hj.
    apply (local_input m k raw raw' iv iv' H1 Q2 Q2'). rewrite (K1 _ Hj), (K1' _ Hj). symmetry. apply (registers_mixed _ _ _ _ _ _ P Hj Es).
  - rewrite (proj2 (nth_error_None iv k)), (proj2 (nth_error_None iv' k)) by lia. reflexivity.
Qed.

Lemma C101_counter_all : forall prof c snapshots mixed output c' image i ch o off k, reachable prof c ->
  read_over_time snapshots mixed -> cycle prof c mixed output c' (Ok image) ->
  module_at c i (MFCNT ch) o -> mo_input o = Some off -> off mod 16 = 0 -> (k < 2)%nat ->
  exists x, cell (inputs c') i k = Some (FcntIn x) /\
    (exists s1 s2, In s1 snapshots /\ In s2 snapshots /\
      fi_count x = word32 (reg (registers_at 0 s1 off) (4 * k + 2)) (reg (registers_at 0 s2 off) (4 * k + 3))) /\
    (exists s, In s snapshots /\ fi_active x = bit (reg (registers_at 0 s off) (8 + k)) 8) /\
    (exists s1 s2, In s1 snapshots /\ In s2 snapshots /\
      let period := word32 (reg (registers_at 0 s1 off) (4 * k)) (reg (registers_at 0 s2 off) (4 * k + 1)) in
      (fi_duration x = None <-> 0x07FFFFFF <= period) /\
      forall d, fi_duration x = Some d -> valid_duration d /\ nanoseconds d = 125 * period).
Proof.
  intros prof c snaps mixed output c' image i ch o off k Hr RO H Hat Eo E0 Hk.
  destruct (C83_inputs_all prof c mixed output c' image i (MFCNT ch) o off Hr H Hat eq_refl Eo (or_introl E0)) as (row & N & L & HP).
  change (shown_inputs (MFCNT ch)) with 2%nat in L. destruct (nth_error_lt_Some row k) as (v & Ev); [lia|].
  destruct (HP k v Ev) as (x & -> & H1 & H2 & H3). exists x. unfold cell. rewrite N. split; [exact Ev|].
  assert (R : forall j, (j < 10)%nat -> exists s, In s snaps /\ reg (registers_at 0 mixed off) j = reg (registers_at 0 s off) j).
  { intros j Hj. destruct (from_snapshot _ _ (Z.to_nat (off / 16 - 0) + j) RO) as (s & I & _ & Es). exists s. split; [exact I|].
    pose proof (registers_mixed 0 off s mixed 20 j (or_introl E0) Hj Es) as Q. unfold reg. rewrite <- !nth_default_eq. unfold nth_default. rewrite Q. reflexivity. }
  destruct (R (4 * k + 2)%nat ltac:(lia)) as (s2 & I2 & R2). destruct (R (4 * k + 3)%nat ltac:(lia)) as (s3 & I3 & R3).
  destruct (R (8 + k)%nat ltac:(lia)) as (s4 & I4 & R4). destruct (R (4 * k)%nat ltac:(lia)) as (s0 & I0 & R0). destruct (R (4 * k + 1)%nat ltac:(lia)) as (s1 & I1 & R1).
  cbv zeta in *. rewrite R0, R1 in H3. split; [exists s2, s3; rewrite <- R2, <- R3; auto|]. split; [exists s4; rewrite <- R4; auto|]. exists s0, s1. auto.
Qed.

(** *** Success *)

Lemma bytes_nth words b : nth_error (bytes_of_words words) b =
  match nth_error words (b / 2) with Some w => Some (if Nat.even b then w mod 256 else w / 256) | None => None end.
Proof.
  revert b. induction words as [|w words IH]; intros b.
  - cbn [bytes_of_words flat_map]. destruct b; [reflexivity|]. cbn [nth_error]. destruct (S b / 2)%nat; reflexivity.
  - cbn [bytes_of_words flat_map app]. destruct b as [|[|b]]; [reflexivity..|]. cbn [nth_error]. fold (bytes_of_words words). rewrite IH.
    replace (S (S b) / 2)%nat with (S (b / 2)) by (change (S (S b)) with (2 + b)%nat; rewrite (Nat.div_add_l 1 2 b) || (replace (2 + b)%nat with (b + 1 * 2)%nat by lia; rewrite Nat.div_add by lia); lia).
    reflexivity.
Qed.

Lemma readable_mixed c snaps mixed : read_over_time snaps mixed -> (forall s, In s snaps -> inputs_readable c s) -> inputs_readable c mixed.
Proof.
  intros RO HS i m o off Hat Eo.
  destruct (from_snapshot _ _ ((first_byte 0 off + 1) / 2) RO) as (s & I & Ls & Es). destruct (HS s I i m o off Hat Eo) as [R A]. split.
  - unfold readable in *. rewrite <- Ls. exact R.
  - intros l ch Em. specialize (A l ch Em). unfold data_byte in *. rewrite <- nth_default_eq in A |- *. unfold nth_default in *. rewrite bytes_nth in A |- *.
    rewrite Es in A. exact A.
Qed.

Lemma C101_succeeds_all : forall prof c snapshots mixed output c' r, reachable prof c ->
  read_over_time snapshots mixed -> (forall s, In s snapshots -> exists c1 image1, cycle prof c s output c1 (Ok image1)) ->
  cycle prof c mixed output c' r -> exists image, r = Ok image.
Proof.
  intros prof c snaps mixed output c' r Hr RO HS H. apply (C59_all _ _ _ _ _ _ Hr H).
  assert (R : inputs_readable c mixed).
  { apply (readable_mixed c snaps mixed RO). intros s I. destruct (HS s I) as (c1 & im & Hc). apply (C59_all _ _ _ _ _ _ Hr Hc). eauto. }
  split; [exact R|]. destruct (from_snapshot _ _ 0 RO) as (s & I & _). destruct (HS s I) as (c1 & im & Hc).
  apply (C59_all _ _ _ _ _ _ Hr Hc). eauto.
Qed.

(** *** The outputs *)

Lemma C101_outputs_all : forall prof c in1 in2 output c1 image1 c2 image2, reachable prof c ->
  (forall i m o, module_at c i m o -> is_serial m = false) ->
  cycle prof c in1 output c1 (Ok image1) -> cycle prof c in2 output c2 (Ok image2) -> image1 = image2.
Proof.
  intros prof c in1 in2 output c1 im1 c2 im2 Hr HN H1 H2. apply reachable_ok in Hr as Hok.
  destruct (ok_cycle _ _ _ _ _ _ Hok H1) as (ins1 & outs1 & sent1 & _ & Eo1 & Es1 & L1 & _ & _ & _ & M1).
  destruct (ok_cycle _ _ _ _ _ _ Hok H2) as (ins2 & outs2 & sent2 & _ & Eo2 & Es2 & L2 & _ & _ & _ & M2).
  assert (sent1 = sent2).
  { apply nth_error_ext. intros i. destruct (nth_error (infos c) i) as [[m o]|] eqn:Ei.
    - apply infos_at in Ei. destruct (M1 i m o Ei) as (iv & ov & _ & _ & _ & Ro & C). destruct (M2 i m o Ei) as (iv' & ov' & _ & _ & _ & Ro' & C').
      rewrite Ro in Ro'. apply Ok_inj in Ro'. subst ov'. pose proof (HN i m o Ei) as Hs.
      destruct C as [row S1 S2 S3 S4|l ch rin rout p p' rs last E0|l ch E0]; [|subst m; discriminate..].
      destruct C' as [row' S1' S2' S3' S4'|l ch rin rout p p' rs last E0|l ch E0]; [|subst m; discriminate..].
      rewrite S2, S2'. f_equal. apply nth_error_ext. intros j. rewrite S4, S4'. reflexivity.
    - apply nth_error_None in Ei. rewrite infos_length in Ei by exact Hok.
      rewrite (proj2 (nth_error_None sent1 i)), (proj2 (nth_error_None sent2 i)) by lia. reflexivity. }
  congruence.
Qed.
