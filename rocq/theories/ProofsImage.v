(** Proofs about process images: C40, C41, C42, C51. *)
From Coq Require Import ZArith List Bool Lia ZifyBool ZifyNat.
From Verif Require Import Base Facts F32 Types Lib Util Digital Analog Fcnt Com Fbc
  SpecCodec SpecSerial SpecCoupler SpecImage ProofsAddr ProofsCodec ProofsFcnt ProofsSerialCodec
  ProofsModule.
Import ListNotations.
Local Open Scope Z_scope.
Ltac Zify.zify_post_hook ::= Z.div_mod_to_equations.

(** *** Bytes of images *)

Lemma bytes_cons w l : bytes_of_words (w :: l) = [w mod 256; w / 256] ++ bytes_of_words l.
Proof. reflexivity. Qed.

Lemma bytes_app a b : bytes_of_words (a ++ b) = bytes_of_words a ++ bytes_of_words b.
Proof. unfold bytes_of_words. apply flat_map_app. Qed.

Lemma bytes_skipn s l : bytes_of_words (skipn s l) = skipn (2 * s) (bytes_of_words l).
Proof.
  revert l. induction s as [|s IH]; intros l; [reflexivity|].
  destruct l as [|w l]; [rewrite !skipn_nil; reflexivity|].
  replace (2 * S s)%nat with (S (S (2 * s))) by lia. rewrite skipn_cons, bytes_cons. cbn [app].
  rewrite !skipn_cons. apply IH.
Qed.

Lemma bytes_firstn k l : bytes_of_words (firstn k l) = firstn (2 * k) (bytes_of_words l).
Proof.
  revert l. induction k as [|k IH]; intros l; [reflexivity|].
  destruct l as [|w l]; [reflexivity|].
  replace (2 * S k)%nat with (S (S (2 * k))) by lia. rewrite firstn_cons, !bytes_cons. cbn [app].
  rewrite !firstn_cons, IH. reflexivity.
Qed.

Lemma u16_to_u8_bytes l : u16_to_u8 l = bytes_of_words l.
Proof.
  unfold u16_to_u8, bytes_of_words. induction l as [|w l IH]; [reflexivity|].
  cbn [flat_map]. rewrite IH, word_bytes. reflexivity.
Qed.

Lemma Forall_firstn_skipn {A} (P : A -> Prop) s k l : Forall P l -> Forall P (firstn k (skipn s l)).
Proof.
  intros H. rewrite <- (firstn_skipn s l), Forall_app in H. destruct H as [_ H].
  rewrite <- (firstn_skipn k (skipn s l)), Forall_app in H. tauto.
Qed.

(** *** [prepare_raw_data_to_process] *)

(** Number of words taken from the image. *)
Definition word_count (n : nat) : nat := if Nat.eqb (Nat.div n 2) 0 then 1 else Nat.div n 2.

Lemma word_count_pos n : (1 <= word_count n)%nat.
Proof. unfold word_count. destruct (Nat.eqb_spec (n / 2) 0); lia. Qed.

Lemma prepare_eq prof off base n data : is_u16 off -> 0 <= base <= off / 16 ->
  prepare_raw_data_to_process prof off base n data =
  if Nat.ltb (length data) (Z.to_nat (off / 16 - base) + word_count n) then Err BufferLength
  else let out := firstn (word_count n) (skipn (Z.to_nat (off / 16 - base)) data) in
       if off mod 16 =? 0 then Ok out
       else if off mod 16 =? 8 then shift_data out
       else Err ModuleOffsetError.
Proof.
  intros Ho Hb. unfold prepare_raw_data_to_process. rewrite to_register_address_eq by exact Ho.
  unfold is_u16 in Ho. unfold sub_u16, arith.
  replace ((0 <=? off / 16 - base) && (off / 16 - base <? 65536)) with true by lia.
  cbn [bind]. fold (word_count n). destruct (Nat.ltb_spec (length data) (Z.to_nat (off / 16 - base) + word_count n));
    [reflexivity|].
  unfold slice. replace (Nat.leb (Z.to_nat (off / 16 - base)) (Z.to_nat (off / 16 - base) + word_count n)
    && Nat.leb (Z.to_nat (off / 16 - base) + word_count n) (length data)) with true by lia.
  cbn [bind]. replace (Z.to_nat (off / 16 - base) + word_count n - Z.to_nat (off / 16 - base))%nat
    with (word_count n) by lia.
  cbv zeta. destruct (Z.eqb_spec (off mod 16) 0) as [E|E]; [rewrite E; reflexivity|].
  destruct (Z.eqb_spec (off mod 16) 8) as [E8|E8]; [rewrite E8; reflexivity|].
  assert (Hm : 0 <= off mod 16 < 16) by lia.
  assert (Hc : exists k, (k < 16)%nat /\ k <> 0%nat /\ k <> 8%nat /\ Z.to_nat (off mod 16) = k)
    by (exists (Z.to_nat (off mod 16)); lia).
  destruct Hc as (k & Hk & H0 & H8 & ->).
  do 16 (destruct k as [|k]; [try reflexivity; lia|]). lia.
Qed.

Lemma shift_spec l : Forall is_u16 l -> l <> [] ->
  exists raw, shift_data l = Ok raw /\ length raw = length l /\ Forall is_u16 raw /\
    bytes_of_words raw = skipn 1 (bytes_of_words l) ++ [0].
Proof.
  intros Hu Hne. unfold shift_data. rewrite u16_to_u8_bytes.
  pose proof (bytes_of_words_length l) as Hl.
  pose proof (bytes_of_words_u8 l Hu) as H8.
  destruct (bytes_of_words l) as [|a t].
  { destruct l; [congruence|]. cbn [length] in Hl. lia. }
  change (skipn 1 (a :: t)) with t. cbn [length] in Hl.
  destruct (u8_to_u16_bytes (t ++ [0])) as (U1 & U2 & U3).
  { apply Forall_app. split; [inversion H8; assumption|]. constructor; [unfold is_u8; lia|constructor]. }
  { exists (length l). rewrite app_length. cbn [length]. lia. }
  eexists. split; [reflexivity|]. rewrite app_length in U3. cbn [length] in U3.
  split; [lia|]. split; [exact U1|exact U2].
Qed.

(** The words given to a module consist of its bytes in the image. *)
Lemma prepare_own prof off base n data raw : is_u16 off -> 0 <= base <= off / 16 ->
  Forall is_u16 data -> prepare_raw_data_to_process prof off base n data = Ok raw ->
  length raw = word_count n /\ Forall is_u16 raw /\
  (first_byte base off + 2 * word_count n <= 2 * length data + Z.to_nat (off mod 16 / 8))%nat /\
  ((off mod 16 = 0 /\ bytes_of_words raw = image_bytes data (first_byte base off) (2 * word_count n)) \/
   (off mod 16 = 8 /\
    bytes_of_words raw = image_bytes data (first_byte base off) (2 * word_count n - 1) ++ [0])).
Proof.
  intros Ho Hb Hd H. rewrite prepare_eq in H by assumption.
  destruct (Nat.ltb_spec (length data) (Z.to_nat (off / 16 - base) + word_count n)) as [Hl|Hl]; [discriminate|].
  cbv zeta in H. set (s := Z.to_nat (off / 16 - base)) in *.
  set (out := firstn (word_count n) (skipn s data)) in *.
  assert (Hol : length out = word_count n) by (unfold out; rewrite firstn_length, skipn_length; lia).
  assert (Hou : Forall is_u16 out) by (apply Forall_firstn_skipn; exact Hd).
  assert (Hob : bytes_of_words out = firstn (2 * word_count n) (skipn (2 * s) (bytes_of_words data)))
    by (unfold out; rewrite bytes_firstn, bytes_skipn; reflexivity).
  unfold is_u16 in Ho.
  destruct (Z.eqb_spec (off mod 16) 0) as [E|E].
  - apply Ok_inj in H. subst raw. split; [exact Hol|]. split; [exact Hou|].
    assert (Hf : first_byte base off = (2 * s)%nat) by (unfold first_byte, s; lia).
    rewrite Hf. split; [lia|]. left. split; [exact E|exact Hob].
  - destruct (Z.eqb_spec (off mod 16) 8) as [E8|E8]; [|discriminate].
    pose proof (word_count_pos n) as Hw.
    destruct (shift_spec out Hou) as (raw' & Hr & Hrl & Hru & Hrb).
    { intros Hn. rewrite Hn in Hol. cbn [length] in Hol. lia. }
    rewrite Hr in H. apply Ok_inj in H. subst raw'. split; [lia|]. split; [exact Hru|].
    assert (Hf : first_byte base off = (2 * s + 1)%nat) by (unfold first_byte, s; lia).
    rewrite Hf. split; [rewrite E8; change (Z.to_nat (8 / 8)) with 1%nat; lia|].
    right. split; [exact E8|]. rewrite Hrb, Hob. f_equal. unfold image_bytes.
    rewrite skipn_firstn_comm, skipn_skipn_add. reflexivity.
Qed.

(** *** One byte modules look at one byte only *)

Lemma byte_decode f n w w' : (n <= 8)%nat -> digital_decoder n f -> is_u16 w -> is_u16 w' ->
  w mod 256 = w' mod 256 -> f [w] = f [w'].
Proof.
  intros Hn (_ & D) Hw Hw' E. rewrite !D. f_equal. apply map_ext_in. intros i Hi. apply in_seq in Hi.
  f_equal. unfold is_u16 in *. rewrite <- (bit_low w), <- (bit_low w') by lia. unfold as_u8.
  rewrite E. reflexivity.
Qed.

Lemma input_bytes_count m : mod_input_byte_count m = input_bytes m.
Proof. destruct m as [[]|[]| | | | | | |[]| | | |[]|]; reflexivity. Qed.

Lemma output_bytes_count m : mod_output_byte_count m = Ok (output_bytes m).
Proof. destruct m as [[]|[]| | | | | | |[]| | | |[]|]; reflexivity. Qed.

Lemma input_size_cases m :
  input_bytes m = 0%nat \/ (input_bytes m = 1%nat /\ exists n, digital_inputs m = Some n /\ (n <= 8)%nat) \/
  (input_bytes m = 2 * word_count (input_bytes m))%nat.
Proof.
  destruct m as [[]|[]| | | | | | |[]| | | |[]|]; cbn [input_bytes message_size]; auto;
    right; left; (split; [reflexivity|]); eexists; (split; [reflexivity|]); lia.
Qed.

Lemma output_size_cases m :
  output_bytes m = 0%nat \/ (output_bytes m = 1%nat /\ exists n, digital_outputs m = Some n /\ (n <= 8)%nat) \/
  (output_bytes m = 2 * word_count (output_bytes m))%nat.
Proof.
  destruct m as [[]|[]| | | | | | |[]| | | |[]|]; cbn [output_bytes message_size]; auto;
    right; left; (split; [reflexivity|]); eexists; (split; [reflexivity|]); lia.
Qed.

Lemma no_input_rejects m raw vs : input_bytes m = 0%nat -> mod_process_input_data m raw = Ok vs -> raw = [].
Proof.
  intros H E. destruct m as [v ch|v ch| |ch|ch|ch|u ch|f ch|v f ch|f ch|u ch|ch|l ch| ]; try discriminate;
    try (destruct l; discriminate); cbn [mod_process_input_data] in E; unfold default_process_data in E;
    destruct raw; auto; discriminate.
Qed.

Lemma no_output_rejects m raw vs : output_bytes m = 0%nat -> mod_process_output_data m raw = Ok vs -> raw = [].
Proof.
  intros H E. destruct m as [v ch|v ch| |ch|ch|ch|u ch|f ch|v f ch|f ch|u ch|ch|l ch| ]; try discriminate;
    try (destruct l; discriminate); cbn [mod_process_output_data] in E;
    unfold default_process_data, ai_ui_diag_process_output_data in E;
    destruct raw; auto; discriminate.
Qed.

(** *** Rows of decoded images *)

Definition input_row (prof : profile) (mo : module * module_offset) (data : list Z) : outcome (list channel_value) :=
  match mo_input (snd mo) with
  | Some off =>
      let? raw := prepare_raw_data_to_process prof off 0 (input_bytes (fst mo)) data in
      mod_process_input_data (fst mo) raw
  | None => Ok (repeat VNone (channels (fst mo)))
  end.

Definition output_row (prof : profile) (mo : module * module_offset) (data : list Z) : outcome (list channel_value) :=
  match mo_output (snd mo) with
  | Some off =>
      let? raw := prepare_raw_data_to_process prof off 0x0800 (output_bytes (fst mo)) data in
      mod_process_output_data (fst mo) raw
  | None => Ok (repeat VNone (channels (fst mo)))
  end.

Lemma process_input_rows prof ms data :
  process_input_data prof ms data = traverse (fun mo => input_row prof mo data) ms.
Proof.
  unfold process_input_data. apply traverse_ext. intros (m & o) _. unfold input_row. cbn [fst snd].
  rewrite input_bytes_count. reflexivity.
Qed.

Lemma process_output_rows prof ms data :
  process_output_data prof ms data = traverse (fun mo => output_row prof mo data) ms.
Proof.
  unfold process_output_data. apply traverse_ext. intros (m & o) _. unfold output_row. cbn [fst snd].
  destruct (mo_output o); [|reflexivity].
  rewrite output_bytes_count. reflexivity.
Qed.

Lemma traverse_row {A B} (f : A -> outcome B) l r i b : traverse f l = Ok r -> nth_error r i = Some b ->
  exists a, nth_error l i = Some a /\ f a = Ok b.
Proof.
  intros H Hi. pose proof (traverse_length _ _ _ H) as Hl. apply traverse_ok, Forall2_nth_error in H.
  destruct H as (_ & H). destruct (nth_error_lt_Some l i) as (a & Ha).
  { rewrite <- Hl. eapply nth_error_Some_lt. exact Hi. }
  exists a. split; [exact Ha|]. eapply H; eassumption.
Qed.

Lemma traverse_row_at {A B} (f : A -> outcome B) l r i a : traverse f l = Ok r -> nth_error l i = Some a ->
  exists b, nth_error r i = Some b /\ f a = Ok b.
Proof.
  intros H Hi. pose proof (traverse_length _ _ _ H) as Hl. apply traverse_ok, Forall2_nth_error in H.
  destruct H as (_ & H). destruct (nth_error_lt_Some r i) as (b & Hb).
  { rewrite Hl. eapply nth_error_Some_lt. exact Hi. }
  exists b. split; [exact Hb|]. eapply H; eassumption.
Qed.

(** *** C41 *)

Lemma firstn_prefix {A} (l1 l2 : list A) n k : (k <= n)%nat -> firstn n l1 = firstn n l2 ->
  firstn k l1 = firstn k l2.
Proof.
  intros Hk H. apply (f_equal (firstn k)) in H. rewrite !firstn_firstn in H.
  replace (Nat.min k n) with k in H by lia. exact H.
Qed.

Lemma input_row_isolated prof m o1 o2 off img1 img2 r1 r2 :
  is_u16 off -> Forall is_u16 img1 -> Forall is_u16 img2 ->
  mo_input o1 = Some off -> mo_input o2 = Some off ->
  image_bytes img1 (first_byte 0 off) (input_bytes m) = image_bytes img2 (first_byte 0 off) (input_bytes m) ->
  input_row prof (m, o1) img1 = Ok r1 -> input_row prof (m, o2) img2 = Ok r2 -> r1 = r2.
Proof.
  intros Ho H1 H2 Hm1 Hm2 Hb E1 E2. unfold input_row in *. cbn [fst snd] in *. rewrite Hm1 in E1. rewrite Hm2 in E2.
  apply bind_ok in E1. destruct E1 as (raw1 & P1 & E1). apply bind_ok in E2. destruct E2 as (raw2 & P2 & E2).
  assert (Hz : 0 <= 0 <= off / 16) by (unfold is_u16 in Ho; lia).
  destruct (prepare_own _ _ _ _ _ _ Ho Hz H1 P1) as (L1 & U1 & B1 & W1).
  destruct (prepare_own _ _ _ _ _ _ Ho Hz H2 P2) as (L2 & U2 & B2 & W2).
  enough (Hd : mod_process_input_data m raw1 = mod_process_input_data m raw2) by congruence.
  destruct (input_size_cases m) as [Hs|[(Hs & n & Hn & Hn8)|Hs]].
  - rewrite (no_input_rejects _ _ _ Hs E1), (no_input_rejects _ _ _ Hs E2). reflexivity.
  - rewrite Hs in *. change (word_count 1) with 1%nat in *.
    destruct (one_word raw1 L1) as (w1 & ->). destruct (one_word raw2 L2) as (w2 & ->).
    apply (byte_decode _ n); auto.
    { apply di_decoder. exact Hn. }
    { inversion U1; assumption. } { inversion U2; assumption. }
    cbn [bytes_of_words flat_map app] in W1, W2. unfold image_bytes in *.
    destruct W1 as [(Eo & W1)|(Eo & W1)], W2 as [(Eo2 & W2)|(Eo2 & W2)]; try (exfalso; lia).
    + cbn [Nat.mul Nat.add] in W1, W2.
      destruct (skipn (first_byte 0 off) (bytes_of_words img1)) as [|a1 t1]; [discriminate|].
      destruct (skipn (first_byte 0 off) (bytes_of_words img2)) as [|a2 t2]; [discriminate|].
      cbn [firstn] in *. congruence.
    + cbn [Nat.mul Nat.add Nat.sub] in W1, W2.
      destruct (skipn (first_byte 0 off) (bytes_of_words img1)) as [|a1 t1]; [discriminate|].
      destruct (skipn (first_byte 0 off) (bytes_of_words img2)) as [|a2 t2]; [discriminate|].
      cbn [firstn app] in *. congruence.
  - f_equal. apply bytes_of_words_inj; [assumption|assumption|].
    destruct W1 as [(Eo & W1)|(Eo & W1)], W2 as [(Eo2 & W2)|(Eo2 & W2)]; try (exfalso; lia).
    + rewrite W1, W2, <- Hs. exact Hb.
    + rewrite W1, W2. f_equal. unfold image_bytes in *. eapply firstn_prefix; [|exact Hb]. lia.
Qed.

Definition offsets_u16 (mo : module * module_offset) : Prop :=
  (forall off, mo_input (snd mo) = Some off -> is_u16 off) /\
  (forall off, mo_output (snd mo) = Some off -> is_u16 off).

Lemma C41_all : forall prof ms1 ms2 img1 img2 vs1 vs2 i1 i2 m o1 o2 off,
  Forall is_u16 img1 -> Forall is_u16 img2 -> is_u16 off ->
  process_input_data prof ms1 img1 = Ok vs1 -> process_input_data prof ms2 img2 = Ok vs2 ->
  nth_error ms1 i1 = Some (m, o1) -> nth_error ms2 i2 = Some (m, o2) ->
  mo_input o1 = Some off -> mo_input o2 = Some off ->
  image_bytes img1 (first_byte 0 off) (input_bytes m) =
  image_bytes img2 (first_byte 0 off) (input_bytes m) ->
  exists row, nth_error vs1 i1 = Some row /\ nth_error vs2 i2 = Some row.
Proof.
  intros prof ms1 ms2 img1 img2 vs1 vs2 i1 i2 m o1 o2 off H1 H2 Ho E1 E2 N1 N2 M1 M2 Hb.
  rewrite process_input_rows in E1, E2.
  destruct (traverse_row_at _ _ _ _ _ E1 N1) as (r1 & R1 & F1).
  destruct (traverse_row_at _ _ _ _ _ E2 N2) as (r2 & R2 & F2).
  exists r1. split; [exact R1|]. rewrite R2. f_equal. symmetry.
  eapply (input_row_isolated prof m o1 o2 off img1 img2); eassumption.
Qed.

(** *** C42 *)

Lemma own_words raw bytes : Forall is_u16 raw -> bytes_of_words raw = bytes -> words_of_bytes raw bytes.
Proof. intros H E. split; [exact H|left; exact E]. Qed.

Lemma firstn_firstn_le {A} (l : list A) n k : (k <= n)%nat -> firstn k (firstn n l) = firstn k l.
Proof. intros H. rewrite firstn_firstn. f_equal. lia. Qed.

(** A word and its low byte. *)
Lemma low_byte_words w b rest : is_u16 w -> [w mod 256; w / 256] = b :: rest ->
  words_of_bytes [w mod 256] [b] /\ is_u16 (w mod 256) /\ w mod 256 mod 256 = w mod 256.
Proof.
  intros Hw E. assert (Hb : w mod 256 = b) by congruence. unfold is_u16 in *.
  split; [|lia]. split; [constructor; [unfold is_u16; lia|constructor]|].
  right. cbn [bytes_of_words flat_map app]. rewrite Hb. f_equal; [lia|]. f_equal. lia.
Qed.

Lemma row_own (f : module -> list Z -> outcome (list channel_value)) n m base off img raw prof size :
  is_u16 off -> 0 <= base <= off / 16 -> Forall is_u16 img ->
  prepare_raw_data_to_process prof off base size img = Ok raw ->
  ((size = 1%nat /\ (n <= 8)%nat /\ digital_decoder n (f m)) \/
   (size = (2 * word_count size)%nat /\ off mod 16 = 0)) ->
  length (image_bytes img (first_byte base off) size) = size /\
  exists words, words_of_bytes words (image_bytes img (first_byte base off) size) /\ f m raw = f m words.
Proof.
  intros Ho Hb Hi P Hc. destruct (prepare_own _ _ _ _ _ _ Ho Hb Hi P) as (L & U & B & W).
  assert (Hlen : forall k, (first_byte base off + k <= 2 * length img)%nat ->
            length (image_bytes img (first_byte base off) k) = k).
  { intros k Hk. unfold image_bytes. rewrite firstn_length, skipn_length, bytes_of_words_length. lia. }
  destruct Hc as [(Hs & Hn & D)|(Hs & Hz)].
  - subst size. change (word_count 1) with 1%nat in *.
    assert (Hfb : (first_byte base off + 1 <= 2 * length img)%nat).
    { destruct W as [(E & _)|(E & _)]; rewrite E in B; [change (Z.to_nat (0 / 16)) with 0%nat in B; lia|].
      change (Z.to_nat (8 / 8)) with 1%nat in B. lia. }
    split; [apply Hlen; exact Hfb|].
    destruct (one_word raw L) as (w & ->). inversion U as [|? ? Uw _]; subst.
    assert (Hx : exists b rest, image_bytes img (first_byte base off) 1 = [b] /\
                                [w mod 256; w / 256] = b :: rest).
    { unfold image_bytes in *. cbn [bytes_of_words flat_map app Nat.mul Nat.add Nat.sub] in W.
      destruct (skipn (first_byte base off) (bytes_of_words img)) as [|a t].
      { destruct W as [(_ & W)|(_ & W)]; discriminate. }
      destruct W as [(_ & W)|(_ & W)]; rewrite firstn_cons in W; cbn [app] in W.
      - exists a, (firstn 1 t). split; [reflexivity|exact W].
      - exists a, [0]. split; [reflexivity|exact W]. }
    destruct Hx as (b & rest & Hx & Hw). rewrite Hx.
    destruct (low_byte_words w b rest Uw Hw) as (HW & Hu & Hm).
    exists [w mod 256]. split; [exact HW|]. apply (byte_decode (f m) n); auto.
  - destruct W as [(E & W)|(E & W)]; [|lia]. rewrite E in B. change (Z.to_nat (0 / 8)) with 0%nat in B.
    split; [apply Hlen; lia|]. exists raw. split; [|reflexivity].
    apply own_words; [exact U|]. rewrite W, <- Hs. reflexivity.
Qed.

Lemma C42_in_all : forall prof ms img vs i m o off,
  Forall is_u16 img -> is_u16 off -> process_input_data prof ms img = Ok vs ->
  nth_error ms i = Some (m, o) -> mo_input o = Some off ->
  (off mod 16 = 0 \/ input_bytes m = 1%nat) ->
  length (image_bytes img (first_byte 0 off) (input_bytes m)) = input_bytes m /\
  exists words row, words_of_bytes words (image_bytes img (first_byte 0 off) (input_bytes m)) /\
    nth_error vs i = Some row /\ mod_process_input_data m words = Ok row.
Proof.
  intros prof ms img vs i m o off Hi Ho E N Hm Hc. rewrite process_input_rows in E.
  destruct (traverse_row_at _ _ _ _ _ E N) as (row & R & F). unfold input_row in F. cbn [fst snd] in F.
  rewrite Hm in F. apply bind_ok in F. destruct F as (raw & P & F).
  assert (Hz : 0 <= 0 <= off / 16) by (unfold is_u16 in Ho; lia).
  destruct (input_size_cases m) as [Hs|[(Hs & n & Hn & Hn8)|Hs]].
  - exfalso. destruct (prepare_own _ _ _ _ _ _ Ho Hz Hi P) as (L & _).
    rewrite (no_input_rejects _ _ _ Hs F) in L. pose proof (word_count_pos (input_bytes m)). cbn [length] in L. lia.
  - destruct (row_own mod_process_input_data n m 0 off img raw prof _ Ho Hz Hi P) as (Hl & words & HW & Hf).
    { left. split; [exact Hs|]. split; [exact Hn8|]. apply di_decoder. exact Hn. }
    split; [exact Hl|]. exists words, row. rewrite <- Hf. auto.
  - destruct Hc as [Hc|Hc].
    2:{ rewrite Hc in Hs. discriminate. }
    destruct (row_own mod_process_input_data 0 m 0 off img raw prof _ Ho Hz Hi P) as (Hl & words & HW & Hf).
    { right. split; [exact Hs|exact Hc]. }
    split; [exact Hl|]. exists words, row. rewrite <- Hf. auto.
Qed.

Lemma C42_out_all : forall prof ms img vs i m o off,
  Forall is_u16 img -> is_u16 off -> 0x8000 <= off -> process_output_data prof ms img = Ok vs ->
  nth_error ms i = Some (m, o) -> mo_output o = Some off ->
  (off mod 16 = 0 \/ output_bytes m = 1%nat) ->
  length (image_bytes img (first_byte 0x0800 off) (output_bytes m)) = output_bytes m /\
  exists words row, words_of_bytes words (image_bytes img (first_byte 0x0800 off) (output_bytes m)) /\
    nth_error vs i = Some row /\ mod_process_output_data m words = Ok row.
Proof.
  intros prof ms img vs i m o off Hi Ho Hlow E N Hm Hc. rewrite process_output_rows in E.
  destruct (traverse_row_at _ _ _ _ _ E N) as (row & R & F). unfold output_row in F. cbn [fst snd] in F.
  rewrite Hm in F. apply bind_ok in F. destruct F as (raw & P & F).
  assert (Hz : 0 <= 2048 <= off / 16) by (unfold is_u16 in Ho; lia).
  destruct (output_size_cases m) as [Hs|[(Hs & n & Hn & Hn8)|Hs]].
  - exfalso. destruct (prepare_own _ _ _ _ _ _ Ho Hz Hi P) as (L & _).
    rewrite (no_output_rejects _ _ _ Hs F) in L. pose proof (word_count_pos (output_bytes m)). cbn [length] in L. lia.
  - destruct (row_own mod_process_output_data n m 2048 off img raw prof _ Ho Hz Hi P) as (Hl & words & HW & Hf).
    { left. split; [exact Hs|]. split; [exact Hn8|]. apply do_decoder. exact Hn. }
    split; [exact Hl|]. exists words, row. rewrite <- Hf. auto.
  - destruct Hc as [Hc|Hc].
    2:{ rewrite Hc in Hs. discriminate. }
    destruct (row_own mod_process_output_data 0 m 2048 off img raw prof _ Ho Hz Hi P) as (Hl & words & HW & Hf).
    { right. split; [exact Hs|exact Hc]. }
    split; [exact Hl|]. exists words, row. rewrite <- Hf. auto.
Qed.

(** *** C42: larger modules in the middle of a register *)

Lemma shifted_words n base off img raw prof :
  is_u16 off -> 0 <= base <= off / 16 -> Forall is_u16 img -> off mod 16 = 8 ->
  n = (2 * word_count n)%nat -> prepare_raw_data_to_process prof off base n img = Ok raw ->
  length (image_bytes img (first_byte base off) (n - 1)) = (n - 1)%nat /\ Forall is_u16 raw /\
  bytes_of_words raw = image_bytes img (first_byte base off) (n - 1) ++ [0].
Proof.
  intros Ho Hb Hi E Hn P. destruct (prepare_own _ _ _ _ _ _ Ho Hb Hi P) as (L & U & B & W).
  rewrite <- Hn in *. destruct W as [(E0 & _)|(_ & W)]; [lia|].
  split; [|split; [exact U|exact W]].
  unfold image_bytes. rewrite firstn_length, skipn_length, bytes_of_words_length.
  rewrite E in B. change (Z.to_nat (8 / 8)) with 1%nat in B. lia.
Qed.

Lemma C42_shift_in_all : forall prof ms img vs i m o off,
  Forall is_u16 img -> is_u16 off -> process_input_data prof ms img = Ok vs ->
  nth_error ms i = Some (m, o) -> mo_input o = Some off ->
  off mod 16 = 8 -> (2 <= input_bytes m)%nat ->
  let own := image_bytes img (first_byte 0 off) (input_bytes m - 1) in
  length own = (input_bytes m - 1)%nat /\
  exists words row, Forall is_u16 words /\ bytes_of_words words = own ++ [0] /\
    nth_error vs i = Some row /\ mod_process_input_data m words = Ok row.
Proof.
  intros prof ms img vs i m o off Hi Ho E N M H8 H2 own. rewrite process_input_rows in E.
  destruct (traverse_row_at _ _ _ _ _ E N) as (row & R & F). unfold input_row in F. cbn [fst snd] in F.
  rewrite M in F. apply bind_ok in F. destruct F as (raw & P & F).
  assert (Hs : input_bytes m = (2 * word_count (input_bytes m))%nat)
    by (destruct (input_size_cases m) as [?|[(? & _)|?]]; lia).
  assert (Hz : 0 <= 0 <= off / 16) by (unfold is_u16 in Ho; lia).
  destruct (shifted_words _ _ _ _ _ _ Ho Hz Hi H8 Hs P) as (L & U & W).
  split; [exact L|]. exists raw, row. auto.
Qed.

Lemma C42_shift_out_all : forall prof ms img vs i m o off,
  Forall is_u16 img -> is_u16 off -> 0x8000 <= off -> process_output_data prof ms img = Ok vs ->
  nth_error ms i = Some (m, o) -> mo_output o = Some off ->
  off mod 16 = 8 -> (2 <= output_bytes m)%nat ->
  let own := image_bytes img (first_byte 0x0800 off) (output_bytes m - 1) in
  length own = (output_bytes m - 1)%nat /\
  exists words row, Forall is_u16 words /\ bytes_of_words words = own ++ [0] /\
    nth_error vs i = Some row /\ mod_process_output_data m words = Ok row.
Proof.
  intros prof ms img vs i m o off Hi Ho H80 E N M H8 H2 own. rewrite process_output_rows in E.
  destruct (traverse_row_at _ _ _ _ _ E N) as (row & R & F). unfold output_row in F. cbn [fst snd] in F.
  rewrite M in F. apply bind_ok in F. destruct F as (raw & P & F).
  assert (Hs : output_bytes m = (2 * word_count (output_bytes m))%nat)
    by (destruct (output_size_cases m) as [?|[(? & _)|?]]; lia).
  assert (Hz : 0 <= 0x0800 <= off / 16) by (unfold is_u16 in Ho; lia).
  destruct (shifted_words _ _ _ _ _ _ Ho Hz Hi H8 Hs P) as (L & U & W).
  split; [exact L|]. exists raw, row. auto.
Qed.
