(** Proofs about single modules used for the coupler: which calls cannot panic, how many values
    they return; C52. *)
From Coq Require Import ZArith List Bool Lia ZifyBool ZifyNat.
From Verif Require Import Base Facts F32 Types Lib Util Digital Analog Fcnt Com Fbc
  SpecCodec SpecSerial SpecCoupler ProofsCodec ProofsFcnt ProofsSerialCodec.
Import ListNotations.
Local Open Scope Z_scope.
Ltac Zify.zify_post_hook ::= Z.div_mod_to_equations.

(** A module with the right number of channel parameters. *)
Definition complete (m : module) : Prop :=
  match m with
  | MDI V_4DI_P ch => length ch = 4%nat
  | MDI V_8DI_P_2W ch => length ch = 8%nat
  | MDO V_8DO_P ch => length ch = 8%nat
  | MDO _ ch => length ch = 4%nat
  | M16DO | MSIL => True
  | M4RO ch => length ch = 4%nat
  | M4AO ch => length ch = 4%nat
  | M4AODIAG ch => length ch = 4%nat
  | MRTD _ ch => length ch = 4%nat
  | MUI16DIAG _ ch => length ch = 4%nat
  | MAIUI _ _ ch => length ch = 4%nat
  | M8AI _ ch => length ch = 8%nat
  | MTC _ ch => length ch = 4%nat
  | MFCNT ch => length ch = 2%nat
  | MCOM _ ch => length ch = 1%nat
  end.

Ltac split_if H :=
  match type of H with (if ?b then _ else _) = Ok _ => destruct b eqn:?; try discriminate end.

Lemma built_complete t regs m : module_from_params t regs = Ok m -> complete m.
Proof.
  intros H. destruct t; cbn [module_from_params] in H; try discriminate;
    apply bind_ok in H; destruct H as (ch & Hc & H);
    try (destruct ch as (x & ch)); apply Ok_inj in H; subst m; cbn [complete]; try exact I; try reflexivity;
    unfold di_parameters, do_parameters, ao_parameters, ao_diag_parameters, rtd_parameters,
      ai_ui_diag_parameters, ai_ui_parameters, ai_i_parameters, tc_parameters, fcnt_parameters in Hc;
    split_if Hc.
  all: repeat match type of Hc with bind _ _ = Ok _ =>
         let a := fresh "a" in let Ha := fresh "Ha" in
         apply bind_ok in Hc; destruct Hc as (a & Ha & Hc) end.
  all: try (apply traverse_length in Hc; exact Hc).
  all: try (split_if Hc; apply Nat.eqb_eq in Heqb0).
  all: apply Ok_inj, pair_inj in Hc; destruct Hc as [_ <-];
       repeat match goal with Ha : traverse _ (seq _ _) = Ok _ |- _ => apply traverse_length in Ha end; auto.
Qed.

(** *** No panics *)

Lemma index_no_panic {A} (l : list A) i : (i < length l)%nat -> no_panic (index l i).
Proof. intros H. unfold index. destruct (nth_error_lt_Some l i H) as (a & ->). exact I. Qed.

Lemma store_no_panic {A} (l : list A) i a : (i < length l)%nat -> no_panic (store l i a).
Proof. intros H. rewrite store_ok by exact H. exact I. Qed.

Lemma slice_no_panic {A} (l : list A) i j : (i <= j)%nat -> (j <= length l)%nat -> no_panic (slice l i j).
Proof.
  intros H1 H2. unfold slice.
  replace (Nat.leb i j && Nat.leb j (length l)) with true by lia. exact I.
Qed.

Lemma in_enumerate {A} (l : list A) i a : In (i, a) (enumerate l) -> (i < length l)%nat /\ In a l.
Proof.
  intros H. apply In_nth_error in H. destruct H as (k & Hk). rewrite nth_error_enumerate in Hk.
  destruct (nth_error l k) as [x|] eqn:E; [|discriminate]. cbn [option_map] in Hk.
  apply Some_inj, pair_inj in Hk. destruct Hk as [<- <-].
  split; [eapply nth_error_Some_lt; exact E|eapply nth_error_In; exact E].
Qed.

Ltac np := repeat (apply bind_no_panic; [first [apply index_no_panic; lia | idtac]|intros ? ?]); try exact I.

Lemma rs_in_no_panic bytes : no_panic (rs_in_from_bytes bytes).
Proof.
  unfold rs_in_from_bytes. destruct (Nat.ltb_spec (length bytes) 2); [exact I|]. np.
  match goal with |- context [Nat.ltb ?a ?b] => destruct (Nat.ltb_spec a b) end; [exact I|].
  np. apply slice_no_panic; lia.
Qed.

Lemma rs_out_no_panic bytes : no_panic (rs_out_from_bytes bytes).
Proof.
  unfold rs_out_from_bytes. destruct (Nat.ltb_spec (length bytes) 2); [exact I|]. np.
  match goal with |- context [Nat.ltb ?a ?b] => destruct (Nat.ltb_spec a b) end; [exact I|].
  np. apply slice_no_panic; lia.
Qed.

Lemma rs_out_to_bytes_no_panic o l : no_panic (rs_out_to_bytes o l).
Proof.
  unfold rs_out_to_bytes. destruct (_ || _); [exact I|].
  destruct (Nat.ltb_spec (user_data_len l) (length (ro_data o))) as [Hl|Hl]; [exact I|].
  cbv zeta.
  assert (Hm : repeat 0 (process_data_byte_count l) = 0 :: 0 :: repeat 0 (payload_size l))
    by (destruct l; reflexivity).
  rewrite Hm. cbn [store bind]. unfold enumerate. rewrite copy_data_spec; [exact I|].
  cbn [length]. rewrite repeat_length. destruct l; cbn [user_data_len payload_size] in *; lia.
Qed.

Lemma check_length {A} (l : list A) n : negb (Nat.eqb (length l) n) = false -> length l = n.
Proof. lia. Qed.

Lemma input_no_panic m data : no_panic (mod_process_input_data m data).
Proof.
  destruct m as [v ch|v ch| |ch|ch|ch|u ch|f ch|v f ch|f ch|u ch|ch|l ch| ];
    cbn [mod_process_input_data]; unfold default_process_data.
  all: try (destruct data; exact I).
  - unfold di_process_input_data. destruct (negb _) eqn:E; [exact I|]. apply check_length in E. np.
  - unfold rtd_process_input_data. destruct (negb _) eqn:E; [exact I|]. apply check_length in E.
    destruct (negb _) eqn:E2; [exact I|]. apply check_length in E2.
    apply traverse_no_panic. intros i Hi. apply in_seq in Hi. np.
  - unfold ai_ui_diag_process_input_data. destruct (negb _) eqn:E; [exact I|]. apply check_length in E.
    destruct (negb _) eqn:E2; [exact I|]. apply check_length in E2.
    apply traverse_no_panic. intros i Hi. apply in_seq in Hi. np.
  - unfold ai_ui_process_input_data. destruct (negb _) eqn:E; [exact I|]. apply check_length in E.
    destruct (negb _) eqn:E2; [exact I|]. apply check_length in E2.
    apply traverse_no_panic. intros i Hi. apply in_seq in Hi. np.
  - unfold ai_i_process_input_data. destruct (negb _) eqn:E; [exact I|]. apply check_length in E.
    destruct (negb _) eqn:E2; [exact I|]. apply check_length in E2.
    apply traverse_no_panic. intros i Hi. apply in_seq in Hi. np.
  - unfold tc_process_input_data. destruct (negb _); exact I.
  - unfold fcnt_process_input_data. destruct (negb _) eqn:E; [exact I|]. apply check_length in E.
    destruct (negb _) eqn:E2; [exact I|]. apply check_length in E2.
    apply traverse_no_panic. intros i Hi. apply in_seq in Hi. np.
  - unfold com_process_input_data. np. apply rs_in_no_panic.
  - unfold sil_process_input_data. destruct (negb _) eqn:E; [exact I|]. apply check_length in E. np.
Qed.

(** Modules that index their channel parameters when decoding outputs. *)
Definition unchecked_outputs (m : module) : option nat :=
  match m with M4AO ch => Some (length ch) | M4AODIAG ch => Some (length ch) | _ => None end.

Lemma output_data_no_panic m data :
  (forall n, unchecked_outputs m = Some n -> (4 <= n)%nat) ->
  no_panic (mod_process_output_data m data).
Proof.
  intros Hu. destruct m as [v ch|v ch| |ch|ch|ch|u ch|f ch|v f ch|f ch|u ch|ch|l ch| ];
    cbn [mod_process_output_data unchecked_outputs] in *; unfold default_process_data.
  all: try (destruct data; exact I).
  1-3: unfold do_process_output_data; destruct (negb _) eqn:E; [exact I|]; apply check_length in E; np.
  - specialize (Hu _ eq_refl). unfold ao_process_output_data. destruct (negb _) eqn:E; [exact I|].
    apply check_length in E. apply traverse_no_panic. intros (i & a) Hi. apply in_enumerate in Hi. np.
  - specialize (Hu _ eq_refl). unfold ao_diag_process_output_data. destruct (negb _) eqn:E; [exact I|].
    apply check_length in E. apply traverse_no_panic. intros (i & a) Hi. apply in_enumerate in Hi. np.
  - unfold fcnt_process_output_data. destruct (negb _) eqn:E; [exact I|]. apply check_length in E.
    apply traverse_no_panic. intros i Hi. apply in_seq in Hi. np.
  - unfold com_process_output_data. np. apply rs_out_no_panic.
Qed.

Lemma do_encode_no_panic vs : forall k res, no_panic (do_encode res (enumerate_from k vs)).
Proof.
  induction vs as [|v vs IH]; intros k res; cbn [enumerate_from do_encode]; [exact I|].
  destruct v; try exact I; apply IH.
Qed.

Lemma not_panic {A} (x : outcome A) : (forall p, x <> Panic p) <-> no_panic x.
Proof. destruct x; cbn [no_panic]; split; intros H; try tauto; try discriminate. eapply H. reflexivity. Qed.

Lemma output_values_no_panic prof m values : Forall valid_preset values ->
  no_panic (mod_process_output_values prof m values).
Proof.
  intros Hv. destruct m as [v ch|v ch| |ch|ch|ch|u ch|f ch|v f ch|f ch|u ch|ch|l ch| ];
    cbn [mod_process_output_values]; unfold default_process_output_values.
  all: try (destruct (_ && _); exact I).
  1-3: unfold do_process_output_values; destruct (negb _); [exact I|]; np; apply do_encode_no_panic.
  - unfold ao_process_output_values. destruct (negb _) eqn:E; [exact I|]. apply check_length in E.
    destruct (negb _) eqn:E2; [exact I|]. apply check_length in E2.
    apply traverse_no_panic. intros (i & a) Hi. apply in_enumerate in Hi. np.
    destruct a; exact I.
  - unfold ao_diag_process_output_values. destruct (negb _) eqn:E; [exact I|]. apply check_length in E.
    destruct (negb _) eqn:E2; [exact I|]. apply check_length in E2.
    apply traverse_no_panic. intros (i & a) Hi. apply in_enumerate in Hi. np.
    destruct a; exact I.
  - destruct (Nat.eq_dec (length ch) 2) as [E|E].
    + apply not_panic. destruct (C23_all prof ch values E Hv) as (_ & _ & _ & H). exact H.
    + unfold fcnt_process_output_values. cbn [channel_count]. destruct (negb _); [exact I|].
      replace (negb (Nat.eqb (length ch) 2)) with true by lia. exact I.
  - unfold com_process_output_values. destruct (negb _) eqn:E; [exact I|]. apply check_length in E.
    np. destruct a; try exact I. destruct (Nat.ltb _ _); [exact I|]. np. apply rs_out_to_bytes_no_panic.
Qed.

(** *** Numbers of values *)

(** The number of input values a module decodes: its channels, but one value for the
    power feed module. *)
Definition input_width (m : module) : nat := match m with MSIL => 1 | _ => channels m end.

Lemma input_length m data vs : complete m -> mod_process_input_data m data = Ok vs ->
  length vs = input_width m.
Proof.
  intros Hc H. destruct m as [v ch|v ch| |ch|ch|ch|u ch|f ch|v f ch|f ch|u ch|ch|l ch| ];
    cbn [mod_process_input_data input_width complete channels mod_type channel_count] in *;
    unfold default_process_data in H; unfold channels;
    cbn [mod_type].
  all: try (destruct data; [|discriminate]; apply Ok_inj in H; subst vs; rewrite repeat_length; reflexivity).
  - unfold di_process_input_data in H. split_if H. apply bind_ok in H. destruct H as (b & _ & H).
    apply Ok_inj in H. subst vs. rewrite map_length, seq_length. reflexivity.
  - unfold rtd_process_input_data in H. split_if H. split_if H. apply traverse_length in H. exact H.
  - unfold ai_ui_diag_process_input_data in H. split_if H. split_if H. apply traverse_length in H. exact H.
  - unfold ai_ui_process_input_data in H. split_if H. split_if H. apply traverse_length in H.
    rewrite seq_length in H. destruct v; exact H.
  - unfold ai_i_process_input_data in H. split_if H. split_if H. apply traverse_length in H. exact H.
  - unfold tc_process_input_data in H. split_if H. apply Ok_inj in H. subst vs.
    apply check_length in Heqb. rewrite map_length, combine_length, Heqb, Hc. reflexivity.
  - unfold fcnt_process_input_data in H. split_if H. split_if H. apply traverse_length in H. exact H.
  - unfold com_process_input_data in H. apply bind_ok in H. destruct H as (i & _ & H). apply Ok_inj in H.
    subst vs. reflexivity.
  - unfold sil_process_input_data in H. split_if H. apply bind_ok in H. destruct H as (a & _ & H).
    apply bind_ok in H. destruct H as (b & _ & H). apply Ok_inj in H. subst vs. reflexivity.
Qed.

Lemma output_length m data vs : mod_process_output_data m data = Ok vs -> length vs = channels m.
Proof.
  intros H. destruct m as [v ch|v ch| |ch|ch|ch|u ch|f ch|v f ch|f ch|u ch|ch|l ch| ];
    cbn [mod_process_output_data] in *; unfold default_process_data in H; unfold channels;
    cbn [mod_type].
  all: try (destruct data; [|discriminate]; apply Ok_inj in H; subst vs; rewrite repeat_length; reflexivity).
  1-3: unfold do_process_output_data in H; split_if H; apply bind_ok in H; destruct H as (b & _ & H);
    apply Ok_inj in H; subst vs; rewrite map_length, seq_length; reflexivity.
  - unfold ao_process_output_data in H. split_if H. apply traverse_length in H.
    rewrite enumerate_length in H. apply check_length in Heqb. rewrite H, Heqb. reflexivity.
  - unfold ao_diag_process_output_data in H. split_if H. apply traverse_length in H.
    rewrite enumerate_length in H. apply check_length in Heqb. rewrite H, Heqb. reflexivity.
  - unfold ai_ui_diag_process_output_data in H. destruct data; [|discriminate]. apply Ok_inj in H.
    subst vs. reflexivity.
  - unfold fcnt_process_output_data in H. split_if H. apply traverse_length in H. exact H.
  - unfold com_process_output_data in H. apply bind_ok in H. destruct H as (i & _ & H). apply Ok_inj in H.
    subst vs. reflexivity.
Qed.

(** *** Encoded words *)

(** Number of words of output process data. *)
Definition output_words (m : module) : nat :=
  match m with
  | MDO _ _ | M16DO | M4RO _ => 1
  | M4AO _ | M4AODIAG _ => 4
  | MFCNT _ => 6
  | MCOM EightBytes _ => 4
  | MCOM SixteenBytes _ => 8
  | _ => 0
  end.

Lemma value_to_u16_u16 v r f w : value_to_u16 v r f = Ok w -> is_u16 w.
Proof.
  unfold value_to_u16, is_u16. destruct v; try discriminate; intros H; apply Ok_inj in H; subst w; [|lia].
  unfold analog_ui_value_to_u16, i16_as_u16. apply Z.mod_pos_bound. lia.
Qed.

(** What the encoders rely on: values of Rust types, floats not considered. *)
Definition wire_value (v : channel_value) : Prop :=
  match v with
  | ComRsOut o => in_counters o /\ Forall is_u8 (ro_data o)
  | FcntOut o => valid_duration (fo_duration o)
  | _ => True
  end.

Lemma rust_wire v : rust_value v -> wire_value v.
Proof. destruct v; cbn [rust_value wire_value]; auto. Qed.
Lemma rust_wires vs : Forall rust_value vs -> Forall wire_value vs.
Proof. apply Forall_impl. exact rust_wire. Qed.
Lemma wire_presets vs : Forall wire_value vs -> Forall valid_preset vs.
Proof. apply Forall_impl. intros v Hr. destruct v; exact I || exact Hr. Qed.

Lemma encoded_words prof m vs words : Forall wire_value vs ->
  mod_process_output_values prof m vs = Ok words ->
  length words = output_words m /\ Forall is_u16 words.
Proof.
  intros Hv H.
  assert (Hp : Forall valid_preset vs).
  { eapply Forall_impl; [|exact Hv]. intros v Hr. destruct v; exact I || exact Hr. }
  assert (Hdig : forall n, digital_outputs m = Some n -> length words = 1%nat /\ Forall is_u16 words).
  { intros n Hn. destruct (C14_all prof m n Hn) as (H1 & H2 & _).
    destruct (Nat.eq_dec (length vs) n) as [El|El].
    2:{ rewrite H1 in H by (left; exact El). discriminate. }
    destruct (switches_dec vs) as [Es|Es].
    2:{ rewrite H1 in H by (right; exact Es). discriminate. }
    destruct (H2 vs El Es) as (w & Hw & Hu & _). rewrite Hw in H. apply Ok_inj in H. subst words.
    split; [reflexivity|]. constructor; [exact Hu|constructor]. }
  destruct m as [v ch|v ch| |ch|ch|ch|u ch|f ch|v f ch|f ch|u ch|ch|l ch| ];
    cbn [output_words].
  all: try (cbn [mod_process_output_values] in H; unfold default_process_output_values in H; split_if H;
            apply Ok_inj in H; subst words; split; [reflexivity|constructor]).
  - destruct v; eapply Hdig; reflexivity.
  - eapply Hdig; reflexivity.
  - eapply Hdig; reflexivity.
  - cbn [mod_process_output_values] in H. unfold ao_process_output_values in H. split_if H. split_if H.
    apply check_length in Heqb. split.
    { apply traverse_length in H. rewrite enumerate_length in H. lia. }
    apply traverse_ok in H. revert H. generalize (enumerate vs). clear. intros l H.
    induction H as [|(i & v) w l r Hw _ IH]; [constructor|]. constructor; [|exact IH].
    apply bind_ok in Hw. destruct Hw as (p & _ & Hw). eapply value_to_u16_u16. exact Hw.
  - cbn [mod_process_output_values] in H. unfold ao_diag_process_output_values in H. split_if H. split_if H.
    apply check_length in Heqb. split.
    { apply traverse_length in H. rewrite enumerate_length in H. lia. }
    apply traverse_ok in H. revert H. generalize (enumerate vs). clear. intros l H.
    induction H as [|(i & v) w l r Hw _ IH]; [constructor|]. constructor; [|exact IH].
    apply bind_ok in Hw. destruct Hw as (p & _ & Hw). eapply value_to_u16_u16. exact Hw.
  - assert (Hl : length ch = 2%nat).
    { cbn [mod_process_output_values] in H. unfold fcnt_process_output_values in H. split_if H.
      cbn [channel_count] in H. split_if H. apply check_length in Heqb0. exact Heqb0. }
    destruct (C23_all prof ch vs Hl Hp) as (H1 & H2 & H3 & _).
    destruct vs as [|v1 [|v2 [|v3 vs]]]; try (rewrite H3 in H by (left; discriminate); discriminate).
    destruct (preset v1) as [a|] eqn:E1.
    2:{ rewrite H3 in H by (right; exists v1; split; [left; reflexivity|exact E1]). discriminate. }
    destruct (preset v2) as [b|] eqn:E2.
    2:{ rewrite H3 in H by (right; exists v2; split; [right; left; reflexivity|exact E2]). discriminate. }
    destruct (Z.leb_spec (nanoseconds (fo_duration a)) max_preset) as [Ma|Ma].
    2:{ rewrite (H2 v1 a) in H by (auto; left; reflexivity). discriminate. }
    destruct (Z.leb_spec (nanoseconds (fo_duration b)) max_preset) as [Mb|Mb].
    2:{ rewrite (H2 v2 b) in H by (auto; right; left; reflexivity). discriminate. }
    destruct (H1 v1 v2 a b eq_refl E1 E2 Ma Mb) as (w & Hw & Hwl & Hwu & _).
    rewrite Hw in H. apply Ok_inj in H. subst w. auto.
  - cbn [mod_process_output_values] in H. unfold com_process_output_values in H. split_if H.
    destruct vs as [|v [|v2 vs]]; try discriminate. cbn [index nth_error bind] in H.
    destruct v; try discriminate.
    destruct (Nat.ltb_spec (user_data_len l) (length (ro_data o))) as [Hl|Hl]; [discriminate|].
    apply bind_ok in H. destruct H as (msg & Hm & H). apply Ok_inj in H. subst words.
    inversion Hv as [|? ? Ho _]; subst. cbn [wire_value] in Ho. destruct Ho as ((Hc1 & Hc2) & Hb).
    assert (Hlp : (length (ro_data o) <= payload_size l)%nat) by exact Hl.
    assert (Hg : good_counters o).
    { unfold rs_out_to_bytes in Hm. split_if Hm. unfold good_counters, is_usize in *. lia. }
    rewrite rs_out_encode in Hm by assumption. apply Ok_inj in Hm. fold (message o l) in Hm. subst msg.
    destruct (u8_to_u16_bytes (message o l)) as (U1 & _ & U3).
    { apply message_u8; assumption. }
    { rewrite message_length by exact Hlp. destruct l; [exists 4%nat|exists 8%nat]; reflexivity. }
    split; [|exact U1]. rewrite message_length in U3 by exact Hlp.
    destruct l; cbn [message_size output_words] in *; lia.
Qed.

Lemma C52_partial_all : forall prof m data values,
  Forall rust_value values ->
  (forall p, mod_process_input_data m data <> Panic p) /\
  (forall p, mod_process_output_values prof m values <> Panic p) /\
  ((forall ch, m = M4AO ch -> (4 <= length ch)%nat) ->
   (forall ch, m = M4AODIAG ch -> (4 <= length ch)%nat) ->
   forall p, mod_process_output_data m data <> Panic p) /\
  ((length data <> 4)%nat -> forall p, mod_process_output_data m data <> Panic p).
Proof.
  intros prof m data values Hv. split; [|split; [|split]].
  - apply not_panic, input_no_panic.
  - apply not_panic, output_values_no_panic. eapply Forall_impl; [|exact Hv].
    intros v Hr. destruct v; exact I || exact Hr.
  - intros H1 H2. apply not_panic, output_data_no_panic. intros n Hn.
    destruct m; try discriminate; apply Some_inj in Hn; subst n; eauto.
  - intros Hl. apply not_panic.
    destruct m as [v ch|v ch| |ch|ch|ch|u ch|f ch|v f ch|f ch|u ch|ch|l ch| ];
      try (apply output_data_no_panic; intros n Hn; discriminate).
    + cbn [mod_process_output_data]. unfold ao_process_output_data.
      replace (negb (Nat.eqb (length data) 4)) with true by lia. exact I.
    + cbn [mod_process_output_data]. unfold ao_diag_process_output_data.
      replace (negb (Nat.eqb (length data) 4)) with true by lia. exact I.
Qed.

Lemma C52_refuted_all :
  mod_process_output_data (M4AO []) [0; 0; 0; 0] = Panic IndexOutOfBounds /\
  mod_process_output_data (M4AODIAG []) [0; 0; 0; 0] = Panic IndexOutOfBounds.
Proof. split; reflexivity. Qed.
