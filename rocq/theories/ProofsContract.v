(** Proofs about the calls of the methods of a single module (C97). *)
From Coq Require Import ZArith List Bool Lia ZifyBool ZifyNat.
From Verif Require Import Base Facts F32 Types Lib Util Digital Analog Fcnt Com Fbc SpecCodec SpecSerial SpecCoupler SpecImage SpecOutcome
  SpecTerminal SpecContract ProofsCodec ProofsFcnt ProofsSerialCodec ProofsAnalog ProofsModule ProofsImage ProofsCoupler ProofsIdle ProofsOutcome.
Import ListNotations.
Local Open Scope Z_scope.

(** The settings of digital channels play no part in what follows. *)
Definition filled (m : module) : module :=
  match m with
  | MDI V_4DI_P _ => MDI V_4DI_P (repeat ID_no 4)
  | MDI V_8DI_P_2W _ => MDI V_8DI_P_2W (repeat ID_no 8)
  | MDO V_8DO_P _ => MDO V_8DO_P (repeat false 8)
  | MDO v _ => MDO v (repeat false 4)
  | M4RO _ => M4RO (repeat false 4)
  | m => m
  end.

Lemma filled_same m : (forall d, mod_process_input_data (filled m) d = mod_process_input_data m d) /\
  (forall d, mod_process_output_data (filled m) d = mod_process_output_data m d) /\
  (forall p v, mod_process_output_values p (filled m) v = mod_process_output_values p m v) /\
  channels (filled m) = channels m /\ input_bytes (filled m) = input_bytes m /\ output_bytes (filled m) = output_bytes m /\
  input_width (filled m) = shown_inputs m /\ is_serial (filled m) = is_serial m /\ (forall v, can_output (filled m) v <-> can_output m v).
Proof.
  destruct m as [v ch|v ch| |ch|ch|ch|u ch|f ch|v f ch|f ch|u ch|ch|l ch| ]; try destruct v; repeat match goal with |- _ /\ _ => split end;
    intros; reflexivity.
Qed.

Lemma wrong_length {A} (l : list A) n : length l <> n -> negb (Nat.eqb (length l) n) = true.
Proof. intros H. apply Nat.eqb_neq in H. rewrite H. reflexivity. Qed.
Lemma right_length {A} (l : list A) n : length l = n -> negb (Nat.eqb (length l) n) = false.
Proof. intros H. apply Nat.eqb_eq in H. rewrite H. reflexivity. Qed.
Lemma not_empty {A} (l : list A) : length l <> 0%nat -> exists a t, l = a :: t.
Proof. destruct l; [contradiction|eauto]. Qed.

Lemma input_refused m data : is_serial m = false -> length data <> registers_in m -> mod_process_input_data m data = Err BufferLength.
Proof.
  intros Hs Hl. destruct m as [v ch|v ch| |ch|ch|ch|u ch|f ch|v f ch|f ch|u ch|ch|l ch| ]; try discriminate Hs; cbn [registers_in] in Hl;
    cbn [mod_process_input_data].
  all: try (destruct (not_empty _ Hl) as (a & t & ->); reflexivity).
  - unfold di_process_input_data. now rewrite (wrong_length _ _ Hl).
  - unfold rtd_process_input_data. now rewrite (wrong_length _ _ Hl).
  - unfold ai_ui_diag_process_input_data. now rewrite (wrong_length _ _ Hl).
  - unfold ai_ui_process_input_data. replace (channel_count (ai_type v)) with 4%nat by (destruct v; reflexivity). now rewrite (wrong_length _ _ Hl).
  - unfold ai_i_process_input_data. now rewrite (wrong_length _ _ Hl).
  - unfold tc_process_input_data. now rewrite (wrong_length _ _ Hl).
  - unfold fcnt_process_input_data. now rewrite (wrong_length _ _ Hl).
  - unfold sil_process_input_data. now rewrite (wrong_length _ _ Hl).
Qed.

Lemma input_unset m data : length data = registers_in m -> ~ settings_to_read m -> mod_process_input_data m data = Err ChannelParameter.
Proof.
  intros Hl Hn. destruct m as [v ch|v ch| |ch|ch|ch|u ch|f ch|v f ch|f ch|u ch|ch|l ch| ]; cbn [settings_to_read registers_in] in *;
    try (exfalso; apply Hn; exact I); cbn [mod_process_input_data].
  - unfold rtd_process_input_data. now rewrite (right_length _ _ Hl), (wrong_length _ _ Hn).
  - unfold ai_ui_diag_process_input_data. now rewrite (right_length _ _ Hl), (wrong_length _ _ Hn).
  - unfold ai_ui_process_input_data. replace (channel_count (ai_type v)) with 4%nat by (destruct v; reflexivity).
    now rewrite (right_length _ _ Hl), (wrong_length _ _ Hn).
  - unfold ai_i_process_input_data. now rewrite (right_length _ _ Hl), (wrong_length _ _ Hn).
  - unfold fcnt_process_input_data. now rewrite (right_length _ _ Hl), (wrong_length _ _ Hn).
Qed.

Lemma default_shown m : length (repeat VNone (channel_count (mod_type m))) = channels m.
Proof. apply repeat_length. Qed.

Lemma C97_inputs_all : forall m data, Forall is_u16 data -> buildable m -> is_serial m = false ->
  (length data <> registers_in m -> mod_process_input_data m data = Err BufferLength) /\
  (length data = registers_in m -> ~ settings_to_read m -> mod_process_input_data m data = Err ChannelParameter) /\
  (length data = registers_in m -> settings_to_read m ->
     exists row, mod_process_input_data m data = Ok row /\ length row = shown_inputs m) /\
  (input_bytes m = 0%nat -> data = [] -> mod_process_input_data m data = Ok (nothing m)).
Proof.
  intros m data Hu Hb Hs. split; [apply input_refused; exact Hs|]. split; [apply input_unset|]. split.
  - intros Hl Hset. destruct (Nat.eq_dec (input_bytes m) 0) as [Hz|Hz].
    { destruct m; try discriminate Hz; try discriminate Hs; cbn [registers_in] in Hl; try (destruct data; [|discriminate Hl]; eexists; split; [reflexivity|apply repeat_length]). }
    destruct (filled_same m) as (F1 & _ & _ & _ & F5 & _ & F7 & F8 & _).
    assert (Hc : complete (filled m)).
    { destruct m as [v ch|v ch| |ch|ch|ch|u ch|f ch|v f ch|f ch|u ch|ch|l ch| ]; try destruct v; cbn in *; try reflexivity; try exact I; try assumption; congruence. }
    destruct (proj2 (decode_in_iff (filled m) data Hc ltac:(rewrite F5, Hl; destruct m; try reflexivity; try discriminate Hs; exfalso; apply Hz; reflexivity) Hu)) as (row & Hr).
    { rewrite F5. split; [exact Hz|]. intros l ch E. rewrite E in F8. cbn in F8. congruence. }
    exists row. split; [rewrite <- F1; exact Hr|]. rewrite (input_length _ _ _ Hc Hr). exact F7.
  - intros Hz ->. destruct m; try discriminate Hz; try discriminate Hs; try reflexivity.
Qed.

Lemma output_refused m data : is_serial m = false -> length data <> registers_out m -> mod_process_output_data m data = Err BufferLength.
Proof.
  intros Hs Hl. destruct m as [v ch|v ch| |ch|ch|ch|u ch|f ch|v f ch|f ch|u ch|ch|l ch| ]; try discriminate Hs; cbn [registers_out] in Hl;
    cbn [mod_process_output_data].
  all: try (destruct (not_empty _ Hl) as (a & t & ->); reflexivity).
  1-3: unfold do_process_output_data; now rewrite (wrong_length _ _ Hl).
  - unfold ao_process_output_data. now rewrite (wrong_length _ _ Hl).
  - unfold ao_diag_process_output_data. now rewrite (wrong_length _ _ Hl).
  - unfold fcnt_process_output_data. now rewrite (wrong_length _ _ Hl).
Qed.

Lemma C97_outputs_all : forall m data, Forall is_u16 data -> is_serial m = false ->
  (length data <> registers_out m -> mod_process_output_data m data = Err BufferLength) /\
  (length data = registers_out m -> settings_to_read_back m ->
     exists row, mod_process_output_data m data = Ok row /\ length row = channels m) /\
  (output_bytes m = 0%nat -> data = [] -> mod_process_output_data m data = Ok (nothing m)).
Proof.
  intros m data Hu Hs. split; [apply output_refused; exact Hs|]. split.
  - intros Hl Hset. destruct (Nat.eq_dec (output_bytes m) 0) as [Hz|Hz].
    { destruct m; try discriminate Hz; try discriminate Hs; cbn [registers_out] in Hl; try (destruct data; [|discriminate Hl]; eexists; split; [reflexivity|try apply repeat_length; reflexivity]). }
    assert (K : exists row, mod_process_output_data m data = Ok row).
    { destruct m as [v ch|v ch| |ch|ch|ch|u ch|f ch|v f ch|f ch|u ch|ch|l ch| ]; try (exfalso; apply Hz; reflexivity); try discriminate Hs;
        cbn [registers_out settings_to_read_back] in *.
      1-3: cbn [mod_process_output_data]; unfold do_process_output_data; rewrite (right_length _ _ Hl);
        destruct (one_word data Hl) as (w & ->); cbn [index nth_error bind]; eauto.
      - apply (decode_out_iff (M4AO ch) data Hset Hl Hu). split; [discriminate|]. intros l0 ch0 E0. discriminate E0.
      - apply (decode_out_iff (M4AODIAG ch) data Hset Hl Hu). split; [discriminate|]. intros l0 ch0 E0. discriminate E0.
      - apply (decode_out_iff (MFCNT [us5; us5]) data (eq_refl : complete (MFCNT [us5; us5])) Hl Hu). split; [discriminate|]. intros l0 ch0 E0. discriminate E0. }
    destruct K as (row & Hr). exists row. split; [exact Hr|]. exact (output_length _ _ _ Hr).
  - intros Hz ->. destruct m; try discriminate Hz; try discriminate Hs; try reflexivity.
Qed.

Lemma C97_messages_all : forall l ch data, Forall is_u16 data ->
  (forall row, mod_process_input_data (MCOM l ch) data = Ok row <->
     exists i status bytes, row = [ComRsIn i] /\ announces (bytes_of_words data) status bytes /\ in_message i status bytes) /\
  (forall row, mod_process_output_data (MCOM l ch) data = Ok row <->
     exists o status bytes, row = [ComRsOut o] /\ announces (bytes_of_words data) status bytes /\ out_message o status bytes) /\
  ((forall status bytes, ~ announces (bytes_of_words data) status bytes) ->
     mod_process_input_data (MCOM l ch) data = Err BufferLength /\ mod_process_output_data (MCOM l ch) data = Err BufferLength).
Proof.
  intros l ch data Hu. destruct (C27_all _ (bytes_of_words_u8 data Hu)) as (A & B & C & _).
  cbn [mod_process_input_data mod_process_output_data]. unfold com_process_input_data, com_process_output_data. rewrite words_to_bytes_spec.
  split; [|split].
  - intros row. split.
    + intros H. apply bind_ok in H. destruct H as (i & Hi & H). apply Ok_inj in H. apply A in Hi. destruct Hi as (s & d & H1 & H2). exists i, s, d. auto.
    + intros (i & s & d & -> & H1 & H2). rewrite (proj2 (A i) (ex_intro _ s (ex_intro _ d (conj H1 H2)))). reflexivity.
  - intros row. split.
    + intros H. apply bind_ok in H. destruct H as (i & Hi & H). apply Ok_inj in H. apply B in Hi. destruct Hi as (s & d & H1 & H2). exists i, s, d. auto.
    + intros (i & s & d & -> & H1 & H2). rewrite (proj2 (B i) (ex_intro _ s (ex_intro _ d (conj H1 H2)))). reflexivity.
  - intros H. destruct (C H) as [-> ->]. split; reflexivity.
Qed.

Lemma can_output_dec m v : can_output m v \/ ~ can_output m v.
Proof.
  destruct m; cbn [can_output]; try (right; tauto).
  1-3: destruct (switches v) as [b|]; [left; eauto|right; intros (b & E); discriminate].
  1-2: destruct v; try (right; intros [E|(x & E)]; discriminate); [left; right; eauto|left; left; reflexivity].
  destruct (preset v) as [f|]; [|right; intros (f & E & _); discriminate].
  destruct (Z.leb_spec (nanoseconds (fo_duration f)) max_preset) as [L|L]; [left; eauto|right; intros (g & E & L'); apply Some_inj in E; subst g; lia].
Qed.

Lemma C97_write_all : forall prof m values, Forall rust_value values -> is_serial m = false -> output_bytes m <> 0%nat ->
  (length values <> channels m -> mod_process_output_values prof m values = Err ChannelValueError) /\
  (length values = channels m -> ~ settings_to_write m -> mod_process_output_values prof m values = Err ChannelParameter) /\
  (length values = channels m -> settings_to_write m -> ~ Forall (can_output m) values ->
     mod_process_output_values prof m values = Err ChannelValueError) /\
  (length values = channels m -> settings_to_write m -> Forall (can_output m) values ->
     exists words, mod_process_output_values prof m values = Ok words /\ length words = registers_out m /\ Forall is_u16 words).
Proof.
  intros prof m values Hv Hs Hz. pose proof (rust_wires _ Hv) as Hw.
  destruct (filled_same m) as (_ & _ & F3 & F4 & _ & F6 & _ & F8 & F9).
  assert (Hc : settings_to_write m -> complete (filled m)).
  { intros Hset. destruct m as [v ch|v ch| |ch|ch|ch|u ch|f ch|v f ch|f ch|u ch|ch|l ch| ]; try destruct v; cbn in *; try reflexivity; try exact I; try assumption; congruence. }
  assert (Hcnt : forall t, channel_count t = channel_count t) by reflexivity.
  split; [|split; [|split]].
  - intros Hl. destruct m as [v ch|v ch| |ch|ch|ch|u ch|f ch|v f ch|f ch|u ch|ch|l ch| ]; try (exfalso; apply Hz; reflexivity); try discriminate Hs;
      cbn [mod_process_output_values]; unfold channels in Hl; cbn [mod_type channel_count] in Hl.
    1-3: unfold do_process_output_values; now rewrite (wrong_length _ _ Hl).
    + unfold ao_process_output_values. now rewrite (wrong_length _ _ Hl).
    + unfold ao_diag_process_output_values. now rewrite (wrong_length _ _ Hl).
    + unfold fcnt_process_output_values. cbn [channel_count]. now rewrite (wrong_length _ _ Hl).
  - intros Hl Hn. destruct m as [v ch|v ch| |ch|ch|ch|u ch|f ch|v f ch|f ch|u ch|ch|l ch| ]; cbn [settings_to_write] in Hn;
      try (exfalso; apply Hn; exact I); cbn [mod_process_output_values]; unfold channels in Hl; cbn [mod_type channel_count] in Hl.
    + unfold ao_process_output_values. now rewrite (right_length _ _ Hl), (wrong_length _ _ Hn).
    + unfold ao_diag_process_output_values. now rewrite (right_length _ _ Hl), (wrong_length _ _ Hn).
    + unfold fcnt_process_output_values. cbn [channel_count]. now rewrite (right_length _ _ Hl), (wrong_length _ _ Hn).
  - intros Hl Hset Hno. specialize (Hc Hset). rewrite <- F3. destruct (mod_process_output_values prof (filled m) values) as [d|e|p] eqn:E.
    + exfalso. apply Hno. apply Forall_forall. intros v Hin. apply F9.
      eapply encode_accepts; [exact Hw| | |exact Hc|exact E|exact Hin]; [rewrite F6; exact Hz|rewrite F8; exact Hs].
    + f_equal. eapply encode_error; [exact Hw| | |exact Hc|exact E]; [rewrite F6; exact Hz|rewrite F8; exact Hs].
    + exfalso. exact (proj2 (not_panic _) (output_values_no_panic prof (filled m) values (wire_presets _ Hw)) p E).
  - intros Hl Hset Hall. specialize (Hc Hset).
    destruct (accepts_encode prof (filled m) values Hw) as (d & Hd); try assumption.
    { rewrite F6; exact Hz. } { rewrite F8; exact Hs. } { rewrite F4; exact Hl. }
    { eapply Forall_impl; [|exact Hall]. intros v. apply F9. }
    exists d. destruct (encoded_words _ _ _ _ Hw Hd) as [L U]. split; [rewrite <- F3; exact Hd|]. split; [|exact U]. rewrite L.
    destruct m as [v ch|v ch| |ch|ch|ch|u ch|f ch|v f ch|f ch|u ch|ch|l ch| ]; try destruct v; try reflexivity. discriminate Hs.
Qed.

Lemma C97_write_message_all : forall prof l ch values, Forall rust_value values -> let m := MCOM l ch in
  ((forall o, values <> [ComRsOut o]) -> mod_process_output_values prof m values = Err ChannelValueError) /\
  (forall o, values = [ComRsOut o] ->
     ((payload_size l < length (ro_data o))%nat -> mod_process_output_values prof m values = Err BufferLength) /\
     ((length (ro_data o) <= payload_size l)%nat -> 3 < ro_tx_cnt o \/ 3 < ro_rx_cnt_ack o ->
        mod_process_output_values prof m values = Err SequenceNumber) /\
     ((length (ro_data o) <= payload_size l)%nat -> ro_tx_cnt o <= 3 -> ro_rx_cnt_ack o <= 3 ->
        exists words, mod_process_output_values prof m values = Ok words /\ length words = registers_out m /\ Forall is_u16 words)).
Proof.
  intros prof l ch values Hv m. split.
  - intros Hn. subst m. cbn [mod_process_output_values]. unfold com_process_output_values.
    destruct values as [|v [|v2 t]]; try reflexivity. cbn [length Nat.eqb negb index nth_error bind].
    destruct v; try reflexivity. exfalso. exact (Hn o eq_refl).
  - intros o ->. inversion Hv as [|? ? Ho _]. subst. cbn [rust_value] in Ho. destruct Ho as [Hic H8].
    destruct (C26_all l o Hic H8) as (S1 & _ & S3 & _).
    subst m. cbn [mod_process_output_values]. unfold com_process_output_values. cbn [length Nat.eqb negb index nth_error bind].
    assert (P : user_data_len l = payload_size l) by (destruct l; reflexivity). rewrite P. split; [|split].
    + intros L. apply Nat.ltb_lt in L. rewrite L. reflexivity.
    + intros L C. apply Nat.ltb_ge in L. rewrite L, (S1 C). reflexivity.
    + intros L C1 C2. destruct (S3 C1 C2 L) as (_ & W). destruct (W prof ch) as (words & E & Lw & Uw & _).
      cbn [mod_process_output_values] in E. unfold com_process_output_values in E. cbn [length Nat.eqb negb index nth_error bind] in E. rewrite P in E.
      exists words. split; [exact E|]. split; [|exact Uw]. cbn [registers_out]. destruct l; cbn [message_size] in *; lia.
Qed.

Lemma C97_write_nothing_all : forall prof m values, output_bytes m = 0%nat ->
  (length values = 0%nat \/ length values = channels m -> mod_process_output_values prof m values = Ok []) /\
  (length values <> 0%nat -> length values <> channels m -> mod_process_output_values prof m values = Err ChannelValueError).
Proof.
  intros prof m values Hz.
  assert (E : mod_process_output_values prof m values = default_process_output_values m values) by (destruct m as [| | | | | | | | | | | |l| ]; try discriminate Hz; try reflexivity; destruct l; discriminate Hz).
  rewrite E. unfold default_process_output_values, channels. split.
  - intros [->| ->]; [reflexivity|]. rewrite Nat.eqb_refl. rewrite andb_comm. reflexivity.
  - intros H1 H2. now rewrite (wrong_length _ _ H1), (wrong_length _ _ H2).
Qed.
