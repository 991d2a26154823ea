(** Proofs about the values a coupler shows for what is at the terminals (C83). *)
From Coq Require Import ZArith Reals List Bool Lia SpecFloat ZifyBool ZifyNat.
From Verif Require Import Base F32 Types Lib Util Digital Analog Fcnt Com Fbc Facts SpecCodec SpecCoupler SpecAnalog SpecResolution SpecImage SpecLossless SpecTerminal
  ProofsCodec ProofsFcnt ProofsSerialCodec ProofsAnalog ProofsModule ProofsImage ProofsDigital ProofsCycle ProofsCoupler ProofsResolution ProofsLossless.
Import ListNotations.
Local Open Scope Z_scope.
Ltac Zify.zify_post_hook ::= Z.div_mod_to_equations.

Lemma reg_nth data k d : nth_error data k = Some d -> reg data k = d.
Proof. intros H. unfold reg. apply nth_error_nth. exact H. Qed.

Lemma input_terminal m data vs k v : complete m -> Forall is_u16 data -> length data = word_count (input_bytes m) ->
  is_serial m = false -> mod_process_input_data m data = Ok vs -> nth_error vs k = Some v -> physical_input m k data v.
Proof.
  intros Hm Hu Hl Hs H Hv.
  pose proof (input_length _ _ _ Hm H) as Lv. pose proof (nth_error_Some_lt _ _ _ Hv) as Hk. rewrite Lv in Hk.
  assert (HD : (k < length data)%nat -> exists d, reg data k = d /\ is_u16 d /\ shows m k d v).
  { intros Hd. destruct (nth_error_lt_Some data k Hd) as (d & Ed). exists d. split; [exact (reg_nth _ _ _ Ed)|].
    split; [exact (proj1 (Forall_forall _ _) Hu _ (nth_error_In _ _ Ed))|]. exists data, vs. auto. }
  assert (HA : forall r f, (k < length data)%nat -> analog_input m k = Some (r, f) -> physical_analog r f (reg data k) v).
  { intros r f Hd Ea. destruct (HD Hd) as (d & -> & Ud & S). exact (C16_all m k d v r f (or_introl (conj Ea S)) Ud). }
  destruct m as [w ch|w ch| |ch|ch|ch|t ch|f ch|w f ch|f ch|t ch|ch|l ch| ]; try discriminate Hs;
    cbn [mod_process_input_data] in H; cbn [input_bytes] in Hl; change (word_count 0) with 1%nat in Hl; change (word_count 1) with 1%nat in Hl;
    change (word_count 4) with 2%nat in Hl; change (word_count 8) with 4%nat in Hl; change (word_count 16) with 8%nat in Hl; change (word_count 20) with 10%nat in Hl;
    cbn [complete] in Hm;
    try (exfalso; unfold default_process_data in H; destruct data; [discriminate Hl|discriminate H]); cbn [physical_input].
  - destruct data as [|x [|]]; try discriminate Hl. destruct (C13_all (MDI w ch) (channels (MDI w ch))) as [Hd _].
    destruct Hd as (_ & Hd & _); [destruct w; reflexivity|]. destruct (Hd x) as (vs' & E & _ & HB). cbn [mod_process_input_data] in E. rewrite H in E. apply Ok_inj in E. subst vs'.
    rewrite (HB k) in Hv by exact Hk. apply Some_inj in Hv. subst v. reflexivity.
  - assert (k < 4)%nat as K by (exact Hk). destruct (nth_error_lt_Some ch k) as (p & Ep); [lia|]. exists p. split; [exact Ep|].
    destruct (HD ltac:(lia)) as (d & -> & Ud & S). exact (C21_all _ _ _ _ _ _ Ep S Ud).
  - assert (k < 4)%nat as K by (exact Hk). destruct (nth_error_lt_Some ch k) as (p & Ep); [lia|]. 
    exists (aid_range p), (aid_format p). assert (E : analog_input (MUI16DIAG f ch) k = Some (aid_range p, aid_format p)) by (cbn [analog_input]; rewrite Ep; reflexivity).
    split; [exact E|]. apply HA; [lia|exact E].
  - assert (k < 4)%nat as K by (destruct w; exact Hk). destruct (nth_error_lt_Some ch k) as (p & Ep); [lia|]. 
    exists (aiu_range p), (aiu_format p). assert (E : analog_input (MAIUI w f ch) k = Some (aiu_range p, aiu_format p)) by (cbn [analog_input]; rewrite Ep; reflexivity).
    split; [exact E|]. apply HA; [lia|exact E].
  - assert (k < 8)%nat as K by (exact Hk). destruct (nth_error_lt_Some ch k) as (p & Ep); [lia|]. 
    exists (current_range (aii_range p)), (aii_format p).
    assert (E : analog_input (M8AI f ch) k = Some (current_range (aii_range p), aii_format p)) by (cbn [analog_input]; rewrite Ep; reflexivity).
    split; [exact E|]. apply HA; [lia|exact E].
  - assert (k < 4)%nat as K by (exact Hk). destruct (nth_error_lt_Some ch k) as (p & Ep); [lia|]. exists p. split; [exact Ep|].
    destruct (HD ltac:(lia)) as (d & -> & Ud & S). exact (C22_all _ _ _ _ _ _ Ep S Ud).
  - destruct (C24_all ch data Hm Hu) as [_ HC]. destruct (HC Hl) as (i0 & i1 & E & HK). cbn [mod_process_input_data] in E. rewrite H in E. apply Ok_inj in E. subst vs.
    destruct k as [|[|k]]; cbn [nth_error] in Hv.
    + apply Some_inj in Hv. subst v. exists i0. split; [reflexivity|]. exact (HK 0%nat i0 ltac:(auto)).
    + apply Some_inj in Hv. subst v. exists i1. split; [reflexivity|]. exact (HK 1%nat i1 ltac:(auto)).
    + destruct k; discriminate Hv.
  - destruct data as [|w0 [|w1 [|]]]; try discriminate Hl. pose proof (proj2 C15_all w0 w1 (Forall_inv Hu)) as E. cbn [mod_process_input_data] in E. rewrite H in E.
    apply Ok_inj in E. subst vs. destruct k as [|[|k]]; try discriminate Hv. apply Some_inj in Hv. subst v. reflexivity.
Qed.

Lemma preset_time h l : is_u16 h -> is_u16 l -> valid_duration (duration_from_nanos (u32_of_words h l * 1000)) /\
  nanoseconds (duration_from_nanos (u32_of_words h l * 1000)) = 1000 * word32 h l.
Proof.
  intros Hh Hl. rewrite u32_of_words_spec by assumption. unfold duration_from_nanos, valid_duration, nanoseconds, word32, is_u64, is_u16 in *. cbn [d_secs d_nanos]. lia.
Qed.

Lemma output_terminal m data vs k v : complete m -> Forall is_u16 data -> length data = word_count (output_bytes m) ->
  is_serial m = false -> mod_process_output_data m data = Ok vs -> nth_error vs k = Some v -> physical_output m k data v.
Proof.
  intros Hm Hu Hl Hs H Hv.
  pose proof (output_length _ _ _ H) as Lv. pose proof (nth_error_Some_lt _ _ _ Hv) as Hk. rewrite Lv in Hk.
  assert (HA : forall r f, (k < length data)%nat -> analog_output m k = Some (r, f) -> physical_analog r f (reg data k) v).
  { intros r f Hd Ea. destruct (nth_error_lt_Some data k Hd) as (d & Ed). rewrite (reg_nth _ _ _ Ed). apply (C16_all m k d v r f).
    - right. split; [exact Ea|]. exists data, vs. auto.
    - exact (proj1 (Forall_forall _ _) Hu _ (nth_error_In _ _ Ed)). }
  assert (HB : digital_outputs m = Some (channels m) -> length data = 1%nat -> v = Bit (bit (reg data 0) k)).
  { intros Ed L. destruct data as [|x [|]]; try discriminate L. destruct (C13_all m (channels m)) as [_ Hd].
    destruct (Hd Ed) as (_ & Hd' & _). destruct (Hd' x) as (vs' & E & _ & HB). rewrite H in E. apply Ok_inj in E. subst vs'.
    rewrite (HB k) in Hv by exact Hk. apply Some_inj in Hv. subst v. reflexivity. }
  destruct m as [w ch|w ch| |ch|ch|ch|t ch|f ch|w f ch|f ch|t ch|ch|l ch| ]; try discriminate Hs;
    cbn [mod_process_output_data] in H; cbn [output_bytes] in Hl; change (word_count 0) with 1%nat in Hl; change (word_count 1) with 1%nat in Hl;
    change (word_count 2) with 1%nat in Hl; change (word_count 8) with 4%nat in Hl; change (word_count 12) with 6%nat in Hl;
    cbn [complete] in Hm;
    try (exfalso; unfold ai_ui_diag_process_output_data, default_process_data in H; destruct data; [discriminate Hl|discriminate H]); cbn [physical_output].
  - apply HB; [destruct w; reflexivity|exact Hl].
  - apply HB; [reflexivity|exact Hl].
  - apply HB; [reflexivity|exact Hl].
  - assert (k < 4)%nat as K by (exact Hk). destruct (nth_error_lt_Some ch k) as (p & Ep); [lia|]. 
    exists (ao_range p), (ao_format p). assert (E : analog_output (M4AO ch) k = Some (ao_range p, ao_format p)) by (cbn [analog_output]; rewrite Ep; reflexivity).
    split; [exact E|]. apply HA; [lia|exact E].
  - assert (k < 4)%nat as K by (exact Hk). destruct (nth_error_lt_Some ch k) as (p & Ep); [lia|]. 
    exists (aod_range p), (aod_format p). assert (E : analog_output (M4AODIAG ch) k = Some (aod_range p, aod_format p)) by (cbn [analog_output]; rewrite Ep; reflexivity).
    split; [exact E|]. apply HA; [lia|exact E].
  - unfold fcnt_process_output_data in H. destruct (negb _) eqn:La in H; [discriminate|]. clear La.
    pose proof (fun j => reg_u16 data j Hu) as Ra.
    destruct data as [|a0 [|a1 [|a2 [|a3 [|a4 [|a5 [|a6 a]]]]]]]; try discriminate Hl.
    cbn [traverse seq Nat.mul Nat.add index nth_error bind] in H. apply Ok_inj in H. subst vs.
    rewrite !test_bit_16_spec in Hv by lia.
    destruct k as [|[|k]]; cbn [nth_error] in Hv.
    + apply Some_inj in Hv. subst v. exists (duration_from_nanos (u32_of_words a0 a1 * 1000)).
      destruct (preset_time a0 a1 (Ra 0%nat) (Ra 1%nat)) as [P1 P2]. split; [exact P1|]. split; [exact P2|]. reflexivity.
    + apply Some_inj in Hv. subst v. exists (duration_from_nanos (u32_of_words a2 a3 * 1000)).
      destruct (preset_time a2 a3 (Ra 2%nat) (Ra 3%nat)) as [P1 P2]. split; [exact P1|]. split; [exact P2|]. reflexivity.
    + destruct k; discriminate Hv.
Qed.

(** Only the registers of the module matter. *)
Lemma input_registers m k a b v : complete m -> (k < shown_inputs m)%nat -> (forall j, (j < word_count (input_bytes m))%nat -> reg a j = reg b j) ->
  physical_input m k a v -> physical_input m k b v.
Proof.
  intros Hm Hk HR.
  destruct m as [w ch|w ch| |ch|ch|ch|t ch|f ch|w f ch|f ch|t ch|ch|l ch| ]; cbn [input_bytes physical_input] in *; try contradiction;
    change (word_count 1) with 1%nat in HR; change (word_count 4) with 2%nat in HR; change (word_count 8) with 4%nat in HR; change (word_count 16) with 8%nat in HR;
    change (word_count 20) with 10%nat in HR.
  - rewrite (HR 0%nat) by lia. auto.
  - rewrite (HR k) by exact Hk. auto.
  - rewrite (HR k) by exact Hk. auto.
  - rewrite (HR k) by (destruct w; exact Hk). auto.
  - rewrite (HR k) by exact Hk. auto.
  - rewrite (HR k) by exact Hk. auto.
  - assert (k < 2)%nat by exact Hk. cbv zeta. rewrite (HR (4 * k)%nat), (HR (4 * k + 1)%nat), (HR (4 * k + 2)%nat), (HR (4 * k + 3)%nat), (HR (8 + k)%nat) by lia. auto.
  - cbv zeta. rewrite (HR 0%nat) by lia. auto.
Qed.

Lemma output_registers m k a b v : complete m -> (k < channels m)%nat -> (forall j, (j < word_count (output_bytes m))%nat -> reg a j = reg b j) ->
  physical_output m k a v -> physical_output m k b v.
Proof.
  intros Hm Hk HR.
  destruct m as [w ch|w ch| |ch|ch|ch|t ch|f ch|w f ch|f ch|t ch|ch|l ch| ]; cbn [output_bytes physical_output] in *; try contradiction;
    change (word_count 1) with 1%nat in HR; change (word_count 2) with 1%nat in HR; change (word_count 8) with 4%nat in HR; change (word_count 12) with 6%nat in HR.
  - rewrite (HR 0%nat) by lia. auto.
  - rewrite (HR 0%nat) by lia. auto.
  - rewrite (HR 0%nat) by lia. auto.
  - rewrite (HR k) by exact Hk. auto.
  - rewrite (HR k) by exact Hk. auto.
  - assert (k < 2)%nat by exact Hk. rewrite (HR (2 * k)%nat), (HR (2 * k + 1)%nat), (HR (4 + k)%nat) by lia. auto.
Qed.

Lemma C83_inputs_all : forall prof c input output c' image i m o off, reachable prof c -> cycle prof c input output c' (Ok image) ->
  module_at c i m o -> is_serial m = false -> mo_input o = Some off -> placed off (input_bytes m) ->
  exists row, nth_error (inputs c') i = Some row /\ length row = shown_inputs m /\
    forall k v, nth_error row k = Some v -> physical_input m k (registers_at 0 input off) v.
Proof.
  intros prof c input output c' image i m o off Hr H Hat Hs Eo P.
  assert (Hm : complete m) by (apply (ok_complete c i m o (reachable_ok _ _ Hr)); apply infos_at; exact Hat).
  destruct (shown_rows _ _ _ _ _ _ _ _ _ Hr H Hat Hs) as (_ & (O1 & _) & Hu & _ & iv & ov & N1 & _ & R1 & _).
  cbn [snd] in O1. specialize (O1 off Eo). exists iv. split; [exact N1|].
  unfold input_row in R1. cbn [fst snd] in R1. rewrite Eo in R1. apply bind_ok in R1. destruct R1 as (raw & Q1 & R1).
  destruct (prepared _ _ _ _ _ _ O1 (low_base _ O1) Hu P Q1) as (U1 & L1 & K1).
  assert (L : length iv = shown_inputs m) by exact (input_length _ _ _ Hm R1). split; [exact L|].
  intros k v Hv. apply (input_registers m k raw); [exact Hm| | |].
  - rewrite <- L. exact (nth_error_Some_lt _ _ _ Hv).
  - intros j Hj. exact (prefix_reg _ _ _ j K1 Hj).
  - exact (input_terminal m raw iv k v Hm U1 L1 Hs R1 Hv).
Qed.

Lemma C83_outputs_all : forall prof c input output c' image i m o off, reachable prof c -> cycle prof c input output c' (Ok image) ->
  module_at c i m o -> is_serial m = false -> mo_output o = Some off -> 0x8000 <= off -> placed off (output_bytes m) ->
  exists row, nth_error (outputs c') i = Some row /\ length row = channels m /\
    forall k v, nth_error row k = Some v -> physical_output m k (registers_at 0x0800 output off) v.
Proof.
  intros prof c input output c' image i m o off Hr H Hat Hs Eo B P.
  assert (Hm : complete m) by (apply (ok_complete c i m o (reachable_ok _ _ Hr)); apply infos_at; exact Hat).
  destruct (shown_rows _ _ _ _ _ _ _ _ _ Hr H Hat Hs) as (_ & (_ & O1) & _ & Hu & iv & ov & _ & N1 & _ & R1).
  cbn [snd] in O1. specialize (O1 off Eo). exists ov. split; [exact N1|].
  unfold output_row in R1. cbn [fst snd] in R1. rewrite Eo in R1. apply bind_ok in R1. destruct R1 as (raw & Q1 & R1).
  destruct (prepared _ _ _ _ _ _ O1 (high_base _ B) Hu P Q1) as (U1 & L1 & K1).
  assert (L : length ov = channels m) by exact (output_length _ _ _ R1). split; [exact L|].
  intros k v Hv. apply (output_registers m k raw); [exact Hm| | |].
  - rewrite <- L. exact (nth_error_Some_lt _ _ _ Hv).
  - intros j Hj. exact (prefix_reg _ _ _ j K1 Hj).
  - exact (output_terminal m raw ov k v Hm U1 L1 Hs R1 Hv).
Qed.
