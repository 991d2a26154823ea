(** Proofs about the frequency counter module: C23, C24. *)
From Coq Require Import ZArith List Bool Lia ZifyBool ZifyNat.
From Verif Require Import Base Facts F32 Types Lib Util Digital Fcnt Com Fbc SpecCodec ProofsCodec.
Import ListNotations.
Local Open Scope Z_scope.
Ltac Zify.zify_post_hook ::= Z.div_mod_to_equations.

Lemma u32_of_words_spec hi lo : is_u16 lo -> u32_of_words hi lo = word32 hi lo.
Proof.
  unfold is_u16, u32_of_words, word32. intros H. rewrite Z.lor_comm.
  rewrite lor_shiftl_add; lia.
Qed.

Lemma duration_gtb_spec d : valid_duration d ->
  duration_gtb d MAX_MEASUREMENT_DURATION = (max_preset <? nanoseconds d).
Proof.
  unfold valid_duration, is_u64, duration_gtb, MAX_MEASUREMENT_DURATION, max_preset, nanoseconds.
  cbn [d_secs d_nanos]. intros H. lia.
Qed.

Definition micros_of (d : duration) : Z := d_secs d * 1000000 + d_nanos d / 1000.
Definition control_of (c : option command) : Z :=
  match c with Some Start => 256 | Some Stop => 512 | None => 0 end.

Lemma micros_bound d : valid_duration d -> nanoseconds d <= max_preset -> 0 <= micros_of d <= 8388607.
Proof. unfold valid_duration, is_u64, nanoseconds, max_preset, micros_of. lia. Qed.

(** The micro seconds computed by the code, in either build profile. *)
Lemma micros_computed prof d : valid_duration d -> nanoseconds d <= max_preset ->
  (let? s := mul_u32 prof (as_u32 (d_secs d)) MICROS_PER_SEC in
   add_u32 prof s (subsec_micros d)) = Ok (micros_of d).
Proof.
  intros Hv Hm. pose proof (micros_bound d Hv Hm) as Hb.
  unfold valid_duration, is_u64, nanoseconds, max_preset in *.
  unfold mul_u32, add_u32, arith, as_u32, MICROS_PER_SEC, subsec_micros.
  replace (d_secs d mod 4294967296) with (d_secs d) by lia.
  replace ((0 <=? d_secs d * 1000000) && (d_secs d * 1000000 <? 4294967296)) with true by lia.
  cbn [bind]. fold (micros_of d).
  replace ((0 <=? micros_of d) && (micros_of d <? 4294967296)) with true by lia. reflexivity.
Qed.

Lemma land_ffff z : Z.land z 0xFFFF = z mod 65536.
Proof. change 0xFFFF with (2 ^ 16 - 1). apply land_pow2_mask. lia. Qed.

Lemma land_high z : 0 <= z < 4294967296 -> Z.shiftr (Z.land z 0xFFFF0000) 16 = z / 65536.
Proof.
  intros H. rewrite Z.shiftr_land. change (Z.shiftr 0xFFFF0000 16) with (2 ^ 16 - 1).
  rewrite land_pow2_mask by lia. rewrite Z.shiftr_div_pow2 by lia. change (2 ^ 16) with 65536. lia.
Qed.

Definition put (i : nat) (o : fcnt_out) (out : list Z) : outcome (list Z) :=
  let? out := store out (i * 2) (micros_of (fo_duration o) / 65536) in
  let? out := store out (i * 2 + 1) (micros_of (fo_duration o) mod 65536) in
  match fo_command o with
  | Some Start => store out (i + 4) 256
  | Some Stop => store out (i + 4) 512
  | None => Ok out
  end.

Lemma fcnt_encode_cons prof out i o t : valid_duration (fo_duration o) ->
  fcnt_encode prof out ((i, FcntOut o) :: t) =
  if max_preset <? nanoseconds (fo_duration o) then Err ChannelValueError
  else let? out := put i o out in fcnt_encode prof out t.
Proof.
  intros Hv. cbn [fcnt_encode]. rewrite duration_gtb_spec by exact Hv.
  destruct (Z.ltb_spec max_preset (nanoseconds (fo_duration o))) as [Hm|Hm]; [reflexivity|].
  pose proof (micros_computed prof (fo_duration o) Hv Hm) as Hc.
  pose proof (micros_bound (fo_duration o) Hv Hm) as Hb.
  destruct (mul_u32 prof (as_u32 (d_secs (fo_duration o))) MICROS_PER_SEC) as [s|e|p];
    cbn [bind] in Hc |- *; try discriminate.
  rewrite Hc. cbn [bind]. rewrite land_ffff, land_high by lia. unfold put, as_u16.
  replace (micros_of (fo_duration o) / 65536 mod 65536) with (micros_of (fo_duration o) / 65536) by lia.
  replace (micros_of (fo_duration o) mod 65536 mod 65536) with (micros_of (fo_duration o) mod 65536) by lia.
  destruct (store out (i * 2) (micros_of (fo_duration o) / 65536)) as [o1|e|p]; cbn [bind]; try reflexivity.
  destruct (store o1 (i * 2 + 1) (micros_of (fo_duration o) mod 65536)) as [o2|e|p]; cbn [bind]; try reflexivity.
Qed.

(** The six words of two presets. *)
Definition preset_words (a b : fcnt_out) : list Z :=
  [micros_of (fo_duration a) / 65536; micros_of (fo_duration a) mod 65536;
   micros_of (fo_duration b) / 65536; micros_of (fo_duration b) mod 65536;
   control_of (fo_command a); control_of (fo_command b)].

Definition value_ok (v : channel_value) : Prop :=
  forall o, v = FcntOut o -> valid_duration (fo_duration o).
Definition accepts (v : channel_value) : Prop :=
  exists o, preset v = Some o /\ nanoseconds (fo_duration o) <= max_preset.

Definition zero_out : fcnt_out := mk_fcnt_out (mk_duration 0 0) None.

Lemma encode_two prof v1 v2 : value_ok v1 -> value_ok v2 ->
  fcnt_encode prof (repeat 0 6) (enumerate [v1; v2]) =
  match preset v1, preset v2 with
  | Some a, Some b =>
      if (max_preset <? nanoseconds (fo_duration a)) || (max_preset <? nanoseconds (fo_duration b))
      then Err ChannelValueError else Ok (preset_words a b)
  | _, _ => Err ChannelValueError
  end.
Proof.
  intros H1 H2. unfold enumerate. cbn [enumerate_from].
  assert (Hd : forall out i t, fcnt_encode prof out ((i, Disabled) :: t) = fcnt_encode prof out t)
    by reflexivity.
  assert (Hz : max_preset <? nanoseconds (mk_duration 0 0) = false) by reflexivity.
  destruct v1 as [?|?|?|?|?|a|?|?| |]; cbn [preset fo_duration]; try reflexivity.
  - rewrite fcnt_encode_cons by (apply H1; reflexivity).
    destruct (max_preset <? nanoseconds (fo_duration a)) eqn:E1.
    { destruct v2; reflexivity. }
    assert (Hp : put 0 a (repeat 0 6) = Ok [micros_of (fo_duration a) / 65536; micros_of (fo_duration a) mod 65536; 0; 0; control_of (fo_command a); 0]).
    { unfold put. destruct (fo_command a) as [[|]|]; reflexivity. }
    rewrite Hp. cbn [bind].
    destruct v2 as [?|?|?|?|?|b|?|?| |]; cbn [preset fo_duration]; try reflexivity.
    rewrite fcnt_encode_cons by (apply H2; reflexivity).
      destruct (max_preset <? nanoseconds (fo_duration b)) eqn:E2; [reflexivity|].
      cbn [orb]. unfold put, preset_words. destruct (fo_command b) as [[|]|]; reflexivity.
  - rewrite Hd, Hz. cbn [orb].
    destruct v2 as [?|?|?|?|?|b|?|?| |]; cbn [preset fo_duration]; try reflexivity.
    rewrite fcnt_encode_cons by (apply H2; reflexivity).
      destruct (max_preset <? nanoseconds (fo_duration b)) eqn:E2; [reflexivity|].
      cbn [orb]. unfold put, preset_words. destruct (fo_command b) as [[|]|]; reflexivity.
Qed.

Lemma fcnt_values_cases prof ch values : length ch = 2%nat ->
  mod_process_output_values prof (MFCNT ch) values =
  match values with
  | [v1; v2] => fcnt_encode prof (repeat 0 6) (enumerate [v1; v2])
  | _ => Err ChannelValueError
  end.
Proof.
  intros Hc. cbn [mod_process_output_values]. unfold fcnt_process_output_values.
  cbn [channel_count]. rewrite Hc. destruct values as [|v1 [|v2 [|v3 values]]]; reflexivity.
Qed.

Lemma duration_from_micros d : valid_duration d -> nanoseconds d <= max_preset ->
  duration_from_nanos (micros_of d * 1000) = truncated_to_micros d.
Proof.
  destruct d as [s n]. unfold valid_duration, is_u64, nanoseconds, max_preset, micros_of,
    duration_from_nanos, truncated_to_micros. cbn [d_secs d_nanos]. intros H1 H2.
  f_equal; lia.
Qed.

Lemma control_decode c :
  (if test_bit_16 (control_of c) 8 then Some Start else if test_bit_16 (control_of c) 9 then Some Stop else None)
  = c.
Proof. destruct c as [[|]|]; reflexivity. Qed.

Lemma decode_presets a b :
  valid_duration (fo_duration a) -> nanoseconds (fo_duration a) <= max_preset ->
  valid_duration (fo_duration b) -> nanoseconds (fo_duration b) <= max_preset ->
  fcnt_process_output_data (preset_words a b) =
  Ok [FcntOut (mk_fcnt_out (truncated_to_micros (fo_duration a)) (fo_command a));
      FcntOut (mk_fcnt_out (truncated_to_micros (fo_duration b)) (fo_command b))].
Proof.
  intros Va Ma Vb Mb. pose proof (micros_bound _ Va Ma) as Ba. pose proof (micros_bound _ Vb Mb) as Bb.
  unfold fcnt_process_output_data, preset_words.
  cbn [length Nat.eqb negb traverse seq Nat.mul Nat.add index nth_error bind].
  rewrite !control_decode. rewrite !u32_of_words_spec by (unfold is_u16; lia). unfold word32.
  replace (micros_of (fo_duration a) / 65536 * 65536 + micros_of (fo_duration a) mod 65536)
    with (micros_of (fo_duration a)) by lia.
  replace (micros_of (fo_duration b) / 65536 * 65536 + micros_of (fo_duration b) mod 65536)
    with (micros_of (fo_duration b)) by lia.
  rewrite !duration_from_micros by assumption. reflexivity.
Qed.

Lemma preset_words_u16 a b :
  valid_duration (fo_duration a) -> nanoseconds (fo_duration a) <= max_preset ->
  valid_duration (fo_duration b) -> nanoseconds (fo_duration b) <= max_preset ->
  length (preset_words a b) = 6%nat /\ Forall is_u16 (preset_words a b).
Proof.
  intros Va Ma Vb Mb. pose proof (micros_bound _ Va Ma) as Ba. pose proof (micros_bound _ Vb Mb) as Bb.
  split; [reflexivity|]. unfold preset_words, is_u16.
  repeat apply Forall_cons; try apply Forall_nil; try lia;
    [destruct (fo_command a) as [[|]|]|destruct (fo_command b) as [[|]|]]; cbn [control_of]; lia.
Qed.

Lemma C23_all : forall prof ch values, length ch = 2%nat -> Forall valid_preset values ->
  (forall v1 v2 a b, values = [v1; v2] -> preset v1 = Some a -> preset v2 = Some b ->
     nanoseconds (fo_duration a) <= max_preset -> nanoseconds (fo_duration b) <= max_preset ->
     exists words, mod_process_output_values prof (MFCNT ch) values = Ok words /\
       length words = 6%nat /\ Forall is_u16 words /\
       mod_process_output_data (MFCNT ch) words =
       Ok [FcntOut (mk_fcnt_out (truncated_to_micros (fo_duration a)) (fo_command a));
           FcntOut (mk_fcnt_out (truncated_to_micros (fo_duration b)) (fo_command b))]) /\
  (forall v o, In v values -> preset v = Some o -> max_preset < nanoseconds (fo_duration o) ->
     mod_process_output_values prof (MFCNT ch) values = Err ChannelValueError) /\
  ((length values <> 2%nat \/ exists v, In v values /\ preset v = None) ->
     mod_process_output_values prof (MFCNT ch) values = Err ChannelValueError) /\
  (forall p, mod_process_output_values prof (MFCNT ch) values <> Panic p).
Proof.
  intros prof ch values Hc Hv. rewrite fcnt_values_cases by exact Hc.
  destruct values as [|v1 [|v2 [|v3 values]]];
    try (split; [intros; discriminate|]; split; [reflexivity|]; split; [reflexivity|discriminate]).
  assert (H1 : value_ok v1).
  { intros o ->. inversion Hv as [|? ? Hx _]; subst. exact Hx. }
  assert (H2 : value_ok v2).
  { intros o ->. inversion Hv as [|? ? _ Hx]; subst. inversion Hx as [|? ? Hy _]; subst. exact Hy. }
  assert (Hp : forall v o, value_ok v -> preset v = Some o -> valid_duration (fo_duration o)).
  { intros v o Hk He. destruct v; try discriminate; apply Some_inj in He; subst.
    - apply Hk. reflexivity.
    - cbn [fo_duration]. unfold valid_duration, is_u64. cbn [d_secs d_nanos]. lia. }
  rewrite encode_two by assumption. split; [|split; [|split]].
  - intros w1 w2 a b He Ha Hb Ma Mb. injection He as <- <-. rewrite Ha, Hb.
    replace (max_preset <? nanoseconds (fo_duration a)) with false by lia.
    replace (max_preset <? nanoseconds (fo_duration b)) with false by lia. cbn [orb].
    eexists. split; [reflexivity|].
    pose proof (Hp v1 a H1 Ha) as Va. pose proof (Hp v2 b H2 Hb) as Vb.
    destruct (preset_words_u16 a b Va Ma Vb Mb) as [Hl Hu].
    split; [exact Hl|]. split; [exact Hu|]. cbn [mod_process_output_data].
    apply decode_presets; assumption.
  - intros v o Hin He Hm. destruct Hin as [<-|[<-|[]]]; rewrite He.
    + destruct (preset v2); [|reflexivity]. replace (max_preset <? nanoseconds (fo_duration o)) with true by lia.
      reflexivity.
    + destruct (preset v1); [|reflexivity]. replace (max_preset <? nanoseconds (fo_duration o)) with true by lia.
      rewrite orb_true_r. reflexivity.
  - intros [Hl|(v & Hin & He)]; [contradiction|]. destruct Hin as [<-|[<-|[]]]; rewrite He.
    + destruct (preset v2); reflexivity.
    + destruct (preset v1); reflexivity.
  - intros p. destruct (preset v1), (preset v2); try discriminate.
    match goal with |- context [if ?c then _ else _] => destruct c end; discriminate.
Qed.

(** *** C24 *)

Definition counter_input (dh dl ch cl active : Z) : channel_value :=
  FcntIn (mk_fcnt_in
    (if 0x07FFFFFF <=? word32 dh dl then None
     else Some (mk_duration (125 * word32 dh dl / 1000000000) (125 * word32 dh dl mod 1000000000)))
    (word32 ch cl) (bit active 8)).

Lemma fcnt_input_words ch a0 a1 a2 a3 b0 b1 b2 b3 c0 c1 :
  length ch = 2%nat -> Forall is_u16 [a0; a1; a2; a3; b0; b1; b2; b3; c0; c1] ->
  mod_process_input_data (MFCNT ch) [a0; a1; a2; a3; b0; b1; b2; b3; c0; c1] =
  Ok [counter_input a0 a1 a2 a3 c0; counter_input b0 b1 b2 b3 c1].
Proof.
  intros Hc Hu. cbn [mod_process_input_data]. unfold fcnt_process_input_data. rewrite Hc.
  cbn [length Nat.eqb negb traverse seq Nat.mul Nat.add index nth_error bind].
  repeat match goal with H : Forall is_u16 (_ :: _) |- _ => inversion H; subst; clear H end.
  rewrite !u32_of_words_spec by assumption. rewrite !test_bit_16_spec by lia.
  unfold counter_input, MAX_MEASUREMENT_PERIOD, duration_from_nanos.
  rewrite (Z.mul_comm (word32 a0 a1) 125), (Z.mul_comm (word32 b0 b1) 125). reflexivity.
Qed.

Lemma C24_all : forall ch data, length ch = 2%nat -> Forall is_u16 data ->
  (length data <> 10%nat -> mod_process_input_data (MFCNT ch) data = Err BufferLength) /\
  (length data = 10%nat -> exists i0 i1,
     mod_process_input_data (MFCNT ch) data = Ok [FcntIn i0; FcntIn i1] /\
     forall k i, (k = 0%nat /\ i = i0) \/ (k = 1%nat /\ i = i1) ->
       let raw := word32 (nth (4 * k) data 0) (nth (4 * k + 1) data 0) in
       fi_count i = word32 (nth (4 * k + 2) data 0) (nth (4 * k + 3) data 0) /\
       fi_active i = bit (nth (8 + k) data 0) 8 /\
       (fi_duration i = None <-> 0x07FFFFFF <= raw) /\
       (forall d, fi_duration i = Some d -> valid_duration d /\ nanoseconds d = 125 * raw)).
Proof.
  intros ch data Hc Hu. split.
  - intros Hl. cbn [mod_process_input_data]. unfold fcnt_process_input_data.
    destruct (Nat.eqb_spec (length data) 10); [contradiction|reflexivity].
  - intros Hl. do 10 (destruct data as [|? data]; [discriminate|]). destruct data; [|discriminate].
    rewrite fcnt_input_words by assumption. eexists. eexists. split; [reflexivity|].
    intros k i Hk.
    assert (Hgen : forall dh dl c1 c2 a, is_u16 dh -> is_u16 dl ->
      forall i, FcntIn i = counter_input dh dl c1 c2 a ->
      fi_count i = word32 c1 c2 /\ fi_active i = bit a 8 /\
      (fi_duration i = None <-> 0x07FFFFFF <= word32 dh dl) /\
      (forall d, fi_duration i = Some d -> valid_duration d /\ nanoseconds d = 125 * word32 dh dl)).
    { intros dh dl c1 c2 a Hh Hl' j Hj. unfold counter_input in Hj. assert (Hj' : j = mk_fcnt_in
        (if 0x07FFFFFF <=? word32 dh dl then None
         else Some (mk_duration (125 * word32 dh dl / 1000000000) (125 * word32 dh dl mod 1000000000)))
        (word32 c1 c2) (bit a 8)) by congruence. clear Hj. subst j. cbn [fi_count fi_active fi_duration].
      split; [reflexivity|]. split; [reflexivity|].
      unfold is_u16, word32, valid_duration, is_u64, nanoseconds in *.
      destruct (Z.leb_spec 0x07FFFFFF (dh * 65536 + dl)) as [Hr|Hr].
      - split; [split; [intros _; exact Hr|reflexivity]|discriminate].
      - split; [split; [discriminate|lia]|]. intros d Hd. apply Some_inj in Hd. subst d.
        cbn [d_secs d_nanos]. lia. }
    repeat match goal with H : Forall is_u16 (_ :: _) |- _ => inversion H; subst; clear H end.
    destruct Hk as [[-> ->]|[-> ->]]; cbn [Nat.mul Nat.add nth];
      (eapply Hgen; [| |reflexivity]; assumption).
Qed.
