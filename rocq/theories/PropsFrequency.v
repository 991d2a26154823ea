(** Property theorems C88: the frequencies of the counters. *)
From Coq Require Import ZArith Reals List Bool Lia SpecFloat.
From Verif Require Import Base F32 Types Lib Util Digital Analog Fcnt Com Fbc SpecCodec SpecCoupler SpecAnalog SpecImage SpecLossless SpecTerminal
  SpecFrequency ProofsWitness ProofsFrequency PropsTerminal.
Import ListNotations.
Local Open Scope Z_scope.

(** C88: the frequency of a counter shown by a coupler is the count over the period in its registers, up to [2 ^ -21] of the value;
    a period of [0x07FFFFFF] or more gives no frequency, and a period of zero an infinite one, or no number when nothing was counted. *)
Theorem C88_frequency : forall prof k period count i, counted prof k period count i ->
  (no_period <= period -> hertz i = None) /\
  (0 < period < no_period -> exists x, hertz i = Some x /\ within (/ 2097152) x (8000000 * IZR count / IZR period)) /\
  (period = 0 -> hertz i = Some (if count =? 0 then S754_nan else S754_infinity false)).
Proof. exact C88_value_all. Qed.
Print Assumptions C88_frequency.

(** C88: a counter that counted as much or more in the same or a shorter period never shows a lower frequency. *)
Theorem C88_frequency_order : forall prof k period count i prof' k' period' count' i' x x',
  counted prof k period count i -> counted prof' k' period' count' i' ->
  count <= count' -> period' <= period < no_period -> 0 < period' \/ 0 < count ->
  hertz i = Some x -> hertz i' = Some x' -> at_most x x'.
Proof. exact C88_shown_order_all. Qed.
Print Assumptions C88_frequency_order.

(** C88: the same for any two counter values whose durations are at most [2 ^ 24] seconds. *)
Theorem C88_hertz_order : forall i j d e x y, is_u32 (fi_count i) -> is_u32 (fi_count j) ->
  fi_duration i = Some d -> fi_duration j = Some e -> valid_duration d -> valid_duration e -> d_secs d <= 2 ^ 24 ->
  fi_count i <= fi_count j -> nanoseconds e <= nanoseconds d -> 0 < nanoseconds e \/ 0 < fi_count i ->
  hertz i = Some x -> hertz j = Some y -> at_most x y.
Proof. exact C88_order_all. Qed.
Print Assumptions C88_hertz_order.

(** The yard of C83, where the second counter now counted once more in a period shorter by a quarter. *)
Definition race_in : list Z := [0x0405; 0; 8000; 0; 77; 0; 6000; 0; 78; 0x0100; 0].
Definition race1 : coupler := fst (next Debug as_is as_is yard0 race_in yard_out).
Example C88_example :
  counted Debug 0 8000 77 (mk_fcnt_in (Some (mk_duration 0 1000000)) 77 true) /\
  counted Debug 1 6000 78 (mk_fcnt_in (Some (mk_duration 0 750000)) 78 false) /\
  counted Debug 1 134217728 65538 (mk_fcnt_in None 65538 false) /\
  (** 77 kHz and 104 kHz *)
  hertz (mk_fcnt_in (Some (mk_duration 0 1000000)) 77 true) = Some (f32_of_Z 77000) /\
  hertz (mk_fcnt_in (Some (mk_duration 0 750000)) 78 false) = Some (f32_of_Z 104000) /\
  hertz (mk_fcnt_in None 65538 false) = None.
Proof.
  assert (R0 : reachable Debug yard0) by (apply (start_reachable _ yard_config); vm_compute; reflexivity).
  assert (C1 : cycle Debug yard0 race_in yard_out race1 (Ok [15; 16961; 0; 0; 256; 512; 2])) by (apply step_cycle; vm_compute; reflexivity).
  assert (C2 : cycle Debug yard0 yard_in yard_out yard1 (Ok [15; 16961; 0; 0; 256; 512; 2])) by (apply step_cycle; vm_compute; reflexivity).
  assert (M : exists ch, yard_module 2 = MFCNT ch) by (eexists; vm_compute; reflexivity). destruct M as [ch M].
  assert (A : module_at yard0 2 (MFCNT ch) (mk_offset (Some 16) (Some 0x8000))) by (rewrite <- M; split; vm_compute; reflexivity).
  assert (G : placed 16 (input_bytes (MFCNT ch))) by (left; reflexivity).
  split; [exists yard0, race_in, yard_out, race1; do 5 eexists; split; [exact R0|]; split; [exact C1|]; split; [exact A|]; split; [reflexivity|];
          split; [exact G|]; split; [vm_compute; reflexivity|split; reflexivity]|].
  split; [exists yard0, race_in, yard_out, race1; do 5 eexists; split; [exact R0|]; split; [exact C1|]; split; [exact A|]; split; [reflexivity|];
          split; [exact G|]; split; [vm_compute; reflexivity|split; reflexivity]|].
  split; [exists yard0, yard_in, yard_out, yard1; do 5 eexists; split; [exact R0|]; split; [exact C2|]; split; [exact A|]; split; [reflexivity|];
          split; [exact G|]; split; [vm_compute; reflexivity|split; reflexivity]|].
  split; [vm_compute; reflexivity|]. split; [vm_compute; reflexivity|reflexivity].
Qed.
