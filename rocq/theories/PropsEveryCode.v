(** Property theorems C111: every code of an analog output can be requested. *)
From Coq Require Import ZArith Reals Lra List Bool SpecFloat.
From Verif Require Import Base Facts F32 Types Lib Util Digital Analog Fcnt Com Fbc SpecCodec SpecSerial SpecCoupler SpecImage SpecAnalog SpecFeedback SpecGlitch SpecKeep SpecHold SpecEveryCode
  ProofsWitness ProofsReadback ProofsIdle ProofsEveryCode PropsHold.
Import ListNotations.
Local Open Scope Z_scope.

(** C111: a value whose exact code lies at least a hundredth of a step inside the step that begins at a code and leads away from
    zero is sent as that code, for both formats and all ranges. *)
Theorem C111_inside_a_step : forall m k r f base span x d c,
  analog_output m k = Some (r, f) -> base_span r = Some (base, span) -> sends m k (Decimal32 x) d ->
  f32_valid x = true -> finite x -> -32768 <= c <= 32767 ->
  inside c (exact_code base span (full_code f) (real x)) -> signed d = c.
Proof. exact C111_rule_all. Qed.
Print Assumptions C111_inside_a_step.

(** So for each of the 65536 codes there is a value that is sent as that code, and it differs from the exact value of the code by
    little more than half a step. *)
Theorem C111_every_code : forall m k r f base span d,
  all_analog_outputs m -> analog_output m k = Some (r, f) -> base_span r = Some (base, span) -> is_u16 d ->
  exists x, f32_valid x = true /\ finite x /\ sends m k (Decimal32 x) d /\
    (Rabs (exact_code base span (full_code f) (real x) - IZR (signed d)) <= 56 / 100)%R.
Proof. exact C111_every_all. Qed.
Print Assumptions C111_every_code.

(** And a coupler that has processed anything before accepts such a request, and the next successful cycle puts the code into the
    register of the channel, whatever the images of that cycle hold. *)
Theorem C111_on_the_wire : forall prof c i m o off k r f base span d,
  reachable prof c -> alone c i m o off -> analog_output m k = Some (r, f) -> base_span r = Some (base, span) -> is_u16 d ->
  exists x, f32_valid x = true /\ finite x /\
    (Rabs (exact_code base span (full_code f) (real x) - IZR (signed d)) <= 56 / 100)%R /\
    snd (set_output c (mk_address i k) (Decimal32 x)) = Ok tt /\
    forall input output c1 image, cycle prof (fst (set_output c (mk_address i k) (Decimal32 x))) input output c1 (Ok image) ->
      output_register image off k = Some d.
Proof. exact C111_wire_all. Qed.
Print Assumptions C111_on_the_wire.

(** The code 5548 on a channel 0 - 20 mA with format S7: the value reported for the code itself is sent as 5547, the value half a
    step above it as 5548. *)
Definition half_above : f32 := S754_finite false 8417280 (-21).
Definition every1 : coupler := fst (set_output drift0 (mk_address 0 0) (Decimal32 half_above)).
Example C111_example : reachable Debug drift0 /\ alone drift0 0 hold_module (mk_offset None (Some 0x8000)) 0x8000 /\
  all_analog_outputs hold_module /\ analog_output hold_module 0 = Some (UI_mA0To20, S7) /\ base_span UI_mA0To20 = Some (0, 20) /\
  f32_valid half_above = true /\ finite half_above /\ inside 5548 (exact_code 0 20 (full_code S7) (real half_above)) /\
  sends hold_module 0 (Decimal32 half_above) 5548 /\ rewrites hold_module [5548; 0; 0; 0] [5547; 0; 0; 0] /\
  cycle Debug every1 [] [0; 0; 0; 7] (hold_run every1 [0; 0; 0; 7]) (Ok [5548; 0; 0; 7]) /\ output_register [5548; 0; 0; 7] 0x8000 0 = Some 5548.
Proof.
  split; [apply C82_example|]. split; [apply C82_example|].
  split. { intros k. do 4 (destruct k as [|k]; [split; [discriminate|intros _; repeat constructor]|]). split.
           - intros H. do 4 apply le_S_n in H. inversion H.
           - intros H. exfalso. apply H. destruct k; reflexivity. }
  split; [reflexivity|]. split; [reflexivity|]. split; [reflexivity|]. split; [exact I|].
  split. { left. split; [discriminate|]. unfold exact_code, half_above. cbn [full_code real]. change (powerRZ 2 (-21)) with (/ 2 ^ 21)%R.
           replace (2 ^ 21)%R with 2097152%R by (cbn; lra). lra. }
  split; [apply (sends_run Debug _ [Decimal32 half_above; Disabled; Disabled; Disabled]); vm_compute; reflexivity|].
  split; [apply (rewrites_run Debug); vm_compute; reflexivity|].
  split; [apply step_cycle; vm_compute; reflexivity|reflexivity].
Qed.
