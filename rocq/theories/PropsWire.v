(** Property theorem C85: a cycle puts the requested values on the wire. *)
From Coq Require Import ZArith Reals List Bool Lia.
From Verif Require Import Base F32 Types Lib Util Digital Analog Fcnt Com Fbc SpecCodec SpecCoupler SpecAnalog SpecImage SpecKeep SpecLossless SpecWire
  ProofsWitness ProofsWire PropsFeedback.
Import ListNotations.
Local Open Scope Z_scope.

(** C85: In the image returned by a successful cycle, the registers of an output module that has its part of the image
    for itself carry, for every channel, the requested value, or the value shown by the coupler if nothing is requested;
    the request is used up. *)
Theorem C85_wire : forall prof c input output c' image i m o off, reachable prof c -> cycle prof c input output c' (Ok image) ->
  alone c i m o off -> forall k, (k < channels m)%nat ->
  requested c' (mk_address i k) = None /\
  exists v, match requested c (mk_address i k) with Some u => v = u | None => cell (outputs c') i k = Some v end /\
    carries m k v (registers_at 0x0800 image off).
Proof. exact C85_all. Qed.
Print Assumptions C85_wire.

(** The digital output, the counter and the analog output of C63, each with a request. *)
Definition feed_module (i : nat) : module := nth i (c_modules feed_start) MSIL.
Example C85_example : reachable Debug feed_start /\ cycle Debug feed_start feed_input z11 feed_1 (Ok feed_image) /\
  alone feed_start 0 (feed_module 0) (mk_offset None (Some 0x8000)) 0x8000 /\
  alone feed_start 1 (feed_module 1) (mk_offset (Some 0) (Some 0x8010)) 0x8010 /\
  alone feed_start 2 (feed_module 2) (mk_offset None (Some 0x8070)) 0x8070 /\
  requested feed_start (mk_address 0 2) = Some (Bit true) /\
  requested feed_start (mk_address 1 1) = Some (FcntOut (mk_fcnt_out (mk_duration 1 1999) (Some Start))) /\
  requested feed_start (mk_address 2 3) = Some (Decimal32 (f32_of_Z 7)) /\
  (** 1000001 microseconds are 15 * 65536 + 16961 *)
  registers_at 0x0800 feed_image 0x8010 = [0; 0; 15; 16961; 0; 256; 0; 0; 0; 5734] /\
  (** 7 mA of 20 mA with format S5: 16384 * 7 / 20 = 5734.4 *)
  reg (registers_at 0x0800 feed_image 0x8070) 3 = 5734 /\ analog_output (feed_module 2) 3 = Some (UI_mA0To20, S5).
Proof.
  pose proof C63_example as (R & C & _).
  assert (A : forall i, (i < 3)%nat -> forall m o off, nth_error (c_modules feed_start) i = Some m -> nth_error (c_offsets feed_start) i = Some o ->
    mo_output o = Some off -> is_serial m = false -> off mod 16 = 0 ->
    (forall j m' o' off', (i < j)%nat -> module_at feed_start j m' o' -> mo_output o' = Some off' ->
      ~ (first_byte 0x0800 off <= first_byte 0x0800 off' < first_byte 0x0800 off + output_bytes m)%nat) -> alone feed_start i m o off).
  { intros i _ m o off Hm Ho E S M L. split; [split; assumption|]. split; [exact E|]. split; [exact S|]. split; [left; exact M|exact L]. }
  assert (L : forall j m' o' off', module_at feed_start j m' o' -> mo_output o' = Some off' ->
    j = 0%nat \/ (j = 1%nat /\ off' = 0x8010) \/ (j = 2%nat /\ off' = 0x8070)).
  { intros j m' o' off' [Hm Ho] E.
    assert (Ef : c_offsets feed_start = [mk_offset None (Some 0x8000); mk_offset (Some 0) (Some 0x8010); mk_offset None (Some 0x8070)]) by (vm_compute; reflexivity).
    rewrite Ef in Ho. destruct j as [|[|[|j]]]; cbn [nth_error] in Ho.
    - auto.
    - injection Ho as <-. injection E as <-. auto.
    - injection Ho as <-. injection E as <-. auto.
    - destruct j; discriminate Ho. }
  split; [exact R|]. split; [exact C|].
  assert (F1 : first_byte 0x0800 0x8010 = 2%nat) by (vm_compute; reflexivity).
  assert (F2 : first_byte 0x0800 0x8070 = 14%nat) by (vm_compute; reflexivity).
  split. { apply A; [lia|vm_compute; reflexivity..|]. intros j m' o' off' Hj Hat E. destruct (L _ _ _ _ Hat E) as [->|[[-> ->]|[-> ->]]];
    [lia|rewrite F1|rewrite F2]; change (first_byte 0x0800 0x8000) with 0%nat; change (output_bytes (feed_module 0)) with 1%nat; lia. }
  split. { apply A; [lia|vm_compute; reflexivity..|]. intros j m' o' off' Hj Hat E. destruct (L _ _ _ _ Hat E) as [->|[[-> ->]|[-> ->]]];
    [lia|lia|rewrite F1, F2]; change (output_bytes (feed_module 1)) with 12%nat; lia. }
  split. { apply A; [lia|vm_compute; reflexivity..|]. intros j m' o' off' Hj Hat E. destruct (L _ _ _ _ Hat E) as [->|[[-> ->]|[-> ->]]]; lia. }
  split; [vm_compute; reflexivity|]. split; [vm_compute; reflexivity|]. split; [vm_compute; reflexivity|]. split; [vm_compute; reflexivity|].
  split; vm_compute; reflexivity.
Qed.
