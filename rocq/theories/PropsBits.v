(** Property theorems C93: no bit of the output image is set without a meaning. *)
From Coq Require Import ZArith List Bool.
From Verif Require Import Base F32 Types Lib Com Fbc SpecCodec SpecSerial SpecCoupler SpecAnalog SpecImage SpecSystem SpecBits
  ProofsWitness ProofsSystem ProofsBits PropsShown PropsProtocol.
Import ListNotations.
Local Open Scope Z_scope.

(** C93: every bit that is set in the image returned by a successful cycle is one that has a meaning for some module with its
    output there, whatever the output image that was read and whatever was requested. *)
Theorem C93_bits : forall prof c input output c' image b t, reachable prof c -> cycle prof c input output c' (Ok image) ->
  bit (nth b (bytes_of_words image) 0) t = true ->
  exists i m o off, module_at c i m o /\ mo_output o = Some off /\ (first_byte 0x0800 off <= b)%nat /\
    output_bits m (b - first_byte 0x0800 off) t.
Proof. exact C93_bits_all. Qed.
Print Assumptions C93_bits.

(** C93: the message to a serial module is filled up with zeros behind the announced data. *)
Theorem C93_padding : forall prof c input output c' image i l ioff ooff, reachable prof c ->
  cycle prof c input output c' (Ok image) -> serial_at c i l ioff ooff ->
  exists status data, out_part l ooff image = status :: Z.of_nat (length data) :: data ++ repeat 0 (payload_size l - length data) /\
    (length data <= payload_size l)%nat.
Proof. exact C93_padding_all. Qed.
Print Assumptions C93_padding.

(** A digital output, an analog output with one disabled channel and a counter; all bits of the output image are set. *)
Definition noise_config : config := mk_config [UR20_4DO_P; UR20_4AO_UI_16; UR20_2FCNT_100]
  [0x8000; 0xFFFF; 0x8010; 0xFFFF; 0x8050; 0] [repeat 0 4; [0; 0; 0; 0; 8; 0; 0; 0; 0; 0; 0; 0]; repeat 0 2].
Definition noise0 : coupler := after no_coupler (coupler_new noise_config).
Definition noise_out : list Z := [0xFFFF; 0xFFFF; 0xFFFF; 0xFFFF; 0xFFFF; 0x7F; 0xFFFF; 0x7F; 0xFFFF; 0xFDFF; 0xFEFF].
Definition noise1 : coupler := fst (next Debug as_is as_is noise0 (repeat 0 10) noise_out).
Example C93_example : reachable Debug noise0 /\
  cycle Debug noise0 (repeat 0 10) noise_out noise1 (Ok [0x000F; 0xFFFF; 0; 0xFFFF; 0xFFFF; 0x7F; 0xFFFF; 0x7F; 0xFFFF; 0x0100; 0x0200]) /\
  (exists p o, module_at noise0 1 p o /\ mo_output o = Some 0x8010 /\ first_byte 0x0800 0x8010 = 2%nat /\ output_bits p 0 7 /\ ~ output_bits p 2 7) /\
  reachable Debug odd3 /\ cycle Debug odd3 odd_in1 z5 odd4 (Ok [0; 0x0658; 0x0201; 0x0403; 0x0605]) /\ serial_at odd6 1 EightBytes 0 0x8010 /\
  out_part EightBytes 0x8010 [0; 0x0358; 0x0807; 9; 0] = [0x58; 3; 7; 8; 9; 0; 0; 0].
Proof.
  pose proof C84_example as (_ & S & _ & _ & K & _ & C & _).
  split; [apply (start_reachable _ noise_config); vm_compute; reflexivity|]. split; [apply step_cycle; vm_compute; reflexivity|].
  split. { do 2 eexists. split; [split; vm_compute; reflexivity|]. split; [reflexivity|]. split; [reflexivity|].
           split; [do 2 eexists; split; [reflexivity|discriminate]|]. intros (r & f & E & N). vm_compute in E. apply N. congruence. }
  split; [|split; [exact C|split; [exact S|reflexivity]]].
  unfold odd3. apply R_write; [|repeat (apply Forall_cons; [split; [discriminate|reflexivity]|]); apply Forall_nil].
  unfold odd2, odd1, odd0.
  apply (cycle_reachable _ odd1 z4 z5 _ (Ok [0; 0x80; 0; 0; 0])); [|apply step_cycle; vm_compute; reflexivity|discriminate].
  apply (cycle_reachable _ odd0 z4 z5 _ (Ok [0; 3; 0; 0; 0])); [|apply step_cycle; vm_compute; reflexivity|discriminate].
  apply (start_reachable _ shown_config); vm_compute; reflexivity.
Qed.
