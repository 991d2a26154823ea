(** Property theorem C87: a program that copies inputs to outputs reproduces the signals. *)
From Coq Require Import ZArith List Bool Lia.
From Verif Require Import ProofsDrift Base F32 Types Lib Util Digital Analog Fcnt Com Fbc SpecCodec SpecCoupler SpecAnalog SpecImage SpecKeep SpecLossless SpecMirror
  ProofsWitness ProofsMirror.
Import ListNotations.
Local Open Scope Z_scope.

(** C87: A value [v] shown for an input channel after a cycle of one coupler and requested for an output channel in a
    cycle of the same or of another coupler: the output register is that of the input. *)
Theorem C87_copy : forall prof c input output d image i m o off k v prof' c' input' output' d' image' i' m' o' off' k',
  reachable prof c -> cycle prof c input output d (Ok image) ->
  module_at c i m o -> mo_input o = Some off -> placed off (input_bytes m) -> cell (inputs d) i k = Some v ->
  reachable prof' c' -> cycle prof' c' input' output' d' (Ok image') ->
  alone c' i' m' o' off' -> (k' < channels m')%nat -> requested c' (mk_address i' k') = Some v ->
  mirrors m k (registers_at 0 input off) m' k' (registers_at 0x0800 image' off').
Proof. exact C87_all. Qed.
Print Assumptions C87_copy.

(** A rack with digital and analog inputs and outputs.  The program copies input 2 to output 3, the first analog input
    (format S5) to the first analog output, and the second one (S7) to the second (S7) and third (S5). *)
Definition copy_config : config :=
  mk_config [UR20_4DI_P; UR20_4AI_UI_16; UR20_4DO_P; UR20_4AO_UI_16]
    [0xFFFF; 0; 0xFFFF; 0x10; 0x8000; 0xFFFF; 0x8010; 0xFFFF]
    [repeat 0 4; [0; 0; 0; 1; 0; 0; 0; 0; 0]; repeat 0 4; [0; 0; 0; 1; 0; 0; 0; 0; 0; 0; 0; 0]].
Definition copy_new : coupler := after no_coupler (coupler_new copy_config).
Definition copy_input : list Z := [4; 0xF123; 45; 0; 0].
Definition copy_zero : list Z := repeat 0 5.
Definition copy_read : coupler := fst (next Debug as_is as_is copy_new copy_input copy_zero).
Definition copy_value (i k : nat) : channel_value := match cell (inputs copy_read) i k with Some v => v | None => VNone end.
Definition copy_requests : list (address * channel_value) :=
  [(mk_address 2 3, copy_value 0 2); (mk_address 3 0, copy_value 1 0); (mk_address 3 1, copy_value 1 1); (mk_address 3 2, copy_value 1 1)].
Definition copy_set : coupler := fold_left (fun c av => fst (set_output c (fst av) (snd av))) copy_requests copy_read.
Definition copy_image : list Z := [8; 0xF123; 44; 26; 0].
Definition copy_end : coupler := fst (next Debug as_is as_is copy_set copy_zero copy_zero).
Definition copy_module (i : nat) : module := nth i (c_modules copy_new) MSIL.

Example C87_example :
  reachable Debug copy_new /\ cycle Debug copy_new copy_input copy_zero copy_read (Ok copy_zero) /\
  module_at copy_new 0 (copy_module 0) (mk_offset (Some 0) None) /\ placed 0 (input_bytes (copy_module 0)) /\
  module_at copy_new 1 (copy_module 1) (mk_offset (Some 0x10) None) /\ placed 0x10 (input_bytes (copy_module 1)) /\
  cell (inputs copy_read) 0 2 = Some (Bit true) /\
  reachable Debug copy_set /\ cycle Debug copy_set copy_zero copy_zero copy_end (Ok copy_image) /\
  alone copy_set 2 (copy_module 2) (mk_offset None (Some 0x8000)) 0x8000 /\
  alone copy_set 3 (copy_module 3) (mk_offset None (Some 0x8010)) 0x8010 /\
  requested copy_set (mk_address 2 3) = Some (Bit true) /\
  requested copy_set (mk_address 3 1) = cell (inputs copy_read) 1 1 /\
  requested copy_set (mk_address 3 2) = cell (inputs copy_read) 1 1 /\
  analog_input (copy_module 1) 1 = Some (UI_mA0To20, S7) /\ analog_output (copy_module 3) 1 = Some (UI_mA0To20, S7) /\
  analog_output (copy_module 3) 2 = Some (UI_mA0To20, S5) /\
  (** 45 becomes 44 with format S7, and 45 * 16384 / 27648 = 26.7 with format S5 *)
  registers_at 0x0800 copy_image 0x8010 = [0xF123; 44; 26; 0].
Proof.
  assert (R0 : reachable Debug copy_new) by (apply (start_reachable _ copy_config); vm_compute; reflexivity).
  assert (C1 : cycle Debug copy_new copy_input copy_zero copy_read (Ok copy_zero)) by (apply step_cycle; vm_compute; reflexivity).
  assert (R1 : reachable Debug copy_read) by exact (ok_reachable _ _ _ _ _ _ R0 C1).
  assert (R2 : reachable Debug copy_set) by (unfold copy_set, copy_requests; cbn [fold_left fst snd]; do 4 (apply R_set; [|vm_compute; first [exact I|reflexivity]]); exact R1).
  assert (Ef : c_offsets copy_set = [mk_offset (Some 0) None; mk_offset (Some 0x10) None; mk_offset None (Some 0x8000); mk_offset None (Some 0x8010)])
    by (vm_compute; reflexivity).
  split; [exact R0|]. split; [exact C1|]. split; [split; vm_compute; reflexivity|]. split; [left; reflexivity|].
  split; [split; vm_compute; reflexivity|]. split; [left; reflexivity|]. split; [vm_compute; reflexivity|].
  split; [exact R2|]. split; [apply step_cycle; vm_compute; reflexivity|].
  split.
  { split; [split; vm_compute; reflexivity|]. split; [reflexivity|]. split; [reflexivity|]. split; [left; reflexivity|].
    intros j m' o' off' Hj [_ Ho] E. rewrite Ef in Ho. destruct j as [|[|[|[|j]]]]; try lia; cbn [nth_error] in Ho; [|destruct j; discriminate Ho].
    injection Ho as <-. injection E as <-.
    change (first_byte 0x0800 0x8010) with 2%nat. change (first_byte 0x0800 0x8000) with 0%nat. change (output_bytes (copy_module 2)) with 1%nat. lia. }
  split.
  { split; [split; vm_compute; reflexivity|]. split; [reflexivity|]. split; [reflexivity|]. split; [left; reflexivity|].
    intros j m' o' off' Hj [_ Ho] E. rewrite Ef in Ho. destruct j as [|[|[|[|j]]]]; try lia; cbn [nth_error] in Ho. destruct j; discriminate Ho. }
  repeat (split; [vm_compute; reflexivity|]). vm_compute; reflexivity.
Qed.
