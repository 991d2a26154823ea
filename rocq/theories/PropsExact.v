(** Property theorems about the exact exceptions to C09, C12, C36, C51 and C52. *)
From Coq Require Import ZArith List Bool Lia.
From Verif Require Import Base Facts F32 Types Lib Util Analog Com Fbc SpecParams SpecCodec SpecSerial SpecCoupler SpecImage SpecExact
  ProofsWitness ProofsExact.
Import ListNotations.
Local Open Scope Z_scope.

(** C09, the remaining case: given 36 or more registers, the thermocouple module takes all complete groups of
    seven registers for channels, reports codes out of range in any of them, and panics otherwise. *)
Theorem C09_thermocouple_exact : forall regs, Forall is_u16 regs -> (36 <= length regs)%nat ->
  (in_range (thermocouple_bounds ((length regs - 1) / 7)) regs ->
     module_from_params UR20_4AI_TC_DIAG regs = Panic ExpectFailed) /\
  (~ in_range (thermocouple_bounds ((length regs - 1) / 7)) regs ->
     module_from_params UR20_4AI_TC_DIAG regs = Err ChannelParameter).
Proof. exact C09_thermocouple_all. Qed.
Print Assumptions C09_thermocouple_exact.
Example C09_thermocouple_example :
  in_range (thermocouple_bounds ((length (repeat 1 40) - 1) / 7)) (repeat 1 40) /\
  ~ in_range (thermocouple_bounds ((length (repeat 1 29 ++ repeat 20 7) - 1) / 7)) (repeat 1 29 ++ repeat 20 7) /\
  in_range (thermocouple_bounds 4) (repeat 1 29 ++ repeat 20 7).
Proof.
  split; [cbn; lia|]. split; [|cbn; lia]. cbn. intros H.
  repeat match type of H with _ /\ _ => let A := fresh "A" in destruct H as [A H] end. lia.
Qed.

(** C12: the type that every module reports. *)
Theorem C12_reported_type : forall t regs m, module_from_params t regs = Ok m ->
  (t = UR20_4AI_UI_16 -> mod_type m = UR20_4AI_UI_12) /\ (t <> UR20_4AI_UI_16 -> mod_type m = t).
Proof. exact C12_reported_all. Qed.
Print Assumptions C12_reported_type.
Example C12_reported_example : exists m m',
  module_from_params UR20_4AI_UI_16 (repeat 0 9) = Ok m /\ module_from_params UR20_4AI_UI_12 (repeat 0 9) = Ok m' /\ m <> m'.
Proof. eexists. eexists. split; [vm_compute; reflexivity|]. split; [vm_compute; reflexivity|discriminate]. Qed.

(** C36, the remaining row: the safe power feed module shows one input value, none without an input address. *)
Theorem C36_power_feed_row : forall prof c input output c' image, reachable prof c -> cycle prof c input output c' (Ok image) ->
  forall i o, module_at c i MSIL o -> exists row, nth_error (inputs c') i = Some row /\
    (mo_input o = None -> row = []) /\ (mo_input o <> None -> length row = 1%nat).
Proof. exact C36_sil_all. Qed.
Print Assumptions C36_power_feed_row.
Example C36_power_feed_example : reachable Release w36 /\
  (exists image, cycle Release w36 [0; 0] [] (fst (next Release as_is as_is w36 [0; 0] [])) (Ok image)) /\
  module_at w36 0 MSIL (mk_offset (Some 0) None).
Proof.
  split; [apply (start_reachable _ (mk_config [UR20_PF_O_1DI_SIL] [0xFFFF; 0] [[]])); vm_compute; reflexivity|].
  split; [eexists; apply step_cycle; vm_compute; reflexivity|split; vm_compute; reflexivity].
Qed.

(** C51, exactly when encoding panics: when the modules before one in the middle of a register are encoded, end with
    the register in question, and that module encodes its values to no data at all. *)
Theorem C51_panic_exact : forall prof ms values,
  (forall i m o off, nth_error ms i = Some (m, o) -> mo_output o = Some off -> is_u16 off) ->
  Forall (Forall rust_value) values ->
  (exists p, process_output_values prof ms values = Panic p) <->
  length values = length ms /\
  exists i m o vs off image, nth_error ms i = Some (m, o) /\ nth_error values i = Some vs /\
    mo_output o = Some off /\ off mod 16 = 8 /\ mod_process_output_values prof m vs = Ok [] /\
    process_output_values prof (firstn i ms) (firstn i values) = Ok image /\
    0x0800 <= off / 16 /\ off / 16 + 1 = 0x0800 + Z.of_nat (length image).
Proof. exact C51_exact_all. Qed.
Print Assumptions C51_panic_exact.
Example C51_panic_example :
  let ms := [(M4RO [], mk_offset None (Some 0x8000)); (MSIL, mk_offset None (Some 0x8008))] in
  let row := [Bit true; Bit false; Bit true; Bit true] in
  (forall i m o off, nth_error ms i = Some (m, o) -> mo_output o = Some off -> is_u16 off) /\
  Forall (Forall rust_value) [row; []] /\
  process_output_values Release (firstn 1 ms) (firstn 1 [row; []]) = Ok [13] /\
  mod_process_output_values Release MSIL [] = Ok [] /\
  process_output_values Release ms [row; []] = Panic IndexOutOfBounds.
Proof.
  cbv zeta. split; [|split; [repeat constructor|repeat split]].
  intros [|[|i]] m o off Hi Ho; [| |destruct i; discriminate]; injection Hi as <- <-; injection Ho as <-;
    split; reflexivity || discriminate.
Qed.

(** C52, exactly when decoding output data panics: 4 registers for an analog output module that has fewer
    than 4 channel parameters. *)
Theorem C52_panic_exact : forall m data, (exists p, mod_process_output_data m data = Panic p) <->
  length data = 4%nat /\
  ((exists ch, m = M4AO ch /\ (length ch < 4)%nat) \/ (exists ch, m = M4AODIAG ch /\ (length ch < 4)%nat)).
Proof. exact C52_exact_all. Qed.
Print Assumptions C52_panic_exact.
Example C52_panic_example :
  let p := mk_ao S5 UI_V0To10 (f32_of_Z 0) in
  (exists v, mod_process_output_data (M4AO [p; p; p; p; p]) [0; 0; 0; 0] = Ok v) /\
  mod_process_output_data (M4AO [p; p; p]) [0; 0; 0; 0] = Panic IndexOutOfBounds /\
  mod_process_output_data (M4AO [p; p; p]) [0; 0; 0] = Err BufferLength.
Proof. cbv zeta. split; [eexists; vm_compute; reflexivity|vm_compute; auto]. Qed.
