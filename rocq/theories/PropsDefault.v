(** Property theorems C75: the defaults. *)
From Coq Require Import ZArith List.
From Verif Require Import Base F32 Types Lib Util Fcnt Com Fbc Defaults SpecParams SpecCodec SpecDefault ProofsDefault.
Import ListNotations.
Local Open Scope Z_scope.

(** C75: There is a default module for exactly the supported types, and it is the module that the standard registers, which are in the documented ranges,
    configure, so that everything proved about configured modules holds for it. *)
Theorem C75_default_configured : forall t,
  (module_default t = None <-> param_bounds t = None) /\ (standard_registers t = None <-> param_bounds t = None) /\
  forall m, module_default t = Some m -> exists bounds regs, param_bounds t = Some bounds /\ standard_registers t = Some regs /\
    length regs = length bounds /\ in_range bounds regs /\ Forall is_u16 regs /\ module_from_params t regs = Ok m.
Proof. exact C75_configured_all. Qed.
Print Assumptions C75_default_configured.

(** C75: All channels of a default analog input module are disabled, whatever the process data. *)
Theorem C75_default_inputs : forall t m data values, module_default t = Some m -> analog_input t ->
  mod_process_input_data m data = Ok values -> Forall (fun v => v = Disabled) values.
Proof. exact C75_inputs_all. Qed.
Print Assumptions C75_default_inputs.

(** C75: A default analog output module sends zeros only, whatever is requested, and shows its channels as disabled. *)
Theorem C75_default_outputs : forall t m prof, module_default t = Some m -> analog_output t ->
  (forall data values, mod_process_output_data m data = Ok values -> Forall (fun v => v = Disabled) values) /\
  (forall values data, mod_process_output_values prof m values = Ok data -> Forall (fun w => w = 0) data).
Proof. exact C75_outputs_all. Qed.
Print Assumptions C75_default_outputs.

(** C75: The default messages are the ones encoded by zeros. *)
Theorem C75_default_messages : forall prof l,
  rs_out_to_bytes rs_out_default l = Ok (repeat 0 (message_size l)) /\
  rs_in_from_bytes (repeat 0 (message_size l)) = Ok rs_in_default /\
  rs_out_from_bytes (repeat 0 (message_size l)) = Ok rs_out_default /\
  forall m, module_default UR20_2FCNT_100 = Some m ->
    mod_process_output_values prof m [FcntOut fcnt_out_default; FcntOut fcnt_out_default] = Ok (repeat 0 6) /\
    mod_process_output_data m (repeat 0 6) = Ok [FcntOut fcnt_out_default; FcntOut fcnt_out_default].
Proof. exact C75_messages_all. Qed.
Print Assumptions C75_default_messages.

Example C75_example :
  (exists m, module_default UR20_4AI_TC_DIAG = Some m /\ analog_input UR20_4AI_TC_DIAG /\
     mod_process_input_data m [1; 0x7FFF; 3; 0xFFFF] = Ok (repeat Disabled 4)) /\
  (exists m, module_default UR20_4AO_UI_16 = Some m /\ analog_output UR20_4AO_UI_16 /\
     mod_process_output_data m [1; 2; 3; 4] = Ok (repeat Disabled 4) /\
     mod_process_output_values Debug m [Decimal32 (f32_of_Z 5); Disabled; Decimal32 (f32_of_Z (-3)); Disabled] = Ok (repeat 0 4)) /\
  module_default UR20_4DI_P <> None /\ module_default UR20_4DI_P_3W = None.
Proof.
  split; [|split; [|split; [discriminate|reflexivity]]].
  - eexists. split; [reflexivity|]. split; [cbn [analog_input In]; unfold analog_input; cbn [In]; auto 10|vm_compute; reflexivity].
  - eexists. split; [reflexivity|]. split; [unfold analog_output; cbn [In]; auto|]. split; vm_compute; reflexivity.
Qed.
