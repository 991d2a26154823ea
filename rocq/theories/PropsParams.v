(** Property theorems C09 - C12: module parameters and construction of the coupler. *)
From Coq Require Import ZArith List Bool.
From Verif Require Import Base F32 Types Lib Com Fbc SpecAddr SpecParams ProofsParams ProofsNew.
Import ListNotations.
Local Open Scope Z_scope.

(** C09: Module parameters are accepted exactly when complete and in range.
    As stated it is false: 36 or more registers make the thermocouple module panic, and the two
    modules without parameters reject every register. *)
Theorem C09_param_acceptance_refuted :
  param_bounds UR20_4AI_TC_DIAG <> None /\ Forall is_u16 (repeat 0 36) /\
  module_from_params UR20_4AI_TC_DIAG (repeat 0 36) = Panic ExpectFailed /\
  (forall bounds, param_bounds UR20_4AI_TC_DIAG = Some bounds -> in_range bounds (repeat 0 36)) /\
  module_from_params UR20_16DO_P [0] = Err BufferLength /\
  module_from_params UR20_PF_O_1DI_SIL [0] = Err BufferLength.
Proof. exact C09_refuted_all. Qed.
Print Assumptions C09_param_acceptance_refuted.

Theorem C09_param_acceptance_partial : forall t bounds regs,
  param_bounds t = Some bounds -> Forall is_u16 regs ->
  ((length regs < length bounds)%nat -> module_from_params t regs = Err BufferLength) /\
  (t <> UR20_16DO_P -> t <> UR20_PF_O_1DI_SIL ->
   t <> UR20_4AI_TC_DIAG \/ (length regs < 36)%nat ->
   (length bounds <= length regs)%nat ->
   (in_range bounds regs -> exists m, module_from_params t regs = Ok m) /\
   (~ in_range bounds regs -> module_from_params t regs = Err ChannelParameter) /\
   module_from_params t regs = module_from_params t (firstn (length bounds) regs)) /\
  (t = UR20_16DO_P \/ t = UR20_PF_O_1DI_SIL ->
   (regs = [] -> exists m, module_from_params t regs = Ok m) /\
   (regs <> [] -> module_from_params t regs = Err BufferLength)) /\
  (t = UR20_4AI_TC_DIAG -> (36 <= length regs)%nat ->
   module_from_params t regs = Panic ExpectFailed \/
   module_from_params t regs = Err ChannelParameter).
Proof. exact C09_partial_all. Qed.
Print Assumptions C09_param_acceptance_partial.
Example C09_example :
  param_bounds UR20_4DI_P = Some [5; 5; 5; 5] /\
  in_range [5; 5; 5; 5] [0; 3; 5; 1; 99] /\ ~ in_range [5; 5; 5; 5] [0; 3; 6; 1] /\
  module_from_params UR20_4DI_P [0; 3; 5; 1; 99] = Ok (MDI V_4DI_P [ID_no; ID_ms10; ID_ms40; ID_us300]) /\
  module_from_params UR20_4DI_P [0; 3; 6; 1] = Err ChannelParameter /\
  module_from_params UR20_4DI_P [0; 3; 5] = Err BufferLength.
Proof.
  split; [reflexivity|]. split; [cbn; repeat split; discriminate|]. split.
  - cbn. intros (_ & _ & H & _). apply H. reflexivity.
  - vm_compute. auto.
Qed.

(** C10: Accepted module parameters are represented faithfully. *)
Theorem C10_param_fidelity : forall t regs m,
  Forall is_u16 regs -> module_from_params t regs = Ok m ->
  exists bounds, param_bounds t = Some bounds /\ in_range bounds regs /\ kind_of t m /\
    Forall2 holds (params_registers m) (firstn (length bounds) regs).
Proof. exact C10_decoded. Qed.
Print Assumptions C10_param_fidelity.
Example C10_example :
  let m := MCOM SixteenBytes [mk_com RS485 EightBits Baud_115200 TwoBits ParityOdd XON_XOFF 17 19 true] in
  module_from_params UR20_1COM_232_485_422 [1; 2; 11; 1; 2; 2; 1; 1; 17; 19] = Ok m /\
  params_registers m = [Code 1; Code 2; Code 11; Code 1; Code 2; Code 2; Code 1; Code 1; Code 17; Code 19].
Proof. vm_compute. auto. Qed.

(** C11: Coupler construction succeeds exactly on complete, supported, valid configurations. *)
Theorem C11_coupler_new :
  (forall cfg, length (cfg_params cfg) <> length (cfg_modules cfg) ->
     coupler_new cfg = Err BufferLength) /\
  (forall cfg, length (cfg_params cfg) = length (cfg_modules cfg) ->
     length (cfg_offsets cfg) <> (2 * length (cfg_modules cfg))%nat ->
     coupler_new cfg = Err ModuleOffsetError) /\
  (forall cfg, length (cfg_params cfg) = length (cfg_modules cfg) ->
     length (cfg_offsets cfg) = (2 * length (cfg_modules cfg))%nat ->
     (forall i t p, nth_error (cfg_modules cfg) i = Some t -> nth_error (cfg_params cfg) i = Some p ->
        exists m, module_from_params t p = Ok m) ->
     exists c, coupler_new cfg = Ok c /\
       length (c_modules c) = length (cfg_modules cfg) /\
       (forall i t p, nth_error (cfg_modules cfg) i = Some t -> nth_error (cfg_params cfg) i = Some p ->
          exists m, nth_error (c_modules c) i = Some m /\ module_from_params t p = Ok m) /\
       offsets_of_process_data (cfg_offsets cfg) = Ok (c_offsets c) /\
       length (c_offsets c) = length (cfg_modules cfg) /\
       inputs c = [] /\ outputs c = [] /\ c_write c = [] /\ c_last_tx_cnt c = 0 /\
       NoDup (map fst (c_processors c)) /\
       (forall i p, map_get Nat.eqb i (c_processors c) = Some p <->
          exists l ch, nth_error (c_modules c) i = Some (MCOM l ch) /\ p = processor_new l)) /\
  (forall cfg i t p, length (cfg_params cfg) = length (cfg_modules cfg) ->
     length (cfg_offsets cfg) = (2 * length (cfg_modules cfg))%nat ->
     (forall j t' p', (j < i)%nat -> nth_error (cfg_modules cfg) j = Some t' ->
        nth_error (cfg_params cfg) j = Some p' -> exists m, module_from_params t' p' = Ok m) ->
     nth_error (cfg_modules cfg) i = Some t -> nth_error (cfg_params cfg) i = Some p ->
     (forall e, module_from_params t p = Err e -> coupler_new cfg = Err e) /\
     (forall q, module_from_params t p = Panic q -> coupler_new cfg = Panic q)) /\
  (forall t regs, param_bounds t = None -> module_from_params t regs = Panic Unsupported) /\
  (forall t bounds, param_bounds t = Some bounds ->
     documented_param_count t = Some (Z.of_nat (length bounds)) /\
     param_register_count t = Ok (Z.of_nat (length bounds)) /\
     exists m, module_from_params t (repeat 0 (length bounds)) = Ok m).
Proof. exact C11_all. Qed.
Print Assumptions C11_coupler_new.
Example C11_example :
  (exists c, coupler_new (mk_config [UR20_4DI_P; UR20_4DO_P] [0xFFFF; 0; 0x8000; 0xFFFF]
                            [repeat 0 4; repeat 1 4]) = Ok c /\
     c_modules c = [MDI V_4DI_P (repeat ID_no 4); MDO V_4DO_P (repeat true 4)]) /\
  coupler_new (mk_config [UR20_4DI_P; UR20_4DO_P] [0xFFFF; 0; 0x8000; 0xFFFF] [[7; 0; 0; 0]; []])
  = Err ChannelParameter /\
  coupler_new (mk_config [UR20_4DI_P; UR20_16DI_P] [0xFFFF; 0; 0xFFFF; 16] [repeat 0 4; []])
  = Panic Unsupported.
Proof. split; [eexists; split; vm_compute; reflexivity|]. vm_compute. auto. Qed.

(** C12: Every module reports the type it was configured as.  False for UR20_4AI_UI_16, which
    reports UR20_4AI_UI_12; true for all others. *)
Theorem C12_module_type_refuted : exists regs m,
  Forall is_u16 regs /\ module_from_params UR20_4AI_UI_16 regs = Ok m /\ mod_type m = UR20_4AI_UI_12.
Proof. exact C12_refuted_all. Qed.
Print Assumptions C12_module_type_refuted.

Theorem C12_module_type_partial : forall t regs m,
  module_from_params t regs = Ok m -> t <> UR20_4AI_UI_16 -> mod_type m = t.
Proof. exact C12_partial_all. Qed.
Print Assumptions C12_module_type_partial.
Example C12_example : exists m,
  module_from_params UR20_4AI_UI_12 (repeat 0 9) = Ok m /\ mod_type m = UR20_4AI_UI_12.
Proof. eexists. split; vm_compute; reflexivity. Qed.
