(** C76: which errors a call can return, and their texts. *)
From Coq Require Import String ZArith List.
From Verif Require Import Base Types Lib Fbc SpecCoupler SpecErrors ProofsWitness ProofsErrors.
Import ListNotations.
Local Open Scope Z_scope.

(** C76. The text of an error tells which error it is, including the text of the operating system's error;
    the description is the same text, without the prefix for an error of the operating system. *)
Theorem C76_texts : forall e1 e2, error_display e1 = error_display e2 -> e1 = e2.
Proof. exact texts_all. Qed.
Print Assumptions C76_texts.
Theorem C76_descriptions : forall e,
  error_display e = match e with Io text => String.append "I/O error: " text | _ => error_description e end.
Proof. exact described_all. Qed.
Print Assumptions C76_descriptions.

(** C76. A list of modules can only be refused for its length or for an unknown id ... *)
Theorem C76_module_list : forall registers e, module_list_from_registers registers = Err e -> decode_list_error e.
Proof. exact list_errors_all. Qed.
Print Assumptions C76_module_list.
(** ... a configuration only for missing registers, the number of offsets or a parameter ... *)
Theorem C76_new : forall cfg e, rust_config cfg -> coupler_new cfg = Err e -> build_error e.
Proof. exact build_errors_all. Qed.
Print Assumptions C76_new.
(** ... a request only for its address ... *)
Theorem C76_set_output : forall c address value e, snd (set_output c address value) = Err e -> request_error e.
Proof. exact request_errors_all. Qed.
Print Assumptions C76_set_output.
(** ... and a cycle, after any history, wherever the modules are mapped and whatever was requested and received, only for the length of
    the data, the layout of the modules or a requested value. *)
Theorem C76_cycle : forall prof c input output c' e, reachable prof c -> cycle prof c input output c' (Err e) -> cycle_error e.
Proof. exact cycle_errors_all. Qed.
Print Assumptions C76_cycle.

(** Every error named above does happen. *)
Definition two_outputs : config := mk_config [UR20_16DO_P; UR20_4AO_UI_16] [0x8000; 0xFFFF; 0x8010; 0xFFFF] [[]; repeat 0 12].
Definition two0 : coupler := after no_coupler (coupler_new two_outputs).
Definition two1 : coupler := fst (set_output two0 (mk_address 1 0) (Bit true)).
Definition two_apart : config := mk_config [UR20_16DO_P] [0x8010; 0xFFFF] [[]].
Definition apart0 : coupler := after no_coupler (coupler_new two_apart).
Definition step (c : coupler) (input output : list Z) : coupler := fst (next Debug as_is as_is c input output).
Example C76_example :
  error_display (Io "invalid buffer length") <> error_display BufferLength /\
  module_list_from_registers [] = Err RegisterCount /\ module_list_from_registers [0; 1; 0x0009; 0x1F84] = Err UnknownModule /\
  coupler_new (mk_config [UR20_16DO_P] [0x8000; 0xFFFF] []) = Err BufferLength /\
  coupler_new (mk_config [UR20_16DO_P] [0x8000] [[]]) = Err ModuleOffsetError /\
  coupler_new (mk_config [UR20_4AO_UI_16] [0x8000; 0xFFFF] [repeat 77 12]) = Err ChannelParameter /\
  snd (set_output two0 (mk_address 1 4) (Bit true)) = Err AddressError /\
  reachable Debug two1 /\ reachable Debug apart0 /\
  cycle Debug two1 [] [0; 0; 0] (step two1 [] [0; 0; 0]) (Err BufferLength) /\
  cycle Debug two1 [] [0; 0; 0; 0; 0] (step two1 [] [0; 0; 0; 0; 0]) (Err ChannelValueError) /\
  cycle Debug apart0 [] [0; 0] (step apart0 [] [0; 0]) (Err ModuleOffsetError).
Proof.
  split; [discriminate|]. split; [reflexivity|]. split; [vm_compute; reflexivity|]. split; [reflexivity|]. split; [reflexivity|].
  split; [vm_compute; reflexivity|]. split; [vm_compute; reflexivity|].
  split; [apply R_set; [apply (start_reachable _ two_outputs); vm_compute; reflexivity|exact I]|].
  split; [apply (start_reachable _ two_apart); vm_compute; reflexivity|].
  split; [apply step_cycle; vm_compute; reflexivity|]. split; apply step_cycle; vm_compute; reflexivity.
Qed.
