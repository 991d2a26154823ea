(** Property theorems C98: a program that exchanges data with a field bus coupler through its registers. *)
From Coq Require Import ZArith List Bool Lia.
From Verif Require Import Base Facts F32 Types Lib Com Fbc SpecCodec SpecCoupler SpecImage SpecKeep SpecLossless SpecTerminal SpecWire SpecContract
  SpecStartup SpecTraffic ProofsWitness ProofsTraffic.
Import ListNotations.
Local Open Scope Z_scope.

(** C98: however long a program works with a coupler, it changes no register outside the area of the outputs, so that id, status, data
    lengths, module count, module list, offsets and parameters are found unchanged at the addresses the crate gives. *)
Theorem C98_other_registers : forall prof c register c' register', reachable prof c -> operates prof c register c' register' ->
  (forall a, ~ 0 <= a < 0x1000 -> register' a = register a) /\
  register' ADDR_COUPLER_ID = register 0x1000 /\ register' ADDR_COUPLER_STATUS = register 0x100C /\
  register' ADDR_PROCESS_OUTPUT_LEN = register 0x1010 /\ register' ADDR_PROCESS_INPUT_LEN = register 0x1011 /\
  register' ADDR_CURRENT_MODULE_COUNT = register 0x27FE /\ register' ADDR_CURRENT_MODULE_LIST = register 0x2A00 /\
  register' ADDR_MODULE_OFFSETS = register 0x2B00 /\ register' ADDR_MODULE_PARAMETERS = register 0xC000.
Proof. exact C98_other_all. Qed.
Print Assumptions C98_other_registers.

(** C98: one exchange writes registers of the output area only, and not the input registers. *)
Theorem C98_area : forall prof c register c' register', reachable prof c -> exchange prof c register c' register' ->
  forall a, ~ 0x0800 <= a < 0x1000 -> register' a = register a.
Proof. exact C98_area_all. Qed.
Print Assumptions C98_area.

(** C98: a program that is started again finds the coupler as it found it the first time. *)
Theorem C98_restart : forall prof register c c' register', (forall a, is_u16 (register a)) -> register 0x27FE <= 64 ->
  start_up prof register = Ok c -> operates prof c register c' register' -> start_up prof register' = Ok c.
Proof. exact C98_restart_all. Qed.
Print Assumptions C98_restart.

(** C98: the values shown after an exchange are the physical values of the registers at the address of the module. *)
Theorem C98_inputs : forall prof c register c' register' i m o off, reachable prof c -> exchange prof c register c' register' ->
  module_at c i m o -> is_serial m = false -> mo_input o = Some off -> placed off (input_bytes m) ->
  exists row, nth_error (inputs c') i = Some row /\ length row = shown_inputs m /\
    forall k v, nth_error row k = Some v -> physical_input m k (module_registers register off (registers_in m)) v.
Proof. exact C98_inputs_all. Qed.
Print Assumptions C98_inputs.

(** C98: after an exchange, the registers at the address of an output module that shares them with no other module carry the
    requested value of each channel, or the value shown by the coupler. *)
Theorem C98_outputs : forall prof c register c' register' i m o off, reachable prof c -> exchange prof c register c' register' ->
  alone c i m o off -> forall k, (k < channels m)%nat ->
  exists v, match requested c (mk_address i k) with Some u => v = u | None => cell (outputs c') i k = Some v end /\
    carries m k v (module_registers register' off (registers_out m)).
Proof. exact C98_outputs_all. Qed.
Print Assumptions C98_outputs.

(** Four outputs at register 0x0800 and four inputs in the upper byte of register 0, the third of which is on. *)
Definition desk_registers (a : Z) : Z :=
  match find (fun w => fst w =? a)
    [(0, 0x0400); (0x27FE, 2); (0x2A00, 0x0101); (0x2A01, 0x2FA0); (0x2A02, 0x0009); (0x2A03, 0x1F84);
     (0x2B00, 0x8000); (0x2B01, 0xFFFF); (0x2B02, 0xFFFF); (0x2B03, 8); (0xC000, 1); (0xC003, 1)] with
  | Some w => snd w
  | None => 0
  end.
Definition desk_0 : coupler := after no_coupler (start_up Release desk_registers).
Definition desk_1 : coupler := fst (set_output desk_0 (mk_address 0 1) (Bit true)).
Definition desk_2 : coupler := fst (next Release as_is as_is desk_1 [0x0400] [0]).
Definition desk_later : Z -> Z := write_registers desk_registers 0x0800 [2].
Example C98_example :
  (forall a, is_u16 (desk_registers a)) /\ desk_registers 0x27FE <= 64 /\ start_up Release desk_registers = Ok desk_0 /\
  reachable Release desk_0 /\ reachable Release desk_1 /\
  exchange Release desk_1 desk_registers desk_2 desk_later /\ operates Release desk_0 desk_registers desk_2 desk_later /\
  desk_later 0x0800 = 2 /\ desk_later 0x27FE = 2 /\
  module_at desk_1 1 (MDI V_4DI_P (repeat ID_no 4)) (mk_offset (Some 8) None) /\ placed 8 1 /\
  module_registers desk_registers 8 1 = [4] /\ nth_error (inputs desk_2) 1 = Some [Bit false; Bit false; Bit true; Bit false] /\
  alone desk_1 0 (MDO V_4DO_P [true; false; false; true]) (mk_offset None (Some 0x8000)) 0x8000 /\
  requested desk_1 (mk_address 0 1) = Some (Bit true) /\ module_registers desk_later 0x8000 1 = [2].
Proof.
  assert (S : start_up Release desk_registers = Ok desk_0) by (vm_compute; reflexivity).
  assert (U : forall a, is_u16 (desk_registers a)).
  { intros a. unfold desk_registers. destruct (find _ _) as [w|] eqn:E; [|split; [discriminate|reflexivity]]. apply find_some in E. destruct E as [E _].
    repeat (destruct E as [<-|E]; [split; [discriminate|reflexivity]|]). destruct E. }
  assert (R0 : reachable Release desk_0).
  { apply (start_reachable _ (mk_config [UR20_4DO_P; UR20_4DI_P] [0x8000; 0xFFFF; 0xFFFF; 8] [[1; 0; 0; 1]; [0; 0; 0; 0]])); vm_compute; reflexivity. }
  assert (R1 : reachable Release desk_1) by (apply R_set; [exact R0|exact I]).
  assert (X : exchange Release desk_1 desk_registers desk_2 desk_later).
  { exists 1, 1, [2]. split; [discriminate|]. split; [discriminate|]. split; [apply step_cycle; vm_compute; reflexivity|reflexivity]. }
  assert (A : alone desk_1 0 (MDO V_4DO_P [true; false; false; true]) (mk_offset None (Some 0x8000)) 0x8000).
  { split; [split; vm_compute; reflexivity|]. split; [reflexivity|]. split; [reflexivity|]. split; [left; reflexivity|].
    intros j m' o' off' Hj [_ Ho] E. replace (c_offsets desk_1) with [mk_offset None (Some 0x8000); mk_offset (Some 8) None] in Ho by (vm_compute; reflexivity).
    destruct j as [|[|j]]; cbn [nth_error] in Ho; [inversion Hj|injection Ho as <-; discriminate E|destruct j; discriminate Ho]. }
  split; [exact U|]. split; [discriminate|]. split; [exact S|]. split; [exact R0|]. split; [exact R1|]. split; [exact X|].
  split; [apply (O_exchange _ _ _ desk_1 desk_registers _ _); [apply O_set; [apply O_begin|exact I]|exact X]|].
  split; [reflexivity|]. split; [reflexivity|]. split; [split; vm_compute; reflexivity|]. split; [right; split; reflexivity|].
  split; [reflexivity|]. split; [vm_compute; reflexivity|]. split; [exact A|]. split; vm_compute; reflexivity.
Qed.
