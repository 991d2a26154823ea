(** Property theorems C01 - C08: catalogue, addresses, offsets, parameter windows. *)
From Coq Require Import ZArith List Bool String.
From Verif Require Import Base Types Lib Fbc SpecCatalogue SpecAddr ProofsCatalogue ProofsAddr.
Import ListNotations.
Local Open Scope Z_scope.

(** C01: Module ids identify exactly one module type. *)
Theorem C01_module_ids :
  (forall id t, try_from_u32 id = Ok t <-> documented_id t = Some id) /\
  (forall id, (forall t, documented_id t <> Some id) <-> try_from_u32 id = Err UnknownModule) /\
  (forall a b t, try_from_u32 a = Ok t -> try_from_u32 b = Ok t -> a = b) /\
  (NoDup all_types /\ (forall t, In t all_types) /\
   List.length (filter (fun t => match documented_id t with Some _ => true | None => false end)
             all_types) = 61%nat).
Proof. exact C01_all. Qed.
Print Assumptions C01_module_ids.
Example C01_example :
  try_from_u32 0x01012FA0 = Ok UR20_4DO_P /\ try_from_u32 0x01012FA1 = Err UnknownModule /\
  documented_id UR20_PF_I = None /\ documented_id UR20_PF_O = None.
Proof. vm_compute. auto. Qed.

(** C02: The module list registers decode to the plugged modules in order. *)
Theorem C02_module_list :
  (forall ts ids, ts <> [] -> Forall2 (fun t id => documented_id t = Some id) ts ids ->
     module_list_from_registers (flat_map (fun id => [id / 65536; id mod 65536]) ids) = Ok ts) /\
  (forall regs ts, Forall is_u16 regs -> module_list_from_registers regs = Ok ts ->
     ts <> [] /\
     exists ids, Forall2 (fun t id => documented_id t = Some id) ts ids /\
                 regs = flat_map (fun id => [id / 65536; id mod 65536]) ids) /\
  (forall regs, module_list_from_registers regs = Err RegisterCount <->
     regs = [] \/ Nat.Odd (List.length regs)) /\
  (forall regs k hi lo, Forall is_u16 regs -> Nat.Even (List.length regs) ->
     nth_error regs (2 * k) = Some hi -> nth_error regs (2 * k + 1) = Some lo ->
     (forall t, documented_id t <> Some (hi * 65536 + lo)) ->
     module_list_from_registers regs = Err UnknownModule) /\
  (forall regs p, module_list_from_registers regs <> Panic p).
Proof. exact C02_all. Qed.
Print Assumptions C02_module_list.
Example C02_example :
  Forall2 (fun t id => documented_id t = Some id) [UR20_4DO_P; UR20_4AI_TC_DIAG; UR20_4DO_P]
    [0x01012FA0; 0x04071544; 0x01012FA0] /\
  module_list_from_registers [0x0101; 0x2FA0; 0x0407; 0x1544; 0x0101; 0x2FA0]
  = Ok [UR20_4DO_P; UR20_4AI_TC_DIAG; UR20_4DO_P] /\
  module_list_from_registers [0x0101; 0x2FA0; 0x0407; 0x1545] = Err UnknownModule.
Proof. split; [repeat constructor|]. vm_compute. auto. Qed.

(** C03: Module names parse case- and dash-insensitively, and only they parse. *)
Theorem C03_module_names :
  (forall up s t, module_type_from_str up s = Ok t <->
     exists u, upper up s u /\ dashes_replaced u (code_points (product_name t))) /\
  (forall up s, (forall t, module_type_from_str up s <> Ok t) ->
     module_type_from_str up s = Err UnknownModule) /\
  (forall a b, product_name a = product_name b -> a = b) /\
  (forall up s t, Forall2 spells s (code_points (product_name t)) ->
     module_type_from_str up s = Ok t) /\
  (forall up s t, Forall (fun c => c < 128) s -> module_type_from_str up s = Ok t ->
     Forall2 spells s (code_points (product_name t))).
Proof. exact C03_all. Qed.
Print Assumptions C03_module_names.
Example C03_example : forall up,
  module_type_from_str up (code_points "uR20-4dI_p-3W") = Ok UR20_4DI_P_3W /\
  module_type_from_str up (code_points "UR20-4DI") = Err UnknownModule.
Proof. intros up. vm_compute. auto. Qed.

(** C04: Categories parse from their own names and classify every module.  False as stated:
    "PF" does not parse, and relay modules are not in the relay category. *)
Theorem C04_categories_refuted :
  (forall up, category_from_str up (code_points (category_name PF)) = Err UnknownCategory) /\
  (exists t, category_of t = PF) /\
  named_category UR20_4RO_CO_255 = Some RO /\ category_of UR20_4RO_CO_255 = DO /\
  (forall t, category_of t <> RO).
Proof. exact C04_refuted_all. Qed.
Print Assumptions C04_categories_refuted.
Theorem C04_categories_partial :
  (forall t, named_category t <> Some RO -> named_category t = Some (category_of t)) /\
  (forall t, named_category t = Some RO -> category_of t = DO) /\
  (forall up s c, c <> PF -> Forall2 spells_nocase s (code_points (category_name c)) ->
     category_from_str up s = Ok c) /\
  (forall up s c, category_from_str up s = Ok c -> upper up s (code_points (category_name c))) /\
  (forall up s, (forall c, c <> PF -> ~ upper up s (code_points (category_name c))) ->
     category_from_str up s = Err UnknownCategory).
Proof. exact C04_partial_all. Qed.
Print Assumptions C04_categories_partial.
Example C04_example : forall up,
  category_from_str up (code_points "rTd") = Ok RTD /\
  category_from_str up (code_points "rtds") = Err UnknownCategory /\
  named_category UR20_3EM_230V_AC = Some AI /\ named_category UR20_2FCNT_100 = Some CNT.
Proof. intros up. vm_compute. auto. Qed.

(** C05: Channel counts agree with the product names. *)
Theorem C05_channel_counts : forall t,
  Some (channel_count t) =
  (if String.eqb (snd (printed t)) "PF" then Some 0%nat
   else if String.eqb (product_name t) "UR20_3EM_230V_AC" then Some 8%nat
   else fst (printed t)).
Proof. exact C05_all. Qed.
Print Assumptions C05_channel_counts.
Example C05_example :
  printed UR20_16DI_P_PLC_INT = (Some 16%nat, "DI"%string) /\ channel_count UR20_16DI_P_PLC_INT = 16%nat.
Proof. vm_compute. auto. Qed.

(** C06: Bit addresses split and merge losslessly. *)
Theorem C06_bit_addresses :
  (forall a, is_u16 a ->
     exists r b, to_register_address a = (r, b) /\ r = a / 16 /\ Z.of_nat b = a mod 16 /\
                 to_bit_address r b = a) /\
  (forall r b, 0 <= r < 0x1000 -> (b < 16)%nat ->
     to_register_address (to_bit_address r b) = (r, b)) /\
  (forall r b, ~ (0 <= r < 0x1000 /\ (b < 16)%nat) ->
     exists r' b', 0 <= r' < 0x1000 /\ (b' < 16)%nat /\ (r', b') <> (r, b) /\
                   to_bit_address r' b' = to_bit_address r b).
Proof. exact C06_all. Qed.
Print Assumptions C06_bit_addresses.
Example C06_example : to_register_address 0x80AB = (0x080A, 11%nat) /\ to_bit_address 0x080A 11 = 0x80AB
  /\ to_bit_address 0x180A 11 = 0x80AB.
Proof. vm_compute. auto. Qed.

(** C07: The offset table is decoded pairwise, output first. *)
Theorem C07_offset_table : forall data,
  exists l, offsets_of_process_data data = Ok l /\ List.length l = Nat.div (List.length data) 2 /\
    forall i o, nth_error l i = Some o ->
      exists out inp, nth_error data (2 * i) = Some out /\ nth_error data (2 * i + 1) = Some inp /\
        (mo_output o = None <-> out = 0xFFFF) /\ (mo_input o = None <-> inp = 0xFFFF) /\
        (forall v, mo_output o = Some v -> v = out) /\ (forall v, mo_input o = Some v -> v = inp).
Proof. exact C07_all. Qed.
Print Assumptions C07_offset_table.
Example C07_example :
  offsets_of_process_data [0xFFFF; 0; 0x8000; 0x40; 0x8050; 0xFFFF; 7]
  = Ok [mk_offset (Some 0) None; mk_offset (Some 0x40) (Some 0x8000); mk_offset None (Some 0x8050)].
Proof. vm_compute. auto. Qed.

(** C08: Parameter windows are disjoint and correctly placed for up to 64 modules. *)
Theorem C08_param_windows :
  (forall prof ms, (List.length ms <= 64)%nat ->
     Forall (fun t => documented_param_count t <> None) ms ->
     exists l, param_addresses_and_register_counts prof ms = Ok l /\
       List.length l = List.length ms /\
       (forall i t a c, nth_error ms i = Some t -> nth_error l i = Some (a, c) ->
          a = 0xC000 + 256 * Z.of_nat i /\ documented_param_count t = Some c) /\
       Forall (fun w => 0xC000 <= fst w /\ fst w + snd w <= 0x10000) l /\
       (forall i j a b, i <> j -> nth_error l i = Some a -> nth_error l j = Some b ->
          disjoint_windows a b)) /\
  (forall ms, (64 < List.length ms)%nat -> Forall (fun t => documented_param_count t <> None) ms ->
     param_addresses_and_register_counts Debug ms = Panic ArithmeticOverflow /\
     exists l, param_addresses_and_register_counts Release ms = Ok l /\
       List.length l = List.length ms /\
       forall i a c, nth_error l i = Some (a, c) -> a = (0xC000 + 256 * Z.of_nat i) mod 65536).
Proof. exact C08_all. Qed.
Print Assumptions C08_param_windows.
Example C08_example :
  (List.length (repeat UR20_4DO_P 65) = 65%nat) /\
  Forall (fun t => documented_param_count t <> None) (repeat UR20_4DO_P 65) /\
  (exists l, param_addresses_and_register_counts Release (repeat UR20_4DO_P 65) = Ok l /\
             nth_error l 64 = Some (0, 4)) /\
  param_addresses_and_register_counts Debug [UR20_4DI_P; UR20_4AI_RTD_DIAG]
  = Ok [(0xC000, 4); (0xC100, 29)].
Proof.
  split; [reflexivity|]. split.
  - apply Forall_forall. intros t H. apply repeat_spec in H. subst t. discriminate.
  - split; [eexists; split; vm_compute; reflexivity|]. vm_compute. reflexivity.
Qed.
