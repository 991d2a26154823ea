(** Specification of start-up (C60): what a Modbus client reads from a field bus coupler and hands
    to the crate. *)
From Coq Require Import ZArith List.
From Verif Require Import Base Types Lib Fbc SpecCatalogue SpecParams.
Import ListNotations.
Local Open Scope Z_scope.

(** One plugged module: its type, its parameter registers and the bit addresses of its data. *)
Record slot : Set := mk_slot {
  s_type : module_type; s_params : list Z; s_input : option Z; s_output : option Z }.

(** A slot the crate supports: known parameters, as many as documented, within their ranges; an
    address is a 16-bit number other than 0xFFFF, which stands for "no data". *)
Definition supported (s : slot) : Prop :=
  (exists bounds, param_bounds (s_type s) = Some bounds /\ length (s_params s) = length bounds /\
     in_range bounds (s_params s) /\ Forall is_u16 (s_params s)) /\
  (forall a, s_input s = Some a -> 0 <= a < 0xFFFF) /\
  (forall a, s_output s = Some a -> 0 <= a < 0xFFFF).

(** The register that shows an address. *)
Definition address_register (o : option Z) : Z := match o with Some a => a | None => 0xFFFF end.

(** The registers of a field bus coupler with the modules [rack] plugged, as its manual places them:
    module ids from 0x2A00 and data addresses from 0x2B00 with two registers per module, parameters
    from 0xC000 with 256 registers per module. *)
Definition shows (register : Z -> Z) (rack : list slot) : Prop :=
  register 0x27FE = Z.of_nat (length rack) /\
  forall i s, nth_error rack i = Some s ->
    (exists id, documented_id (s_type s) = Some id /\
       register (0x2A00 + 2 * Z.of_nat i) = id / 65536 /\
       register (0x2A00 + 2 * Z.of_nat i + 1) = id mod 65536) /\
    register (0x2B00 + 2 * Z.of_nat i) = address_register (s_output s) /\
    register (0x2B00 + 2 * Z.of_nat i + 1) = address_register (s_input s) /\
    (forall k p, nth_error (s_params s) k = Some p ->
       register (0xC000 + 256 * Z.of_nat i + Z.of_nat k) = p).

(** Reading [n] registers from address [a]. *)
Definition read_registers (register : Z -> Z) (a n : Z) : list Z :=
  map (fun k => register (a + Z.of_nat k)) (seq 0 (Z.to_nat n)).

(** The client of the crate's documentation (ur20_fbc_mod_tcp.rs 91-100): it reads the number of modules, the
    module list, the offsets and the parameter windows at the addresses the crate gives, and creates
    the coupler. *)
Definition start_up (prof : profile) (register : Z -> Z) : outcome coupler :=
  let n := register ADDR_CURRENT_MODULE_COUNT in
  let? types := module_list_from_registers (read_registers register ADDR_CURRENT_MODULE_LIST (2 * n)) in
  let? windows := param_addresses_and_register_counts prof types in
  coupler_new (mk_config types (read_registers register ADDR_MODULE_OFFSETS (2 * n))
                 (map (fun w => read_registers register (fst w) (snd w)) windows)).

(** The module in a slot, as the coupler has it: of the type and with the parameters and addresses
    the registers show. *)
Definition represents (c : coupler) (i : nat) (s : slot) : Prop :=
  exists m o, nth_error (c_modules c) i = Some m /\ nth_error (c_offsets c) i = Some o /\
    kind_of (s_type s) m /\ Forall2 holds (params_registers m) (s_params s) /\
    mo_input o = s_input s /\ mo_output o = s_output s.
