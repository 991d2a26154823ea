(** Property theorem C60: start-up from the registers of a field bus coupler. *)
From Coq Require Import ZArith List Bool.
From Verif Require Import Base Types Lib Com Fbc SpecCatalogue SpecParams SpecCoupler SpecStartup ProofsStartup.
Import ListNotations.
Local Open Scope Z_scope.

(** C60: For every rack of up to 64 supported modules, reading the registers at the addresses the crate
    gives and creating a coupler from them succeeds, and the coupler has the plugged modules in order, with
    the parameters and data addresses shown by the registers. *)
Theorem C60_start_up : forall prof register rack,
  rack <> [] -> (length rack <= 64)%nat -> shows register rack -> Forall supported rack ->
  exists c, start_up prof register = Ok c /\ reachable prof c /\
    length (c_modules c) = length rack /\ (forall i s, nth_error rack i = Some s -> represents c i s).
Proof. exact C60_all. Qed.
Print Assumptions C60_start_up.

(** A rack with a module of an unsupported type makes it panic, wherever the module is plugged. *)
Theorem C60_unsupported_module : forall prof register rack,
  (length rack <= 64)%nat -> shows register rack ->
  Forall (fun s => supported s \/ param_bounds (s_type s) = None) rack ->
  Exists (fun s => param_bounds (s_type s) = None) rack -> start_up prof register = Panic Unsupported.
Proof. exact C60_unsupported. Qed.
Print Assumptions C60_unsupported_module.

(** A digital output module, a serial module and a counter. *)
Definition a_rack : list slot :=
  [mk_slot UR20_4DO_P [1; 0; 0; 1] None (Some 0x8000);
   mk_slot UR20_1COM_232_485_422 [1; 2; 11; 1; 2; 2; 1; 1; 17; 19] (Some 0) (Some 0x8010);
   mk_slot UR20_2FCNT_100 [3; 16] (Some 0x80) (Some 0x8090)].
Definition its_registers (a : Z) : Z :=
  match a with
  | 0x27FE => 3
  | 0x2A00 => 0x0101 | 0x2A01 => 0x2FA0 | 0x2A02 => 0x0E41 | 0x2A03 => 0x3FED
  | 0x2A04 => 0x0881 | 0x2A05 => 0x28EE
  | 0x2B00 => 0x8000 | 0x2B01 => 0xFFFF | 0x2B02 => 0x8010 | 0x2B03 => 0
  | 0x2B04 => 0x8090 | 0x2B05 => 0x80
  | 0xC000 => 1 | 0xC003 => 1
  | 0xC100 => 1 | 0xC101 => 2 | 0xC102 => 11 | 0xC103 => 1 | 0xC104 => 2 | 0xC105 => 2 | 0xC106 => 1
  | 0xC107 => 1 | 0xC108 => 17 | 0xC109 => 19
  | 0xC200 => 3 | 0xC201 => 16
  | _ => 0
  end.
Example C60_example : a_rack <> [] /\ (length a_rack <= 64)%nat /\ shows its_registers a_rack /\ Forall supported a_rack.
Proof.
  split; [discriminate|]. split; [cbn; repeat constructor|]. split.
  - split; [reflexivity|]. intros [|[|[|i]]] s Hs; [| | |destruct i; discriminate]; injection Hs as <-;
      (split; [eexists; repeat split|]); (split; [reflexivity|]); (split; [reflexivity|]);
      intros k p Hk; do 11 (destruct k as [|k]; [first [discriminate|injection Hk as <-; reflexivity]|]); destruct k; discriminate.
  - repeat (apply Forall_cons; [|]); [| | |apply Forall_nil];
      (split; [eexists; split; [reflexivity|]; split; [reflexivity|]; split; [cbn; repeat split; discriminate|];
               repeat (apply Forall_cons; [unfold is_u16; split; reflexivity || discriminate|]); apply Forall_nil|]);
      split; intros a [= <-]; split; reflexivity || discriminate.
Qed.
(** The same output module next to a module for which the crate knows the parameter count but not the module. *)
Definition b_rack : list slot :=
  [mk_slot UR20_4DO_P [1; 0; 0; 1] None (Some 0x8000); mk_slot UR20_4DI_P_3W [0; 0; 0; 0] (Some 0) None].
Definition b_registers (a : Z) : Z :=
  match a with
  | 0x27FE => 2
  | 0x2A00 => 0x0101 | 0x2A01 => 0x2FA0 | 0x2A02 => 0x001B | 0x2A03 => 0x1F84
  | 0x2B00 => 0x8000 | 0x2B01 => 0xFFFF | 0x2B02 => 0xFFFF | 0x2B03 => 0
  | 0xC000 => 1 | 0xC003 => 1
  | _ => 0
  end.
Example C60_unsupported_example : (length b_rack <= 64)%nat /\ shows b_registers b_rack /\
  Forall (fun s => supported s \/ param_bounds (s_type s) = None) b_rack /\
  Exists (fun s => param_bounds (s_type s) = None) b_rack /\
  (forall prof, exists l, param_addresses_and_register_counts prof (map s_type b_rack) = Ok l).
Proof.
  split; [cbn; repeat constructor|]. split.
  - split; [reflexivity|]. intros [|[|i]] s Hs; [| |destruct i; discriminate]; injection Hs as <-;
      (split; [eexists; repeat split|]); (split; [reflexivity|]); (split; [reflexivity|]);
      intros k p Hk; do 4 (destruct k as [|k]; [injection Hk as <-; reflexivity|]); destruct k; discriminate.
  - split.
    + apply Forall_cons; [left|apply Forall_cons; [right; reflexivity|apply Forall_nil]].
      split; [eexists; split; [reflexivity|]; split; [reflexivity|]; split; [cbn; repeat split; discriminate|];
              repeat (apply Forall_cons; [unfold is_u16; split; reflexivity || discriminate|]); apply Forall_nil|].
      split; intros a [= <-]; split; reflexivity || discriminate.
    + split; [right; left; reflexivity|]. intros [|]; eexists; vm_compute; reflexivity.
Qed.
