(** Property theorems C80: comparing shown values. *)
From Coq Require Import ZArith Reals List Bool SpecFloat.
From Verif Require Import Base F32 Types Lib Analog Fbc Facts SpecCodec SpecCoupler SpecAnalog SpecResolution SpecEqual
  ProofsWitness ProofsEqual PropsResolution.
Import ListNotations.
Local Open Scope Z_scope.

(** C80: [==] of any two values that couplers show, after any histories, holds just if the values are identical, ... *)
Theorem C80_values : forall prof prof' c c' v w, reachable prof c -> reachable prof' c' -> shown_by c v -> shown_by c' w ->
  (same_value v w <-> v = w).
Proof. exact C80_value_all. Qed.
Print Assumptions C80_values.
(** ... as does [==] of whole tables: of [inputs()], of [outputs()] and of one with the other. *)
Theorem C80_tables : forall prof prof' c c', reachable prof c -> reachable prof' c' ->
  (same_table (inputs c) (inputs c') <-> inputs c = inputs c') /\ (same_table (outputs c) (outputs c') <-> outputs c = outputs c') /\
  (same_table (inputs c) (outputs c') <-> inputs c = outputs c').
Proof. exact C80_tables_all. Qed.
Print Assumptions C80_tables.
(** No number shown is infinite, NaN or a negative zero, and each equals itself. *)
Theorem C80_numbers : forall prof c x, reachable prof c -> shown_by c (Decimal32 x) -> finite x /\ x <> S754_zero true /\ equal x x.
Proof. exact C80_number_all. Qed.
Print Assumptions C80_numbers.

(** For values in general it is not so. *)
Example C80_needed : rust_value (Decimal32 S754_nan) /\ ~ same_value (Decimal32 S754_nan) (Decimal32 S754_nan) /\
  rust_value (Decimal32 (S754_zero true)) /\ same_value (Decimal32 (S754_zero true)) (Decimal32 (S754_zero false)) /\
  Decimal32 (S754_zero true) <> Decimal32 (S754_zero false).
Proof. split; [reflexivity|]. split; [discriminate|]. split; [reflexivity|]. split; [reflexivity|discriminate]. Qed.

(** The current module of C77 shows zero for -6912 on its first channel (4 to 20 mA) and for 0 on the second. *)
Definition zero_in : list Z := [0; 58624; 0; 0; 0; 0; 0; 0; 0].
Definition zero_meter : coupler := meter_run meter2 zero_in.
Example C80_example : reachable Debug meter1 /\ reachable Debug meter2 /\ reachable Debug zero_meter /\
  inputs meter1 <> inputs meter2 /\ shown_by meter1 (nth 1 (row_of meter1) VNone) /\ nth 1 (row_of meter1) VNone <> nth 1 (row_of meter2) VNone /\
  shown_by zero_meter (Decimal32 (S754_zero false)) /\ row_of zero_meter = [Decimal32 (S754_zero false); Decimal32 (S754_zero false)] ++ repeat Disabled 6.
Proof.
  destruct C77_example as (_ & R1 & R2 & _).
  assert (C3 : cycle Debug meter2 zero_in [] zero_meter (Ok [])) by (apply step_cycle; vm_compute; reflexivity).
  split; [exact R1|]. split; [exact R2|]. split; [apply (cycle_reachable _ _ _ _ _ _ R2 C3); discriminate|].
  split; [intros H; apply (f_equal (fun t => nth 1 (nth 1 t []) VNone)) in H; vm_compute in H; discriminate|].
  split; [exists 1%nat, 1%nat; left; vm_compute; reflexivity|]. split; [vm_compute; discriminate|].
  split; [exists 1%nat, 0%nat; left; vm_compute; reflexivity|]. vm_compute. reflexivity.
Qed.
