(** Specification of the order and the resolution of measured values (C77). *)
From Coq Require Import ZArith List Bool SpecFloat.
From Verif Require Import Base F32 Types Analog Fbc SpecAnalog.
Import ListNotations.
Local Open Scope Z_scope.

(** The number that the register of channel [k] of an input module stands for; [None] for a disabled channel and for
    modules without measured values.  Resistances are counted without a sign. *)
Definition measures (m : module) (k : nat) : option (Z -> Z) :=
  match m with
  | MRTD _ ch =>
      match nth_error ch k with
      | None => None
      | Some p =>
          match rtd_measurement_range p with
          | RTD_Disabled => None
          | r => match full_resistance r with Some _ => Some (fun d => d) | None => Some signed end
          end
      end
  | MTC _ ch =>
      match nth_error ch k with
      | None => None
      | Some p => match tc_measurement_range p with TC_Disabled => None | _ => Some signed end
      end
  | _ =>
      match analog_input m k with
      | None | Some (UI_Disabled, _) => None
      | Some _ => Some signed
      end
  end.

(** [<] and [==] of Rust's [f32]. *)
Definition less (x y : f32) : Prop := SFltb x y = true.
Definition equal (x y : f32) : Prop := SFeqb x y = true.

(** [==] of channel values: numbers are compared as [f32], everything else structurally. *)
Definition same_value (v w : channel_value) : Prop :=
  match v, w with Decimal32 x, Decimal32 y => equal x y | _, _ => v = w end.

(** The kinds of modules with measured inputs. *)
Definition measuring_module (m : module) : Prop :=
  match m with MRTD _ _ | MUI16DIAG _ _ | MAIUI _ _ _ | M8AI _ _ | MTC _ _ => True | _ => False end.
(** All channels have settings, as in every module that was configured from registers. *)
Definition fully_configured (m : module) : Prop :=
  match m with
  | MRTD _ ch => length ch = 4%nat
  | MUI16DIAG _ ch => length ch = 4%nat
  | MAIUI _ _ ch => length ch = 4%nat
  | M8AI _ ch => length ch = 8%nat
  | MTC _ ch => length ch = 4%nat
  | _ => True
  end.
