(** Specification of parameter windows (C08). *)
From Coq Require Import ZArith List.
From Verif Require Import Base Types.
Import ListNotations.
Local Open Scope Z_scope.

(** Number of parameter registers of each module type that has a documented parameter
    block. *)
Definition documented_param_count (t : module_type) : option Z :=
  match t with
  | UR20_4DI_P | UR20_4DI_P_3W => Some 4            (* one input delay per channel *)
  | UR20_8DI_P_2W | UR20_8DI_P_3W => Some 8
  | UR20_4DO_P | UR20_4DO_P_2A | UR20_4RO_CO_255 => Some 4  (* one substitute flag per channel *)
  | UR20_8DO_P => Some 8
  | UR20_16DO_P => Some 0
  | UR20_8AI_I_16_DIAG_HD => Some 33                (* 1 + 8 channels of 4 *)
  | UR20_4AI_UI_16_DIAG => Some 21                  (* 1 + 4 channels of 5 *)
  | UR20_4AI_UI_12 | UR20_4AI_UI_16 => Some 9       (* 1 + 4 channels of 2 *)
  | UR20_4AI_TC_DIAG | UR20_4AI_RTD_DIAG => Some 29 (* 1 + 4 channels of 7 *)
  | UR20_4AO_UI_16 => Some 12                       (* 4 channels of 3 *)
  | UR20_4AO_UI_16_DIAG => Some 16                  (* 4 channels of 4 *)
  | UR20_2FCNT_100 => Some 2                        (* one input filter per channel *)
  | UR20_1COM_232_485_422 => Some 10
  | UR20_PF_O_1DI_SIL => Some 0
  | _ => None
  end.

(** Two register windows (first register, number of registers) without a common register. *)
Definition disjoint_windows (a b : Z * Z) : Prop :=
  forall r, ~ (fst a <= r < fst a + snd a /\ fst b <= r < fst b + snd b).
