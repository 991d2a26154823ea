(** Specification of the defaults (C75). *)
From Coq Require Import ZArith List.
From Verif Require Import Base Types Lib Fbc.
Import ListNotations.
Local Open Scope Z_scope.

(** The analog modules: inputs and outputs. *)
Definition analog_input (t : module_type) : Prop :=
  In t [UR20_4AI_UI_16; UR20_4AI_UI_16_DIAG; UR20_4AI_UI_12; UR20_8AI_I_16_DIAG_HD; UR20_4AI_RTD_DIAG; UR20_4AI_TC_DIAG].
Definition analog_output (t : module_type) : Prop := In t [UR20_4AO_UI_16; UR20_4AO_UI_16_DIAG].

(** The parameter registers that configure the default of each module: input delay 3 ms; substitute values off; analog channels
    disabled, with data format S7, conversion time 80 ms, without frequency suppression, diagnostics and limit alarms; temperatures in
    degrees Celsius; the limits of a thermocouple are the largest and the smallest number; counter filter 5 us; 9600 baud, 8 data bits,
    16 byte process data, XON and XOFF as usual. *)
Definition standard_registers (t : module_type) : option (list Z) :=
  match t with
  | UR20_4DI_P => Some (repeat 2 4)
  | UR20_8DI_P_2W => Some (repeat 2 8)
  | UR20_4DO_P | UR20_4DO_P_2A | UR20_4RO_CO_255 => Some (repeat 0 4)
  | UR20_8DO_P => Some (repeat 0 8)
  | UR20_16DO_P | UR20_PF_O_1DI_SIL => Some []
  | UR20_4AO_UI_16 => Some (concat (repeat [1; 8; 0] 4))
  | UR20_4AO_UI_16_DIAG => Some (concat (repeat [1; 8; 0; 0] 4))
  | UR20_4AI_UI_12 | UR20_4AI_UI_16 => Some (0 :: concat (repeat [1; 8] 4))
  | UR20_4AI_UI_16_DIAG => Some (0 :: concat (repeat [0; 0; 0; 1; 8] 4))
  | UR20_8AI_I_16_DIAG_HD => Some (0 :: concat (repeat [0; 0; 1; 2] 8))
  | UR20_4AI_RTD_DIAG => Some (0 :: concat (repeat [18; 0; 2; 0; 0; 0; 0] 4))
  | UR20_4AI_TC_DIAG => Some (0 :: concat (repeat [19; 0; 2; 0; 0; 32767; 32768] 4))
  | UR20_2FCNT_100 => Some [0; 0]
  | UR20_1COM_232_485_422 => Some [1; 0; 5; 0; 0; 0; 1; 0; 17; 19]
  | _ => None
  end.
