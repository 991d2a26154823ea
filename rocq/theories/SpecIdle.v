(** Specification of idle cycles (C48). *)
From Coq Require Import ZArith List Bool.
From Verif Require Import Base F32 Types Lib Com Fbc SpecCodec SpecSerial SpecCoupler SpecImage SpecAnalog.
Import ListNotations.
Local Open Scope Z_scope.

(** Nothing is left to do: no output is requested and every serial module is initialised and has
    nothing to send. *)
Definition settled (c : coupler) : Prop :=
  (forall a, requested c a = None) /\
  (forall i p, serial c i = Some p -> p_init_state p = Done /\ p_out_data p = []).

(** No serial module has received anything between two input images: its receive counter is the same. *)
Definition nothing_received (prof : profile) (c : coupler) (input input' : list Z) : Prop :=
  forall rows rows' i r r', process_input_data prof (infos c) input = Ok rows ->
    process_input_data prof (infos c) input' = Ok rows' ->
    cell rows i 0 = Some (ComRsIn r) -> cell rows' i 0 = Some (ComRsIn r') -> ri_rx_cnt r' = ri_rx_cnt r.

(** Every analog output that is not disabled uses format S5. *)
Definition exact_outputs (c : coupler) : Prop :=
  forall i m k r f, nth_error (c_modules c) i = Some m -> analog_output m k = Some (r, f) ->
    f = S5 \/ r = UI_Disabled.

(** No module with more than two bytes of output data starts in the middle of a register. *)
Definition byte_wide (c : coupler) : Prop :=
  forall i m o off, module_at c i m o -> mo_output o = Some off -> off mod 16 = 8 -> (output_bytes m <= 2)%nat.

(** Idle cycles after a cycle with input image [input] that left coupler [c] and returned [image]: each one
    is given the image returned by the one before. *)
Inductive idles (prof : profile) : coupler -> list Z -> list Z -> coupler -> list (list Z) -> Prop :=
| Idles_0 c input image : idles prof c input image c []
| Idles_S c input image input1 c1 image1 c2 images :
    nothing_received prof c input input1 ->
    cycle prof c input1 image c1 (Ok image1) ->
    idles prof c1 input1 image1 c2 images ->
    idles prof c input image c2 (image1 :: images).
