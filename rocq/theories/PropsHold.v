(** Property theorems C82: how a control loop holds its analog outputs. *)
From Coq Require Import ZArith Reals Lra List Bool SpecFloat.
From Verif Require Import Base Facts F32 Types Lib Util Digital Analog Fcnt Com Fbc SpecCodec SpecSerial SpecCoupler SpecImage SpecAnalog SpecFeedback SpecGlitch SpecKeep SpecHold
  ProofsWitness ProofsReadback ProofsIdle ProofsHold.
Import ListNotations.
Local Open Scope Z_scope.

(** C82: in a program that hands the image of each cycle to the next one, the register of an analog output channel holds the
    code of the value requested last, or the code it had at the beginning if there was no request, however many cycles, other
    requests, serial bytes and failing cycles lie in between; with format S7 it can have lost up to five steps.  A disabled channel
    is zero. *)
Theorem C82_analog_kept : forall prof c0 image0 before input after c image i m o off k r f,
  reachable prof c0 -> alone c0 i m o off -> analog_output m k = Some (r, f) -> requested c0 (mk_address i k) = None ->
  loops prof c0 image0 (before ++ [Tick input] ++ after) c image -> between_ticks after ->
  exists w, output_register image off k = Some w /\ is_u16 w /\ (r = UI_Disabled -> w = 0) /\
    (forall v, latest (requests before) (mk_address i k) (Some v) -> exists d, sends m k v d /\ is_u16 d /\ drifted f d w) /\
    (latest (requests before) (mk_address i k) None -> r <> UI_Disabled ->
       exists w0, output_register image0 off k = Some w0 /\ is_u16 w0 /\ drifted f w0 w).
Proof. exact C82_code_all. Qed.
Print Assumptions C82_analog_kept.
(** So the physical value differs from the requested one by little more than one step with S5 and by six steps with S7. *)
Theorem C82_physical_value : forall prof c0 image0 before input after c image i m o off k r f base span x,
  reachable prof c0 -> alone c0 i m o off -> analog_output m k = Some (r, f) -> base_span r = Some (base, span) ->
  requested c0 (mk_address i k) = None ->
  loops prof c0 image0 (before ++ [Tick input] ++ after) c image -> between_ticks after ->
  latest (requests before) (mk_address i k) (Some (Decimal32 x)) -> f32_valid x = true -> finite x ->
  (-32768 <= exact_code base span (full_code f) (real x) <= 32767)%R ->
  exists w, output_register image off k = Some w /\
    (Rabs (exact_value base span (full_code f) (signed w) - real x) <= IZR (hundredths f) / 100 * (IZR span / IZR (full_code f)))%R.
Proof. exact C82_value_all. Qed.
Print Assumptions C82_physical_value.

(** A channel 0 - 20 mA with format S7: a request of about 1.003 mA is sent as 1387 and drifts to 1385 in two cycles, while
    another channel is set. *)
Definition hold_value : f32 := S754_finite false 8416600 (-23).
Definition hold_run (c : coupler) (image : list Z) : coupler := fst (next Debug as_is as_is c [] image).
Definition hold1 : coupler := fst (set_output drift0 (mk_address 0 0) (Decimal32 hold_value)).
Definition hold2 : coupler := hold_run hold1 [0; 0; 0; 7].
Definition hold3 : coupler := fst (set_output hold2 (mk_address 0 1) (Decimal32 (f32_of_Z 20))).
Definition hold4 : coupler := hold_run hold3 [1387; 0; 0; 7].
Definition hold5 : coupler := hold_run hold4 [1386; 27648; 0; 7].
Definition hold_module : module := M4AO (repeat (mk_ao S7 UI_mA0To20 (S754_zero false)) 4).
Definition hold_before : list action :=
  [Request (mk_address 0 0) (Decimal32 hold_value); Tick []; Request (mk_address 0 1) (Decimal32 (f32_of_Z 20)); Tick []].
Example C82_example : reachable Debug drift0 /\ alone drift0 0 hold_module (mk_offset None (Some 0x8000)) 0x8000 /\
  analog_output hold_module 0 = Some (UI_mA0To20, S7) /\ requested drift0 (mk_address 0 0) = None /\
  loops Debug drift0 [0; 0; 0; 7] (hold_before ++ [Tick []] ++ []) hold5 [1385; 27648; 0; 7] /\ between_ticks [] /\
  latest (requests hold_before) (mk_address 0 0) (Some (Decimal32 hold_value)) /\ latest (requests hold_before) (mk_address 0 3) None /\
  output_register [1385; 27648; 0; 7] 0x8000 0 = Some 1385 /\ sends hold_module 0 (Decimal32 hold_value) 1387 /\
  f32_valid hold_value = true /\ finite hold_value /\ (-32768 <= exact_code 0 20 (full_code S7) (real hold_value) <= 32767)%R.
Proof.
  split; [apply (start_reachable _ cfg48); vm_compute; reflexivity|].
  split. { split; [split; vm_compute; reflexivity|]. split; [reflexivity|]. split; [reflexivity|]. split; [left; reflexivity|].
           intros [|j] m' o' off' Hj [Hm' _]; [inversion Hj|]. destruct j; discriminate. }
  split; [reflexivity|]. split; [vm_compute; reflexivity|].
  split. { unfold hold_before. cbn [app]. apply L_request; [reflexivity|].
           apply (L_tick Debug hold1 _ [] hold2 [1387; 0; 0; 7]); [apply step_cycle; vm_compute; reflexivity|].
           apply L_request; [reflexivity|].
           apply (L_tick Debug hold3 _ [] hold4 [1386; 27648; 0; 7]); [apply step_cycle; vm_compute; reflexivity|].
           apply (L_tick Debug hold4 _ [] hold5 [1385; 27648; 0; 7]); [apply step_cycle; vm_compute; reflexivity|]. apply L_nil. }
  split; [intros y []|].
  split. { apply (Latest_some [] [(mk_address 0 1, Decimal32 (f32_of_Z 20))]). intros v [E|[]]. apply pair_inj in E. destruct E as [E _]. discriminate. }
  split. { apply Latest_none. intros v [E|[E|[]]]; apply pair_inj in E; destruct E as [E _]; discriminate. }
  split; [reflexivity|].
  split; [apply (sends_run Debug _ [Decimal32 hold_value; Disabled; Disabled; Disabled]); vm_compute; reflexivity|].
  split; [reflexivity|]. split; [exact I|].
  unfold exact_code, hold_value. cbn [full_code real]. change (powerRZ 2 (-23)) with (/ 2 ^ 23)%R. replace (2 ^ 23)%R with 8388608%R by (cbn; lra). lra.
Qed.
