(** Property theorems C100: writing an output image to the registers is interrupted. *)
From Coq Require Import ZArith List Bool Lia SpecFloat.
From Verif Require Import Base Facts F32 Types Lib Com Fbc SpecCodec SpecSerial SpecCoupler SpecImage SpecAnalog SpecKeep SpecOutcome SpecIdle SpecSteady
  SpecTerminal SpecWire SpecContract SpecHold SpecStartup SpecTraffic SpecTogether SpecInterrupt ProofsWitness ProofsCoupler ProofsInterrupt PropsTogether.
Import ListNotations.
Local Open Scope Z_scope.

(** C100: programs that exchange data with a field bus coupler may be interrupted while they write an output image, so that only some
    of its registers are written, and may be started again, any number of times.  If the registers could be used at the beginning, they
    always can: the next cycle of each program succeeds exactly when the inputs can be decoded and the waiting requests can be sent. *)
Theorem C100_never_stuck : forall prof register c0 asked cs register' p n k c result,
  (forall a, is_u16 (register a)) -> register 0x27FE <= 64 -> start_up prof register = Ok c0 ->
  byte_wide c0 -> outputs_packed c0 -> ready_registers c0 register ->
  struggles prof (fun _ => c0) register asked cs register' ->
  outputs_within c0 (Z.to_nat k) ->
  cycle prof (cs p) (read_registers register' ADDR_PACKED_PROCESS_INPUT_DATA n) (read_registers register' ADDR_PACKED_PROCESS_OUTPUT_DATA k) c result ->
  (exists image, result = Ok image) <->
  inputs_readable (cs p) (read_registers register' ADDR_PACKED_PROCESS_INPUT_DATA n) /\ requests_accepted (cs p).
Proof. exact C100_never_stuck_all. Qed.
Print Assumptions C100_never_stuck.

(** C100: no serial module is ever sent a message longer than it can take, no counter a preset beyond its range. *)
Theorem C100_ready : forall prof register c0 asked cs register',
  (forall a, is_u16 (register a)) -> register 0x27FE <= 64 -> start_up prof register = Ok c0 ->
  byte_wide c0 -> outputs_packed c0 -> ready_registers c0 register ->
  struggles prof (fun _ => c0) register asked cs register' -> ready_registers c0 register'.
Proof. exact C100_ready_all. Qed.
Print Assumptions C100_ready.

(** C100: a digital output never has a value that it did not have at the beginning and that no program has requested. *)
Theorem C100_digital : forall prof register c0 asked cs register' i m o off n k,
  (forall a, is_u16 (register a)) -> register 0x27FE <= 64 -> start_up prof register = Ok c0 ->
  struggles prof (fun _ => c0) register asked cs register' ->
  alone c0 i m o off -> 0x8000 <= off -> digital_outputs m = Some n -> (k < n)%nat ->
  wire_bit register' off k = wire_bit register off k \/
  exists v, In (mk_address i k, v) asked /\ switches v = Some (wire_bit register' off k).
Proof. exact C100_digital_all. Qed.
Print Assumptions C100_digital.

(** C100, analog outputs: the code is that found at the beginning, or that of a requested value, up to the drift of format S7 (C82). *)
Theorem C100_analog : forall prof register c0 asked cs register' i m o off k rng f,
  (forall a, is_u16 (register a)) -> register 0x27FE <= 64 -> start_up prof register = Ok c0 ->
  struggles prof (fun _ => c0) register asked cs register' ->
  alone c0 i m o off -> 0x8000 <= off -> analog_output m k = Some (rng, f) -> rng <> UI_Disabled ->
  drifted f (wire_code register off k) (wire_code register' off k) \/
  exists v d, In (mk_address i k, v) asked /\ sends m k v d /\ is_u16 d /\ drifted f d (wire_code register' off k).
Proof. exact C100_analog_all. Qed.
Print Assumptions C100_analog.

(** C100, counters: the preset occupies two registers.  It may be put together from the upper half of one known preset and the lower
    half of another one; nothing else can happen to it.  A counter is not started or stopped unless that was requested. *)
Theorem C100_counter : forall prof register c0 asked cs register' i m o off k,
  (forall a, is_u16 (register a)) -> register 0x27FE <= 64 -> start_up prof register = Ok c0 ->
  struggles prof (fun _ => c0) register asked cs register' ->
  alone c0 i m o off -> 0x8000 <= off -> (exists ch, m = MFCNT ch) -> (k < 2)%nat ->
  (exists x y, known_preset register off (mk_address i k) asked x /\ known_preset register off (mk_address i k) asked y /\
     wire_preset register' off k = 65536 * (x / 65536) + y mod 65536) /\
  (wire_command register' off k = wire_command register off k \/
   exists v x, In (mk_address i k, v) asked /\ preset v = Some x /\ wire_command register' off k = fo_command x).
Proof. exact C100_counter_all. Qed.
Print Assumptions C100_counter.

(** The plant of C99.  A program sets a counter to 65535 us.  Later it wants to set it to 65536 us and to switch output 1 on, but is
    interrupted when the registers 0x0800 and 0x0805 have been written, and is restarted.  The output is on, the preset is 131071 us,
    which nobody has requested, and the next cycle succeeds. *)
Definition micros (n : Z) : channel_value := FcntOut (mk_fcnt_out (mk_duration 0 (n * 1000)) None).
Definition t1 : plant_state := asked s0 0 (mk_address 2 0) (micros 65535).
Definition t2 : plant_state := exchanged t1 0.
Definition t3 : plant_state := asked t2 0 (mk_address 2 0) (micros 65536).
Definition t4 : plant_state := asked t3 0 (mk_address 0 1) (Bit true).
Definition t5 : plant_state := (fst (exchanged t4 0), fun a => if (a =? 0x0800) || (a =? 0x0805) then snd (exchanged t4 0) a else snd t4 a).
Definition t6 : plant_state := restarted t5 0.
Definition t_asked : list (address * channel_value) :=
  [(mk_address 0 1, Bit true); (mk_address 2 0, micros 65536); (mk_address 2 0, micros 65535)].

Lemma turn_interrupted s p image r : forallb fits (read_registers (snd s) 0 10) = true -> forallb fits (read_registers (snd s) 0x0800 11) = true ->
  snd (turn s p) = Ok image -> (forall a, r a = snd s a \/ r a = snd (exchanged s p) a) ->
  interrupted_exchange Release (fst s p) (snd s) (fst (turn s p)) r.
Proof.
  intros H1 H2 H M. exists 10, 11, image. split; [discriminate|]. split; [discriminate|]. split.
  - apply step_cycle; [exact H1|exact H2|]. unfold turn in *. rewrite <- H. apply surjective_pairing.
  - unfold exchanged in M. cbn [snd] in M. rewrite H in M. exact M.
Qed.

Lemma t6_struggles : struggles Release (fun _ => plant_0) plant_registers t_asked (fst t6) (snd t6).
Proof.
  assert (V1 : rust_value (micros 65535)) by (vm_compute; repeat split; discriminate).
  assert (V2 : rust_value (micros 65536)) by (vm_compute; repeat split; discriminate).
  pose proof (S_begin Release (fun _ => plant_0) plant_registers) as H0.
  pose proof (S_calls _ _ _ _ _ _ 0 _ _ _ H0 (Calls_set Release (fst s0 0%nat) (mk_address 2 0) (micros 65535) V1)) as H1.
  assert (H2 : struggles Release (fun _ => plant_0) plant_registers [(mk_address 2 0, micros 65535)] (fst t2) (snd t2)).
  { refine (S_exchanges _ _ _ _ _ _ 0 _ _ H1 (turn_interrupted t1 0 _ _ _ _ _ _)); [vm_compute; reflexivity..|]. intros a. right. reflexivity. }
  pose proof (S_calls _ _ _ _ _ _ 0 _ _ _ H2 (Calls_set Release (fst t2 0%nat) (mk_address 2 0) (micros 65536) V2)) as H3.
  pose proof (S_calls _ _ _ _ _ _ 0 _ _ _ H3 (Calls_set Release (fst t3 0%nat) (mk_address 0 1) (Bit true) I)) as H4.
  assert (H5 : struggles Release (fun _ => plant_0) plant_registers t_asked (fst t5) (snd t5)).
  { refine (S_exchanges _ _ _ _ _ _ 0 _ _ H4 (turn_interrupted t4 0 _ _ _ _ _ _)); [vm_compute; reflexivity..|].
    intros a. unfold t5. cbn [snd]. destruct ((a =? 2048) || (a =? 2053)); auto. }
  refine (S_restarts _ _ _ _ _ _ 0 _ H5 _). vm_compute. reflexivity.
Qed.

Lemma plant_cases i m o : module_at plant_0 i m o ->
  (i = 0%nat /\ m = plant_do /\ o = mk_offset None (Some 0x8000)) \/ (i = 1%nat /\ m = plant_ao /\ o = mk_offset None (Some 0x8010)) \/
  (i = 2%nat /\ m = plant_cnt /\ o = mk_offset (Some 0) (Some 0x8050)).
Proof.
  assert (Em : c_modules plant_0 = [plant_do; plant_ao; plant_cnt]) by (vm_compute; reflexivity).
  assert (Eo : c_offsets plant_0 = plant_offsets) by (vm_compute; reflexivity).
  unfold module_at. rewrite Em, Eo. intros [Hm Ho]. destruct i as [|[|[|i]]]; [left|right; left|right; right|destruct i; discriminate Hm];
    cbn [nth_error plant_offsets] in Hm, Ho; apply Some_inj in Hm, Ho; auto.
Qed.

Example C100_example :
  (forall a, is_u16 (plant_registers a)) /\ plant_registers 0x27FE <= 64 /\ start_up Release plant_registers = Ok plant_0 /\
  byte_wide plant_0 /\ outputs_packed plant_0 /\ ready_registers plant_0 plant_registers /\ outputs_within plant_0 (Z.to_nat 11) /\
  struggles Release (fun _ => plant_0) plant_registers t_asked (fst t6) (snd t6) /\
  wire_bit (snd t6) 0x8000 1 = true /\ wire_preset (snd t6) 0x8050 0 = 131071 /\
  (exists c image, cycle Release (fst t6 0%nat) (read_registers (snd t6) 0 10) (read_registers (snd t6) 0x0800 11) c (Ok image)).
Proof.
  split; [apply C99_example|]. split; [discriminate|]. split; [vm_compute; reflexivity|].
  split. { intros i m o off Hat Eo E. destruct (plant_cases i m o Hat) as [(_ & -> & ->)|[(_ & -> & ->)|(_ & -> & ->)]];
    apply Some_inj in Eo; subst off; discriminate E. }
  split. { unfold outputs_packed. vm_compute. left. split; [reflexivity|]. left. split; [reflexivity|]. left. split; reflexivity. }
  split. { intros i m o off Hat Eo. destruct (plant_cases i m o Hat) as [(_ & -> & ->)|[(_ & -> & ->)|(_ & -> & ->)]];
    apply Some_inj in Eo; subst off; split; try discriminate. intros ch k _ Hk. destruct k as [|[|k]]; [discriminate..|lia]. }
  split. { intros i m o off Hat Eo. destruct (plant_cases i m o Hat) as [(_ & -> & ->)|[(_ & -> & ->)|(_ & -> & ->)]];
    apply Some_inj in Eo; subst off; (split; [discriminate|]); vm_compute; discriminate. }
  split; [exact t6_struggles|]. split; [vm_compute; reflexivity|]. split; [vm_compute; reflexivity|].
  eexists _, _. apply step_cycle; [vm_compute; reflexivity..|]. rewrite (surjective_pairing (next _ _ _ _ _ _)). f_equal; vm_compute; reflexivity.
Qed.
