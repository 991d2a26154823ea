(** Property theorems C99: several programs that work with the same field bus coupler. *)
From Coq Require Import ZArith List Bool Lia SpecFloat.
From Verif Require Import Base Facts F32 Types Lib Com Fbc SpecCodec SpecCoupler SpecImage SpecAnalog SpecKeep SpecHold SpecStartup SpecTraffic SpecTogether
  ProofsWitness ProofsTogether.
Import ListNotations.
Local Open Scope Z_scope.

(** C99: several programs take turns in exchanging data with the same registers.  Whatever they do, in whatever order, and whenever
    some of them fail or are restarted: an output channel of a digital module that shares its registers with no other module has the
    value requested last, by whichever program, among those requests that were sent; without such a request it has not changed. *)
Theorem C99_digital : forall prof register c0 h cs register' i m o off n k,
  (forall a, is_u16 (register a)) -> register 0x27FE <= 64 -> start_up prof register = Ok c0 ->
  together prof (fun _ => c0) register h cs register' ->
  alone c0 i m o off -> 0x8000 <= off -> digital_outputs m = Some n -> (k < n)%nat ->
  match in_force (after_history (mk_address i k) h) with
  | Some v => switches v = Some (wire_bit register' off k)
  | None => wire_bit register' off k = wire_bit register off k
  end.
Proof. exact C99_digital_all. Qed.
Print Assumptions C99_digital.

(** C99, analog outputs: the code of the value requested last, or the code found at the beginning, up to the drift of format S7 (C82). *)
Theorem C99_analog : forall prof register c0 h cs register' i m o off k rng f,
  (forall a, is_u16 (register a)) -> register 0x27FE <= 64 -> start_up prof register = Ok c0 ->
  together prof (fun _ => c0) register h cs register' ->
  alone c0 i m o off -> 0x8000 <= off -> analog_output m k = Some (rng, f) -> rng <> UI_Disabled ->
  match in_force (after_history (mk_address i k) h) with
  | Some v => exists d, sends m k v d /\ is_u16 d /\ drifted f d (wire_code register' off k)
  | None => drifted f (wire_code register off k) (wire_code register' off k)
  end.
Proof. exact C99_analog_all. Qed.
Print Assumptions C99_analog.

(** C99, counters: the preset and the command requested last, or those found at the beginning. *)
Theorem C99_counter : forall prof register c0 h cs register' i m o off k,
  (forall a, is_u16 (register a)) -> register 0x27FE <= 64 -> start_up prof register = Ok c0 ->
  together prof (fun _ => c0) register h cs register' ->
  alone c0 i m o off -> 0x8000 <= off -> (exists ch, m = MFCNT ch) -> (k < 2)%nat ->
  match in_force (after_history (mk_address i k) h) with
  | Some v => exists x, preset v = Some x /\ nanoseconds (fo_duration x) <= max_preset /\
      wire_preset register' off k = nanoseconds (fo_duration x) / 1000 /\ wire_command register' off k = fo_command x
  | None => wire_preset register' off k = wire_preset register off k /\ wire_command register' off k = wire_command register off k
  end.
Proof. exact C99_counter_all. Qed.
Print Assumptions C99_counter.

(** C99: if only program [p] requests values for a channel, then the others, their crashes included, have no influence on it: in two
    histories with the same events of [p] it has the same value. *)
Theorem C99_undisturbed : forall prof register c0 h cs register' h2 cs2 register2 p i m o off n k,
  (forall a, is_u16 (register a)) -> register 0x27FE <= 64 -> start_up prof register = Ok c0 ->
  together prof (fun _ => c0) register h cs register' -> together prof (fun _ => c0) register h2 cs2 register2 ->
  alone c0 i m o off -> 0x8000 <= off -> digital_outputs m = Some n -> (k < n)%nat ->
  (forall q v, In (Asks q (mk_address i k) v) h -> q = p) -> (forall q v, In (Asks q (mk_address i k) v) h2 -> q = p) ->
  done_by p h = done_by p h2 ->
  wire_bit register' off k = wire_bit register2 off k.
Proof. exact C99_own_all. Qed.
Print Assumptions C99_undisturbed.

(** C99: after an exchange each program sees the outputs that are in force, also those requested by the others. *)
Theorem C99_seen : forall prof register c0 h cs register' p c r2 i m o off n k,
  (forall a, is_u16 (register a)) -> register 0x27FE <= 64 -> start_up prof register = Ok c0 ->
  together prof (fun _ => c0) register h cs register' -> exchange prof (cs p) register' c r2 ->
  alone c0 i m o off -> 0x8000 <= off -> digital_outputs m = Some n -> (k < n)%nat ->
  exists b, cell (outputs c) i k = Some (Bit b) /\
  match in_force (after_history (mk_address i k) h) with
  | Some v => switches v = Some b
  | None => b = wire_bit register off k
  end.
Proof. exact C99_seen_all. Qed.
Print Assumptions C99_seen.

(** Digital outputs (register 0x0800), analog outputs of 0 - 20 mA in format S5 (from 0x0801) and two counters (outputs from 0x0805). *)
Definition plant_registers (a : Z) : Z :=
  match find (fun w => fst w =? a)
    [(0x27FE, 3); (0x2A00, 0x0101); (0x2A01, 0x2FA0); (0x2A02, 0x0502); (0x2A03, 0x25E0); (0x2A04, 0x0881); (0x2A05, 0x28EE);
     (0x2B00, 0x8000); (0x2B01, 0xFFFF); (0x2B02, 0x8010); (0x2B03, 0xFFFF); (0x2B04, 0x8050); (0x2B05, 0)] with
  | Some w => snd w
  | None => 0
  end.
Definition plant_0 : coupler := after no_coupler (start_up Release plant_registers).

(** Program 0 switches output 1 on, program 1 sets an analog output to 10 mA and a counter to 5 s.  Program 0 gets damaged images, wants
    to switch output 2 on as well, but is restarted before it has exchanged data. *)
Definition ten_milliamperes : channel_value := Decimal32 (S754_finite false 10485760 (-20)).
Definition five_seconds : channel_value := FcntOut (mk_fcnt_out (mk_duration 5 0) (Some Start)).
Definition plant_history : list event :=
  [Asks 0 (mk_address 0 1) (Bit true); Asks 1 (mk_address 1 0) ten_milliamperes; Exchanges 0; Exchanges 1;
   Asks 1 (mk_address 2 0) five_seconds; Misreads 0; Asks 0 (mk_address 0 2) (Bit true); Restarts 0; Exchanges 1; Exchanges 0].
Definition plant_state : Type := (nat -> coupler) * (Z -> Z).
Definition asked (s : plant_state) (p : nat) (a : address) (v : channel_value) : plant_state := (replace (fst s) p (fst (set_output (fst s p) a v)), snd s).
Definition turn (s : plant_state) (p : nat) : coupler * outcome (list Z) :=
  next Release as_is as_is (fst s p) (read_registers (snd s) 0 10) (read_registers (snd s) 0x0800 11).
Definition exchanged (s : plant_state) (p : nat) : plant_state :=
  (replace (fst s) p (fst (turn s p)), write_registers (snd s) 0x0800 (after [] (snd (turn s p)))).
Definition misread (s : plant_state) (p : nat) : plant_state := (replace (fst s) p (fst (next Release as_is as_is (fst s p) [] [])), snd s).
Definition restarted (s : plant_state) (p : nat) : plant_state := (replace (fst s) p plant_0, snd s).
Definition s0 : plant_state := (fun _ => plant_0, plant_registers).
Definition s1 := asked s0 0 (mk_address 0 1) (Bit true).
Definition s2 := asked s1 1 (mk_address 1 0) ten_milliamperes.
Definition s3 := exchanged s2 0.
Definition s4 := exchanged s3 1.
Definition s5 := asked s4 1 (mk_address 2 0) five_seconds.
Definition s6 := misread s5 0.
Definition s7 := asked s6 0 (mk_address 0 2) (Bit true).
Definition s8 := restarted s7 0.
Definition s9 := exchanged s8 1.
Definition s10 := exchanged s9 0.
Definition runs_to (n : nat) (s : plant_state) : Prop :=
  together Release (fun _ => plant_0) plant_registers (firstn n plant_history) (fst s) (snd s).

Lemma turn_exchange s p image : forallb fits (read_registers (snd s) 0 10) = true -> forallb fits (read_registers (snd s) 0x0800 11) = true ->
  snd (turn s p) = Ok image -> exchange Release (fst s p) (snd s) (fst (turn s p)) (snd (exchanged s p)).
Proof.
  intros H1 H2 H. exists 10, 11, image. split; [discriminate|]. split; [discriminate|]. split.
  - apply step_cycle; [exact H1|exact H2|]. unfold turn in *. rewrite <- H. apply surjective_pairing.
  - unfold exchanged. cbn [snd]. rewrite H. reflexivity.
Qed.

Lemma plant_runs_10 : runs_to 10 s10 /\ runs_to 9 s9.
Proof.
  assert (H0 : runs_to 0 s0) by apply T_begin.
  assert (H1 : runs_to 1 s1) by exact (T_asks _ _ _ (firstn 0 plant_history) _ _ 0 (mk_address 0 1) (Bit true) H0 I).
  assert (H2 : runs_to 2 s2) by exact (T_asks _ _ _ (firstn 1 plant_history) _ _ 1 (mk_address 1 0) ten_milliamperes H1 eq_refl).
  assert (H3 : runs_to 3 s3).
  { refine (T_exchanges _ _ _ (firstn 2 plant_history) _ _ 0 _ _ H2 (turn_exchange s2 0 _ _ _ _)); vm_compute; reflexivity. }
  assert (H4 : runs_to 4 s4).
  { refine (T_exchanges _ _ _ (firstn 3 plant_history) _ _ 1 _ _ H3 (turn_exchange s3 1 _ _ _ _)); vm_compute; reflexivity. }
  assert (H5 : runs_to 5 s5).
  { refine (T_asks _ _ _ (firstn 4 plant_history) _ _ 1 (mk_address 2 0) five_seconds H4 _). vm_compute. repeat split; discriminate. }
  assert (H6 : runs_to 6 s6).
  { refine (T_misreads _ _ _ (firstn 5 plant_history) _ _ 0 [] [] _ H5 _). apply step_cycle; vm_compute; reflexivity. }
  assert (H7 : runs_to 7 s7) by exact (T_asks _ _ _ (firstn 6 plant_history) _ _ 0 (mk_address 0 2) (Bit true) H6 I).
  assert (H8 : runs_to 8 s8).
  { refine (T_restarts _ _ _ (firstn 7 plant_history) _ _ 0 _ H7 _). vm_compute. reflexivity. }
  assert (H9 : runs_to 9 s9).
  { refine (T_exchanges _ _ _ (firstn 8 plant_history) _ _ 1 _ _ H8 (turn_exchange s8 1 _ _ _ _)); vm_compute; reflexivity. }
  split; [|exact H9].
  refine (T_exchanges _ _ _ (firstn 9 plant_history) _ _ 0 _ _ H9 (turn_exchange s9 0 _ _ _ _)); vm_compute; reflexivity.
Qed.

Definition plant_do : module := MDO V_4DO_P (repeat false 4).
Definition plant_ao : module := M4AO (repeat (Analog.mk_ao S5 UI_mA0To20 (S754_zero false)) 4).
Definition plant_cnt : module := MFCNT [us5; us5].
Definition plant_offsets : list module_offset := [mk_offset None (Some 0x8000); mk_offset None (Some 0x8010); mk_offset (Some 0) (Some 0x8050)].
Lemma plant_alone i m o off : nth_error [plant_do; plant_ao; plant_cnt] i = Some m -> nth_error plant_offsets i = Some o -> mo_output o = Some off ->
  alone plant_0 i m o off.
Proof.
  intros Hm Ho E. assert (Em : c_modules plant_0 = [plant_do; plant_ao; plant_cnt]) by (vm_compute; reflexivity).
  assert (Eo : c_offsets plant_0 = plant_offsets) by (vm_compute; reflexivity).
  unfold alone, module_at. rewrite Em, Eo. split; [auto|]. split; [exact E|].
  destruct i as [|[|[|i]]]; cbn [nth_error plant_offsets] in Hm, Ho; [| | |destruct i; discriminate];
    apply Some_inj in Hm, Ho; subst m o; cbn [mo_output] in E; apply Some_inj in E; subst off;
    (split; [reflexivity|]; split; [left; reflexivity|]); intros j m' o' off' Hj [_ Ho'] E';
    (destruct j as [|[|[|j]]]; [| | |destruct j; discriminate Ho']); try (exfalso; lia);
    cbn [nth_error plant_offsets] in Ho'; apply Some_inj in Ho'; subst o'; cbn [mo_output] in E'; apply Some_inj in E'; subst off';
    vm_compute; lia.
Qed.

Example C99_example :
  (forall a, is_u16 (plant_registers a)) /\ plant_registers 0x27FE <= 64 /\ start_up Release plant_registers = Ok plant_0 /\
  together Release (fun _ => plant_0) plant_registers plant_history (fst s10) (snd s10) /\
  alone plant_0 0 plant_do (mk_offset None (Some 0x8000)) 0x8000 /\ digital_outputs plant_do = Some 4%nat /\
  in_force (after_history (mk_address 0 1) plant_history) = Some (Bit true) /\ wire_bit (snd s10) 0x8000 1 = true /\
  in_force (after_history (mk_address 0 2) plant_history) = None /\ wire_bit (snd s10) 0x8000 2 = false /\
  alone plant_0 1 plant_ao (mk_offset None (Some 0x8010)) 0x8010 /\ analog_output plant_ao 0 = Some (UI_mA0To20, S5) /\
  in_force (after_history (mk_address 1 0) plant_history) = Some ten_milliamperes /\ wire_code (snd s10) 0x8010 0 = 8192 /\
  alone plant_0 2 plant_cnt (mk_offset (Some 0) (Some 0x8050)) 0x8050 /\
  in_force (after_history (mk_address 2 0) plant_history) = Some five_seconds /\
  wire_preset (snd s10) 0x8050 0 = 5000000 /\ wire_command (snd s10) 0x8050 0 = Some Start /\
  exchange Release (fst s9 0%nat) (snd s9) (fst s10 0%nat) (snd s10) /\ cell (outputs (fst s10 0%nat)) 0 1 = Some (Bit true) /\
  (forall q v, In (Asks q (mk_address 0 1) v) plant_history -> q = 0%nat) /\
  done_by 0 plant_history =
    [Asks 0 (mk_address 0 1) (Bit true); Exchanges 0; Misreads 0; Asks 0 (mk_address 0 2) (Bit true); Restarts 0; Exchanges 0].
Proof.
  split. { intros a. unfold plant_registers. destruct (find _ _) as [w|] eqn:E; [|split; [discriminate|reflexivity]]. apply find_some in E. destruct E as [E _].
    repeat (destruct E as [<-|E]; [split; [discriminate|reflexivity]|]). destruct E. }
  split; [discriminate|]. split; [vm_compute; reflexivity|]. split; [exact (proj1 plant_runs_10)|].
  split; [apply plant_alone; reflexivity|]. do 5 (split; [vm_compute; reflexivity|]).
  split; [apply plant_alone; reflexivity|]. do 3 (split; [vm_compute; reflexivity|]).
  split; [apply plant_alone; reflexivity|]. do 3 (split; [vm_compute; reflexivity|]).
  split. { refine (turn_exchange s9 0 _ _ _ _); vm_compute; reflexivity. }
  split; [vm_compute; reflexivity|]. split; [|vm_compute; reflexivity].
  intros q v Hi. cbn in Hi. decompose [or] Hi; try discriminate; try contradiction.
  match goal with E : Asks 0 _ _ = _ |- _ => injection E; auto end.
Qed.

(** The programs have to take turns: if both read the registers before one of them has written its image, the output switched on by the
    first is switched off by the second, which has not requested anything for it. *)
Definition both_0 : coupler := fst (set_output plant_0 (mk_address 0 1) (Bit true)).
Definition both_1 : coupler := fst (set_output plant_0 (mk_address 0 3) (Bit true)).
Definition image_0 : list Z := 2 :: repeat 0 10.
Definition image_1 : list Z := 8 :: repeat 0 10.
Example C99_turns_needed : exists c c',
  cycle Release both_0 (read_registers plant_registers 0 10) (read_registers plant_registers 0x0800 11) c (Ok image_0) /\
  cycle Release both_1 (read_registers plant_registers 0 10) (read_registers plant_registers 0x0800 11) c' (Ok image_1) /\
  requested both_1 (mk_address 0 1) = None /\
  wire_bit (write_registers plant_registers 0x0800 image_0) 0x8000 1 = true /\
  wire_bit (write_registers (write_registers plant_registers 0x0800 image_0) 0x0800 image_1) 0x8000 1 = false.
Proof.
  exists (fst (next Release as_is as_is both_0 (repeat 0 10) (repeat 0 11))), (fst (next Release as_is as_is both_1 (repeat 0 10) (repeat 0 11))).
  split; [apply step_cycle; vm_compute; reflexivity|]. split; [apply step_cycle; vm_compute; reflexivity|]. vm_compute. auto.
Qed.
