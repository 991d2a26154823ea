(** Property theorems C106: the flush flags of the initialisation do not cost the program a byte of its own. *)
From Coq Require Import ZArith List Bool Lia.
From Verif Require Import Base Facts F32 Types Lib Com Fbc SpecCodec SpecSerial SpecCoupler SpecImage SpecSystem SpecFault SpecFlush
  ProofsCoupler ProofsWitness ProofsSystem ProofsPlant ProofsFault ProofsFlush PropsCoupler PropsSystem PropsFault.
Import ListNotations.
Local Open Scope Z_scope.

(** The plant of PropsSystem.v.  An earlier program has left two bytes (70 and 71) in the transmit buffer of the module and
    one byte (80) has arrived that nobody has fetched.  70 goes out, then the first cycle makes the module discard the
    rest.  After the initialisation the program sends three bytes while two arrive. *)
Definition flush_begin : buffered_plant := mk_buffered example_start [70; 71] [] [80] [80].
Definition plainly (es : list plant_event) : list buffered_event := map (fun e => BPlant (Undisturbed e)) es.
Definition flush_init : list buffered_event :=
  plainly [PWrite 2 [1; 2; 3]; PCycle; POutput] ++ [BSend 1; BFlushTransmit; BFlushReceive] ++ plainly [PCycle; POutput].
Definition flush_dialogue : list buffered_event :=
  plainly [PCycle; POutput; PTake] ++ [BArrive [40; 41]; BSend 2] ++
  plainly [POffer [40; 41]; PInput [7; 0x0229; 0x2928; 0; 0]; PCycle] ++ [BArrive [42]].
Definition flush_exec (b : buffered_plant) (es : list buffered_event) : buffered_plant :=
  after b (match buffered_execs Debug 2 EightBytes 0x10 0x8010 b es with Some (b', _) => Ok b' | None => Err BufferLength end).
Definition flush_ready : buffered_plant := flush_exec flush_begin flush_init.
Definition flush_end : buffered_plant := flush_exec flush_ready flush_dialogue.

Lemma flush_runs_1 : buffered_runs Debug 2 EightBytes 0x10 0x8010 flush_begin flush_init flush_ready 0.
Proof. apply buffered_execs_run. vm_compute. reflexivity. Qed.
Lemma flush_runs_2 : buffered_runs Debug 2 EightBytes 0x10 0x8010 flush_ready flush_dialogue flush_end 0.
Proof. apply buffered_execs_run. vm_compute. reflexivity. Qed.
Lemma flush_is_initialised : initialised EightBytes 0x8010 (b_plant flush_ready).
Proof. split; [vm_compute; auto|]. intros o H. unfold sees in H. vm_compute in H. apply Ok_inj in H. subst o. reflexivity. Qed.

(** C106, transmission: a module that obeys the flush flags discards only what earlier programs have left in its buffer.
    In every history, with disturbances, what is on the line and in the transmit buffer is a first part of these leftovers
    followed by all bytes the module has taken over since (C50 and C69 tell which these are), provided that the program
    does not forget an image it has computed before it has written one with the flags cleared. *)
Theorem C106_flush_transmission : forall prof i l ioff ooff b0 es1 b1 es2 b2 n, plant_start i l ioff ooff (b_plant b0) ->
  b_line b0 = [] -> buffered_runs prof i l ioff ooff b0 es1 b1 0 -> (es2 = [] \/ initialised l ooff (b_plant b1)) ->
  buffered_runs prof i l ioff ooff b1 es2 b2 n ->
  exists k, b_line b2 ++ b_transmit b2 = firstn k (b_transmit b0) ++ t_taken (b_plant b2).
Proof. exact C106_transmission_all. Qed.
Print Assumptions C106_flush_transmission.
Example C106_transmission_example : plant_start 2 EightBytes 0x10 0x8010 (b_plant flush_begin) /\
  buffered_runs Debug 2 EightBytes 0x10 0x8010 flush_begin flush_init flush_ready 0 /\
  initialised EightBytes 0x8010 (b_plant flush_ready) /\
  buffered_runs Debug 2 EightBytes 0x10 0x8010 flush_ready flush_dialogue flush_end 0 /\
  t_taken (b_plant flush_end) = [1; 2; 3] /\ b_line flush_end = [70; 1; 2] /\ b_transmit flush_end = [3].
Proof.
  split; [exact example_starts|]. split; [exact flush_runs_1|]. split; [exact flush_is_initialised|].
  split; [exact flush_runs_2|]. vm_compute. auto.
Qed.

(** C106, reception: after the initialisation every byte that is in the receive buffer or arrives on the line is read by
    the program, waits in the coupler, is in the segment presented last or is still in the buffer, in this order. *)
Theorem C106_flush_reception : forall prof i l ioff ooff b0 es1 b1 es2 b2 n, plant_start i l ioff ooff (b_plant b0) ->
  buffered_runs prof i l ioff ooff b0 es1 b1 0 -> initialised l ooff (b_plant b1) -> t_offered (b_plant b1) = [] ->
  buffered_runs prof i l ioff ooff b1 es2 b2 n ->
  exists since presented, b_arrived b2 = b_arrived b1 ++ since /\
    (presented = [] \/ exists before, t_offered (b_plant b2) = before ++ [presented]) /\
    t_delivered (b_plant b2) ++ readable_in (t_coupler (b_plant b2)) i ++ presented ++ b_receive b2 = b_receive b1 ++ since.
Proof. exact C106_reception_all. Qed.
Print Assumptions C106_flush_reception.
Example C106_reception_example : t_offered (b_plant flush_ready) = [] /\ b_receive flush_ready = [] /\ b_arrived flush_ready = [80] /\
  t_offered (b_plant flush_end) = [[40; 41]] /\ readable_in (t_coupler (b_plant flush_end)) 2 = [40; 41] /\
  b_receive flush_end = [42] /\ b_arrived flush_end = [80; 40; 41; 42].
Proof. vm_compute. auto 10. Qed.

(** C106, end of the initialisation: as soon as an image is written after two cycles, and from then on for ever, whatever
    disturbances there are, the module no longer sees the flush flags. *)
Theorem C106_flush_ends :
  (forall prof i l ioff ooff t0 es t t', plant_start i l ioff ooff t0 -> faulty_runs prof i l ioff ooff t0 es t 0 ->
     (2 <= t_cycles t)%nat -> plant_step prof i l ioff ooff t POutput t' -> initialised l ooff t') /\
  (forall prof i l ioff ooff t0 es1 t1 es2 t2 n, plant_start i l ioff ooff t0 -> faulty_runs prof i l ioff ooff t0 es1 t1 0 ->
     initialised l ooff t1 -> faulty_runs prof i l ioff ooff t1 es2 t2 n -> initialised l ooff t2).
Proof. exact C106_initialised_all. Qed.
Print Assumptions C106_flush_ends.
(** The two cycles of PropsSystem.v, written at once. *)
Example C106_ends_example : exists es t t', plant_start 2 EightBytes 0x10 0x8010 example_start /\
  faulty_runs Debug 2 EightBytes 0x10 0x8010 example_start es t 0 /\ (2 <= t_cycles t)%nat /\
  plant_step Debug 2 EightBytes 0x10 0x8010 t POutput t' /\ t_register t = [12; 0; 0; 0; 0] /\ t_register t' <> t_register t.
Proof.
  exists [Undisturbed PCycle; Undisturbed PCycle], (example_exec example_start [PCycle; PCycle]), example_initialised.
  split; [exact example_starts|]. split.
  - change [Undisturbed PCycle; Undisturbed PCycle] with (map Undisturbed [PCycle; PCycle] ++ []).
    eapply undisturbed_runs; [apply exec_runs; vm_compute; reflexivity|apply FR_nil].
  - split; [vm_compute; auto|]. split; [apply exec_step; vm_compute; reflexivity|]. split; [vm_compute; reflexivity|vm_compute; discriminate].
Qed.

(** What is needed: if the program forgets the image of its second cycle - it reads the output registers back and goes on
    with them - then the flags stay set, since the later cycles pass them on, for ever; and the module may discard the
    bytes of the program. *)
Theorem C106_flags_stay : forall prof i l ioff ooff t0 es1 t1 n es2 t2 o1 o2, plant_start i l ioff ooff t0 ->
  faulty_runs prof i l ioff ooff t0 es1 t1 n -> (2 <= t_cycles t1)%nat ->
  plant_runs prof i l ioff ooff t1 es2 t2 -> computed l ooff t1 o1 -> computed l ooff t2 o2 ->
  flush_flags o2 = flush_flags o1.
Proof. exact C106_stay_all. Qed.
Print Assumptions C106_flags_stay.
Example C106_stay_example :
  plant_runs Debug 2 EightBytes 0x10 0x8010 example_start example_history example_initialised /\
  plant_runs Debug 2 EightBytes 0x10 0x8010 example_initialised example_sending example_sent /\
  (exists o, computed EightBytes 0x8010 example_initialised o /\ flush_flags o = (false, false)) /\
  exists o, computed EightBytes 0x8010 example_sent o /\ ro_data o = [9] /\ flush_flags o = (false, false).
Proof.
  split; [exact example_runs_1|]. split; [exact example_runs_2|].
  split; eexists; (split; [unfold computed; vm_compute; reflexivity|vm_compute; auto]).
Qed.

Definition flush_forgetful : list buffered_event :=
  plainly [PWrite 2 [1; 2; 3]; PCycle; POutput; PCycle] ++ [BPlant ReadBack] ++
  plainly [PCycle; POutput; PTake] ++ [BFlushTransmit].
Definition flush_lost : buffered_plant := flush_exec (mk_buffered example_start [] [] [] []) flush_forgetful.
Lemma flush_runs_3 : buffered_runs Debug 2 EightBytes 0x10 0x8010 (mk_buffered example_start [] [] [] []) flush_forgetful flush_lost 1.
Proof. apply buffered_execs_run. vm_compute. reflexivity. Qed.

Theorem C106_written_reset_needed : exists prof i l ioff ooff t0 es b, plant_start i l ioff ooff t0 /\
  buffered_runs prof i l ioff ooff (mk_buffered t0 [] [] [] []) es b 1 /\
  t_written (b_plant b) = [1; 2; 3] /\ t_taken (b_plant b) = [1; 2; 3] /\ b_line b ++ b_transmit b = [] /\
  forall es' t' o, plant_runs prof i l ioff ooff (b_plant b) es' t' -> computed l ooff t' o -> flush_flags o = (true, true).
Proof.
  exists Debug, 2%nat, EightBytes, 0x10, 0x8010, example_start, flush_forgetful, flush_lost.
  split; [exact example_starts|]. split; [exact flush_runs_3|].
  do 3 (split; [vm_compute; reflexivity|]). intros es' t' o H Ho.
  destruct (buffered_faulty _ _ _ _ _ _ _ _ _ flush_runs_3) as (es & F). cbn [b_plant] in F.
  assert (Hc : (2 <= t_cycles (b_plant flush_lost))%nat) by (vm_compute; auto).
  assert (E : exists o1, computed EightBytes 0x8010 (b_plant flush_lost) o1 /\ flush_flags o1 = (true, true)).
  { eexists. split; [unfold computed; vm_compute; reflexivity|reflexivity]. }
  destruct E as (o1 & E1 & E2). rewrite <- E2. exact (C106_stay_all _ _ _ _ _ _ _ _ _ _ _ _ _ example_starts F Hc H E1 Ho).
Qed.
Print Assumptions C106_written_reset_needed.
