(** Property theorems C105: serial dialogues when the registers change while the input image is read. *)
From Coq Require Import ZArith List Bool Lia.
From Verif Require Import Base Facts F32 Types Lib Com Fbc SpecCodec SpecSerial SpecCoupler SpecImage SpecSystem SpecFault SpecOrdered SpecSlow
  ProofsCoupler ProofsWitness ProofsSystem ProofsPlant ProofsFault ProofsSlow PropsCoupler PropsSystem.
Import ListNotations.
Local Open Scope Z_scope.

(** The plant of PropsSystem.v.  After two cycles the module offers two bytes, which the program fetches and acknowledges.
    While it reads the input image again, the module offers three more bytes: the program gets the first register as it
    was before and the others as they are afterwards.  The next image is read at once. *)
Definition prompt (e : plant_event) : slow_event := Prompt (Disturbed (Undisturbed e)).
Definition slow_old : list Z := [7; 0x0209; 0x2928; 0; 0].
Definition slow_before : list plant_event := [PWrite 2 [9]; POffer [40; 41]; PInput slow_old; PCycle; POutput; PTake].
(** The byte written has been taken over by then, which the first register tells. *)
Definition slow_taken : list Z := [7; 0x0229; 0x2928; 0; 0].
Definition slow_new : list Z := [7; 0x0331; 0x3332; 0x0034; 0].
Definition slow_mixed : list Z := [7; 0x0229; 0x3332; 0x0034; 0].
Definition slow_swapped : list Z := [7; 0x0331; 0x2928; 0; 0].
Definition slow_fetched : plant := example_exec example_initialised slow_before.
Definition slow_changed : plant := example_exec slow_fetched [POffer [50; 51; 52]].
Definition slow_read : plant := with_latch slow_changed slow_mixed.
Definition slow_cycle : plant := example_exec slow_read [PWrite 2 [10]; PCycle].
Definition slow_after : list plant_event := [POutput; PInput slow_new; PCycle].
Definition slow_end : plant := example_exec slow_cycle slow_after.
Definition slow_reading : slow_event := SlowInput [POffer [50; 51; 52]] [slow_taken; slow_new] slow_mixed.
Definition slow_events : list slow_event :=
  map prompt slow_before ++ slow_reading :: map prompt [PWrite 2 [10]; PCycle].

Lemma slow_undisturbed prof i l ioff ooff es : forall t t1 es' t2 n, plant_runs prof i l ioff ooff t es t1 ->
  slow_runs prof i l ioff ooff t1 es' t2 n -> slow_runs prof i l ioff ooff t (map prompt es ++ es') t2 n.
Proof.
  intros t t1 es' t2 n H H'. induction H as [t|t e t1 es t2' H1 H2 IH]; cbn [map app]; [exact H'|].
  exact (SR_cons _ _ _ _ _ _ _ _ _ _ _ (S_prompt _ _ _ _ _ _ _ _ (T_disturbed _ _ _ _ _ _ _ _ (F_undisturbed _ _ _ _ _ _ _ _ H1))) (IH H')).
Qed.
(** A slow read with a single event of the module. *)
Lemma slow_single prof i l ioff ooff t e t' s1 s2 input : presented l ioff t s1 -> presented l ioff t' s2 ->
  module_event e = true -> plant_step prof i l ioff ooff t e t' -> Forall is_u16 input ->
  length s1 = length input -> length s2 = length input ->
  forallb (fun k => match nth_error input (in_header ioff + k) with
                    | Some w => match nth_error s1 (in_header ioff + k), nth_error s2 (in_header ioff + k) with
                                | Some w1, Some w2 => (w =? w1) || (w =? w2) | _, _ => false end
                    | None => false end) (seq 0 (message_registers l)) = true ->
  slow_step prof i l ioff ooff t (SlowInput [e] [s1; s2] input) (with_latch t' input).
Proof.
  intros P1 P2 He H Hu L1 L2 Hk. apply S_slow_input; [|exact Hu| |].
  - exact (W_later _ _ _ _ _ _ _ _ _ _ _ _ P1 He H (W_now _ _ _ _ _ _ _ P2)).
  - intros s [<-|[<-|[]]]; assumption.
  - intros k Lk. rewrite forallb_forall in Hk. specialize (Hk k). rewrite in_seq in Hk. specialize (Hk ltac:(lia)).
    destruct (nth_error input (in_header ioff + k)) as [w|]; [|discriminate].
    destruct (nth_error s1 (in_header ioff + k)) as [w1|] eqn:E1; [|discriminate].
    destruct (nth_error s2 (in_header ioff + k)) as [w2|] eqn:E2; [|discriminate].
    apply orb_prop in Hk. destruct Hk as [Hk|Hk]; apply Z.eqb_eq in Hk; subst w.
    + exists s1. split; [left; reflexivity|symmetry; exact E1].
    + exists s2. split; [right; left; reflexivity|symmetry; exact E2].
Qed.
Ltac single := apply slow_single; [split; [apply fits_u16|]; vm_compute; reflexivity..|reflexivity|apply exec_step; vm_compute; reflexivity|
  apply fits_u16; vm_compute; reflexivity|reflexivity|reflexivity|vm_compute; reflexivity].

Lemma slow_reads : slow_step Debug 2 EightBytes 0x10 0x8010 slow_fetched slow_reading slow_read.
Proof. single. Qed.
Lemma slow_runs_1 : slow_runs Debug 2 EightBytes 0x10 0x8010 example_initialised slow_events slow_cycle 0.
Proof.
  unfold slow_events. apply slow_undisturbed with (t1 := slow_fetched); [apply exec_runs; vm_compute; reflexivity|].
  refine (SR_cons _ _ _ _ _ _ _ _ _ _ 0 slow_reads _). rewrite <- (app_nil_r (map _ _)).
  apply slow_undisturbed with (t1 := slow_cycle); [apply exec_runs; vm_compute; reflexivity|]. constructor.
Qed.
Lemma slow_runs_0 : slow_runs Debug 2 EightBytes 0x10 0x8010 example_start (map prompt example_history) example_initialised 0.
Proof. rewrite <- (app_nil_r (map _ _)). apply slow_undisturbed with (t1 := example_initialised); [exact example_runs_1|constructor]. Qed.
Lemma slow_order : Forall (fun e => writes_in_order EightBytes 0x8010 e /\ header_first 0x10 e) (map prompt example_history ++ slow_events).
Proof. repeat (constructor; [split; [exact I|]; try exact I; exists slow_taken, [slow_new]; split; reflexivity|]). constructor. Qed.

(** C105, transmission: whatever is read of an input image that changes meanwhile (whichever order its registers are read in),
    what the module took over is a subsequence of what was handed over, and everything unless a segment was forgotten (as
    in C69). *)
Theorem C105_slow_transmission : forall prof i l ioff ooff t0 es t n, plant_start i l ioff ooff t0 ->
  slow_runs prof i l ioff ooff t0 es t n -> Forall (writes_in_order l ooff) es ->
  subsequence (t_taken t ++ on_its_way l ooff t ++ waiting_in (t_coupler t) i) (t_written t) /\
  (length (t_written t) <=
     length (t_taken t ++ on_its_way l ooff t ++ waiting_in (t_coupler t) i) + n * payload_size l)%nat /\
  (n = 0%nat -> t_written t = t_taken t ++ on_its_way l ooff t ++ waiting_in (t_coupler t) i).
Proof. exact C105_transmission_all. Qed.
Print Assumptions C105_slow_transmission.

Example C105_slow_transmission_nontrivial : plant_start 2 EightBytes 0x10 0x8010 example_start /\
  slow_runs Debug 2 EightBytes 0x10 0x8010 example_start (map prompt example_history ++ slow_events) slow_cycle 0 /\
  Forall (writes_in_order EightBytes 0x8010) (map prompt example_history ++ slow_events) /\
  (* the image that was read is neither the old one nor the new one *)
  t_latch slow_read = slow_mixed /\ slow_mixed <> slow_taken /\ slow_mixed <> slow_new /\
  t_written slow_cycle = [9; 10] /\ t_taken slow_cycle = [9] /\ on_its_way EightBytes 0x8010 slow_cycle = [10].
Proof.
  split; [exact example_starts|]. split; [apply slow_undisturbed with (t1 := example_initialised); [exact example_runs_1|exact slow_runs_1]|].
  split; [eapply Forall_impl; [|exact slow_order]; intros e (H & _); exact H|]. vm_compute. repeat split; discriminate.
Qed.

(** C105, progress: once two cycles have been made, everything that was not forgotten is taken over after as many
    undisturbed rounds as segments are outstanding. *)
Theorem C105_slow_progress : forall prof i l ioff ooff t0 es t n rounds t', plant_start i l ioff ooff t0 ->
  slow_runs prof i l ioff ooff t0 es t n -> Forall (writes_in_order l ooff) es -> (2 <= t_cycles t)%nat ->
  Forall plant_round rounds -> (outstanding i l ooff t <= length rounds)%nat ->
  plant_runs prof i l ioff ooff t (concat rounds) t' ->
  exists rest, t_taken t' = (t_taken t ++ on_its_way l ooff t ++ waiting_in (t_coupler t) i) ++ rest.
Proof. exact C105_progress_all. Qed.
Print Assumptions C105_slow_progress.

Definition slow_round : list plant_event := [PInput slow_new; PCycle; POutput; PTake].
Example C105_slow_progress_nontrivial : (2 <= t_cycles slow_cycle)%nat /\ outstanding 2 EightBytes 0x8010 slow_cycle = 1%nat /\
  Forall plant_round [slow_round] /\
  plant_runs Debug 2 EightBytes 0x10 0x8010 slow_cycle (concat [slow_round]) (example_exec slow_cycle slow_round) /\
  t_taken (example_exec slow_cycle slow_round) = [9; 10].
Proof.
  split; [vm_compute; auto|]. split; [vm_compute; reflexivity|]. split; [|split; [apply exec_runs|]; vm_compute; reflexivity].
  constructor; [|constructor]. exists [], slow_new, [], [], [], []. reflexivity.
Qed.

(** C105, reception: if the first register of the message is never read after its others and nothing has been offered
    before two cycles were made, the program reads exactly the segments the module has offered, in order, each once; and a
    cycle after a read, slow or not, fetches everything offered before the read. *)
Theorem C105_slow_reception :
  (forall prof i l ioff ooff t0 es1 t1 n1 es2 t2 n2, plant_start i l ioff ooff t0 ->
    slow_runs prof i l ioff ooff t0 es1 t1 n1 -> Forall (fun e => writes_in_order l ooff e /\ header_first ioff e) es1 ->
    (2 <= t_cycles t1)%nat -> t_offered t1 = [] ->
    slow_runs prof i l ioff ooff t1 es2 t2 n2 -> Forall (fun e => writes_in_order l ooff e /\ header_first ioff e) es2 ->
    exists fetched, (fetched <= length (t_offered t2) <= fetched + 1)%nat /\
      t_delivered t2 ++ readable_in (t_coupler t2) i = concat (firstn fetched (t_offered t2))) /\
  (forall prof i l ioff ooff t0 es1 t1 n1 es2 t2 n2 a e b c t3 n3, plant_start i l ioff ooff t0 ->
    slow_runs prof i l ioff ooff t0 es1 t1 n1 -> Forall (fun e => writes_in_order l ooff e /\ header_first ioff e) es1 ->
    (2 <= t_cycles t1)%nat -> t_offered t1 = [] ->
    slow_runs prof i l ioff ooff t1 es2 t2 n2 -> Forall (fun e => writes_in_order l ooff e /\ header_first ioff e) es2 ->
    slow_runs prof i l ioff ooff t2 (a ++ [e] ++ b ++ [Prompt (Disturbed (Undisturbed PCycle))] ++ c) t3 n3 ->
    Forall (fun e => writes_in_order l ooff e /\ header_first ioff e) (a ++ [e] ++ b ++ c) ->
    reads_input e ->
    exists fetched, (length (t_offered t2) <= fetched <= length (t_offered t3))%nat /\
      t_delivered t3 ++ readable_in (t_coupler t3) i = concat (firstn fetched (t_offered t3))).
Proof. split; [exact C105_reception_all|exact C105_reception_progress_all]. Qed.
Print Assumptions C105_slow_reception.

Example C105_slow_reception_nontrivial :
  slow_runs Debug 2 EightBytes 0x10 0x8010 example_start (map prompt example_history) example_initialised 0 /\
  (2 <= t_cycles example_initialised)%nat /\ t_offered example_initialised = [] /\
  slow_runs Debug 2 EightBytes 0x10 0x8010 example_initialised slow_events slow_cycle 0 /\
  Forall (fun e => writes_in_order EightBytes 0x8010 e /\ header_first 0x10 e) (map prompt example_history ++ slow_events) /\
  (* the new data under the old counter are not taken for a new segment *)
  t_offered slow_cycle = [[40; 41]; [50; 51; 52]] /\ readable_in (t_coupler slow_cycle) 2 = [40; 41] /\
  slow_runs Debug 2 EightBytes 0x10 0x8010 slow_cycle
    ([prompt POutput] ++ [prompt (PInput slow_new)] ++ [] ++ [prompt PCycle] ++ []) slow_end 0 /\
  reads_input (prompt (PInput slow_new)) /\ readable_in (t_coupler slow_end) 2 = [40; 41; 50; 51; 52].
Proof.
  split; [exact slow_runs_0|]. split; [vm_compute; auto|]. split; [vm_compute; reflexivity|]. split; [exact slow_runs_1|]. split; [exact slow_order|].
  split; [vm_compute; reflexivity|]. split; [vm_compute; reflexivity|]. split; [|split; [exact I|vm_compute; reflexivity]].
  change (slow_runs Debug 2 EightBytes 0x10 0x8010 slow_cycle (map prompt slow_after ++ []) slow_end 0).
  apply slow_undisturbed with (t1 := slow_end); [apply exec_runs; vm_compute; reflexivity|constructor].
Qed.

(** The order matters: with the new first register and the old others, three bytes are delivered that were never offered. *)
Theorem C105_read_order_needed : exists prof i l ioff ooff t0 es1 t1 es2 t2, plant_start i l ioff ooff t0 /\
  slow_runs prof i l ioff ooff t0 es1 t1 0 /\ Forall (fun e => writes_in_order l ooff e /\ header_first ioff e) es1 /\
  (2 <= t_cycles t1)%nat /\ t_offered t1 = [] /\
  slow_runs prof i l ioff ooff t1 es2 t2 0 /\ Forall (writes_in_order l ooff) es2 /\
  t_offered t2 = [[40; 41]; [50; 51; 52]] /\ t_delivered t2 ++ readable_in (t_coupler t2) i = [40; 41; 40; 41; 0].
Proof.
  exists Debug, 2%nat, EightBytes, 0x10, 0x8010, example_start, (map prompt example_history), example_initialised,
    (map prompt slow_before ++ SlowInput [POffer [50; 51; 52]] [slow_taken; slow_new] slow_swapped :: map prompt [PCycle]),
    (example_exec (with_latch slow_changed slow_swapped) [PCycle]).
  split; [exact example_starts|]. split; [exact slow_runs_0|]. split; [repeat constructor|]. split; [vm_compute; auto|]. split; [vm_compute; reflexivity|].
  split; [|split; [repeat constructor|vm_compute; auto]].
  apply slow_undisturbed with (t1 := slow_fetched); [apply exec_runs; vm_compute; reflexivity|].
  refine (SR_cons _ _ _ _ _ _ _ (with_latch slow_changed slow_swapped) _ _ 0 _ _); [single|]. rewrite <- (app_nil_r (map _ _)).
  apply slow_undisturbed with (t1 := example_exec (with_latch slow_changed slow_swapped) [PCycle]); [apply exec_runs; vm_compute; reflexivity|constructor].
Qed.
Print Assumptions C105_read_order_needed.

(** And so does the quiet start: a segment offered during the first two cycles is acknowledged without being fetched; the next
    segment, read slowly under its counter, is then delivered twice. *)
Theorem C105_quiet_start_needed : exists prof i l ioff ooff t0 es1 t1 es2 t2, plant_start i l ioff ooff t0 /\
  slow_runs prof i l ioff ooff t0 es1 t1 0 /\ slow_runs prof i l ioff ooff t1 es2 t2 0 /\ (2 <= t_cycles t1)%nat /\
  Forall (fun e => writes_in_order l ooff e /\ header_first ioff e) (es1 ++ es2) /\
  t_offered t2 = [[40; 41]; [50; 51]] /\ t_delivered t2 ++ readable_in (t_coupler t2) i = [50; 51; 50; 51].
Proof.
  pose (before := [POffer [40; 41]; PInput slow_old; PCycle; PCycle; POutput]).
  pose (mixed := [7; 0x0209; 0x3332; 0; 0]). pose (new := [7; 0x0211; 0x3332; 0; 0]).
  pose (t1 := example_exec example_start before). pose (tr := with_latch (example_exec t1 [POffer [50; 51]]) mixed).
  exists Debug, 2%nat, EightBytes, 0x10, 0x8010, example_start, (map prompt before), t1,
    (SlowInput [POffer [50; 51]] [slow_old; new] mixed :: map prompt [PCycle; PInput new; PCycle]),
    (example_exec tr [PCycle; PInput new; PCycle]).
  split; [exact example_starts|]. split; [|split; [|split; [vm_compute; auto|split; [|vm_compute; auto]]]].
  - rewrite <- (app_nil_r (map _ _)). apply slow_undisturbed with (t1 := t1); [apply exec_runs; vm_compute; reflexivity|constructor].
  - refine (SR_cons _ _ _ _ _ _ _ tr _ _ 0 _ _); [single|]. rewrite <- (app_nil_r (map _ _)).
    eapply slow_undisturbed; [apply exec_runs; vm_compute; reflexivity|constructor].
  - repeat (constructor; [split; [exact I|]; try exact I; exists slow_old, [new]; split; reflexivity|]). constructor.
Qed.
Print Assumptions C105_quiet_start_needed.
