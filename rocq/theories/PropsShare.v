(** Property theorems C78: calls whose order does not matter. *)
From Coq Require Import ZArith List Bool.
From Verif Require Import Base F32 Types Lib Com Fbc SpecCodec SpecSerial SpecCoupler SpecShare
  ProofsWitness ProofsShare PropsCoupler.
Import ListNotations.
Local Open Scope Z_scope.

(** C78: In every history the calls between two cycles may change places, as long as requests for the same channel,
    reads from the same module and writes to the same module stay in their order: the new order is possible too, every
    call then gets the answer it had before, and the coupler at the end cannot be told from the first one. *)
Theorem C78_reorder : forall prof c h c' h', reachable prof c -> history prof c h c' -> reordered h h' ->
  (exists d, history prof c h' d) /\
  forall d answers, runs prof c (map fst h') d answers -> answers = map snd h' /\ same_coupler c' d.
Proof. exact C78_reorder_all. Qed.
Print Assumptions C78_reorder.

(** Tasks that share a coupler and do not get in each other's way: whatever the schedule, each task gets the same
    answers, and the coupler is the same afterwards. *)
Theorem C78_tasks : forall prof c s1 s2 c1 c2 a1 a2, reachable prof c -> tasks_independent s1 ->
  (forall k, called_by k s1 = called_by k s2) ->
  runs prof c (map snd s1) c1 a1 -> runs prof c (map snd s2) c2 a2 ->
  (forall k, answers_to k s1 a1 = answers_to k s2 a2) /\ same_coupler c1 c2.
Proof. exact C78_tasks_all. Qed.
Print Assumptions C78_tasks.

(** Digital inputs and outputs and a serial module that has received bytes. Task 0 reads them and sets a channel,
    task 1 sends bytes through the same module and sets another channel. *)
Definition share_start : coupler := fst (next Debug as_is as_is example_coupler example_input example_output).
Definition task_0 : list call := [ReadFrom 2 3; SetOutput (mk_address 1 0) (Bit true); ReadFrom 2 9].
Definition task_1 : list call := [WriteTo 2 [7; 8; 9]; SetOutput (mk_address 1 1) (Bit true)].
Definition first_0 : list (nat * call) := map (pair 0%nat) task_0 ++ map (pair 1%nat) task_1.
Definition in_turn : list (nat * call) :=
  [(1%nat, WriteTo 2 [7; 8; 9]); (0%nat, ReadFrom 2 3); (1%nat, SetOutput (mk_address 1 1) (Bit true));
   (0%nat, SetOutput (mk_address 1 0) (Bit true)); (0%nat, ReadFrom 2 9)].
Lemma first_0_independent : tasks_independent first_0.
Proof.
  intros e1 e2 H1 H2. cbn in H1, H2.
  decompose [or] H1; try contradiction; subst e1; decompose [or] H2; try contradiction; subst e2; cbn; intros N;
    try exact I; try (exfalso; apply N; reflexivity); discriminate.
Qed.
Example C78_example : reachable Debug share_start /\ tasks_independent first_0 /\
  (forall k, called_by k first_0 = called_by k in_turn) /\
  exists c1 c2 a1 a2, runs Debug share_start (map snd first_0) c1 a1 /\ runs Debug share_start (map snd in_turn) c2 a2 /\
    answers_to 0 first_0 a1 = [BytesRead (Some [0; 0; 0xCD]); SetResult (Ok tt); BytesRead (Some [0xAB])] /\
    answers_to 1 in_turn a2 = [BytesWritten (Some 3%nat); SetResult (Ok tt)] /\
    reordered (combine (map snd first_0) a1) (combine (map snd in_turn) a2).
Proof.
  split; [|split; [exact first_0_independent|split]].
  - apply (cycle_reachable _ example_coupler example_input example_output _
      (snd (next Debug as_is as_is example_coupler example_input example_output))).
    + exact example_reachable.
    + apply step_cycle; [reflexivity..|apply surjective_pairing].
    + intros p; vm_compute; discriminate.
  - intros [|[|k]]; reflexivity.
  - do 4 eexists. split; [|split].
    + eapply Runs_cons; [apply Calls_read|]. eapply Runs_cons; [apply Calls_set; exact I|]. eapply Runs_cons; [apply Calls_read|].
      eapply Runs_cons; [apply Calls_write; repeat constructor; discriminate|]. eapply Runs_cons; [apply Calls_set; exact I|]. apply Runs_nil.
    + eapply Runs_cons; [apply Calls_write; repeat constructor; discriminate|]. eapply Runs_cons; [apply Calls_read|].
      eapply Runs_cons; [apply Calls_set; exact I|]. eapply Runs_cons; [apply Calls_set; exact I|]. eapply Runs_cons; [apply Calls_read|]. apply Runs_nil.
    + vm_compute. split; [reflexivity|]. split; [reflexivity|].
      match goal with |- reordered [?a; ?b; ?d; ?e; ?f] _ =>
        apply (Re_again _ [a; b; e; d; f]); [exact (Re_swap [a; b] d e [f] I)|];
        apply (Re_again _ [a; e; b; d; f]); [exact (Re_swap [a] b e [d; f] I)|];
        apply (Re_again _ [e; a; b; d; f]); [exact (Re_swap [] a e [b; d; f] I)|];
        apply (Re_again _ [e; a; b; f; d]); [exact (Re_swap [e; a; b] d f [] I)|];
        apply (Re_swap [e; a] b f [d]); discriminate end.
Qed.
