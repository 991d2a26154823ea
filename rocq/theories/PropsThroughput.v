(** Property theorems C109: the cost of serial transmission in segments and cycles. *)
From Coq Require Import ZArith List Bool Lia.
From Verif Require Import Base Facts Types Com Fbc SpecCodec SpecSerial SpecCoupler SpecSystem SpecThroughput
  ProofsPlant ProofsThroughput PropsSystem.
Import ListNotations.
Local Open Scope Z_scope.

(** C109: in every history, handing over a byte string with one call adds as many segments as its
    bytes need, all full but the last; so does a request that a cycle transmits; each segment that
    the module takes over has at least one and at most a full segment of bytes and is one less; no
    other call and no other event changes the number. *)
Theorem C109_account : forall prof i l ioff ooff t0 es t e t', plant_start i l ioff ooff t0 ->
  plant_runs prof i l ioff ooff t0 es t -> plant_step prof i l ioff ooff t e t' ->
  match e with
  | PWrite j buf => outstanding i l ooff t' = (outstanding i l ooff t + if Nat.eqb j i then segments_for l (length buf) else 0)%nat
  | PCycle => outstanding i l ooff t' = (outstanding i l ooff t + segments_for l (length (pending (t_coupler t) i)))%nat
  | PTake => t_taken t' = t_taken t /\ outstanding i l ooff t' = outstanding i l ooff t \/
      exists seg, (0 < length seg <= payload_size l)%nat /\ t_taken t' = t_taken t ++ seg /\
        outstanding i l ooff t = S (outstanding i l ooff t')
  | _ => outstanding i l ooff t' = outstanding i l ooff t
  end.
Proof. exact C109_account_all. Qed.
Print Assumptions C109_account.

(** Eight bytes with one call need two segments, with eight calls eight. *)
Definition one_write : plant := example_exec example_initialised [PWrite 2 [1; 2; 3; 4; 5; 6; 7; 8]].
Definition eight_writes : plant := example_exec example_initialised (map (fun b => PWrite 2 [b]) [1; 2; 3; 4; 5; 6; 7; 8]).
Example C109_account_example :
  outstanding 2 EightBytes 0x8010 example_initialised = 0%nat /\
  outstanding 2 EightBytes 0x8010 one_write = 2%nat /\ outstanding 2 EightBytes 0x8010 eight_writes = 8%nat /\
  segments_for EightBytes 8 = 2%nat /\ segments_for SixteenBytes 8 = 1%nat /\ segments_for EightBytes 1 = 1%nat /\
  outstanding 2 EightBytes 0x8010 (example_exec one_write [PSet (mk_address 2 0) (Bytes [9; 9; 9; 9; 9; 9]); PCycle]) = 3%nat.
Proof. vm_compute. auto 10. Qed.

(** C109: if everything handed over before has been taken over, a byte string handed over with one
    call has been taken over after as many rounds as it needs segments, ... *)
Theorem C109_enough : forall prof i l ioff ooff t0 es t buf t1 rounds t2, plant_start i l ioff ooff t0 ->
  plant_runs prof i l ioff ooff t0 es t -> (2 <= t_cycles t)%nat -> t_taken t = t_written t ->
  plant_step prof i l ioff ooff t (PWrite i buf) t1 ->
  Forall plant_round rounds -> (segments_for l (length buf) <= length rounds)%nat ->
  plant_runs prof i l ioff ooff t1 (concat rounds) t2 ->
  exists rest, t_taken t2 = t_taken t ++ buf ++ rest.
Proof. exact C109_enough_all. Qed.
Print Assumptions C109_enough.

(** ... and never with fewer cycles: at most one full segment leaves in each cycle. *)
Theorem C109_needed : forall prof i l ioff ooff t0 es t buf es' t', plant_start i l ioff ooff t0 ->
  plant_runs prof i l ioff ooff t0 es t -> plant_runs prof i l ioff ooff t es' t' ->
  (length (t_taken t') <= length (t_taken t) + length (on_its_way l ooff t) + payload_size l * cycles_in es')%nat /\
  (t_taken t = t_written t -> (exists rest, t_taken t' = t_taken t ++ buf ++ rest) ->
   (segments_for l (length buf) <= cycles_in es')%nat).
Proof. exact C109_needed_all. Qed.
Print Assumptions C109_needed.

(** The eight bytes are taken over in two rounds; one is not enough. *)
Definition two_rounds : list (list plant_event) := [example_round 5 0 0; example_round 5 0x20 0].
Definition both_taken : plant := example_exec one_write (concat two_rounds).
Example C109_example :
  plant_start 2 EightBytes 0x10 0x8010 example_start /\
  plant_runs Debug 2 EightBytes 0x10 0x8010 example_start example_history example_initialised /\
  t_cycles example_initialised = 2%nat /\ t_taken example_initialised = t_written example_initialised /\
  plant_step Debug 2 EightBytes 0x10 0x8010 example_initialised (PWrite 2 [1; 2; 3; 4; 5; 6; 7; 8]) one_write /\
  Forall plant_round two_rounds /\
  plant_runs Debug 2 EightBytes 0x10 0x8010 one_write (concat two_rounds) both_taken /\
  cycles_in (concat two_rounds) = 2%nat /\ t_taken both_taken = [1; 2; 3; 4; 5; 6; 7; 8] /\
  t_taken (example_exec one_write (example_round 5 0 0)) = [1; 2; 3; 4; 5; 6].
Proof.
  split; [exact example_starts|]. split; [exact example_runs_1|]. split; [vm_compute; reflexivity|].
  split; [vm_compute; reflexivity|]. split; [apply exec_step; vm_compute; reflexivity|].
  split; [|split; [apply exec_runs; vm_compute; reflexivity|vm_compute; auto]].
  repeat constructor; exists []; eexists; exists [], [], [], []; reflexivity.
Qed.
