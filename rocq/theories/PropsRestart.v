(** Property theorems C57 and C58: the serial dialogue when the host program is stopped and started again. *)
From Coq Require Import ZArith List Bool.
From Verif Require Import Base Types Com SpecCodec SpecSerial SpecRestart ProofsSerial ProofsSerialSystem ProofsRestart.
Import ListNotations.
Local Open Scope Z_scope.

(** C57: However often the program is stopped, at whatever points, the module takes over a beginning of what the
    first program wrote, then a beginning of what the second wrote, and so on: nothing twice, nothing out of order,
    and no byte of a later program is lost in favour of an earlier one. *)
Theorem C57_restart_transmission : forall prof l s0 ess, start l s0 ->
  exists s parts, lives prof l s0 ess = Ok s /\
    Forall2 (fun part es => prefix part (written_by es)) parts ess /\ s_taken s = concat parts.
Proof. exact C57_safe. Qed.
Print Assumptions C57_restart_transmission.

(** The last program gets everything across: after two more fair rounds than there are segments. *)
Theorem C57_restart_progress : forall prof l s0 ess s es s1 rounds, start l s0 -> lives prof l s0 ess = Ok s ->
  schedule prof (restart l s) es = Ok s1 -> (2 <= s_cycles s1)%nat -> Forall fair_round rounds ->
  (length (in_flight s1) + length (waiting s1) + 2 <= length rounds)%nat ->
  exists s2 parts rest, schedule prof s1 (concat rounds) = Ok s2 /\
    Forall2 (fun part es => prefix part (written_by es)) parts ess /\
    s_taken s2 = concat parts ++ written_by es ++ rest.
Proof. exact C57_progress. Qed.
Print Assumptions C57_restart_progress.

(** A first program writes eight bytes and is stopped after its first segment has been written to the module, which
    takes it over only when the second program has already started. *)
Definition example_idle : system :=
  let i := mk_rs_in false false 2 3 true [] in
  let o := mk_rs_out false false false 3 2 false [7] in
  mk_system (processor_new EightBytes) i o o i [] [] [] [] 0.
Definition life1 : list event :=
  [UserWrite [1; 2; 3; 4; 5; 6; 7; 8]; HostCycle; HostCycle; HostWrite; HostRead; HostCycle; HostWrite].
Definition life2 : list event := [UserWrite [9; 10]; DevTake; HostCycle; HostCycle; HostWrite; HostCycle].
Definition round : list event := [HostRead; HostCycle; HostWrite; DevTake].
Example C57_example : start EightBytes example_idle /\
  (exists s s1 s2, lives Debug EightBytes example_idle [life1] = Ok s /\ s_taken s = [] /\
     schedule Debug (restart EightBytes s) life2 = Ok s1 /\ s_cycles s1 = 3%nat /\
     (length (in_flight s1) + length (waiting s1) = 1)%nat /\ s_taken s1 = [1; 2; 3; 4; 5; 6] /\
     schedule Debug s1 (concat [round; round; round]) = Ok s2 /\ fair_round round /\
     s_taken s2 = [1; 2; 3; 4; 5; 6] ++ [9; 10]).
Proof.
  split.
  { unfold start, decoded_in, encodable, counter. cbn. repeat split; try discriminate. repeat constructor. }
  eexists _, _, _. split; [vm_compute; reflexivity|]. split; [reflexivity|].
  split; [vm_compute; reflexivity|]. split; [reflexivity|]. split; [reflexivity|]. split; [reflexivity|].
  split; [vm_compute; reflexivity|]. split; [|reflexivity]. exists [], [], [], [], []. reflexivity.
Qed.

(** C58: A restarted program receives the segments offered to it (the first one may have been presented to the
    program before) exactly once and in order, except for those offered before its first two cycles, and it
    receives everything offered before it reads the input. *)
Theorem C58_restart_reception : forall prof l s0 ess s es1 s1 es2, start l s0 -> lives prof l s0 ess = Ok s ->
  schedule prof (restart l s) es1 = Ok s1 -> (2 <= s_cycles s1)%nat ->
  exists s2 lost fetched, schedule prof s1 es2 = Ok s2 /\
    (lost <= length (s_offered s1))%nat /\
    (lost + fetched <= length (s_offered s2) <= lost + fetched + 1)%nat /\
    received s2 = concat (firstn fetched (skipn lost (s_offered s2))).
Proof. exact C58_receive. Qed.
Print Assumptions C58_restart_reception.

Theorem C58_restart_reception_progress : forall prof l s0 ess s es0 si es1 s1 b c d s2, start l s0 ->
  lives prof l s0 ess = Ok s ->
  schedule prof (restart l s) es0 = Ok si -> (2 <= s_cycles si)%nat -> schedule prof si es1 = Ok s1 ->
  schedule prof s1 (b ++ [HostRead] ++ c ++ [HostCycle] ++ d) = Ok s2 ->
  exists lost fetched,
    (lost <= length (s_offered si))%nat /\
    (length (s_offered s1) <= lost + fetched <= length (s_offered s2))%nat /\
    received s2 = concat (firstn fetched (skipn lost (s_offered s2))).
Proof. exact C58_progress. Qed.
Print Assumptions C58_restart_reception_progress.

(** A first program has fetched segment [1] and acknowledged it, but not yet read it, and is stopped; the module
    offers [2], [3] and [4] to the second program, which misses [2]. *)
Example C58_example : exists s si s1 s2,
  lives Debug EightBytes example_idle
    [[HostCycle; HostCycle; HostWrite; DevOffer [1]; HostRead; HostCycle; HostWrite]] = Ok s /\ received s = [1] /\
  schedule Debug (restart EightBytes s) [DevOffer [2]; HostRead; HostCycle; HostWrite; HostCycle; DevClear; HostRead] = Ok si /\
  s_offered si = [[1]; [2]] /\ s_cycles si = 2%nat /\
  schedule Debug si [HostCycle; DevOffer [3]; HostRead; HostCycle; HostWrite; DevOffer [4]] = Ok s1 /\ received s1 = [3] /\
  schedule Debug s1 ([] ++ [HostRead] ++ [] ++ [HostCycle] ++ []) = Ok s2 /\ received s2 = [3; 4] /\
  s_offered s2 = [[1]; [2]; [3]; [4]].
Proof.
  eexists _, _, _, _. split; [vm_compute; reflexivity|]. split; [reflexivity|].
  split; [vm_compute; reflexivity|]. split; [reflexivity|]. split; [reflexivity|].
  split; [vm_compute; reflexivity|]. split; [reflexivity|]. split; [vm_compute; reflexivity|]. split; reflexivity.
Qed.
