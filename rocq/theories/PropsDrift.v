(** Property theorem C48: how far outputs drift in idle cycles. *)
From Coq Require Import ZArith List Bool Lia.
From Verif Require Import Base Facts F32 Types Lib Com Fbc SpecCodec SpecSerial SpecCoupler SpecImage SpecAnalog SpecIdle SpecDrift
  ProofsWitness ProofsIdle ProofsDrift.
Import ListNotations.
Local Open Scope Z_scope.

(** C48 for every format, if no other output is inside the bytes of modules with channels of format S7: the images of any
    number of idle cycles have the same length; only registers of such channels can change; they move towards zero, by
    at most five in all; and from the fifth idle cycle on all images are the same. *)
Theorem C48_idle_drift : forall prof c input output c' image c'' images, reachable prof c -> separate c ->
  cycle prof c input output c' (Ok image) -> settled c' -> idles prof c' input image c'' images ->
  settled c'' /\
  (forall n im, nth_error images n = Some im -> length im = length image /\
     forall b w, nth_error image b = Some w -> exists w', nth_error im b = Some w' /\
       towards_zero (signed w) (signed w') /\ Z.abs (signed w' - signed w) <= 5 /\ (w' <> w -> register_in_S7 c b)) /\
  (forall n n' im im', (4 <= n)%nat -> (4 <= n')%nat -> nth_error images n = Some im -> nth_error images n' = Some im' -> im = im').
Proof. exact C48_drift_all. Qed.
Print Assumptions C48_idle_drift.

(** Four outputs of 0..20 mA in format S7, the first of which moves. *)
Example C48_drift_example : reachable Debug drift0 /\ separate drift0 /\
  cycle Debug drift0 [] [1387; 0; 0; 0] drift1 (Ok [1386; 0; 0; 0]) /\ settled drift1 /\
  idles Debug drift1 [] [1386; 0; 0; 0] drift2 [[1385; 0; 0; 0]] /\ register_in_S7 drift0 0.
Proof.
  split; [apply (start_reachable _ cfg48); vm_compute; reflexivity|].
  split. { intros [|i] m o off k [Hm Ho] Eo _; [|destruct i; discriminate]. vm_compute in Ho. apply Some_inj in Ho. subst o.
           cbn in Eo. apply Some_inj in Eo. subst off. split; [reflexivity|]. intros [|j] m' o' off' Hj [Hm' _]; [lia|]. destruct j; discriminate. }
  split; [apply step_cycle; vm_compute; reflexivity|].
  split; [apply settled_run; vm_compute; reflexivity|].
  split. { apply (Idles_S Debug drift1 [] _ [] drift2 [1385; 0; 0; 0]); [|apply step_cycle; vm_compute; reflexivity|constructor].
           intros rows rows' i r r' H H' C1 C2. rewrite H in H'. injection H' as <-. rewrite C1 in C2. injection C2 as <-. reflexivity. }
  eexists 0%nat, _, _, _, 0%nat. split; [split; vm_compute; reflexivity|]. split; [reflexivity|]. split; [|reflexivity].
  eexists. split; [reflexivity|discriminate].
Qed.
