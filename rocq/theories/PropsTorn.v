(** Property theorems C101: the input registers change while they are read. *)
From Coq Require Import ZArith List Bool Lia.
From Verif Require Import Base Facts Types Lib Com Fbc SpecCodec SpecCoupler SpecImage SpecLossless SpecTorn
  ProofsWitness ProofsCoupler ProofsTorn PropsTerminal PropsLink.
Import ListNotations.
Local Open Scope Z_scope.

(** C101: the input image given to a cycle was put together from registers read at different times.  If the cycle would succeed with
    the registers of each of these times, it succeeds. *)
Theorem C101_succeeds : forall prof c snapshots mixed output c' r, reachable prof c ->
  read_over_time snapshots mixed -> (forall s, In s snapshots -> exists c1 image1, cycle prof c s output c1 (Ok image1)) ->
  cycle prof c mixed output c' r -> exists image, r = Ok image.
Proof. exact C101_succeeds_all. Qed.
Print Assumptions C101_succeeds.

(** C101: the value shown for an input that is in one register is the value it had at one of these times. *)
Theorem C101_value : forall prof c snapshots mixed output c' image i m o off k, reachable prof c ->
  read_over_time snapshots mixed -> (forall s, In s snapshots -> exists c1 image1, cycle prof c s output c1 (Ok image1)) ->
  cycle prof c mixed output c' (Ok image) ->
  module_at c i m o -> one_register_each m = true -> mo_input o = Some off -> placed off (input_bytes m) ->
  exists s c1 image1, In s snapshots /\ cycle prof c s output c1 (Ok image1) /\ cell (inputs c') i k = cell (inputs c1) i k.
Proof. exact C101_value_all. Qed.
Print Assumptions C101_value.

(** C101: the count and the period of a counter are in two registers each; their halves may come from different times, nothing else
    happens to them. *)
Theorem C101_counter : forall prof c snapshots mixed output c' image i ch o off k, reachable prof c ->
  read_over_time snapshots mixed -> cycle prof c mixed output c' (Ok image) ->
  module_at c i (MFCNT ch) o -> mo_input o = Some off -> off mod 16 = 0 -> (k < 2)%nat ->
  exists x, cell (inputs c') i k = Some (FcntIn x) /\
    (exists s1 s2, In s1 snapshots /\ In s2 snapshots /\
      fi_count x = word32 (reg (registers_at 0 s1 off) (4 * k + 2)) (reg (registers_at 0 s2 off) (4 * k + 3))) /\
    (exists s, In s snapshots /\ fi_active x = bit (reg (registers_at 0 s off) (8 + k)) 8) /\
    (exists s1 s2, In s1 snapshots /\ In s2 snapshots /\
      let period := word32 (reg (registers_at 0 s1 off) (4 * k)) (reg (registers_at 0 s2 off) (4 * k + 1)) in
      (fi_duration x = None <-> 0x07FFFFFF <= period) /\
      forall d, fi_duration x = Some d -> valid_duration d /\ nanoseconds d = 125 * period).
Proof. exact C101_counter_all. Qed.
Print Assumptions C101_counter.

(** C101: without serial modules, what is written to the outputs does not depend on the inputs at all. *)
Theorem C101_outputs : forall prof c in1 in2 output c1 image1 c2 image2, reachable prof c ->
  (forall i m o, module_at c i m o -> is_serial m = false) ->
  cycle prof c in1 output c1 (Ok image1) -> cycle prof c in2 output c2 (Ok image2) -> image1 = image2.
Proof. exact C101_outputs_all. Qed.
Print Assumptions C101_outputs.

(** The coupler of C83.  While the registers are read, the inputs change from 0101 and 0100 to 1010 and 1111, and the first counter counts
    from 65535 to 65536.  The inputs are shown as they are after the change, 131071 as the count. *)
Definition yard_before : list Z := [0x0405; 0; 8000; 0; 65535; 0x0800; 0; 1; 2; 0x0100; 0].
Definition yard_after : list Z := [0x0F0A; 0; 8000; 1; 0; 0x0800; 0; 1; 2; 0; 0].
Definition yard_mixed : list Z := [0x0F0A; 0; 8000; 1; 65535; 0x0800; 0; 1; 2; 0x0100; 0].
Definition yard_next (input : list Z) : coupler := fst (next Debug as_is as_is yard0 input yard_out).
Definition yard_image : list Z := [15; 16961; 0; 0; 256; 512; 2].

Example C101_example : reachable Debug yard0 /\ read_over_time [yard_before; yard_after] yard_mixed /\
  (forall s, In s [yard_before; yard_after; yard_mixed] -> cycle Debug yard0 s yard_out (yard_next s) (Ok yard_image)) /\
  module_at yard0 1 (yard_module 1) (mk_offset (Some 8) None) /\ one_register_each (yard_module 1) = true /\ placed 8 (input_bytes (yard_module 1)) /\
  nth_error (inputs (yard_next yard_before)) 1 = Some [Bit false; Bit false; Bit true; Bit false] /\
  nth_error (inputs (yard_next yard_mixed)) 1 = Some [Bit true; Bit true; Bit true; Bit true] /\
  module_at yard0 2 (yard_module 2) (mk_offset (Some 16) (Some 0x8000)) /\ (exists ch, yard_module 2 = MFCNT ch) /\
  cell (inputs (yard_next yard_mixed)) 2 0 = Some (FcntIn (mk_fcnt_in (Some (mk_duration 0 1000000)) 131071 true)) /\
  (forall i m o, module_at yard0 i m o -> is_serial m = false).
Proof.
  split; [apply (start_reachable _ yard_config); vm_compute; reflexivity|].
  split. { split; [discriminate|]. split; [intros s [<-|[<-|[]]]; reflexivity|]. intros b w H.
    do 11 (destruct b as [|b]; [cbn [nth_error yard_mixed] in H; apply Some_inj in H; subst w;
      first [exists yard_after; split; [right; left; reflexivity|reflexivity] | exists yard_before; split; [left; reflexivity|reflexivity]]|]).
    destruct b; discriminate H. }
  split. { intros s [<-|[<-|[<-|[]]]]; apply step_cycle; vm_compute; reflexivity. }
  split; [split; vm_compute; reflexivity|]. split; [reflexivity|]. split; [right; split; reflexivity|].
  split; [vm_compute; reflexivity|]. split; [vm_compute; reflexivity|]. split; [split; vm_compute; reflexivity|].
  split; [eexists; vm_compute; reflexivity|]. split; [vm_compute; reflexivity|].
  intros i m o [H _]. assert (E : forallb (fun m => negb (is_serial m)) (c_modules yard0) = true) by (vm_compute; reflexivity).
  rewrite forallb_forall in E. apply nth_error_In, E in H. destruct (is_serial m); [discriminate H|reflexivity].
Qed.

(** Serial modules need images that were read at one time: here the header was read after a message of two bytes, 65 and 66, had arrived, the
    data before; the program receives two bytes that were not sent. *)
Definition line_before : list Z := [0x0001; 0; 0; 0].
Definition line_idle : coupler := fst (next Release as_is as_is (fst (next Release as_is as_is link_new line_before [0; 0; 0; 0])) line_before [0; 0; 0; 0]).
Definition line_after : list Z := [0x0209; 0x4241; 0; 0].
Definition line_mixed : list Z := [0x0209; 0; 0; 0].
Definition line_received (input : list Z) : option (list Z) := snd (coupler_read (fst (next Release as_is as_is line_idle input [0; 0; 0; 0])) 0 8).
Example C101_serial : reachable Release line_idle /\ read_over_time [line_before; line_after] line_mixed /\
  (forall s, In s [line_before; line_after; line_mixed] -> exists c image, cycle Release line_idle s [0; 0; 0; 0] c (Ok image)) /\
  line_received line_before = Some [] /\ line_received line_after = Some [65; 66] /\ line_received line_mixed = Some [0; 0].
Proof.
  assert (R0 : reachable Release link_new) by (apply (start_reachable _ link_config); vm_compute; reflexivity).
  assert (U : forall input, In input [line_before; [0; 0; 0; 0]] -> Forall is_u16 input) by (intros input [<-|[<-|[]]]; apply fits_u16; vm_compute; reflexivity).
  assert (N : forall c image, snd (next Release as_is as_is c line_before [0; 0; 0; 0]) = Ok image -> reachable Release c ->
    reachable Release (fst (next Release as_is as_is c line_before [0; 0; 0; 0]))).
  { intros c image E R. apply (R_next Release c as_is as_is line_before [0; 0; 0; 0] _ (snd (next Release as_is as_is c line_before [0; 0; 0; 0])) R);
      [apply as_is_order..|apply U; cbn; auto|apply U; cbn; auto|apply surjective_pairing|intros p; rewrite E; discriminate]. }
  split. { unfold line_idle. eapply N; [vm_compute; reflexivity|]. eapply N; [vm_compute; reflexivity|exact R0]. }
  split. { split; [discriminate|]. split; [intros s [<-|[<-|[]]]; reflexivity|]. intros b w H.
    do 4 (destruct b as [|b]; [cbn [nth_error line_mixed] in H; apply Some_inj in H; subst w;
      first [exists line_after; split; [right; left; reflexivity|reflexivity] | exists line_before; split; [left; reflexivity|reflexivity]]|]).
    destruct b; discriminate H. }
  split. { intros s [<-|[<-|[<-|[]]]]; eexists _, _; (apply step_cycle; [vm_compute; reflexivity..|]);
    rewrite (surjective_pairing (next _ _ _ _ _ _)); f_equal; vm_compute; reflexivity. }
  vm_compute. auto.
Qed.
