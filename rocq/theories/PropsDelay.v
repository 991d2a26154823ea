(** Property theorems C107 and C108: serial dialogues over a connection that delays and loses messages. *)
From Coq Require Import ZArith List Bool Lia.
From Verif Require Import Base Facts F32 Types Lib Com Fbc SpecCodec SpecSerial SpecCoupler SpecImage SpecSystem SpecDelay
  ProofsPlant ProofsDelay PropsSystem.
Import ListNotations.
Local Open Scope Z_scope.

(** The plant of PropsSystem.v.  After two cycles the program writes three segments; two output images with the first
    one and an input image from before it was taken over are under way at the same time. *)
Definition delayed_start : delayed := mk_delayed example_start [] [].
Definition delayed_prepare : list delayed_event :=
  [DEvent PCycle; DSubmit; DEvent PCycle; DLoseOutput; DSubmit; DApply;
   DEvent (PWrite 2 [1; 2; 3]); DEvent (PWrite 2 [4]); DEvent (PWrite 2 [5]);
   DEvent PCycle; DSubmit; DSubmit; DRequest [5; 0; 0; 0; 0]; DApply; DEvent PTake; DRequest [5; 0x20; 0; 0; 0]].
Definition delayed_after (d : delayed) (es : list delayed_event) : delayed :=
  match delayed_execs Debug 2 EightBytes 0x10 0x8010 d es with Some d' => d' | None => d end.
Definition delayed_prepared : delayed := delayed_after delayed_start delayed_prepare.
Definition delayed_rest : list delayed_event :=
  [DReceive; DEvent PCycle; DReceive; DEvent PCycle; DSubmit; DEvent (POffer [40; 41]);
   DApply; DEvent PTake; DApply; DEvent PTake].
Definition delayed_done : delayed := delayed_after delayed_prepared delayed_rest.

Example delayed_runs_1 : delayed_runs Debug 2 EightBytes 0x10 0x8010 delayed_start delayed_prepare delayed_prepared.
Proof. apply delayed_exec_runs. vm_compute. reflexivity. Qed.
Example delayed_runs_2 : delayed_runs Debug 2 EightBytes 0x10 0x8010 delayed_prepared delayed_rest delayed_done.
Proof. apply delayed_exec_runs. vm_compute. reflexivity. Qed.

(** C107: however many images are under way, however long they take and whichever of them get lost: as long as none
    overtakes another, the bytes handed over are those taken over by the module followed by those on their way and
    those still waiting. *)
Theorem C107_delayed_transmission : forall prof i l ioff ooff t0 es d, plant_start i l ioff ooff t0 ->
  delayed_runs prof i l ioff ooff (mk_delayed t0 [] []) es d ->
  t_written (d_plant d) = t_taken (d_plant d) ++ on_its_way l ooff (d_plant d) ++ waiting_in (t_coupler (d_plant d)) i.
Proof. exact C107_transmission_all. Qed.
Print Assumptions C107_delayed_transmission.
Example C107_transmission_example :
  length (d_inputs delayed_prepared) = 2%nat /\ length (d_outputs delayed_prepared) = 1%nat /\
  t_taken (d_plant delayed_prepared) = [1; 2; 3] /\ waiting_in (t_coupler (d_plant delayed_prepared)) 2 = [4; 5] /\
  t_taken (d_plant delayed_done) = [1; 2; 3; 4] /\ t_written (d_plant delayed_done) = [1; 2; 3; 4; 5].
Proof. vm_compute. auto 10. Qed.

(** C107: once two cycles have been made, the module has taken over all bytes handed over so far after as many rounds
    as segments are outstanding, whatever else is under way. *)
Theorem C107_delayed_progress : forall prof i l ioff ooff t0 es d n d', plant_start i l ioff ooff t0 ->
  delayed_runs prof i l ioff ooff (mk_delayed t0 [] []) es d -> (2 <= t_cycles (d_plant d))%nat ->
  delayed_rounds prof i l ioff ooff n d d' -> (outstanding i l ooff (d_plant d) <= n)%nat ->
  exists rest, t_taken (d_plant d') = t_written (d_plant d) ++ rest.
Proof. exact C107_progress_all. Qed.
Print Assumptions C107_delayed_progress.
Definition delayed_round_1 : list delayed_event :=
  [DRequest [5; 0x20; 0; 0; 0]; DReceive; DReceive; DReceive; DEvent PCycle; DSubmit; DApply; DApply; DEvent PTake;
   DEvent (POffer [40; 41])].
Definition delayed_round_2 : list delayed_event :=
  [DRequest [5; 0x0249; 0x2928; 0; 0]; DReceive; DEvent PCycle; DSubmit; DApply; DEvent PTake].
Definition delayed_middle : delayed := delayed_after delayed_prepared delayed_round_1.
Definition delayed_final : delayed := delayed_after delayed_middle delayed_round_2.
Example C107_progress_example :
  t_cycles (d_plant delayed_prepared) = 3%nat /\ outstanding 2 EightBytes 0x8010 (d_plant delayed_prepared) = 2%nat /\
  delayed_rounds Debug 2 EightBytes 0x10 0x8010 2 delayed_prepared delayed_final /\
  t_taken (d_plant delayed_final) = [1; 2; 3; 4; 5].
Proof.
  split; [vm_compute; reflexivity|]. split; [vm_compute; reflexivity|]. split; [|vm_compute; reflexivity].
  eapply ARS_cons with (d1 := delayed_middle); [|eapply ARS_cons with (d1 := delayed_final); [|apply ARS_nil]].
  - eapply A_round with (input := [5; 0x20; 0; 0; 0]) (a := []) (b := [DReceive; DReceive; DReceive]) (c := []) (e := []) (f := [DApply; DApply]) (g := [])
      (h := [DEvent (POffer [40; 41])]);
      first
      [ apply delayed_exec_runs; vm_compute; reflexivity | apply delayed_exec_step; vm_compute; reflexivity
      | split; intros H; cbn in H; intuition discriminate | vm_compute; lia ].
  - eapply A_round with (input := [5; 0x0249; 0x2928; 0; 0]) (a := []) (b := [DReceive]) (c := []) (e := []) (f := [DApply]) (g := []) (h := []);
      first
      [ apply delayed_exec_runs; vm_compute; reflexivity | apply delayed_exec_step; vm_compute; reflexivity
      | split; intros H; cbn in H; intuition discriminate | vm_compute; lia ].
Qed.

(** C107: when an output image overtakes another one, the module takes over bytes a second time; when an input image
    overtakes another one, bytes get lost. *)
Theorem C107_order_needed : exists t0, plant_start 2 EightBytes 0x10 0x8010 t0 /\
  (exists es d older newer es' d', delayed_runs Debug 2 EightBytes 0x10 0x8010 (mk_delayed t0 [] []) es d /\
     d_outputs d = [older; newer] /\
     delayed_runs Debug 2 EightBytes 0x10 0x8010 (mk_delayed (d_plant d) (d_inputs d) [newer; older]) es' d' /\
     t_written (d_plant d') = [1; 2; 3; 4; 5] /\ t_taken (d_plant d') = [1; 2; 3; 4; 1; 2; 3]) /\
  (exists es d older newer es' d', delayed_runs Debug 2 EightBytes 0x10 0x8010 (mk_delayed t0 [] []) es d /\
     d_inputs d = [older; newer] /\
     delayed_runs Debug 2 EightBytes 0x10 0x8010 (mk_delayed (d_plant d) [newer; older] (d_outputs d)) es' d' /\
     t_written (d_plant d') = [1; 2; 3; 4; 5] /\ t_taken (d_plant d') = [1; 2; 3] /\
     on_its_way EightBytes 0x8010 (d_plant d') = [] /\ waiting_in (t_coupler (d_plant d')) 2 = []).
Proof.
  exists example_start. split; [exact example_starts|]. split.
  - eexists _, _, _, _, [DApply; DEvent PTake; DApply; DEvent PTake], _.
    split; [apply (delayed_exec_runs _ _ _ _ _ (delayed_prepare ++ firstn 5 delayed_rest)); vm_compute; reflexivity|].
    split; [reflexivity|]. cbn [d_plant d_inputs].
    split; [apply delayed_exec_runs; vm_compute; reflexivity|]. split; reflexivity.
  - eexists _, _, _, _, [DReceive; DEvent PCycle; DReceive; DEvent PCycle], _.
    split; [apply (delayed_exec_runs _ _ _ _ _ delayed_prepare); vm_compute; reflexivity|].
    split; [reflexivity|]. cbn [d_plant d_outputs].
    split; [apply delayed_exec_runs; vm_compute; reflexivity|]. vm_compute. auto.
Qed.
Print Assumptions C107_order_needed.

(** C108: over such a connection the program still reads, after two cycles, the segments the module has offered, in
    order, each once, except those offered before. *)
Theorem C108_delayed_reception : forall prof i l ioff ooff t0 es1 d1 es2 d2, plant_start i l ioff ooff t0 ->
  delayed_runs prof i l ioff ooff (mk_delayed t0 [] []) es1 d1 -> (2 <= t_cycles (d_plant d1))%nat ->
  delayed_runs prof i l ioff ooff d1 es2 d2 ->
  (exists lost fetched,
    (lost <= length (t_offered (d_plant d1)))%nat /\
    (lost + fetched <= length (t_offered (d_plant d2)) <= lost + fetched + 1)%nat /\
    t_delivered (d_plant d2) ++ readable_in (t_coupler (d_plant d2)) i
      = concat (firstn fetched (skipn lost (t_offered (d_plant d2))))) /\
  (t_offered (d_plant d1) = [] ->
   exists fetched, (fetched <= length (t_offered (d_plant d2)) <= fetched + 1)%nat /\
     t_delivered (d_plant d2) ++ readable_in (t_coupler (d_plant d2)) i
       = concat (firstn fetched (t_offered (d_plant d2)))).
Proof. exact C108_reception_all. Qed.
Print Assumptions C108_delayed_reception.

(** Two segments are received, while up to three input images and two acknowledgements are under way. *)
Definition delayed_listen : list delayed_event :=
  [DEvent (POffer [40; 41]); DRequest [5; 0x0229; 0x2928; 0; 0]; DRequest [5; 0x0229; 0x2928; 0; 0]; DReceive; DReceive; DReceive;
   DEvent PCycle; DSubmit; DSubmit; DApply; DApply; DEvent (POffer [42]); DRequest [5; 0x0131; 0x002a; 0; 0]; DReceive;
   DEvent PCycle; DRequest [5; 0x0131; 0x002a; 0; 0]; DReceive; DReceive; DEvent PCycle; DEvent (PRead 2 2)].
Definition delayed_heard : delayed := delayed_after delayed_prepared delayed_listen.
Example C108_reception_example :
  delayed_runs Debug 2 EightBytes 0x10 0x8010 delayed_prepared delayed_listen delayed_heard /\
  t_offered (d_plant delayed_prepared) = [] /\ t_offered (d_plant delayed_heard) = [[40; 41]; [42]] /\
  t_delivered (d_plant delayed_heard) = [40; 41] /\ readable_in (t_coupler (d_plant delayed_heard)) 2 = [42].
Proof. split; [apply delayed_exec_runs; vm_compute; reflexivity|]. vm_compute. auto. Qed.

(** C108: a cycle after the arrival of an input image has fetched everything that was offered when the coupler sent
    that image, however many other images are under way. *)
Theorem C108_delayed_fetch : forall prof i l ioff ooff t0 es di es1 d1 input b d2 c d3 d4 e d5, plant_start i l ioff ooff t0 ->
  delayed_runs prof i l ioff ooff (mk_delayed t0 [] []) es di -> (2 <= t_cycles (d_plant di))%nat ->
  delayed_runs prof i l ioff ooff di es1 d1 ->
  delayed_runs prof i l ioff ooff d1 (DRequest input :: b) d2 -> nothing_lost b ->
  (length (d_inputs d1) < receptions b)%nat ->
  delayed_runs prof i l ioff ooff d2 c d3 -> delayed_step prof i l ioff ooff d3 (DEvent PCycle) d4 ->
  delayed_runs prof i l ioff ooff d4 e d5 ->
  exists lost fetched,
    (lost <= length (t_offered (d_plant di)))%nat /\
    (length (t_offered (d_plant d1)) <= lost + fetched <= length (t_offered (d_plant d5)))%nat /\
    t_delivered (d_plant d5) ++ readable_in (t_coupler (d_plant d5)) i
      = concat (firstn fetched (skipn lost (t_offered (d_plant d5)))).
Proof. exact C108_fetch_all. Qed.
Print Assumptions C108_delayed_fetch.
Example C108_fetch_example :
  exists d1 d2 d3, delayed_runs Debug 2 EightBytes 0x10 0x8010 delayed_prepared [DEvent (POffer [40; 41])] d1 /\
  length (d_inputs d1) = 2%nat /\
  delayed_runs Debug 2 EightBytes 0x10 0x8010 d1 [DRequest [5; 0x0229; 0x2928; 0; 0]; DReceive; DReceive; DReceive] d2 /\
  delayed_step Debug 2 EightBytes 0x10 0x8010 d2 (DEvent PCycle) d3 /\
  t_offered (d_plant d1) = [[40; 41]] /\ readable_in (t_coupler (d_plant d3)) 2 = [40; 41].
Proof.
  eexists _, _, _. split; [apply delayed_exec_runs; vm_compute; reflexivity|]. split; [reflexivity|].
  split; [apply delayed_exec_runs; vm_compute; reflexivity|]. split; [apply delayed_exec_step; vm_compute; reflexivity|].
  vm_compute. auto.
Qed.
