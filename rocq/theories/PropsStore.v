(** Property theorems C74: how much a coupler stores. *)
From Coq Require Import ZArith List Bool.
From Verif Require Import Base F32 Types Lib Com Fbc SpecCodec SpecSerial SpecCoupler SpecStore ProofsWitness ProofsStore.
Import ListNotations.
Local Open Scope nat_scope.

(** C74: In every state a program can bring a coupler into, there is at most one pending request per channel and exactly one
    buffer pair per serial module, and no more message chunks are queued than bytes. *)
Theorem C74_storage : forall prof c, reachable prof c ->
  NoDup (map fst (c_write c)) /\ length (c_write c) <= total_channels c /\
  length (c_processors c) = serial_modules c /\
  (forall i p, serial c i = Some p -> length (p_out_data p) <= length (queued p)).
Proof. exact C74_storage_all. Qed.
Print Assumptions C74_storage.

(** C74: Whatever the program does, the bytes waiting to be fetched from a serial module grow by at most one message per cycle, and shrink
    by what is fetched; the bytes waiting to be sent grow by at most what the program hands over. *)
Theorem C74_growth : forall prof c xs c' answers i l ch p p', reachable prof c -> runs prof c xs c' answers ->
  nth_error (c_modules c) i = Some (MCOM l ch) -> serial c i = Some p -> serial c' i = Some p' ->
  length (buffered p') + fetched i xs answers <= length (buffered p) + payload_size l * cycles xs /\
  length (queued p') + pending_bytes c' i <= length (queued p) + pending_bytes c i + offered i xs.
Proof. exact C74_growth_all. Qed.
Print Assumptions C74_growth.

(** A digital output and a serial module: a request, a write of nine bytes, three cycles, the last of which delivers three bytes, and a
    read of two bytes. *)
Definition store_config : config :=
  mk_config [UR20_4DO_P; UR20_1COM_232_485_422] [0x8000; 0xFFFF; 0x8010; 0x0000]%Z
    [repeat 0%Z 4; [0; 1; 0; 0; 0; 0; 0; 0; 0; 0]%Z].
Definition store_new : coupler := after no_coupler (coupler_new store_config).
Definition store_1 : coupler := fst (set_output store_new (mk_address 0 1) (Bit true)).
Definition store_2 : coupler := fst (coupler_write store_1 1 [1; 2; 3; 4; 5; 6; 7; 8; 9]%Z).
Definition store_cycle (c : coupler) (input : list Z) : coupler := fst (next Debug as_is as_is c input (repeat 0%Z 5)).
Definition quiet : list Z := repeat 0%Z 4.
Definition delivery : list Z := [0x0309; 0x4241; 0x0043; 0]%Z.
Definition store_3 : coupler := store_cycle store_2 quiet.
Definition store_4 : coupler := store_cycle store_3 quiet.
Definition store_5 : coupler := store_cycle store_4 delivery.
Definition store_6 : coupler := fst (coupler_read store_5 1 2).
Definition store_calls : list call :=
  [SetOutput (mk_address 0 1) (Bit true); WriteTo 1 [1; 2; 3; 4; 5; 6; 7; 8; 9]%Z; NextCycle quiet (repeat 0%Z 5);
   NextCycle quiet (repeat 0%Z 5); NextCycle delivery (repeat 0%Z 5); ReadFrom 1 2].
Definition sizes (c : coupler) : option (nat * nat) := option_map (fun p => (length (buffered p), length (queued p))) (serial c 1).
Example C74_example : reachable Debug store_new /\ (exists answers, runs Debug store_new store_calls store_6 answers /\ fetched 1 store_calls answers = 2) /\
  length (c_write store_2) = 1 /\ total_channels store_new = 5 /\ serial_modules store_new = 1 /\
  sizes store_2 = Some (0, 9) /\ sizes store_5 = Some (3, 3) /\ sizes store_6 = Some (1, 3) /\
  offered 1 store_calls = 9 /\ cycles store_calls = 3.
Proof.
  split; [apply (start_reachable _ store_config); vm_compute; reflexivity|]. split.
  - eexists. split.
    + eapply (Runs_cons Debug store_new _ store_1); [apply Calls_set; exact I|].
      eapply (Runs_cons Debug store_1 _ store_2); [apply Calls_write; repeat (constructor; [split; discriminate || reflexivity|]); constructor|].
      eapply (Runs_cons Debug store_2 _ store_3); [apply (Calls_next Debug store_2 quiet _ store_3 (snd (next Debug as_is as_is store_2 quiet (repeat 0%Z 5))));
        [apply step_cycle; [reflexivity|reflexivity|apply surjective_pairing]|vm_compute; discriminate]|].
      eapply (Runs_cons Debug store_3 _ store_4); [apply (Calls_next Debug store_3 quiet _ store_4 (snd (next Debug as_is as_is store_3 quiet (repeat 0%Z 5))));
        [apply step_cycle; [reflexivity|reflexivity|apply surjective_pairing]|vm_compute; discriminate]|].
      eapply (Runs_cons Debug store_4 _ store_5); [apply (Calls_next Debug store_4 delivery _ store_5 (snd (next Debug as_is as_is store_4 delivery (repeat 0%Z 5))));
        [apply step_cycle; [reflexivity|reflexivity|apply surjective_pairing]|vm_compute; discriminate]|].
      eapply (Runs_cons Debug store_5 _ store_6); [apply Calls_read|]. apply Runs_nil.
    + vm_compute. reflexivity.
  - vm_compute. auto 10.
Qed.
