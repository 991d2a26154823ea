(** Proofs about the readers and writers of a coupler (C115). *)
From Coq Require Import ZArith List Bool Lia.
From Verif Require Import Base Facts F32 Types Lib Com Fbc SpecCodec SpecSerial SpecCoupler SpecSystem SpecHandles
  ProofsParams ProofsNew ProofsSerial ProofsCycle ProofsCoupler ProofsMemory ProofsShare ProofsExact ProofsStdio ProofsShown.
Import ListNotations.

Lemma com_type t regs m : module_from_params t regs = Ok m -> is_serial m = true <-> t = UR20_1COM_232_485_422.
Proof.
  intros H. destruct (C12_reported_all _ _ _ H) as [H1 H2]. split.
  - intros Hs. destruct m; try discriminate. destruct t; try (symmetry; apply H2; discriminate); specialize (H1 eq_refl); discriminate.
  - intros ->. specialize (H2 ltac:(discriminate)). destruct m as [v ?|v ?| | | | | | | | | | | |]; cbn [mod_type] in H2; try discriminate; try reflexivity;
      destruct v; discriminate.
Qed.

Lemma serial_modules cfg c i : rust_config cfg -> coupler_new cfg = Ok c ->
  serial_module cfg i <-> exists l ch, nth_error (c_modules c) i = Some (MCOM l ch).
Proof.
  intros _ H.
  assert (Hlen : length (cfg_params cfg) = length (cfg_modules cfg) /\
                 length (cfg_offsets cfg) = (2 * length (cfg_modules cfg))%nat).
  { unfold coupler_new in H. apply bind_ok in H. destruct H as (u & Hv & _). unfold validate in Hv.
    destruct (Nat.eqb_spec (length (cfg_modules cfg)) (length (cfg_params cfg))) as [E1|E1]; [|discriminate].
    destruct (Nat.eqb_spec (length (cfg_modules cfg) * 2) (length (cfg_offsets cfg))) as [E2|E2]; [|discriminate]. lia. }
  destruct Hlen as [L1 L2]. destruct (coupler_new_closed cfg L1 L2) as (offs & Hoffs & Lo & Hc).
  rewrite Hc in H. apply bind_ok in H. destruct H as (ms & Hms & H). apply Ok_inj in H. subst c. cbn [c_modules].
  apply build_params in Hms. destruct Hms as [Lm Hm]. unfold serial_module. split.
  - intros Ht. destruct (Hm i _ Ht) as (p & m & _ & E & Hb).
    assert (S : is_serial m = true) by (apply (com_type _ _ _ Hb); reflexivity).
    destruct m; try discriminate. eauto.
  - intros (l & ch & E). destruct (nth_error (cfg_modules cfg) i) as [t|] eqn:Et.
    + destruct (Hm i t Et) as (p & m & _ & E' & Hb). rewrite E in E'. apply Some_inj in E'. subst m.
      f_equal. apply (com_type _ _ _ Hb). reflexivity.
    + apply nth_error_None in Et. apply nth_error_Some_lt in E. lia.
Qed.

Lemma C115_exist_all : forall prof cfg c0 xs c answers i, rust_config cfg -> coupler_new cfg = Ok c0 -> runs prof c0 xs c answers ->
  (forall size, (exists bytes, snd (coupler_read c i size) = Some bytes) <-> serial_module cfg i) /\
  (forall buf, (exists n, snd (coupler_write c i buf) = Some n) <-> serial_module cfg i).
Proof.
  intros prof cfg c0 xs c answers i Hcfg Hn Hr.
  pose proof (runs_ok _ _ _ _ _ (new_ok _ _ Hcfg Hn) Hr) as Hok. destruct (runs_static _ _ _ _ _ Hr) as [M _].
  assert (S : (exists p, serial c i = Some p) <-> serial_module cfg i).
  { rewrite (serial_modules _ _ i Hcfg Hn), <- M. split.
    - intros [p Hp]. destruct (ok_proc _ Hok _ _ Hp) as (l & ch & E & _). eauto.
    - intros (l & ch & E). exact (ok_com _ Hok _ _ _ E). }
  split; intros x; rewrite <- S; unfold coupler_read, coupler_write, serial; destruct (map_get Nat.eqb i (c_processors c)) as [p|].
  - destruct (processor_read p x). cbn [snd]. split; intros _; eauto.
  - cbn [snd]. split; intros [? H]; discriminate.
  - destruct (processor_write p x). cbn [snd]. split; intros _; eauto.
  - cbn [snd]. split; intros [? H]; discriminate.
Qed.

Lemma C115_read_all : forall c i size,
  else_unchanged c (fst (coupler_read c i size)) (Some i) None /\
  match snd (coupler_read c i size) with
  | Some bytes => bytes = firstn size (readable_in c i) /\ readable_in (fst (coupler_read c i size)) i = skipn size (readable_in c i)
  | None => fst (coupler_read c i size) = c
  end.
Proof.
  intros c i size. destruct (read_static c i size) as (E1 & E2 & _ & _ & E3 & _).
  destruct (serial c i) as [p|] eqn:Hp.
  - assert (Eb : readable_in c i = buffered p) by (unfold readable_in; rewrite Hp; reflexivity).
    rewrite Eb. rewrite (read_is _ _ _ size Hp) in *. cbn [fst snd] in *. split.
    + split; [exact E1|]. split; [exact E2|]. split; [intros a; unfold requested; rewrite E3; reflexivity|]. split; intros j Hj.
      * unfold readable_in. rewrite serial_put. destruct (Nat.eqb_spec i j); [congruence|reflexivity].
      * unfold waiting_in. rewrite serial_put. destruct (Nat.eqb_spec i j) as [<-|]; [rewrite Hp; reflexivity|reflexivity].
    + split; [reflexivity|]. unfold readable_in. rewrite serial_put, Nat.eqb_refl. reflexivity.
  - unfold coupler_read, serial in *. rewrite Hp in *. cbn [fst snd] in *. split; [|reflexivity].
    split; [reflexivity|]. split; [reflexivity|]. split; [reflexivity|]. split; reflexivity.
Qed.

Lemma C115_write_all : forall c i buf,
  else_unchanged c (fst (coupler_write c i buf)) None (Some i) /\
  match snd (coupler_write c i buf) with
  | Some n => n = length buf /\ waiting_in (fst (coupler_write c i buf)) i = waiting_in c i ++ buf
  | None => fst (coupler_write c i buf) = c
  end.
Proof.
  intros c i buf. destruct (write_static c i buf) as (E1 & E2 & _ & _ & E3 & _).
  unfold else_unchanged. split.
  - split; [exact E1|]. split; [exact E2|]. split; [intros a; unfold requested; rewrite E3; reflexivity|].
    unfold coupler_write, readable_in, waiting_in, serial. destruct (map_get Nat.eqb i (c_processors c)) as [p|] eqn:Hp; [|auto].
    destruct (processor_write p buf) as [p' n] eqn:Ew. cbn [fst with_processors c_processors]. split; intros j Hj; rewrite (map_get_insert Nat.eqb Nat.eqb_spec).
    + destruct (Nat.eqb_spec i j) as [<-|]; [|reflexivity]. rewrite Hp. unfold processor_write in Ew. apply pair_inj in Ew as [<- _]. reflexivity.
    + destruct (Nat.eqb_spec i j); [congruence|reflexivity].
  - unfold coupler_write. destruct (map_get Nat.eqb i (c_processors c)) as [p|] eqn:Hp; [|reflexivity].
    pose proof (write_queued p buf) as Q. destruct (processor_write p buf) as [p' n] eqn:Ew. cbn [fst snd] in *.
    split; [unfold processor_write in Ew; apply pair_inj in Ew as [_ <-]; reflexivity|].
    unfold waiting_in, serial. cbn [with_processors c_processors]. rewrite (map_get_insert Nat.eqb Nat.eqb_spec), Nat.eqb_refl, Hp. exact Q.
Qed.
