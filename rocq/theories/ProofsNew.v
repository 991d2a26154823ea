(** Proofs about the construction of a coupler: C11, and a closed form of [Coupler::new]
    used by the proofs about cycles. *)
From Coq Require Import ZArith List Bool Lia ZifyBool ZifyNat.
From Verif Require Import Base Facts F32 Types Lib Util Digital Analog Fcnt Com Fbc SpecAddr SpecParams
  ProofsParams.
Import ListNotations.
Local Open Scope Z_scope.

(** The processors created for modules numbered from [i]. *)
Fixpoint processors_from (i : nat) (ms : list module) (ps : list (nat * processor))
  : list (nat * processor) :=
  match ms with
  | [] => ps
  | m :: t =>
      processors_from (S i) t
        (match m with MCOM l _ => map_insert Nat.eqb i (processor_new l) ps | _ => ps end)
  end.

Definition build (params : list (list Z)) (it : nat * module_type) : outcome module :=
  let? p := index params (fst it) in module_from_params (snd it) p.

Lemma new_loop_closed types : forall k params ms ps,
  new_loop (enumerate_from k types) params ms ps =
  let? news := traverse (build params) (enumerate_from k types) in
  Ok (ms ++ news, processors_from k news ps).
Proof.
  induction types as [|t types IH]; intros k params ms ps; cbn [enumerate_from new_loop traverse].
  - cbn [bind processors_from]. rewrite app_nil_r. reflexivity.
  - unfold build at 1. cbn [fst snd].
    destruct (index params k) as [p|e|q]; cbn [bind]; try reflexivity.
    destruct (module_from_params t p) as [m|e|q]; cbn [bind]; try reflexivity.
    rewrite IH. destruct (traverse (build params) (enumerate_from (S k) types)) as [news|e|q];
      cbn [bind]; try reflexivity.
    cbn [processors_from]. rewrite <- app_assoc. reflexivity.
Qed.

Lemma processors_from_get ms : forall k ps i,
  map_get Nat.eqb i (processors_from k ms ps) =
  if Nat.leb k i then
    match nth_error ms (i - k) with
    | Some (MCOM l _) => Some (processor_new l)
    | _ => map_get Nat.eqb i ps
    end
  else map_get Nat.eqb i ps.
Proof.
  induction ms as [|m ms IH]; intros k ps i; cbn [processors_from].
  - destruct (Nat.leb k i); [|reflexivity]. destruct (i - k)%nat; reflexivity.
  - rewrite IH. destruct (Nat.leb_spec k i) as [Hk|Hk].
    + destruct (Nat.leb_spec (S k) i) as [Hk'|Hk'].
      * replace (i - k)%nat with (S (i - S k)) by lia. cbn [nth_error].
        assert (Hne : map_get Nat.eqb i (match m with MCOM l _ => map_insert Nat.eqb k (processor_new l) ps | _ => ps end)
                      = map_get Nat.eqb i ps).
        { destruct m; try reflexivity. rewrite map_get_insert by exact Nat.eqb_spec.
          destruct (Nat.eqb_spec k i); [lia|reflexivity]. }
        rewrite Hne. reflexivity.
      * replace i with k by lia. rewrite Nat.sub_diag. cbn [nth_error].
        destruct m; try reflexivity. rewrite map_get_insert by exact Nat.eqb_spec.
        rewrite Nat.eqb_refl. reflexivity.
    + destruct (Nat.leb_spec (S k) i) as [Hk'|Hk']; [lia|].
      destruct m; try reflexivity. rewrite map_get_insert by exact Nat.eqb_spec.
      destruct (Nat.eqb_spec k i); [lia|reflexivity].
Qed.

Lemma processors_from_nodup ms : forall k ps, NoDup (map fst ps) ->
  NoDup (map fst (processors_from k ms ps)).
Proof.
  induction ms as [|m ms IH]; intros k ps H; cbn [processors_from]; [exact H|].
  apply IH. destruct m; try exact H. apply nodup_insert; [exact Nat.eqb_spec|exact H].
Qed.

Lemma build_params params : forall types k ms,
  traverse (build params) (enumerate_from k types) = Ok ms <->
  (length ms = length types /\
   forall i t, nth_error types i = Some t ->
     exists p m, nth_error params (k + i) = Some p /\ nth_error ms i = Some m /\
                 module_from_params t p = Ok m).
Proof.
  intros types k ms. rewrite traverse_ok, Forall2_nth_error, enumerate_from_length. split.
  - intros (Hlen & H). split; [auto|]. intros i t Ht.
    destruct (nth_error ms i) as [m|] eqn:Em.
    2:{ apply nth_error_None in Em. apply nth_error_Some_lt in Ht. lia. }
    specialize (H i (k + i, t)%nat m). rewrite nth_error_enumerate_from, Ht in H.
    specialize (H eq_refl Em). unfold build in H. cbn [fst snd] in H. apply bind_ok in H.
    destruct H as (p & Hp & H). apply index_ok in Hp. eauto.
  - intros (Hlen & H). split; [auto|]. intros i a m Ha Hm. rewrite nth_error_enumerate_from in Ha.
    destruct (nth_error types i) as [t|] eqn:Et; [|discriminate]. cbn [option_map] in Ha.
    apply Some_inj in Ha. subst a. destruct (H i t Et) as (p & m' & Hp & Hm' & Hb).
    unfold build. cbn [fst snd]. apply index_ok in Hp. rewrite Hp. cbn [bind]. congruence.
Qed.

Lemma traverse_prefix_fail params types : forall k i t p,
  (forall j t' p', (j < i)%nat -> nth_error types j = Some t' -> nth_error params (k + j) = Some p' ->
     exists m, module_from_params t' p' = Ok m) ->
  (k + length types <= length params)%nat ->
  nth_error types i = Some t -> nth_error params (k + i) = Some p ->
  (forall e, module_from_params t p = Err e ->
     traverse (build params) (enumerate_from k types) = Err e) /\
  (forall q, module_from_params t p = Panic q ->
     traverse (build params) (enumerate_from k types) = Panic q).
Proof.
  induction types as [|t0 types IH]; intros k i t p Hpre Hlen Ht Hp; [destruct i; discriminate|].
  cbn [length] in Hlen. cbn [enumerate_from traverse]. unfold build at 1 3. cbn [fst snd].
  destruct i as [|i].
  - cbn [nth_error] in Ht. apply Some_inj in Ht. subst t0. rewrite Nat.add_0_r in Hp.
    apply index_ok in Hp. rewrite Hp. cbn [bind].
    split; intros x Hx; rewrite Hx; reflexivity.
  - destruct (nth_error_lt_Some params k) as (p0 & Hp0); [lia|].
    destruct (Hpre O t0 p0) as (m0 & Hm0); [lia|reflexivity|rewrite Nat.add_0_r; exact Hp0|].
    apply index_ok in Hp0. rewrite Hp0. cbn [bind]. rewrite Hm0. cbn [bind].
    destruct (IH (S k) i t p) as [H1 H2].
    + intros j t' p' Hj Ht' Hp'. apply (Hpre (S j) t' p'); [lia|exact Ht'|].
      replace (k + S j)%nat with (S k + j)%nat by lia. exact Hp'.
    + lia.
    + exact Ht.
    + replace (S k + i)%nat with (k + S i)%nat by lia. exact Hp.
    + split; intros x Hx; [rewrite (H1 x Hx)|rewrite (H2 x Hx)]; reflexivity.
Qed.

Lemma offsets_ok data : exists l, offsets_of_process_data data = Ok l /\
  length l = Nat.div (length data) 2.
Proof.
  unfold offsets_of_process_data.
  exists (map (fun i => mk_offset (word_to_offset (nth (i * 2 + 1) data 0))
                                  (word_to_offset (nth (i * 2) data 0)))
              (seq 0 (Nat.div (length data) 2))).
  split; [|rewrite map_length, seq_length; reflexivity].
  apply traverse_map_ok. intros i Hi. apply in_seq in Hi.
  assert (Hd : (2 * (length data / 2) <= length data)%nat) by (apply Nat.mul_div_le; lia).
  rewrite (index_lt data (i * 2 + 1) 0) by lia. cbn [bind].
  rewrite (index_lt data (i * 2) 0) by lia. reflexivity.
Qed.

Lemma coupler_new_closed cfg :
  length (cfg_params cfg) = length (cfg_modules cfg) ->
  length (cfg_offsets cfg) = (2 * length (cfg_modules cfg))%nat ->
  exists offsets, offsets_of_process_data (cfg_offsets cfg) = Ok offsets /\
    length offsets = length (cfg_modules cfg) /\
    coupler_new cfg =
      let? ms := traverse (build (cfg_params cfg)) (enumerate (cfg_modules cfg)) in
      Ok (mk_coupler [] [] [] ms offsets (processors_from 0 ms []) 0).
Proof.
  intros H1 H2. destruct (offsets_ok (cfg_offsets cfg)) as (offs & Ho & Hl).
  exists offs. split; [exact Ho|]. split.
  { rewrite Hl, H2. rewrite Nat.mul_comm. apply Nat.div_mul. lia. }
  unfold coupler_new, validate.
  replace (Nat.eqb (length (cfg_modules cfg)) (length (cfg_params cfg))) with true
    by (symmetry; apply Nat.eqb_eq; lia).
  replace (Nat.eqb (length (cfg_modules cfg) * 2) (length (cfg_offsets cfg))) with true
    by (symmetry; apply Nat.eqb_eq; lia).
  cbn [negb bind]. rewrite Ho. cbn [bind]. unfold enumerate. rewrite new_loop_closed.
  destruct (traverse (build (cfg_params cfg)) (enumerate_from 0 (cfg_modules cfg))); reflexivity.
Qed.

Lemma C11_all :
  (forall cfg, length (cfg_params cfg) <> length (cfg_modules cfg) ->
     coupler_new cfg = Err BufferLength) /\
  (forall cfg, length (cfg_params cfg) = length (cfg_modules cfg) ->
     length (cfg_offsets cfg) <> (2 * length (cfg_modules cfg))%nat ->
     coupler_new cfg = Err ModuleOffsetError) /\
  (forall cfg, length (cfg_params cfg) = length (cfg_modules cfg) ->
     length (cfg_offsets cfg) = (2 * length (cfg_modules cfg))%nat ->
     (forall i t p, nth_error (cfg_modules cfg) i = Some t -> nth_error (cfg_params cfg) i = Some p ->
        exists m, module_from_params t p = Ok m) ->
     exists c, coupler_new cfg = Ok c /\
       length (c_modules c) = length (cfg_modules cfg) /\
       (forall i t p, nth_error (cfg_modules cfg) i = Some t -> nth_error (cfg_params cfg) i = Some p ->
          exists m, nth_error (c_modules c) i = Some m /\ module_from_params t p = Ok m) /\
       offsets_of_process_data (cfg_offsets cfg) = Ok (c_offsets c) /\
       length (c_offsets c) = length (cfg_modules cfg) /\
       inputs c = [] /\ outputs c = [] /\ c_write c = [] /\ c_last_tx_cnt c = 0 /\
       NoDup (map fst (c_processors c)) /\
       (forall i p, map_get Nat.eqb i (c_processors c) = Some p <->
          exists l ch, nth_error (c_modules c) i = Some (MCOM l ch) /\ p = processor_new l)) /\
  (forall cfg i t p, length (cfg_params cfg) = length (cfg_modules cfg) ->
     length (cfg_offsets cfg) = (2 * length (cfg_modules cfg))%nat ->
     (forall j t' p', (j < i)%nat -> nth_error (cfg_modules cfg) j = Some t' ->
        nth_error (cfg_params cfg) j = Some p' -> exists m, module_from_params t' p' = Ok m) ->
     nth_error (cfg_modules cfg) i = Some t -> nth_error (cfg_params cfg) i = Some p ->
     (forall e, module_from_params t p = Err e -> coupler_new cfg = Err e) /\
     (forall q, module_from_params t p = Panic q -> coupler_new cfg = Panic q)) /\
  (forall t regs, param_bounds t = None -> module_from_params t regs = Panic Unsupported) /\
  (forall t bounds, param_bounds t = Some bounds ->
     documented_param_count t = Some (Z.of_nat (length bounds)) /\
     param_register_count t = Ok (Z.of_nat (length bounds)) /\
     exists m, module_from_params t (repeat 0 (length bounds)) = Ok m).
Proof.
  repeat split.
  - intros cfg H. unfold coupler_new, validate.
    replace (Nat.eqb (length (cfg_modules cfg)) (length (cfg_params cfg))) with false
      by (symmetry; apply Nat.eqb_neq; lia). reflexivity.
  - intros cfg H1 H2. unfold coupler_new, validate.
    replace (Nat.eqb (length (cfg_modules cfg)) (length (cfg_params cfg))) with true
      by (symmetry; apply Nat.eqb_eq; lia).
    replace (Nat.eqb (length (cfg_modules cfg) * 2) (length (cfg_offsets cfg))) with false
      by (symmetry; apply Nat.eqb_neq; lia). reflexivity.
  - intros cfg H1 H2 Hall. destruct (coupler_new_closed cfg H1 H2) as (offs & Ho & Hol & ->).
    assert (Hms : exists ms, traverse (build (cfg_params cfg)) (enumerate (cfg_modules cfg)) = Ok ms).
    { clear H2 Ho Hol. destruct cfg as [types os params]. cbn [cfg_modules cfg_params] in *.
      assert (Hk : forall types k, (length types + k <= length params)%nat ->
        (forall i t p, nth_error types i = Some t -> nth_error params (k + i) = Some p ->
           exists m, module_from_params t p = Ok m) ->
        exists ms, traverse (build params) (enumerate_from k types) = Ok ms).
      { clear. induction types as [|t types IH]; intros k Hl H; cbn [enumerate_from traverse]; [eauto|].
        cbn [length] in Hl. destruct (nth_error_lt_Some params k) as (p & Hp); [lia|].
        destruct (H O t p) as (m & Hm); [reflexivity|rewrite Nat.add_0_r; exact Hp|].
        unfold build at 1. cbn [fst snd]. apply index_ok in Hp. rewrite Hp. cbn [bind]. rewrite Hm.
        cbn [bind]. destruct (IH (S k)) as (ms & ->); [lia| |cbn [bind]; eauto].
        intros i t' p' Ht Hp'. apply (H (S i) t' p'); [exact Ht|].
        replace (k + S i)%nat with (S k + i)%nat by lia. exact Hp'. }
      apply (Hk types O); [lia|exact Hall]. }
    destruct Hms as (ms & Hms). rewrite Hms. cbn [bind].
    apply build_params in Hms. destruct Hms as (Hml & Hms).
    eexists. split; [reflexivity|].
    cbn [c_modules c_offsets c_write c_last_tx_cnt c_processors inputs outputs c_in_values c_out_values].
    split; [exact Hml|]. split.
    { intros i t p Ht Hp. destruct (Hms i t Ht) as (p' & m & Hp' & Hm & Hb). cbn [Nat.add] in Hp'.
      rewrite Hp in Hp'. apply Some_inj in Hp'. subst p'. eauto. }
    split; [exact Ho|]. split; [exact Hol|]. split; [reflexivity|]. split; [reflexivity|].
    split; [reflexivity|]. split; [reflexivity|]. split.
    { apply processors_from_nodup. constructor. }
    intros i p. rewrite processors_from_get. cbn [Nat.leb map_get]. rewrite Nat.sub_0_r.
    destruct (nth_error ms i) as [m|]; [|split; [discriminate|intros (? & ? & H & _); discriminate]].
    split.
    + destruct m; try discriminate. intros H. apply Some_inj in H. eauto.
    + intros (l & ch & H & ->). apply Some_inj in H. subst m. reflexivity.
  - intros e He. destruct (coupler_new_closed cfg) as (offs & Ho & Hol & ->); try assumption.
    destruct (traverse_prefix_fail (cfg_params cfg) (cfg_modules cfg) 0 i t p) as [Hx _]; try assumption.
    { lia. } unfold enumerate. rewrite (Hx e He). reflexivity.
  - intros e He. destruct (coupler_new_closed cfg) as (offs & Ho & Hol & ->); try assumption.
    destruct (traverse_prefix_fail (cfg_params cfg) (cfg_modules cfg) 0 i t p) as [_ Hx]; try assumption.
    { lia. } unfold enumerate. rewrite (Hx e He). reflexivity.
  - intros t regs. apply unsupported.
  - destruct t; cbn [param_bounds] in H; try discriminate; apply Some_inj in H; subst bounds; reflexivity.
  - destruct t; cbn [param_bounds] in H; try discriminate; apply Some_inj in H; subst bounds; reflexivity.
  - destruct t; cbn [param_bounds] in H; try discriminate; apply Some_inj in H; subst bounds;
      eexists; vm_compute; reflexivity.
Qed.
