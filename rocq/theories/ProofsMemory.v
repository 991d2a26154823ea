(** Proofs about what a coupler remembers (C64). *)
From Coq Require Import ZArith List Bool Lia ZifyBool ZifyNat.
From Verif Require Import Base Facts F32 Types Lib Util Com Fbc SpecCodec SpecSerial SpecCoupler SpecMemory
  ProofsAddr ProofsModule ProofsSerial ProofsLoop ProofsCycle ProofsCoupler ProofsNew ProofsOrder.
Import ListNotations.
Local Open Scope Z_scope.

Lemma work_infos c c' : same_work c c' -> infos c = infos c'.
Proof. intros (H1 & H2 & _). unfold infos. congruence. Qed.

Lemma work_cycle prof c1 c2 input output c1' r1 c2' r2 : coupler_ok c1 -> coupler_ok c2 -> same_work c1 c2 ->
  cycle prof c1 input output c1' r1 -> cycle prof c2 input output c2' r2 ->
  r1 = r2 /\ same_work c1' c2' /\
  forall ins outs, process_input_data prof (infos c1) input = Ok ins -> process_output_data prof (infos c1) output = Ok outs ->
    inputs c1' = inputs c2' /\
    forall i m, nth_error (c_modules c1) i = Some m -> is_serial m = false -> nth_error (outputs c1') i = nth_error (outputs c2') i.
Proof.
  intros Ok1 Ok2 Hs H1 H2. pose proof (work_infos _ _ Hs) as EI. pose proof Hs as (Sm & So & Sr & Ss).
  destruct (cycle_static _ _ _ _ _ _ H1) as [M1 M2]. destruct (cycle_static _ _ _ _ _ _ H2) as [M1' M2'].
  pose proof (cycle_inv _ _ _ _ _ _ Ok1 H1) as I1. pose proof (cycle_inv _ _ _ _ _ _ Ok2 H2) as I2. rewrite <- EI in I2.
  destruct I1 as [(E & N & Ee & Ep & Ew)|[(ins & Ei & E & N & Ee & Ep & Ew)|(ins & outs & sent & Ei & Eo & Er & L0 & L1 & L2 & Hq & Hp & Hm)]].
  - destruct I2 as [(E' & N' & Ee' & Ep' & Ew')|[(ins' & Ei' & _)|(ins' & outs' & sent' & Ei' & _)]]; try (exfalso; exact (N _ Ei')).
    split; [|split; [subst; exact Hs|intros x y Hx _; exfalso; exact (N _ Hx)]].
    destruct r1 as [w|e|p]; [exfalso; exact (Ew w eq_refl)|symmetry; apply Ee', Ee; reflexivity|symmetry; apply Ep', Ep; reflexivity].
  - destruct I2 as [(E' & N' & _)|[(ins' & Ei' & E' & N' & Ee' & Ep' & Ew')|(ins' & outs' & sent' & Ei' & Eo' & _)]];
      [exfalso; exact (N' _ Ei)| |exfalso; exact (N _ Eo')].
    split; [|split; [subst; exact Hs|intros x y _ Hy; exfalso; exact (N _ Hy)]].
    destruct r1 as [w|e|p]; [exfalso; exact (Ew w eq_refl)|symmetry; apply Ee', Ee; reflexivity|symmetry; apply Ep', Ep; reflexivity].
  - destruct I2 as [(E' & N' & _)|[(ins' & Ei' & E' & N' & _)|(ins' & outs' & sent' & Ei' & Eo' & Er' & L0' & L1' & L2' & Hq' & Hp' & Hm')]];
      [exfalso; exact (N' _ Ei)|exfalso; exact (N' _ Eo)|].
    rewrite Ei in Ei'. rewrite Eo in Eo'. apply Ok_inj in Ei', Eo'. subst ins' outs'. rewrite <- Sm in *.
    assert (K : forall i, (i < length (c_modules c1))%nat ->
        nth_error sent i = nth_error sent' i /\ (forall j, requested c1' (mk_address i j) = requested c2' (mk_address i j)) /\
        serial c1' i = serial c2' i /\ nth_error (inputs c1') i = nth_error (inputs c2') i /\
        forall m, nth_error (c_modules c1) i = Some m -> is_serial m = false -> nth_error (outputs c1') i = nth_error (outputs c2') i).
    { intros i Hi. destruct (module_exists c1 i Ok1 Hi) as (m & o & Hat).
      assert (Hat' : module_at c2 i m o) by (unfold module_at in *; rewrite <- Sm, <- So; exact Hat).
      destruct (Hm i m o Hat) as (iv & ov & Hiv & Hov & _ & _ & C). destruct (Hm' i m o Hat') as (iv' & ov' & Hiv' & Hov' & _ & _ & C').
      rewrite Hiv in Hiv'. rewrite Hov in Hov'. apply Some_inj in Hiv', Hov'. subst iv' ov'.
      destruct C as [row S1 S2 S3 S4 S5 S6 S7 S8 S9|l ch rin rout p p' rs last -> -> -> G1 G2 G3 O1 O2 T1 T2 T3 T4 T5 T6 T7
                     |l ch -> V1 V2 V3 V4 V5 V6 V7];
      destruct C' as [row' S1' S2' S3' S4' S5' S6' S7' S8' S9'|l' ch' rin' rout' q q' rs' last' E1 E2 E3 G1' G2' G3' O1' O2' T1' T2' T3' T4' T5' T6' T7'
                     |l' ch' E1 V1' V2' V3' V4' V5' V6' V7'];
        try (exfalso; subst; discriminate); try discriminate.
      - split. { rewrite S2, S2'. f_equal. apply nth_error_ext. intros j. rewrite S4, S4', Sr. reflexivity. }
        split; [intros j; rewrite S5, S5'; reflexivity|]. split; [congruence|]. split; [congruence|]. intros; congruence.
      - injection E2 as <-. injection E3 as <-. rewrite <- Ss, T1 in T1'. apply Some_inj in T1'. subst q.
        rewrite <- Sr, T2 in T2'. apply Ok_inj, pair_inj in T2'. destruct T2' as [<- <-].
        split; [congruence|]. split; [intros j; rewrite T5, T5'; reflexivity|]. split; [congruence|]. split; [congruence|].
        intros m Em Hser. destruct Hat as [Hat _]. rewrite Hat in Em. apply Some_inj in Em. subst m. discriminate.
      - exfalso. destruct V1' as [[N _]|[N _]]; congruence.
      - exfalso. destruct V1 as [[N _]|[N _]]; congruence.
      - split; [congruence|]. split; [intros j; rewrite V5, V5', Sr; reflexivity|]. split; [rewrite V4, V4'; apply Ss|].
        split; [congruence|]. intros; congruence. }
    assert (Es : sent = sent').
    { apply nth_error_ext. intros i. destruct (Nat.ltb_spec i (length (c_modules c1))) as [Hi|Hi]; [apply (K i Hi)|].
      transitivity (@None (list channel_value)); [|symmetry]; apply nth_error_None; lia. }
    split; [congruence|]. split.
    { split; [congruence|]. split; [congruence|]. split.
      - intros [i j]. destruct (Nat.ltb_spec i (length (c_modules c1))) as [Hi|Hi]; [apply (K i Hi)|].
        rewrite Hq, Hq' by exact Hi. apply Sr.
      - intros i. destruct (Nat.ltb_spec i (length (c_modules c1))) as [Hi|Hi]; [apply (K i Hi)|].
        rewrite Hp, Hp' by exact Hi. apply Ss. }
    intros _ _ _ _. split.
    + apply nth_error_ext. intros i. destruct (Nat.ltb_spec i (length (c_modules c1))) as [Hi|Hi]; [apply (K i Hi)|].
      transitivity (@None (list channel_value)); [|symmetry]; apply nth_error_None; lia.
    + intros i m Em Hser. destruct (K i (nth_error_Some_lt _ _ _ Em)) as (_ & _ & _ & _ & K5). exact (K5 m Em Hser).
Qed.

(** Any call: compare [c2] with the coupler that is [c2] but shows what [c1] shows. *)
Definition showing (c s : coupler) : coupler :=
  mk_coupler (c_in_values s) (c_out_values s) (c_write c) (c_modules c) (c_offsets c) (c_processors c) (c_last_tx_cnt s).
Lemma work_showing c1 c2 : same_work c1 c2 -> same_coupler c1 (showing c2 c1).
Proof. intros (H1 & H2 & H3 & H4). unfold same_coupler. cbn. auto 10. Qed.
Lemma same_is_work c c' : same_coupler c c' -> same_work c c'.
Proof. intros (_ & _ & H3 & H4 & _ & H6 & H7). repeat split; assumption. Qed.

Lemma work_calls prof c1 c2 x c1' c2' a1 a2 : coupler_ok c1 -> coupler_ok c2 -> same_work c1 c2 ->
  calls prof c1 x c1' a1 -> calls prof c2 x c2' a2 -> same_answer (c_modules c1) a1 a2 /\ same_work c1' c2'.
Proof.
  intros Ok1 Ok2 Hs H1 H2. pose proof Hs as (Sm & So & Sr & Ss).
  destruct H1 as [c a v Hv|c i n|c i b Hb|c input output c' r Hc Hp]; inversion H2; subst; cbn [same_answer].
  - destruct (same_set c (showing c2 c) a v (work_showing _ _ Hs)) as [E W].
    assert (X : snd (set_output (showing c2 c) a v) = snd (set_output c2 a v) /\ same_work (fst (set_output (showing c2 c) a v)) (fst (set_output c2 a v))).
    { destruct (valid_address_dec c2 a) as [V|V].
      - rewrite (set_output_valid c2 a v V), (set_output_valid (showing c2 c) a v) by exact V. split; [reflexivity|]. repeat split.
      - rewrite (set_output_invalid c2 a v V), (set_output_invalid (showing c2 c) a v) by exact V. split; [reflexivity|]. repeat split. }
    destruct X as [X1 X2]. split; [congruence|]. apply same_is_work in W. destruct W as (W1 & W2 & W3 & W4), X2 as (Y1 & Y2 & Y3 & Y4).
    repeat split; intros; congruence.
  - specialize (Ss i). unfold serial in Ss. unfold coupler_read. rewrite <- Ss.
    destruct (map_get Nat.eqb i (c_processors c)) as [p|]; [|cbn [fst snd]; auto].
    destruct (processor_read p n) as [p' bytes] eqn:E. cbn [fst snd]. split; [reflexivity|].
    destruct Hs as (_ & _ & _ & Ss'). repeat split; try assumption.
    intros j. unfold serial, with_processors. cbn [c_processors]. rewrite !(map_get_insert Nat.eqb Nat.eqb_spec).
    destruct (Nat.eqb i j); [reflexivity|apply Ss'].
  - specialize (Ss i). unfold serial in Ss. unfold coupler_write. rewrite <- Ss.
    destruct (map_get Nat.eqb i (c_processors c)) as [p|]; [|cbn [fst snd]; auto].
    destruct (processor_write p b) as [p' k] eqn:E. cbn [fst snd]. split; [reflexivity|].
    destruct Hs as (_ & _ & _ & Ss'). repeat split; try assumption.
    intros j. unfold serial, with_processors. cbn [c_processors]. rewrite !(map_get_insert Nat.eqb Nat.eqb_spec).
    destruct (Nat.eqb i j); [reflexivity|apply Ss'].
  - destruct (work_cycle _ _ _ _ _ _ _ _ _ Ok1 Ok2 Hs Hc ltac:(eassumption)) as (E & W & V). split; [|exact W]. split; [exact E|].
    intros image ->. destruct (ok_cycle _ _ _ _ _ _ Ok1 Hc) as (ins & outs & sent & E1 & E2 & _). exact (V ins outs E1 E2).
Qed.

Lemma calls_modules prof c x c' a : calls prof c x c' a -> c_modules c' = c_modules c.
Proof.
  intros H. destruct H as [c a v Hv|c i n|c i b Hb|c input output c' r Hc _].
  - apply set_static.
  - apply read_static.
  - apply write_static.
  - apply (cycle_static _ _ _ _ _ _ Hc).
Qed.

Lemma C64_all : forall prof c1 c2 xs c1' c2' a1 a2, reachable prof c1 -> reachable prof c2 -> same_work c1 c2 ->
  runs prof c1 xs c1' a1 -> runs prof c2 xs c2' a2 -> Forall2 (same_answer (c_modules c1)) a1 a2 /\ same_work c1' c2'.
Proof.
  intros prof c1 c2 xs c1' c2' a1 a2 R1 R2 Hs H1. apply reachable_ok in R1, R2. revert c2 c2' a2 R2 Hs.
  induction H1 as [c|c x d a xs c' xa Hx Hxs IH]; intros c2 c2' a2 R2 Hs H2; inversion H2; subst; [split; [constructor|exact Hs]|].
  match goal with A : calls prof c2 x ?d2 ?e2, B : runs prof ?d2 xs _ _ |- _ =>
    destruct (work_calls _ _ _ _ _ _ _ _ R1 R2 Hs Hx A) as [P W];
    destruct (IH (calls_ok _ _ _ _ _ R1 Hx) d2 _ _ (calls_ok _ _ _ _ _ R2 A) W B) as [Q V] end.
  rewrite (calls_modules _ _ _ _ _ Hx) in Q. split; [constructor; assumption|exact V].
Qed.

Lemma calls_offsets prof c x c' a : calls prof c x c' a -> c_offsets c' = c_offsets c.
Proof.
  intros H. destruct H as [c a v Hv|c i n|c i b Hb|c input output c' r Hc _].
  - apply set_static.
  - apply read_static.
  - apply write_static.
  - apply (cycle_static _ _ _ _ _ _ Hc).
Qed.
Lemma runs_static prof c xs c' a : runs prof c xs c' a -> c_modules c' = c_modules c /\ c_offsets c' = c_offsets c.
Proof.
  intros H. induction H as [c|c x d e xs c' xa Hx Hxs IH]; [auto|].
  rewrite <- (calls_modules _ _ _ _ _ Hx), <- (calls_offsets _ _ _ _ _ Hx). exact IH.
Qed.
Lemma runs_reachable prof c xs c' a : reachable prof c -> runs prof c xs c' a -> reachable prof c'.
Proof.
  intros Hr H. induction H as [c|c x d e xs c' xa Hx Hxs IH]; [exact Hr|]. apply IH. exact (calls_reachable _ _ _ _ _ Hr Hx).
Qed.

Lemma no_serial_none prof c : reachable prof c -> no_serial c -> forall i, serial c i = None.
Proof.
  intros Hr Hn i. destruct (serial c i) as [p|] eqn:E; [|reflexivity].
  destruct (ok_proc c (reachable_ok _ _ Hr) i p E) as (l & ch & Hm & _). unfold no_serial in Hn. rewrite Forall_forall in Hn.
  specialize (Hn _ (nth_error_In _ _ Hm)). discriminate.
Qed.

Lemma new_requests cfg c : coupler_new cfg = Ok c -> forall a, requested c a = None.
Proof.
  intros H a. unfold coupler_new in H. apply bind_ok in H. destruct H as (u & _ & H). apply bind_ok in H. destruct H as (o & _ & H).
  apply bind_ok in H. destruct H as ([ms ps] & _ & H). apply Ok_inj in H. subst c. reflexivity.
Qed.

Lemma C64_fresh_all : forall prof cfg c0 xs c a ys c1 a1 c2 a2, rust_config cfg -> coupler_new cfg = Ok c0 -> no_serial c0 ->
  runs prof c0 xs c a -> (forall b, requested c b = None) ->
  runs prof c ys c1 a1 -> runs prof c0 ys c2 a2 -> Forall2 (same_answer (c_modules c0)) a1 a2.
Proof.
  intros prof cfg c0 xs c a ys c1 a1 c2 a2 Hcfg Hnew Hns Hxs Hreq H1 H2.
  assert (R0 : reachable prof c0) by exact (R_new prof cfg c0 Hcfg Hnew).
  pose proof (runs_reachable _ _ _ _ _ R0 Hxs) as R. destruct (runs_static _ _ _ _ _ Hxs) as [M O].
  assert (W : same_work c c0).
  { split; [exact M|]. split; [exact O|]. split.
    - intros b. rewrite Hreq, (new_requests cfg c0 Hnew). reflexivity.
    - intros i. rewrite (no_serial_none _ _ R0 Hns). apply (no_serial_none _ _ R). unfold no_serial. rewrite M. exact Hns. }
  destruct (C64_all prof c c0 ys c1 c2 a1 a2 R R0 W H1 H2) as [A _]. rewrite M in A. exact A.
Qed.
