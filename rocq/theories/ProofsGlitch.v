(** Proofs of C65: cycles with unreadable images leave no trace. *)
From Coq Require Import ZArith List Bool Lia ZifyBool ZifyNat.
From Verif Require Import Base Facts F32 Types Lib Util Com Fbc SpecCodec SpecSerial SpecCoupler SpecImage SpecOutcome SpecGlitch
  ProofsModule ProofsImage ProofsLayout ProofsLoop ProofsCycle ProofsCoupler ProofsNew ProofsOrder ProofsOutcome.
Import ListNotations.
Local Open Scope Z_scope.

Definition with_inputs (c : coupler) (ins : list (list channel_value)) : coupler :=
  mk_coupler ins (c_out_values c) (c_write c) (c_modules c) (c_offsets c) (c_processors c) (c_last_tx_cnt c).

Lemma with_own c : with_inputs c (c_in_values c) = c.
Proof. destruct c. reflexivity. Qed.

(** Encoding fails with other errors. *)
Lemma encode_not_short prof c c' input output ins outs sent : coupler_ok c -> Forall is_u16 output ->
  length sent = length (c_modules c) ->
  (forall i m o, module_at c i m o -> exists iv ov,
      nth_error ins i = Some iv /\ nth_error outs i = Some ov /\
      input_row prof (m, o) input = Ok iv /\ output_row prof (m, o) output = Ok ov /\
      module_cycle prof c c' sent i m o iv ov) ->
  process_output_values prof (infos c) sent <> Err BufferLength.
Proof.
  intros Hr Huo F4 F7 F3. pose proof (sent_wire _ _ _ _ _ _ _ _ Hr Huo F4 F7) as Hw.
  assert (HO : forall i m o off, nth_error (infos c) i = Some (m, o) -> mo_output o = Some off -> is_u16 off) by exact (infos_off c Hr).
  destruct (C40_err_all _ _ _ _ HO F3) as [[_ E]|[E|(i & m & o & vs & Hi & Ho & Hv & E)]]; try discriminate.
  pose proof Hi as Hat. apply infos_at in Hat. destruct (F7 i m o Hat) as (iv & ov & _ & _ & _ & Hro & C).
  destruct (mo_output o) as [off|] eqn:Eo; [|congruence].
  pose proof (output_row_exists_nonzero _ _ _ _ _ _ Hro Eo (HO i m o off Hi Eo) Huo) as Hz.
  rewrite Forall_forall in Hw. specialize (Hw vs (nth_error_In _ _ Hv)).
  destruct (is_serial m) eqn:Hs.
  - destruct m as [| | | | | | | | | | | |l ch| ]; try discriminate.
    destruct C as [row0 S1 S2 S3 S4 S5 S6 S6' S7 S8|l' ch' rin rout p0 p' rs last Em -> -> G1 G2 G3 _ _ S1 S2 S3 S4 S5 S6 S7
                     |l' ch' Em S1 S2 S3 S4 S5 S6 S7].
    + discriminate.
    + injection Em as <- <-. rewrite Hv in S4. apply Some_inj in S4. subst vs.
      destruct (good_encodes prof l ch rs G3) as (d & Hd). congruence.
    + injection Em as <- <-. rewrite Hv in S2. apply Some_inj in S2. subst vs.
      destruct (ok_off c Hr i _ o Hat) as [_ O1]. cbn [snd] in O1.
      destruct (com_out_row _ _ _ _ _ _ Huo O1 Hro) as [[Hn _]|(_ & rout & -> & Hg)]; [rewrite Eo in Hn; discriminate|].
      destruct (good_encodes prof l ch rout Hg) as (d & Hd). congruence.
  - pose proof (encode_error prof m vs _ Hw Hz Hs (ok_complete c i m o Hr Hi) E). discriminate.
Qed.

(** Such a cycle changes [inputs] only. *)
Lemma short_cycle prof c input output c' : coupler_ok c -> cycle prof c input output c' (Err BufferLength) ->
  exists ins, c' = with_inputs c ins.
Proof.
  intros Hr H. assert (Huo : Forall is_u16 output) by apply H.
  destruct (cycle_inv _ _ _ _ _ _ Hr H) as [(-> & _)|[(ins & _ & -> & _)|(ins & outs & sent & F1 & F2 & F3 & F4 & _ & _ & _ & _ & F7)]].
  - exists (c_in_values c). symmetry. apply with_own.
  - exists ins. reflexivity.
  - exfalso. symmetry in F3. exact (encode_not_short prof c c' input output ins outs sent Hr Huo F4 F7 F3).
Qed.

Lemma next_with prof oi oo c v input output :
  next prof oi oo (with_inputs c v) input output =
  match process_input_data prof (infos c) input with
  | Ok _ => next prof oi oo c input output
  | Err e => (with_inputs c v, Err e)
  | Panic p => (with_inputs c v, Panic p)
  end.
Proof.
  unfold next. change (infos (with_inputs c v)) with (infos c).
  destruct (process_input_data prof (infos c) input); reflexivity.
Qed.

(** The same call to a coupler with other inputs. *)
Lemma call_with prof c v x c' a : calls prof (with_inputs c v) x c' a -> exists d w b,
  calls prof c x d b /\ c' = with_inputs d w /\ alike_answer a b.
Proof.
  intros H. remember (with_inputs c v) as c0 eqn:Ec. destruct H as [c0 a y Hy|c0 i n|c0 i b Hb|c0 input output c' r Hc Hp]; subst c0.
  - exists (fst (set_output c a y)), v. eexists. split; [apply Calls_set; exact Hy|].
    destruct (valid_address_dec c a) as [V|V].
    + rewrite (set_output_valid c a y V), (set_output_valid (with_inputs c v) a y V). split; reflexivity.
    + rewrite (set_output_invalid c a y V), (set_output_invalid (with_inputs c v) a y V). split; reflexivity.
  - exists (fst (coupler_read c i n)), v. eexists. split; [apply Calls_read|].
    unfold coupler_read. change (c_processors (with_inputs c v)) with (c_processors c).
    destruct (map_get Nat.eqb i (c_processors c)) as [p|]; [|split; reflexivity].
    destruct (processor_read p n). split; reflexivity.
  - exists (fst (coupler_write c i b)), v. eexists. split; [apply Calls_write; exact Hb|].
    unfold coupler_write. change (c_processors (with_inputs c v)) with (c_processors c).
    destruct (map_get Nat.eqb i (c_processors c)) as [p|]; [|split; reflexivity].
    destruct (processor_write p b). split; reflexivity.
  - destruct Hc as (U1 & U2 & oi & oo & P1 & P2 & N). rewrite next_with in N.
    assert (X : forall d s, next prof oi oo c input output = (d, s) -> cycle prof c input output d s).
    { intros d s E. split; [exact U1|]. split; [exact U2|]. exists oi, oo. auto. }
    destruct (process_input_data prof (infos c) input) as [ins|e|p] eqn:Ei.
    + exists c', (c_in_values c'). eexists. split; [apply Calls_next; [apply X; exact N|exact Hp]|].
      split; [symmetry; apply with_own|]. cbn [alike_answer]. auto.
    + apply pair_inj in N. destruct N as [<- <-]. exists c, v. eexists.
      split; [apply (Calls_next prof c input output c (Err e)); [apply X; unfold next; rewrite Ei; reflexivity|discriminate]|].
      split; [reflexivity|]. cbn [alike_answer]. split; [reflexivity|]. split; [reflexivity|discriminate].
    + apply pair_inj in N. destruct N as [_ <-]. exfalso. exact (Hp p eq_refl).
Qed.

Lemma unreadable_alike a b : alike_answer a b -> unreadable a = unreadable b.
Proof.
  destruct a as [r|r|r|r i o], b as [r'|r'|r'|r' i' o']; cbn [alike_answer unreadable]; intros H; try congruence; try reflexivity.
  destruct H as (-> & _). reflexivity.
Qed.

Lemma C65_runs prof c0 xs c1 a1 : runs prof c0 xs c1 a1 -> forall c v, c0 = with_inputs c v -> coupler_ok c ->
  exists d w b, runs prof c (map fst (undisturbed xs a1)) d b /\ c1 = with_inputs d w /\
    Forall2 alike_answer (map snd (undisturbed xs a1)) b.
Proof.
  intros H. induction H as [c0|c0 x c1 a xs c2 xa Hx Hxs IH]; intros c v -> Hok.
  - exists c, v, []. split; [apply Runs_nil|]. split; [reflexivity|constructor].
  - destruct (call_with _ _ _ _ _ _ Hx) as (d & w & b & Hd & -> & Ha).
    assert (HU : undisturbed (x :: xs) (a :: xa) = if unreadable a then undisturbed xs xa else (x, a) :: undisturbed xs xa).
    { unfold undisturbed. cbn [combine filter snd]. destruct (unreadable a); reflexivity. }
    rewrite HU. destruct (unreadable a) eqn:Eu.
    + assert (Hs : exists ins, d = with_inputs c ins).
      { rewrite (unreadable_alike _ _ Ha) in Eu. destruct b as [r|r|r|r i o]; try discriminate. destruct r as [|[]|]; try discriminate.
        inversion Hd; subst. exact (short_cycle prof c input output d Hok ltac:(eassumption)). }
      destruct Hs as (ins & ->). exact (IH c w eq_refl Hok).
    + destruct (IH d w eq_refl (calls_ok _ _ _ _ _ Hok Hd)) as (e & w' & bs & R & -> & F).
      exists e, w', (b :: bs). cbn [map fst snd]. split; [eapply Runs_cons; eassumption|]. split; [reflexivity|]. constructor; assumption.
Qed.

Lemma C65_all : forall prof c xs c1 answers, reachable prof c -> runs prof c xs c1 answers ->
  exists c2 answers2, runs prof c (map fst (undisturbed xs answers)) c2 answers2 /\
    Forall2 alike_answer (map snd (undisturbed xs answers)) answers2 /\
    outputs c1 = outputs c2 /\ (forall a, requested c1 a = requested c2 a) /\ (forall i, serial c1 i = serial c2 i).
Proof.
  intros prof c xs c1 answers Hr H. apply reachable_ok in Hr.
  destruct (C65_runs _ _ _ _ _ H c (c_in_values c) (eq_sym (with_own c)) Hr) as (d & w & b & R & -> & F).
  exists d, b. split; [exact R|]. split; [exact F|]. repeat split.
Qed.

Lemma C65_when_all : forall prof c input output c' r, reachable prof c -> well_placed c -> cycle prof c input output c' r ->
  (r = Err BufferLength <-> ~ (inputs_readable c input /\ outputs_readable c output)).
Proof.
  intros prof c input output c' r Hr [Hp Hw] H. pose proof (packed_all c Hp) as Hh.
  assert (Hn : forall p, r <> Panic p) by exact (C43_partial_all prof c input output c' r Hr (or_intror Hh) H).
  pose proof (C59_all prof c input output c' r Hr H) as HS. split.
  - intros ->. destruct (C59_errors_all prof c input output c' _ Hr Hh H) as [[_ X]|[[E _]|[E _]]]; [exact X|discriminate|discriminate].
  - intros N. destruct r as [image|e|p]; [|f_equal|exfalso; exact (Hn p eq_refl)].
    + exfalso. destruct (proj1 HS (ex_intro _ image eq_refl)) as (I1 & I2 & _). auto.
    + destruct (C59_errors_all prof c input output c' _ Hr Hh H) as [[E _]|[[E X]|(E & X1 & X2 & _)]]; [exact E| |exfalso; auto].
      exfalso. destruct X as [(i & m & o & off & Hat & Ho & N0 & N8)|X]; [|exact (X Hp)].
      destruct (Hw i m o off Hat Ho); contradiction.
Qed.
