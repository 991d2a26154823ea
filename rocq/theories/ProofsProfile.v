(** Proofs of C68: a release build does what the debug build does. *)
From Coq Require Import ZArith List Bool Lia ZifyBool ZifyNat.
From Verif Require Import Base Facts F32 Types Lib Util Digital Analog Fcnt Com Fbc SpecCoupler SpecStartup SpecProfile
  SpecOutcome ProofsCycle ProofsCoupler ProofsOutcome.
Import ListNotations.
Local Open Scope Z_scope.

(** [y] is [x], unless [x] overflowed. *)
Definition follows {A} (x y : outcome A) : Prop := x = Panic ArithmeticOverflow \/ x = y.

Lemma follows_refl {A} (x : outcome A) : follows x x.
Proof. right. reflexivity. Qed.
Lemma follows_bind {A B} (x y : outcome A) (f g : A -> outcome B) : follows x y -> (forall a, follows (f a) (g a)) ->
  follows (bind x f) (bind y g).
Proof. intros [->| ->] H; [left; reflexivity|]. destruct y; cbn [bind]; [apply H|right; reflexivity|right; reflexivity]. Qed.
Lemma follows_traverse {A B} (f g : A -> outcome B) l : (forall a, follows (f a) (g a)) -> follows (traverse f l) (traverse g l).
Proof.
  intros H. induction l as [|a l IH]; cbn [traverse]; [apply follows_refl|].
  apply follows_bind; [apply H|]. intros b. apply follows_bind; [exact IH|]. intros bs. apply follows_refl.
Qed.
Lemma follows_arith m z : follows (arith Debug m z) (arith Release m z).
Proof. unfold arith. destruct (_ && _); [apply follows_refl|left; reflexivity]. Qed.

Lemma follows_prepare off addr n data :
  follows (prepare_raw_data_to_process Debug off addr n data) (prepare_raw_data_to_process Release off addr n data).
Proof.
  unfold prepare_raw_data_to_process. destruct (to_register_address off) as [s b].
  apply follows_bind; [apply follows_arith|]. intros a. apply follows_refl.
Qed.
Lemma follows_inputs l data : follows (process_input_data Debug l data) (process_input_data Release l data).
Proof.
  apply follows_traverse. intros [m o]. destruct (mo_input o); [|apply follows_refl].
  apply follows_bind; [apply follows_prepare|]. intros raw. apply follows_refl.
Qed.
Lemma follows_outputs l data : follows (process_output_data Debug l data) (process_output_data Release l data).
Proof.
  apply follows_traverse. intros [m o]. destruct (mo_output o); [|apply follows_refl].
  apply follows_bind; [apply follows_refl|]. intros cnt.
  apply follows_bind; [apply follows_prepare|]. intros raw. apply follows_refl.
Qed.

Lemma follows_counter values : forall out, follows (fcnt_encode Debug out values) (fcnt_encode Release out values).
Proof.
  induction values as [|[i v] values IH]; intros out; cbn [fcnt_encode]; [apply follows_refl|].
  destruct v; try apply follows_refl; [|apply IH].
  destruct (duration_gtb _ _); [apply follows_refl|].
  apply follows_bind; [apply follows_arith|]. intros s. apply follows_bind; [apply follows_arith|]. intros micros.
  cbv zeta. apply follows_bind; [apply follows_refl|]. intros o1. apply follows_bind; [apply follows_refl|]. intros o2.
  apply follows_bind; [apply follows_refl|]. intros o3. apply IH.
Qed.
Lemma follows_values m values : follows (mod_process_output_values Debug m values) (mod_process_output_values Release m values).
Proof.
  destruct m; try apply follows_refl. cbn [mod_process_output_values]. unfold fcnt_process_output_values.
  destruct (negb _); [apply follows_refl|]. destruct (negb _); [apply follows_refl|apply follows_counter].
Qed.
Lemma follows_step m o values out : follows (output_step Debug m o values out) (output_step Release m o values out).
Proof.
  unfold output_step. destruct (mo_output o); [|apply follows_refl].
  apply follows_bind; [apply follows_values|]. intros d. apply follows_refl.
Qed.
Lemma follows_output_loop l values : forall out, follows (output_loop Debug l values out) (output_loop Release l values out).
Proof.
  induction l as [|[i [m o]] l IH]; intros out; cbn [output_loop]; [apply follows_refl|].
  apply follows_bind; [|exact IH]. destruct (mo_output o) eqn:E; [|apply follows_refl].
  apply follows_bind; [apply follows_refl|]. intros v. apply follows_step.
Qed.
Lemma follows_image l values : follows (process_output_values Debug l values) (process_output_values Release l values).
Proof. unfold process_output_values. destruct (negb _); [apply follows_refl|apply follows_output_loop]. Qed.

Lemma follows_processor p i o : follows (processor_next Debug p i o) (processor_next Release p i o).
Proof.
  unfold processor_next. destruct (p_init_state p); try apply follows_refl.
  apply follows_bind; [|intros [[? ?] ?]; apply follows_refl].
  destruct (p_out_data p); [apply follows_refl|]. apply follows_bind; [|intros n; apply follows_refl].
  apply follows_bind; [apply follows_arith|]. intros n. apply follows_refl.
Qed.
Lemma follows_next_step n iv ov s : follows (next_step Debug n iv ov s) (next_step Release n iv ov s).
Proof.
  unfold next_step. destruct (map_get _ _ _); [|apply follows_refl].
  apply follows_bind; [apply follows_refl|]. intros i0. destruct i0; try apply follows_refl.
  apply follows_bind; [apply follows_refl|]. intros o0. destruct o0; try apply follows_refl.
  cbv zeta. apply follows_bind; [apply follows_processor|]. intros [p' r]. apply follows_refl.
Qed.
Lemma follows_next_loop l : forall s, follows (next_loop Debug l s) (next_loop Release l s).
Proof.
  induction l as [|[n [iv ov]] l IH]; intros s; cbn [next_loop]; [apply follows_refl|].
  apply follows_bind; [apply follows_next_step|exact IH].
Qed.

Lemma next_follows oi oo c input output c' r : next Debug oi oo c input output = (c', r) ->
  r <> Panic ArithmeticOverflow -> next Release oi oo c input output = (c', r).
Proof.
  unfold next. intros H Hr.
  destruct (follows_inputs (infos c) input) as [E|E]; [rewrite E in H; congruence|]. rewrite <- E.
  destruct (process_input_data Debug _ _) as [ins| |]; [|exact H|exact H].
  destruct (follows_outputs (infos c) output) as [E2|E2]; [rewrite E2 in H; congruence|]. rewrite <- E2.
  destruct (process_output_data Debug _ _) as [outs| |]; [|exact H|exact H].
  match type of H with context [next_loop Debug ?l ?s] => destruct (follows_next_loop l s) as [E3|E3] end;
    [rewrite E3 in H; congruence|]. rewrite <- E3.
  destruct (next_loop Debug _ _) as [s| |]; [|exact H|exact H].
  destruct (patch _ ins) as [ins'| |]; [|exact H|exact H].
  destruct (patch _ outs) as [outs'| |]; [|exact H|exact H].
  destruct (follows_image (infos c) (l_next_out s)) as [E4|E4]; [rewrite E4 in H; congruence|]. rewrite <- E4. exact H.
Qed.

Lemma C68_follows : forall c input output c' r, cycle Debug c input output c' r ->
  r <> Panic ArithmeticOverflow -> cycle Release c input output c' r.
Proof.
  intros c input output c' r (Hi & Ho & oi & oo & P1 & P2 & H) Hr. split; [exact Hi|]. split; [exact Ho|].
  exists oi, oo. split; [exact P1|]. split; [exact P2|]. exact (next_follows _ _ _ _ _ _ _ H Hr).
Qed.

Lemma calls_follow c x c' a : calls Debug c x c' a -> calls Release c x c' a.
Proof.
  intros H. destruct H as [c a v Hv|c i size|c i buf Hb|c input output c' r H Hp]; [exact (Calls_set _ _ _ _ Hv)|apply Calls_read|exact (Calls_write _ _ _ _ Hb)|].
  apply Calls_next; [|exact Hp]. exact (C68_follows _ _ _ _ _ H (Hp _)).
Qed.
Lemma C68_runs : forall c xs c' answers, runs Debug c xs c' answers -> runs Release c xs c' answers.
Proof.
  intros c xs c' answers H. induction H as [c|c x c1 a xs c2 xa H1 H2 IH]; [apply Runs_nil|].
  exact (Runs_cons _ _ _ _ _ _ _ _ (calls_follow _ _ _ _ H1) IH).
Qed.

Lemma calls_reachable prof c x c' a : reachable prof c -> calls prof c x c' a -> reachable prof c'.
Proof.
  intros Hr H. destruct H as [c a v Hv|c i size|c i buf Hb|c input output c' r (Hi & Ho & oi & oo & P1 & P2 & H) Hp].
  - exact (R_set _ _ _ _ Hr Hv).
  - exact (R_read _ _ _ _ Hr).
  - exact (R_write _ _ _ _ Hr Hb).
  - exact (R_next _ _ _ _ _ _ _ _ Hr P1 P2 Hi Ho H Hp).
Qed.
Lemma calls_static prof c x c' a : calls prof c x c' a -> c_modules c' = c_modules c /\ c_offsets c' = c_offsets c.
Proof.
  intros H. destruct H as [c a v Hv|c i size|c i buf Hb|c input output c' r H Hp].
  - destruct (set_static c a v) as (_ & _ & H1 & H2 & _). split; assumption.
  - destruct (read_static c i size) as (_ & _ & H1 & H2 & _). split; assumption.
  - destruct (write_static c i buf) as (_ & _ & H1 & H2 & _). split; assumption.
  - exact (cycle_static _ _ _ _ _ _ H).
Qed.
Lemma in_area_static c c' : c_modules c' = c_modules c -> c_offsets c' = c_offsets c -> outputs_in_area c -> outputs_in_area c'.
Proof. intros E1 E2 H i m o off Hat. apply (H i m o off). unfold module_at in *. rewrite <- E1, <- E2. exact Hat. Qed.

Lemma C68_same : forall c input output c' r, reachable Debug c -> outputs_in_area c ->
  (cycle Debug c input output c' r <-> cycle Release c input output c' r).
Proof.
  intros c input output c' r Hr Ha.
  assert (N : forall c1 r1, cycle Debug c input output c1 r1 -> forall p, r1 <> Panic p).
  { intros c1 r1 H. exact (C43_partial_all Debug c input output c1 r1 Hr (or_intror Ha) H). }
  split.
  - intros H. exact (C68_follows _ _ _ _ _ H (N _ _ H _)).
  - intros (Hi & Ho & oi & oo & P1 & P2 & H).
    destruct (next Debug oi oo c input output) as [c1 r1] eqn:E.
    assert (H1 : cycle Debug c input output c1 r1) by exact (cycle_of_next _ _ _ _ _ _ _ _ P1 P2 Hi Ho E).
    rewrite (next_follows _ _ _ _ _ _ _ E (N _ _ H1 _)) in H. injection H as <- <-. exact H1.
Qed.
Lemma calls_same c x c' a : reachable Debug c -> outputs_in_area c -> (calls Debug c x c' a <-> calls Release c x c' a).
Proof.
  intros Hr Ha. split; [apply calls_follow|].
  intros H. destruct H as [c a v Hv|c i size|c i buf Hb|c input output c' r H Hp]; [exact (Calls_set _ _ _ _ Hv)|apply Calls_read|exact (Calls_write _ _ _ _ Hb)|].
  apply Calls_next; [|exact Hp]. apply C68_same; assumption.
Qed.
Lemma C68_same_runs : forall c xs c' answers, reachable Debug c -> outputs_in_area c ->
  (runs Debug c xs c' answers <-> runs Release c xs c' answers).
Proof.
  intros c xs c' answers Hr Ha. split; [apply C68_runs|]. intros H. revert Hr Ha.
  induction H as [c|c x c1 a xs c2 xa H1 H2 IH]; intros Hr Ha; [apply Runs_nil|].
  apply (calls_same _ _ _ _ Hr Ha) in H1. destruct (calls_static _ _ _ _ _ H1) as [E1 E2].
  exact (Runs_cons _ _ _ _ _ _ _ _ H1 (IH (calls_reachable _ _ _ _ _ Hr H1) (in_area_static _ _ E1 E2 Ha))).
Qed.

Lemma C68_reachable : forall c, reachable Debug c -> reachable Release c.
Proof.
  intros c H. induction H as [cfg c H1 H2|c a v _ IH Hv|c i n _ IH|c i b _ IH Hb|c oi oo input output c' r _ IH P1 P2 Hi Ho H Hp].
  - exact (R_new _ _ _ H1 H2).
  - exact (R_set _ _ _ _ IH Hv).
  - exact (R_read _ _ _ _ IH).
  - exact (R_write _ _ _ _ IH Hb).
  - exact (R_next _ _ _ _ _ _ _ _ IH P1 P2 Hi Ho (next_follows _ _ _ _ _ _ _ H (Hp _)) Hp).
Qed.
Lemma C68_reachable_same : forall c, outputs_in_area c -> (reachable Debug c <-> reachable Release c).
Proof.
  intros c Ha. split; [apply C68_reachable|]. intros H. revert Ha.
  induction H as [cfg c H1 H2|c a v _ IH Hv|c i n _ IH|c i b _ IH Hb|c oi oo input output c' r _ IH P1 P2 Hi Ho H Hp]; intros Ha.
  - exact (R_new _ _ _ H1 H2).
  - destruct (set_static c a v) as (_ & _ & E1 & E2 & _).
    exact (R_set _ _ _ _ (IH (in_area_static _ _ (eq_sym E1) (eq_sym E2) Ha)) Hv).
  - destruct (read_static c i n) as (_ & _ & E1 & E2 & _).
    exact (R_read _ _ _ _ (IH (in_area_static _ _ (eq_sym E1) (eq_sym E2) Ha))).
  - destruct (write_static c i b) as (_ & _ & E1 & E2 & _).
    exact (R_write _ _ _ _ (IH (in_area_static _ _ (eq_sym E1) (eq_sym E2) Ha)) Hb).
  - pose proof (cycle_of_next _ _ _ _ _ _ _ _ P1 P2 Hi Ho H) as Hc. destruct (cycle_static _ _ _ _ _ _ Hc) as [E1 E2].
    pose proof (in_area_static _ _ (eq_sym E1) (eq_sym E2) Ha) as Ha0. specialize (IH Ha0).
    apply (C68_same _ _ _ _ _ IH Ha0) in Hc. destruct Hc as (_ & _ & oi' & oo' & P1' & P2' & H').
    exact (R_next _ _ _ _ _ _ _ _ IH P1' P2' Hi Ho H' Hp).
Qed.

Lemma follows_windows ms : follows (param_addresses_and_register_counts Debug ms) (param_addresses_and_register_counts Release ms).
Proof.
  apply follows_traverse. intros [i m]. apply follows_bind; [apply follows_arith|]. intros a. apply follows_refl.
Qed.
Lemma C68_start : forall register, start_up Debug register <> Panic ArithmeticOverflow ->
  start_up Release register = start_up Debug register.
Proof.
  intros register H.
  assert (F : follows (start_up Debug register) (start_up Release register)).
  { unfold start_up. apply follows_bind; [apply follows_refl|]. intros types.
    apply follows_bind; [apply follows_windows|]. intros w. apply follows_refl. }
  destruct F as [E|E]; [contradiction|]. symmetry. exact E.
Qed.

Lemma C68_success_all : forall prof prof' c input output c' image, reachable prof c ->
  cycle prof c input output c' (Ok image) -> reachable prof' c /\ cycle prof' c input output c' (Ok image).
Proof.
  intros prof prof' c input output c' image Hr H.
  assert (Ha : outputs_in_area c).
  { destruct (proj1 (C59_all prof c input output c' _ Hr H) (ex_intro _ _ eq_refl)) as (_ & _ & _ & _ & Hp). exact (packed_all c Hp). }
  assert (Hd : reachable Debug c) by (destruct prof; [exact Hr|exact (proj2 (C68_reachable_same c Ha) Hr)]).
  assert (Hc : cycle Debug c input output c' (Ok image)) by (destruct prof; [exact H|exact (proj2 (C68_same _ _ _ _ _ Hd Ha) H)]).
  destruct prof'; [split; assumption|]. split; [exact (C68_reachable c Hd)|exact (proj1 (C68_same _ _ _ _ _ Hd Ha) Hc)].
Qed.
