(** Lemmas for C61 and C62. *)
From Coq Require Import ZArith List Bool Lia ZifyBool ZifyNat Permutation.
From Verif Require Import Base Facts F32 Types Lib Util Digital Analog Fcnt Com Fbc
  SpecCodec ProofsCodec ProofsSerialCodec ProofsNew SpecSerial ProofsSerial ProofsSerialSystem SpecCoupler SpecImage
  ProofsImage ProofsModule ProofsLayout ProofsLoop ProofsCycle ProofsCoupler ProofsOrder SpecSystem ProofsSystem SpecShown.
Import ListNotations.
Local Open Scope Z_scope.

Definition cnt (e : nat * rs_out) : Z := ro_tx_cnt (snd e).

Lemma last_cons {A} (x : A) l d : last (x :: l) d = last l x.
Proof.
  revert x d. induction l as [|y l IH]; intros x d; [reflexivity|].
  change (last (x :: y :: l) d) with (last (y :: l) d). rewrite !IH. reflexivity.
Qed.

Lemma last_app {A} (a b : list A) d : last (a ++ b) d = last b (last a d).
Proof. revert d. induction a as [|x a IH]; intros d; [reflexivity|]. cbn [app]. now rewrite !last_cons, IH. Qed.

(** The messages that the loop handles. *)
Definition served1 (isproc : nat -> bool) (e : nat * (list channel_value * list channel_value)) : list (nat * rs_out) :=
  match isproc (fst e), fst (snd e), snd (snd e) with
  | true, ComRsIn _ :: _, ComRsOut r :: _ => [(fst e, r)]
  | _, _, _ => []
  end.
Definition has (s : loop_state) (isproc : nat -> bool) (k : nat) : Prop :=
  forall i, (k <= i)%nat -> isproc i = match map_get Nat.eqb i (l_processors s) with Some _ => true | None => false end.

Lemma served_index isproc l : forall k i r, In (i, r) (flat_map (served1 isproc) (enumerate_from k l)) -> (k <= i)%nat.
Proof.
  induction l as [|(iv & ov) l IH]; intros k i r H; cbn [enumerate_from flat_map] in H; [contradiction|].
  apply in_app_iff in H. destruct H as [H|H].
  - unfold served1 in H. cbn [fst snd] in H. destruct (isproc k); [|contradiction].
    destruct iv as [|[] ?]; try contradiction. destruct ov as [|[] ?]; try contradiction.
    destruct H as [H|[]]. injection H as <- <-. lia.
  - apply IH in H. lia.
Qed.

Lemma loop_last prof isproc l : forall k s s', next_loop prof (enumerate_from k l) s = Ok s' -> has s isproc k ->
  l_last_tx_cnt s' = last (map cnt (flat_map (served1 isproc) (enumerate_from k l))) (l_last_tx_cnt s) /\
  forall before i r after, flat_map (served1 isproc) (enumerate_from k l) = before ++ (i, r) :: after ->
    map_get Nat.eqb i (l_out_bytes s') = Some (shown_out (last (map cnt before) (l_last_tx_cnt s)) r).
Proof.
  induction l as [|(iv & ov) l IH]; intros k s s' H Hh; cbn [enumerate_from next_loop flat_map] in H |- *.
  - apply Ok_inj in H. subst s'. split; [reflexivity|]. intros [|] ? ? ? E; discriminate.
  - apply bind_ok in H. destruct H as (s1 & Hs & H).
    destruct (next_step_spec _ _ _ _ _ _ Hs) as (Ow & Hf & _).
    assert (Hh1 : has s1 isproc (S k)).
    { intros i Hi. rewrite (Hh i) by lia. destruct (Hf i) as (_ & _ & E & _); [lia|]. now rewrite E. }
    destruct (IH (S k) s1 s' H Hh1) as (L & O). pose proof (next_loop_spec _ _ _ _ _ H) as (_ & _ & Fr & _).
    destruct (Fr k) as (_ & _ & _ & _ & Hk); [lia|].
    pose proof (Hh k (le_n k)) as Hpk.
    destruct Ow as [p rin rout p' rs h t P1 P2 P3 P4 P5 P6 P7 P8 P9 P10 P11|p P1 P2 P3|P1 P2 P3 P4 P5 P6 P7].
    + assert (E : served1 isproc (k, (iv, ov)) = [(k, rout)]).
      { unfold served1. cbn [fst snd]. rewrite Hpk, P1. destruct iv as [|x iv]; [discriminate|]. destruct ov as [|y ov]; [discriminate|].
        cbn in P2, P3. injection P2 as ->. injection P3 as ->. reflexivity. }
      rewrite E. cbn [app map]. rewrite last_cons. change (cnt (k, rout)) with (ro_tx_cnt rout). rewrite <- P11. split; [exact L|].
      intros [|b before] i r after Eq; cbn [app] in Eq.
      * injection Eq as <- <- _. cbn [map last]. rewrite Hk. exact P10.
      * injection Eq as <- Eq. cbn [map]. rewrite last_cons. change (cnt (k, rout)) with (ro_tx_cnt rout). rewrite <- P11.
        exact (O before i r after Eq).
    + subst s1. assert (E : served1 isproc (k, (iv, ov)) = []).
      { unfold served1. cbn [fst snd]. destruct (isproc k); [|reflexivity].
        destruct iv as [|[] ?]; try reflexivity. destruct ov as [|[] ?]; try reflexivity.
        exfalso. eapply P2. split; reflexivity. }
      rewrite E. cbn [app]. split; [exact L|exact O].
    + assert (E : served1 isproc (k, (iv, ov)) = []) by (unfold served1; cbn [fst snd]; now rewrite Hpk, P1).
      rewrite E. cbn [app]. rewrite <- P7. split; [exact L|exact O].
Qed.

Lemma flat_enumerate {A B} (h : nat * A -> list B) (g : nat -> list B) : forall l k,
  (forall i x, nth_error l i = Some x -> h ((k + i)%nat, x) = g (k + i)%nat) ->
  flat_map h (enumerate_from k l) = flat_map g (seq k (length l)).
Proof.
  induction l as [|x l IH]; intros k H; [reflexivity|]. cbn [enumerate_from length seq flat_map].
  pose proof (H 0%nat x eq_refl) as E. rewrite Nat.add_0_r in E. rewrite E. f_equal. apply IH.
  intros i y Hi. replace (S k + i)%nat with (k + S i)%nat by lia. exact (H (S i) y Hi).
Qed.

(** What a cycle does to the counter and what it shows. *)
Lemma cycle_shows prof c input output c' r : coupler_ok c -> cycle prof c input output c' r ->
  c_last_tx_cnt c' = last (map cnt (messages prof c (NextCycle input output))) (c_last_tx_cnt c) /\
  forall before i m after, messages prof c (NextCycle input output) = before ++ (i, m) :: after ->
    nth_error (outputs c') i = Some [shown_out (last (map cnt before) (c_last_tx_cnt c)) m].
Proof.
  intros Hok Hc. unfold messages. destruct (cycle_inv _ _ _ _ _ _ Hok Hc) as
    [(-> & Hn & _)|[(ins & Ei & -> & Hn & _)|(ins & outs & sent & Ei & Eo & _)]].
  - destruct (process_input_data prof (infos c) input); [exfalso; exact (Hn _ eq_refl)| |];
      (split; [reflexivity|intros [|] ? ? ? E; discriminate]).
  - rewrite Ei. destruct (process_output_data prof (infos c) output); [exfalso; exact (Hn _ eq_refl)| |];
      (split; [reflexivity|intros [|] ? ? ? E; discriminate]).
  - rewrite Ei, Eo. destruct Hc as (Hui & Huo & oi & oo & Hoi & Hoo & Hnext).
    destruct (cycle_spec prof oi oo c input output ins outs Hok Hoi Hoo Hui Huo Ei Eo) as
      (c1 & sent1 & E1 & (s & ins' & outs' & Hl & (K1 & K2) & Pi & Po & Ec & Es) & _ & _ & _ & _ & _ & _ & _ & Hmod).
    rewrite Hnext in E1. apply pair_inj in E1. destruct E1 as [<- _].
    set (isproc := fun i => match serial c i with Some _ => true | None => false end).
    destruct (loop_last prof isproc (combine ins outs) 0 _ s Hl) as (L & O).
    { intros i _. reflexivity. }
    assert (Lins : length ins = length (c_modules c)).
    { rewrite process_input_rows in Ei. apply traverse_length in Ei. now rewrite infos_length in Ei by exact Hok. }
    assert (Louts : length outs = length (c_modules c)).
    { rewrite process_output_rows in Eo. apply traverse_length in Eo. now rewrite infos_length in Eo by exact Hok. }
    assert (Eq : flat_map (served1 isproc) (enumerate_from 0 (combine ins outs)) = sending c outs).
    { unfold sending. rewrite (flat_enumerate _ (fun k => match nth_error (c_modules c) k, nth_error (c_offsets c) k, cell outs k 0 with
                     | Some (MCOM _ _), Some (mk_offset (Some _) (Some _)), Some (ComRsOut r) => [(k, r)]
                     | _, _, _ => [] end)).
      - rewrite combine_length, Lins, Louts, Nat.min_id. reflexivity.
      - intros i (iv & ov) Hi. cbn [Nat.add]. rewrite nth_error_combine in Hi.
        destruct (nth_error ins i) as [iv'|] eqn:Ei'; [|discriminate]. destruct (nth_error outs i) as [ov'|] eqn:Eo'; [|discriminate].
        apply Some_inj, pair_inj in Hi. destruct Hi as [-> ->].
        assert (Hi : (i < length (c_modules c))%nat) by (rewrite <- Lins; now apply nth_error_Some_lt in Ei').
        destruct (module_exists c i Hok Hi) as (m & o & Hat).
        destruct (Hmod i m o Hat) as (iv2 & ov2 & A1 & A2 & Hri & Hro & _). rewrite Ei' in A1. rewrite Eo' in A2.
        apply Some_inj in A1, A2. subst iv2 ov2.
        unfold served1. cbn [fst snd]. unfold isproc. unfold cell. rewrite Eo'.
        pose proof Hat as [Hm Ho]. rewrite Hm, Ho.
        destruct (is_serial m) eqn:Em.
        + destruct m; try discriminate. destruct (ok_com c Hok i _ _ Hm) as (p & ->).
          destruct (ok_off c Hok i _ _ Hat) as [O1 O2].
          destruct (com_in_row _ _ _ _ _ _ Hui O1 Hri) as [[N ->]|(N & rin & -> & _)];
          destruct (com_out_row _ _ _ _ _ _ Huo O2 Hro) as [[N' ->]|(N' & rout & -> & _)];
          destruct o as [[?|] [?|]]; cbn in N, N' |- *; try congruence; reflexivity.
        + rewrite (proj2 (not_serial_none c i m Hok Hm) Em). destruct m; discriminate || reflexivity. }
    rewrite Eq in L, O. cbn [l_last_tx_cnt] in L, O. rewrite Ec. cbn [c_last_tx_cnt]. split; [exact L|].
    intros before i m after Hs. pose proof (O before i m after Hs) as Hg.
    destruct (get_permutation _ _ K2 (Hoo (l_out_bytes s))) as (K2' & G2).
    destruct (patch_spec _ _ _ K2' Po) as (_ & PO). cbn [outputs c_out_values]. rewrite PO, G2, Hg.
    assert (Hin : In (i, m) (sending c outs)) by (rewrite Hs; apply in_elt).
    unfold sending in Hin. apply in_flat_map in Hin. destruct Hin as (k & _ & Hin).
    destruct (nth_error (c_modules c) k) as [md|] eqn:Em; [|contradiction]. destruct md; try contradiction.
    destruct (nth_error (c_offsets c) k) as [[[?|] [?|]]|] eqn:Eoff; try contradiction.
    destruct (cell outs k 0) as [v|] eqn:Ecell; [|contradiction]. destruct v; try contradiction.
    destruct Hin as [Hin|[]]. injection Hin as -> ->.
    destruct (Hmod i _ _ (conj Em Eoff)) as (iv & ov & _ & A2 & _ & Hro & _).
    pose proof (out_row_length _ _ _ _ Hro) as Lr. rewrite A2.
    unfold channels in Lr. cbn [fst mod_type channel_count] in Lr.
    destruct ov as [|x [|y ov]]; try discriminate Lr. reflexivity.
Qed.

Lemma messages_static prof c c' x : c_modules c' = c_modules c -> c_offsets c' = c_offsets c -> messages prof c' x = messages prof c x.
Proof. intros E1 E2. unfold messages, sending, infos. rewrite E1, E2. reflexivity. Qed.

Lemma calls_last prof c x c' a : coupler_ok c -> calls prof c x c' a ->
  c_last_tx_cnt c' = last (map cnt (messages prof c x)) (c_last_tx_cnt c) /\ coupler_ok c'.
Proof.
  intros Hok H. destruct H as [c a v Hv|c i n|c i b Hb|c input output c' r Hc _].
  - split; [apply (set_static c a v)|now apply set_ok].
  - split; [apply (read_static c i n)|now apply read_ok].
  - split; [apply (write_static c i b)|now apply write_ok].
  - split; [exact (proj1 (cycle_shows _ _ _ _ _ _ Hok Hc))|exact (cycle_ok _ _ _ _ _ _ Hok Hc)].
Qed.

Lemma runs_last prof xs : forall c c' answers, coupler_ok c -> runs prof c xs c' answers ->
  c_last_tx_cnt c' = last (map cnt (flat_map (messages prof c) xs)) (c_last_tx_cnt c) /\ coupler_ok c' /\
  c_modules c' = c_modules c /\ c_offsets c' = c_offsets c.
Proof.
  induction xs as [|x xs IH]; intros c c' answers Hok H; inversion H as [|? ? c1 a ? ? xa Hx Hr]; subst.
  - auto.
  - destruct (calls_last _ _ _ _ _ Hok Hx) as (E & Hok1). destruct (calls_static _ _ _ _ _ Hok Hx) as (S1 & S2).
    destruct (IH _ _ _ Hok1 Hr) as (E' & Hok' & S1' & S2'). rewrite S1', S2'.
    split; [|auto]. cbn [flat_map]. rewrite map_app, last_app, <- E.
    rewrite E'. do 2 f_equal. apply flat_map_ext. intros y. apply messages_static; assumption.
Qed.

Lemma shown_rule earlier m : shown_out (last_counter earlier) m = shown_message earlier m.
Proof.
  unfold shown_out, shown_message. destruct (ro_data m) as [|b t]; [reflexivity|]. cbn [length Nat.eqb negb andb].
  destruct (ro_tx_cnt m =? last_counter earlier); reflexivity.
Qed.

Lemma C61_all prof cfg c0 xs c answers input output c' r : rust_config cfg -> coupler_new cfg = Ok c0 ->
  runs prof c0 xs c answers -> cycle prof c input output c' r ->
  forall before i m after, messages prof c (NextCycle input output) = before ++ (i, m) :: after ->
  nth_error (outputs c') i = Some [shown_message (flat_map (messages prof c) xs ++ before) m].
Proof.
  intros Hcfg Hnew Hruns Hc before i m after Hm. pose proof (new_ok _ _ Hcfg Hnew) as Hok0.
  destruct (runs_last _ _ _ _ _ Hok0 Hruns) as (E & Hok & S1 & S2).
  destruct (cycle_shows _ _ _ _ _ _ Hok Hc) as (_ & Sh). rewrite (Sh _ _ _ _ Hm), E. do 2 f_equal.
  rewrite <- shown_rule. f_equal. unfold last_counter. rewrite map_app, last_app. fold cnt.
  replace (c_last_tx_cnt c0) with 0.
  - do 2 f_equal. f_equal. apply flat_map_ext. intros y. symmetry. now apply messages_static.
  - assert (Hlen : length (cfg_params cfg) = length (cfg_modules cfg) /\
                 length (cfg_offsets cfg) = (2 * length (cfg_modules cfg))%nat).
    { unfold coupler_new in Hnew. apply bind_ok in Hnew. destruct Hnew as (u & Hv & _). unfold validate in Hv.
      destruct (Nat.eqb_spec (length (cfg_modules cfg)) (length (cfg_params cfg))) as [E1|E1]; [|discriminate].
      destruct (Nat.eqb_spec (length (cfg_modules cfg) * 2) (length (cfg_offsets cfg))) as [E2|E2]; [|discriminate]. lia. }
    destruct Hlen as [L1 L2]. destruct (coupler_new_closed cfg L1 L2) as (offs & _ & _ & Hcl).
    rewrite Hcl in Hnew. apply bind_ok in Hnew. destruct Hnew as (ms & _ & Hnew). apply Ok_inj in Hnew. subst c0. reflexivity.
Qed.

(** ** C62 *)

(** The decoded message to a serial module is that in its part of the image. *)
Lemma serial_message prof c input output c' image i l ioff ooff :
  coupler_ok c -> cycle prof c input output c' (Ok image) -> serial_at c i l ioff ooff -> only_serial c i ->
  exists rout, rs_out_from_bytes (out_part l ooff output) = Ok rout /\
    messages prof c (NextCycle input output) = [(i, rout)].
Proof.
  intros Hok H ((ch & Hat) & Hi16 & Ho16 & Hov) Hone.
  assert (Hui : Forall is_u16 input) by apply H. assert (Huo : Forall is_u16 output) by apply H.
  destruct (ok_cycle _ _ _ _ _ _ Hok H) as (ins & outs & sent & E1 & E2 & E3 & E4 & E4' & _ & _ & E5).
  destruct (E5 i _ _ Hat) as (iv & ov & Hiv & Hov' & Hri & Hro & Hc).
  pose proof (proj2 (infos_at c i _ _) Hat) as Hinf.
  pose proof (infos_off c Hok i _ _ ooff Hinf eq_refl) as Hu.
  assert (Hge : 0x8000 <= ooff).
  { destruct (C40_all prof (infos c) sent image (infos_off c Hok) E3) as (_ & datas & Ld & C40 & _).
    destruct (nth_error datas i) as [d0|] eqn:Ed.
    - destruct (C40 i _ _ d0 ooff Hinf Ed eq_refl) as (_ & A & _). exact A.
    - apply nth_error_None in Ed. apply nth_error_Some_lt in Hinf. lia. }
  destruct Hc as [row S1 S2 S3 S4 S5 S6|l' ch' rin rout p0 p' rs last El -> -> G1 G2 G3 _ _ S1 S2 S3 S4 S5 S6 S7
                     |l' ch' El S1 S2 S3 S4 S5 S6 S7]; [discriminate| |destruct S1 as [[N _]|[N _]]; discriminate].
  destruct (C42_out_all prof (infos c) output outs i _ _ ooff Huo Hu Hge E2 Hinf eq_refl (or_introl Ho16)) as (Lo & wo & ro & Wo & Ro & Do).
  rewrite Hov' in Ro. apply Some_inj in Ro. subst ro.
  exists rout. split.
  { cbn [output_bytes] in *. fold (out_part l ooff output) in *.
    cbn [mod_process_output_data] in Do. unfold com_process_output_data in Do. rewrite words_to_bytes_spec in Do.
    rewrite (even_words _ _ l Lo Wo) in Do. apply bind_ok in Do. destruct Do as (x & -> & E). apply Ok_inj in E. congruence. }
  unfold messages. rewrite E1, E2. unfold sending.
  assert (Hi : (i < length (c_modules c))%nat) by (destruct Hat as [Hm _]; now apply nth_error_Some_lt in Hm).
  set (f := fun k => _).
  assert (F : forall k, f k = if Nat.eqb k i then [(i, rout)] else []).
  { intros k. unfold f. destruct (Nat.eqb_spec k i) as [->|Hk].
    - destruct Hat as [-> ->]. unfold cell. now rewrite Hov'.
    - destruct (nth_error (c_modules c) k) as [m|] eqn:Em; [|reflexivity]. destruct m; try reflexivity.
      destruct (nth_error (c_offsets c) k) as [[[?|] [?|]]|] eqn:Eo; try reflexivity.
      exfalso. apply Hk. apply (Hone k _ _ (conj Em Eo)); cbn; congruence. }
  replace (length (c_modules c)) with (i + S (length (c_modules c) - S i))%nat by lia.
  rewrite seq_app, flat_map_app. cbn [Nat.add seq flat_map]. rewrite F, Nat.eqb_refl.
  assert (Z : forall a n, (forall k, (a <= k < a + n)%nat -> k <> i) -> flat_map f (seq a n) = []).
  { intros a n. revert a. induction n as [|n IH]; intros a Ha; cbn [seq flat_map]; [reflexivity|].
    rewrite F. destruct (Nat.eqb_spec a i) as [E|_]; [exfalso; apply (Ha a); [lia|exact E]|]. apply IH. intros k Hk. apply Ha. lia. }
  rewrite (Z 0%nat i) by lia. rewrite (Z (S i) _) by lia. reflexivity.
Qed.

Lemma fed_queued p c i : queued (fed p (requested c (mk_address i 0))) = queued p ++ pending c i.
Proof.
  unfold fed, pending. destruct (requested c (mk_address i 0)) as [[]|]; rewrite ?app_nil_r; try reflexivity. apply write_queued.
Qed.

Record watched (i : nat) (l : process_data_length) (ioff ooff : Z) (c : coupler) (given image : list Z) : Prop := {
  w_ok : coupler_ok c;
  w_at : serial_at c i l ioff ooff;
  w_only : only_serial c i;
  w_given : exists o, rs_out_from_bytes (out_part l ooff given) = Ok o /\ c_last_tx_cnt c = ro_tx_cnt o;
  w_image : exists o, rs_out_from_bytes (out_part l ooff image) = Ok o }.

Lemma only_static c c' i : c_modules c' = c_modules c -> c_offsets c' = c_offsets c -> only_serial c i -> only_serial c' i.
Proof. intros E1 E2. unfold only_serial, module_at. rewrite E1, E2. auto. Qed.

Lemma watched_cycle prof i l ioff ooff c input output c' image : coupler_ok c -> serial_at c i l ioff ooff -> only_serial c i ->
  cycle prof c input output c' (Ok image) -> watched i l ioff ooff c' output image.
Proof.
  intros Hok Hat Hone Hc. destruct (cycle_static _ _ _ _ _ _ Hc) as (M1 & M2).
  destruct (serial_message _ _ _ _ _ _ _ _ _ _ Hok Hc Hat Hone) as (rout & Er & Em).
  destruct (cycle_shows _ _ _ _ _ _ Hok Hc) as (L & _). rewrite Em in L.
  split.
  - exact (cycle_ok _ _ _ _ _ _ Hok Hc).
  - exact (serial_at_static _ _ _ _ _ _ M1 M2 Hat).
  - exact (only_static _ _ _ M1 M2 Hone).
  - exists rout. split; [exact Er|exact L].
  - destruct (serial_cycle _ _ _ _ _ _ _ _ _ _ Hok Hc Hat)
      as (p0 & p' & rin & rout' & rs & _ & _ & _ & _ & _ & _ & _ & _ & _ & S & _). now exists rs.
Qed.

Lemma set_waiting c a v i : waiting_in (fst (set_output c a v)) i = waiting_in c i.
Proof. unfold waiting_in, serial. destruct (set_static c a v) as (_ & _ & _ & _ & -> & _). reflexivity. Qed.

Lemma read_waiting c j n i : waiting_in (fst (coupler_read c j n)) i = waiting_in c i.
Proof.
  unfold coupler_read. destruct (map_get Nat.eqb j (c_processors c)) as [p|] eqn:E; [|reflexivity].
  destruct (processor_read p n) as (p' & b) eqn:Er. cbn [fst]. unfold waiting_in. rewrite serial_with.
  destruct (Nat.eqb_spec j i) as [->|_]; [|reflexivity]. unfold serial. rewrite E.
  pose proof (read_spec p n) as (_ & _ & R3 & _). rewrite Er in R3. cbn [fst] in R3. unfold queued. now rewrite R3.
Qed.

Lemma write_waiting c j b i p : serial c i = Some p ->
  waiting_in (fst (coupler_write c j b)) i = waiting_in c i ++ (if Nat.eqb j i then b else []).
Proof.
  intros Hp. unfold coupler_write. destruct (Nat.eqb_spec j i) as [->|Hj].
  - unfold serial in Hp. rewrite Hp. destruct (processor_write p b) as (p' & n) eqn:Ew. cbn [fst].
    unfold waiting_in. rewrite serial_with, Nat.eqb_refl. unfold serial. rewrite Hp.
    pose proof (write_queued p b) as Q. rewrite Ew in Q. exact Q.
  - rewrite app_nil_r. destruct (map_get Nat.eqb j (c_processors c)) as [q|]; [|reflexivity].
    destruct (processor_write q b) as (q' & n). cbn [fst]. unfold waiting_in. rewrite serial_with.
    destruct (Nat.eqb_spec j i); [contradiction|reflexivity].
Qed.

Lemma cycle_waiting prof c input output c' image i l ioff ooff : coupler_ok c ->
  cycle prof c input output c' (Ok image) -> serial_at c i l ioff ooff ->
  waiting_in c i ++ pending c i = not_yet_shown l ooff output image ++ waiting_in c' i.
Proof.
  intros Hok Hc Hat. destruct (serial_cycle _ _ _ _ _ _ _ _ _ _ Hok Hc Hat)
      as (p0 & p' & rin & rout & rs & S1 & S2 & S3 & _ & S4 & _ & S5 & _ & S6 & S7 & _).
  unfold waiting_in, not_yet_shown. rewrite S1, S2, S4, S7, <- fed_queued.
  destruct (any_stage (fed p0 (requested c (mk_address i 0)))) as (k & Hk).
  destruct (next_cases _ _ _ _ _ _ _ Hk S5) as (_ & _ & _ & _ & Lo & Hi).
  destruct (Nat.ltb_spec k 2) as [Hlt|Hge].
  - destruct (Lo Hlt) as (_ & _ & _ & _ & E5 & E6 & _). rewrite E5, Z.eqb_refl. unfold queued. now rewrite E6.
  - destruct (Hi Hge) as (_ & _ & _ & [(Q1 & Q2 & _)|(x & Q1 & Q2 & Q3 & Q4)] & _).
    + rewrite Q2, Z.eqb_refl. unfold queued. now rewrite Q1.
    + destruct (Z.eqb_spec (ro_tx_cnt rs) (ro_tx_cnt rout)) as [E|_]; [contradiction|].
      unfold queued. rewrite Q1, Q2. reflexivity.
Qed.

Lemma shows_unshown prof i l ioff ooff c given image input c' image' : watched i l ioff ooff c given image ->
  cycle prof c input image c' (Ok image') -> bytes_shown c' i = not_yet_shown l ooff given image.
Proof.
  intros [Hok Hat Hone (o & Eo & L) _] Hc.
  destruct (serial_message _ _ _ _ _ _ _ _ _ _ Hok Hc Hat Hone) as (rout & Er & Em).
  destruct (cycle_shows _ _ _ _ _ _ Hok Hc) as (_ & Sh). pose proof (Sh [] i rout [] Em) as H. cbn [map last] in H. rewrite L in H.
  unfold bytes_shown, cell, not_yet_shown. rewrite H, Eo, Er. cbn [nth_error]. unfold shown_out.
  destruct (ro_data rout) as [|b t]; cbn [length Nat.eqb negb andb].
  - destruct (_ =? _); reflexivity.
  - destruct (_ =? _); reflexivity.
Qed.

Lemma feeds_back_balance prof i l ioff ooff s written shown s' : feeds_back prof i s written shown s' ->
  forall c given image c' given' image', s = (c, given, image) -> s' = (c', given', image') -> watched i l ioff ooff c given image ->
  not_yet_shown l ooff given image ++ waiting_in c i ++ written = shown ++ not_yet_shown l ooff given' image' ++ waiting_in c' i.
Proof.
  intros H.
  induction H as [s|c0 given0 image0 a v written shown s Hv _ IH|c0 given0 image0 j n written shown s _ IH
                 |c0 given0 image0 j buf written shown s Hb _ IH|c0 given0 image0 input c1 image1 written shown s Hc _ IH];
    intros c given image c' given' image' E E' W.
  - rewrite E in E'. injection E' as <- <- <-. now rewrite app_nil_r.
  - injection E as -> -> ->. rewrite <- (set_waiting c a v i). apply (IH _ _ _ _ _ _ eq_refl E').
    destruct W as [Hok Hat Hone Hg Hi]. destruct (set_static c a v) as (_ & _ & M1 & M2 & _ & M3).
    split; [now apply set_ok|exact (serial_at_static _ _ _ _ _ _ M1 M2 Hat)|exact (only_static _ _ _ M1 M2 Hone)| |exact Hi].
    now rewrite M3.
  - injection E as -> -> ->. rewrite <- (read_waiting c j n i). apply (IH _ _ _ _ _ _ eq_refl E').
    destruct W as [Hok Hat Hone Hg Hi]. destruct (read_static c j n) as (_ & _ & M1 & M2 & _ & M3).
    split; [now apply read_ok|exact (serial_at_static _ _ _ _ _ _ M1 M2 Hat)|exact (only_static _ _ _ M1 M2 Hone)| |exact Hi].
    now rewrite M3.
  - injection E as -> -> ->. destruct W as [Hok Hat Hone Hg Hi].
    destruct Hat as [(ch & Hm & Ho) Hat']. destruct (ok_com c Hok i _ _ Hm) as (p & Hp).
    pose proof (IH _ _ _ _ _ _ eq_refl E') as IH'. rewrite (write_waiting c j buf i p Hp) in IH'.
    rewrite <- app_assoc in IH'. apply IH'.
    destruct (write_static c j buf) as (_ & _ & M1 & M2 & _ & M3).
    split; [now apply write_ok|exact (serial_at_static _ _ _ _ _ _ M1 M2 (conj (ex_intro _ ch (conj Hm Ho)) Hat'))|exact (only_static _ _ _ M1 M2 Hone)| |exact Hi].
    now rewrite M3.
  - injection E as -> -> ->. rewrite (shows_unshown _ _ _ _ _ _ _ _ _ _ _ W Hc).
    rewrite <- app_assoc. f_equal. rewrite app_assoc, (cycle_waiting _ _ _ _ _ _ _ _ _ _ (w_ok _ _ _ _ _ _ _ W) Hc (w_at _ _ _ _ _ _ _ W)).
    rewrite <- app_assoc. apply (IH _ _ _ _ _ _ eq_refl E').
    exact (watched_cycle _ _ _ _ _ _ _ _ _ _ (w_ok _ _ _ _ _ _ _ W) (w_at _ _ _ _ _ _ _ W) (w_only _ _ _ _ _ _ _ W) Hc).
Qed.

Lemma C62_all : forall prof i l ioff ooff c input given c1 image written shown c2 given2 image2,
  reachable prof c -> serial_at c i l ioff ooff -> only_serial c i ->
  cycle prof c input given c1 (Ok image) ->
  feeds_back prof i (c1, given, image) written shown (c2, given2, image2) ->
  not_yet_shown l ooff given image ++ waiting_in c1 i ++ written =
  shown ++ not_yet_shown l ooff given2 image2 ++ waiting_in c2 i.
Proof.
  intros prof i l ioff ooff c input given c1 image written shown c2 given2 image2 Hr Hat Hone Hc Hf.
  apply (feeds_back_balance prof i l ioff ooff _ _ _ _ Hf _ _ _ _ _ _ eq_refl eq_refl).
  exact (watched_cycle _ _ _ _ _ _ _ _ _ _ (reachable_ok _ _ Hr) Hat Hone Hc).
Qed.
