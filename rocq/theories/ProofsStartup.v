(** Lemmas for C60. *)
From Coq Require Import ZArith List Bool Lia ZifyBool ZifyNat.
From Verif Require Import Base Facts Types Lib Fbc SpecCatalogue SpecAddr SpecParams SpecCoupler SpecStartup
  ProofsCatalogue ProofsAddr ProofsParams ProofsNew.
Import ListNotations.
Local Open Scope Z_scope.

Lemma read_length reg a n : length (read_registers reg a n) = Z.to_nat n.
Proof. unfold read_registers. now rewrite map_length, seq_length. Qed.

Lemma read_nth reg a n k : (k < Z.to_nat n)%nat -> nth_error (read_registers reg a n) k = Some (reg (a + Z.of_nat k)).
Proof.
  intros H. unfold read_registers. rewrite nth_error_map, (nth_error_nth' _ 0%nat) by (rewrite seq_length; exact H).
  now rewrite seq_nth by exact H.
Qed.

Lemma read_cons reg a n : read_registers reg a (Z.of_nat (S n)) = reg a :: read_registers reg (a + 1) (Z.of_nat n).
Proof.
  unfold read_registers. rewrite !Nat2Z.id. cbn [seq map]. rewrite Z.add_0_r. f_equal.
  rewrite <- seq_shift, map_map. apply map_ext. intros k. f_equal. lia.
Qed.

Lemma read_pairs {A} reg (f g : A -> Z) : forall l a,
  (forall i x, nth_error l i = Some x -> reg (a + 2 * Z.of_nat i) = f x /\ reg (a + 2 * Z.of_nat i + 1) = g x) ->
  read_registers reg a (2 * Z.of_nat (length l)) = flat_map (fun x => [f x; g x]) l.
Proof.
  induction l as [|x l IH]; intros a H; [reflexivity|].
  replace (2 * Z.of_nat (length (x :: l))) with (Z.of_nat (S (S (2 * length l)))) by (cbn [length]; lia).
  rewrite !read_cons. cbn [flat_map app]. destruct (H 0%nat x eq_refl) as [F G].
  replace (a + 2 * Z.of_nat 0) with a in F, G by lia. rewrite F, G. do 2 f_equal.
  replace (Z.of_nat (2 * length l)) with (2 * Z.of_nat (length l)) by lia.
  apply IH. intros i y Hi. destruct (H (S i) y Hi) as [F' G'].
  replace (a + 1 + 1 + 2 * Z.of_nat i) with (a + 2 * Z.of_nat (S i)) by lia. now split.
Qed.

Lemma flat_pairs_nth {A} (f g : A -> Z) : forall l i x, nth_error l i = Some x ->
  nth_error (flat_map (fun x => [f x; g x]) l) (2 * i) = Some (f x) /\
  nth_error (flat_map (fun x => [f x; g x]) l) (2 * i + 1) = Some (g x).
Proof.
  induction l as [|y l IH]; intros [|i] x H; try discriminate.
  - injection H as ->. now split.
  - cbn [flat_map app]. replace (2 * S i)%nat with (S (S (2 * i))) by lia.
    replace (S (S (2 * i)) + 1)%nat with (S (S (2 * i + 1))) by lia. cbn [nth_error]. now apply IH.
Qed.

Lemma read_params reg a p : (forall k x, nth_error p k = Some x -> reg (a + Z.of_nat k) = x) ->
  read_registers reg a (Z.of_nat (length p)) = p.
Proof.
  revert a. induction p as [|x p IH]; intros a H; [reflexivity|]. cbn [length]. rewrite read_cons.
  pose proof (H 0%nat x eq_refl) as E. rewrite Z.add_0_r in E. rewrite E. f_equal.
  apply IH. intros k y Hk. rewrite <- (H (S k) y Hk). f_equal. lia.
Qed.

Lemma types_read reg rack : shows reg rack -> rack <> [] ->
  module_list_from_registers (read_registers reg ADDR_CURRENT_MODULE_LIST (2 * Z.of_nat (length rack))) = Ok (map s_type rack).
Proof.
  intros [_ H] Hne.
  set (idf := fun s => match documented_id (s_type s) with Some id => id | None => 0 end).
  rewrite (read_pairs reg (fun s => idf s / 65536) (fun s => idf s mod 65536)).
  - replace (flat_map (fun x => [idf x / 65536; idf x mod 65536]) rack)
      with (flat_map (fun id => [id / 65536; id mod 65536]) (map idf rack))
      by (rewrite flat_map_concat_map, map_map, <- flat_map_concat_map; reflexivity).
    apply (proj1 C02_all).
    + now destruct rack.
    + assert (K : forall s, In s rack -> documented_id (s_type s) = Some (idf s)).
      { intros s Hs. destruct (In_nth_error _ _ Hs) as [i Hi]. destruct (H i s Hi) as ((id & E & _) & _).
        unfold idf. now rewrite E. }
      clear -K. induction rack as [|s l IH]; cbn [map]; constructor.
      * apply K. now left.
      * apply IH. intros x Hx. apply K. now right.
  - intros i s Hi. destruct (H i s Hi) as ((id & E & A & B) & _). unfold idf. rewrite E. now split.
Qed.

Lemma new_config_ok reg rack l : shows reg rack -> Forall supported rack ->
  length l = length rack ->
  (forall i s a c, nth_error rack i = Some s -> nth_error l i = Some (a, c) ->
     a = 0xC000 + 256 * Z.of_nat i /\ documented_param_count (s_type s) = Some c) ->
  map (fun w => read_registers reg (fst w) (snd w)) l = map s_params rack.
Proof.
  intros [_ H] Hs Hl Hw. apply nth_error_ext. intros i. rewrite !nth_error_map.
  destruct (nth_error rack i) as [s|] eqn:Es.
  - destruct (nth_error l i) as [[a c]|] eqn:El.
    + cbn [option_map fst snd]. destruct (Hw i s a c Es El) as [-> C].
      destruct (proj1 (proj1 (Forall_forall _ _) Hs s (nth_error_In _ _ Es))) as (b & B & L & _).
      destruct C11_all as (_ & _ & _ & _ & _ & T). destruct (T _ _ B) as (D & _). rewrite D in C. injection C as <-.
      rewrite <- L. f_equal. apply read_params. exact (proj2 (proj2 (proj2 (H i s Es)))).
    + apply nth_error_None in El. pose proof (proj1 (nth_error_Some rack i)) as K. rewrite Es in K.
      specialize (K ltac:(discriminate)). lia.
  - destruct (nth_error l i) as [w|] eqn:El; [|reflexivity].
    apply nth_error_None in Es. pose proof (proj1 (nth_error_Some l i)) as K. rewrite El in K.
    specialize (K ltac:(discriminate)). lia.
Qed.

Lemma supported_accepted s : supported s -> exists m, module_from_params (s_type s) (s_params s) = Ok m.
Proof.
  intros Hs. destruct (proj1 Hs) as (b & B & L & R & U).
  destruct (C09_partial_all _ _ _ B U) as (_ & K1 & K2 & _).
  assert (D : (s_type s = UR20_16DO_P \/ s_type s = UR20_PF_O_1DI_SIL) \/ (s_type s <> UR20_16DO_P /\ s_type s <> UR20_PF_O_1DI_SIL))
    by (destruct (s_type s); auto; right; split; discriminate).
  destruct D as [D|[D1 D2]].
  - apply (proj1 (K2 D)). assert (b = []) as -> by (destruct D as [D|D]; rewrite D in B; cbn in B; congruence).
    destruct (s_params s); [reflexivity|discriminate].
  - apply (proj1 (K1 D1 D2 ltac:(destruct (s_type s) eqn:E; try (left; discriminate); right; cbn in B; injection B as <-; cbn in L; lia) ltac:(lia))). exact R.
Qed.

Lemma C60_all prof reg rack : rack <> [] -> (length rack <= 64)%nat -> shows reg rack -> Forall supported rack ->
  exists c, start_up prof reg = Ok c /\ reachable prof c /\
    length (c_modules c) = length rack /\ (forall i s, nth_error rack i = Some s -> represents c i s).
Proof.
  intros Hne Hlen Hsh Hsu. pose proof Hsh as [Hn Hreg]. unfold start_up. change ADDR_CURRENT_MODULE_COUNT with 0x27FE. rewrite Hn.
  rewrite (types_read reg rack Hsh Hne). cbn [bind].
  destruct C11_all as (_ & _ & New & _ & _ & T).
  destruct (proj1 C08_all prof (map s_type rack)) as (l & -> & Hl & Hw & _).
  { now rewrite map_length. }
  { apply Forall_forall. intros t Ht. apply in_map_iff in Ht. destruct Ht as (s & <- & Hs).
    destruct (proj1 (proj1 (Forall_forall _ _) Hsu s Hs)) as (b & B & _). destruct (T _ _ B) as (D & _). now rewrite D. }
  cbn [bind]. rewrite map_length in Hl.
  rewrite (new_config_ok reg rack l Hsh Hsu Hl).
  2: { intros i s a c Hi. apply Hw. now rewrite nth_error_map, Hi. }
  rewrite (read_pairs reg (fun s => address_register (s_output s)) (fun s => address_register (s_input s)) rack).
  2: { intros i s Hi. destruct (Hreg i s Hi) as (_ & A & B & _). now split. }
  set (cfg := mk_config _ _ _).
  assert (Lo : length (cfg_offsets cfg) = (2 * length rack)%nat).
  { cbn [cfg cfg_offsets]. clear. induction rack; cbn [flat_map app length]; lia. }
  assert (P : forall s, In s rack -> exists m, module_from_params (s_type s) (s_params s) = Ok m)
    by (intros s Hs; apply supported_accepted; exact (proj1 (Forall_forall _ _) Hsu s Hs)).
  destruct (New cfg) as (c & Ec & Lc & Hm & Eo & Loff & _).
  { cbn [cfg cfg_params cfg_modules]. now rewrite !map_length. }
  { rewrite Lo. cbn [cfg cfg_modules]. now rewrite map_length. }
  { intros i t p. cbn [cfg cfg_params cfg_modules]. rewrite !nth_error_map.
    destruct (nth_error rack i) as [s|] eqn:Es; [|discriminate]. cbn [option_map]. intros [= <-] [= <-].
    apply P. now apply (nth_error_In _ i). }
  exists c. split; [exact Ec|]. split; [|split].
  - apply (R_new prof cfg); [|exact Ec]. split.
    + cbn [cfg cfg_offsets]. apply Forall_forall. intros x Hx. apply in_flat_map in Hx. destruct Hx as (s & Hs & Hx).
      destruct (proj1 (Forall_forall _ _) Hsu s Hs) as (_ & I & O).
      destruct Hx as [<-|[<-|[]]]; unfold address_register, is_u16.
      * destruct (s_output s) as [a|]; [pose proof (O a eq_refl)|]; lia.
      * destruct (s_input s) as [a|]; [pose proof (I a eq_refl)|]; lia.
    + apply Forall_forall. intros p Hp. cbn [cfg cfg_params] in Hp. apply in_map_iff in Hp. destruct Hp as (s & <- & Hs).
      now destruct (proj1 (proj1 (Forall_forall _ _) Hsu s Hs)) as (b & B & L & R & U).
  - rewrite Lc. cbn [cfg cfg_modules]. apply map_length.
  - intros i s Hi.
    destruct (Hm i (s_type s) (s_params s)) as (m & Em & Fm); [cbn [cfg cfg_modules cfg_params]; now rewrite nth_error_map, Hi..|].
    destruct (proj1 (Forall_forall _ _) Hsu s (nth_error_In _ _ Hi)) as ((b & B & L & R & U) & I & O).
    destruct (C10_decoded _ _ _ U Fm) as (b' & B' & _ & Kd & Hh). rewrite B in B'. injection B' as <-.
    rewrite firstn_all2 in Hh by lia.
    destruct (C07_all (cfg_offsets cfg)) as (lo & Elo & Llo & Hlo). rewrite Eo in Elo. apply Ok_inj in Elo. subst lo.
    assert (Hlt : (i < length rack)%nat) by (apply nth_error_Some; now rewrite Hi).
    destruct (nth_error (c_offsets c) i) as [o|] eqn:Eoff.
    2: { apply nth_error_None in Eoff. rewrite Loff in Eoff. cbn [cfg cfg_modules] in Eoff. rewrite map_length in Eoff. lia. }
    destruct (Hlo i o Eoff) as (x & y & X & Y & N1 & N2 & V1 & V2).
    destruct (flat_pairs_nth (fun s => address_register (s_output s)) (fun s => address_register (s_input s)) rack i s Hi) as [F1 F2].
    cbn [cfg cfg_offsets] in X, Y. rewrite F1 in X. rewrite F2 in Y. apply Some_inj in X. apply Some_inj in Y. subst x y.
    exists m, o. split; [exact Em|]. split; [exact Eoff|]. split; [exact Kd|]. split; [exact Hh|]. split.
    + destruct (s_input s) as [a|] eqn:Ea; unfold address_register in *.
      * destruct (mo_input o) as [v|]; [now rewrite (V2 v eq_refl)|].
        pose proof (proj1 N2 eq_refl). pose proof (I a eq_refl). lia.
      * now apply N2.
    + destruct (s_output s) as [a|] eqn:Ea; unfold address_register in *.
      * destruct (mo_output o) as [v|]; [now rewrite (V1 v eq_refl)|].
        pose proof (proj1 N1 eq_refl). pose proof (O a eq_refl). lia.
      * now apply N1.
Qed.

Lemma traverse_stops {A B} (f : A -> outcome B) p l : (forall a, In a l -> (exists b, f a = Ok b) \/ f a = Panic p) ->
  (exists r, traverse f l = Ok r) \/ traverse f l = Panic p.
Proof.
  induction l as [|a l IH]; intros H; cbn [traverse]; [left; eexists; reflexivity|].
  destruct (H a (or_introl eq_refl)) as [[b ->]| ->]; [|now right]. cbn [bind].
  destruct IH as [[r ->]| ->]; [intros x Hx; apply H; now right|left; eexists; reflexivity|now right].
Qed.

Lemma windows_stop prof ms : (length ms <= 64)%nat ->
  (exists l, param_addresses_and_register_counts prof ms = Ok l) \/
  param_addresses_and_register_counts prof ms = Panic Unsupported.
Proof.
  intros Hl. unfold param_addresses_and_register_counts. apply traverse_stops. intros [i t] Hi.
  apply In_nth_error in Hi. destruct Hi as [k Hk]. unfold enumerate in Hk. rewrite nth_error_enumerate_from in Hk.
  destruct (nth_error ms k) as [t'|] eqn:Ek; [|discriminate]. cbn in Hk. injection Hk as <- <-.
  assert (k < length ms)%nat by (apply nth_error_Some; now rewrite Ek).
  unfold add_u16, arith, as_u16, ADDR_MODULE_PARAMETERS. rewrite Z.mod_small by lia.
  destruct ((0 <=? 49152 + Z.of_nat k * 256) && (49152 + Z.of_nat k * 256 <? 65536)) eqn:E; [|lia].
  cbn [bind]. destruct t'; cbn [param_register_count bind]; first [left; eexists; reflexivity|right; reflexivity].
Qed.

Lemma first_such {A} (P Q : A -> Prop) : forall l, Forall (fun a => P a \/ Q a) l -> Exists Q l ->
  exists i a, nth_error l i = Some a /\ Q a /\ forall j b, (j < i)%nat -> nth_error l j = Some b -> P b.
Proof.
  induction l as [|a l IH]; intros H E; [inversion E|].
  inversion H as [|? ? [Ha|Ha] Hl]; subst.
  - inversion E as [? ? Ha'|? ? E']; subst.
    + exists 0%nat, a. split; [reflexivity|]. split; [exact Ha'|]. intros j b Hj. lia.
    + destruct (IH Hl E') as (i & b & Hi & Hb & Hlt). exists (S i), b. split; [exact Hi|]. split; [exact Hb|].
      intros [|j] x Hj Hx; [injection Hx as <-; exact Ha|]. apply (Hlt j x); [lia|exact Hx].
  - exists 0%nat, a. split; [reflexivity|]. split; [exact Ha|]. intros j b Hj. lia.
Qed.

Lemma C60_unsupported prof reg rack : (length rack <= 64)%nat -> shows reg rack ->
  Forall (fun s => supported s \/ param_bounds (s_type s) = None) rack ->
  Exists (fun s => param_bounds (s_type s) = None) rack -> start_up prof reg = Panic Unsupported.
Proof.
  intros Hlen Hsh Hall Hex. assert (Hne : rack <> []) by (intros ->; inversion Hex).
  pose proof Hsh as [Hn Hreg]. unfold start_up. change ADDR_CURRENT_MODULE_COUNT with 0x27FE. rewrite Hn.
  rewrite (types_read reg rack Hsh Hne). cbn [bind].
  destruct (windows_stop prof (map s_type rack)) as [[l El]| ->]; [now rewrite map_length| |reflexivity].
  rewrite El. cbn [bind]. pose proof El as Hl. apply param_addresses_spec in Hl; [|now rewrite map_length].
  destruct Hl as [Hl Hw]. rewrite map_length in Hl.
  destruct C11_all as (_ & _ & _ & Stop & None_ & T).
  destruct (first_such _ _ _ Hall Hex) as (i & s & Hi & Hs & Hlt).
  set (cfg := mk_config _ _ _).
  assert (N : forall j x a c, nth_error rack j = Some x -> nth_error l j = Some (a, c) ->
            a = 0xC000 + 256 * Z.of_nat j /\ documented_param_count (s_type x) = Some c).
  { intros j x a c Hj. apply Hw. now rewrite nth_error_map, Hj. }
  assert (Hil : (i < length l)%nat) by (rewrite Hl; apply nth_error_Some; now rewrite Hi).
  destruct (nth_error l i) as [w|] eqn:Ew; [|apply nth_error_None in Ew; lia].
  apply (Stop cfg i (s_type s) (read_registers reg (fst w) (snd w))); unfold cfg; cbn [cfg_modules cfg_offsets cfg_params].
  - now rewrite !map_length.
  - rewrite read_length, map_length. lia.
  - intros j t p Hj. rewrite !nth_error_map. destruct (nth_error rack j) as [x|] eqn:Ex; [|discriminate].
    destruct (nth_error l j) as [[a c]|] eqn:Ea; [|discriminate]. cbn [option_map fst snd]. intros [= <-] [= <-].
    destruct (N j x a c Ex Ea) as [-> Ec]. pose proof (Hlt j x Hj Ex) as Sx.
    destruct (proj1 Sx) as (b & B & L & _). destruct (T _ _ B) as (D & _). rewrite D in Ec. injection Ec as <-.
    rewrite <- L, read_params by exact (proj2 (proj2 (proj2 (Hreg j x Ex)))). now apply supported_accepted.
  - now rewrite nth_error_map, Hi.
  - now rewrite nth_error_map, Ew.
  - apply None_. exact Hs.
Qed.
