(** Proofs for the module catalogue: C01 - C05. *)
From Coq Require Import ZArith List Bool String Ascii Lia ZifyBool ZifyNat.
From Verif Require Import Base Facts Types Lib Fbc SpecCatalogue.
Import ListNotations.
Local Open Scope Z_scope.
Ltac Zify.zify_post_hook ::= Z.div_mod_to_equations.

Lemma all_types_complete t : In t all_types.
Proof. destruct t; vm_compute; tauto. Qed.

Definition mt_eq_dec (a b : module_type) : {a = b} + {a <> b}.
Proof. decide equality. Defined.

Lemma all_types_nodup : NoDup all_types.
Proof.
  assert (H : nodup mt_eq_dec all_types = all_types) by (vm_compute; reflexivity).
  rewrite <- H. apply NoDup_nodup.
Qed.

(** *** C01 *)

Lemma id_table_sound : forallb (fun e => match documented_id (snd e) with
                                         | Some i => i =? fst e | None => false end) module_ids = true.
Proof. vm_compute. reflexivity. Qed.

Lemma try_from_u32_iff id t : try_from_u32 id = Ok t <-> documented_id t = Some id.
Proof.
  split.
  - unfold try_from_u32. destruct (find _ module_ids) as [[i t']|] eqn:Hf; [|discriminate].
    intros H. injection H as <-. apply find_some in Hf. destruct Hf as [Hin Heq].
    cbn [fst] in Heq. apply Z.eqb_eq in Heq. subst i.
    pose proof (proj1 (forallb_forall _ _) id_table_sound _ Hin) as H. cbn [fst snd] in *.
    destruct (documented_id t'); [|discriminate]. apply Z.eqb_eq in H. congruence.
  - destruct t; cbn [documented_id]; intros H; try discriminate; injection H as <-;
      vm_compute; reflexivity.
Qed.

Lemma try_from_u32_cases id :
  (exists t, try_from_u32 id = Ok t) \/ try_from_u32 id = Err UnknownModule.
Proof. unfold try_from_u32. destruct (find _ module_ids); eauto. Qed.

Lemma try_from_u32_unknown id :
  (forall t, documented_id t <> Some id) <-> try_from_u32 id = Err UnknownModule.
Proof.
  split.
  - intros H. destruct (try_from_u32_cases id) as [[t Ht]|Hn]; [|exact Hn].
    apply try_from_u32_iff in Ht. exfalso. exact (H t Ht).
  - intros H t Ht. apply try_from_u32_iff in Ht. congruence.
Qed.

Lemma try_from_u32_injective a b t : try_from_u32 a = Ok t -> try_from_u32 b = Ok t -> a = b.
Proof. rewrite !try_from_u32_iff. congruence. Qed.

Lemma documented_count :
  List.length (filter (fun t => match documented_id t with Some _ => true | None => false end) all_types)
  = 61%nat.
Proof. vm_compute. reflexivity. Qed.

Lemma documented_id_u32 t id : documented_id t = Some id -> is_u32 id.
Proof. unfold is_u32. destruct t; cbn [documented_id]; intros H; try discriminate; injection H as <-; lia. Qed.

Lemma C01_all :
  (forall id t, try_from_u32 id = Ok t <-> documented_id t = Some id) /\
  (forall id, (forall t, documented_id t <> Some id) <-> try_from_u32 id = Err UnknownModule) /\
  (forall a b t, try_from_u32 a = Ok t -> try_from_u32 b = Ok t -> a = b) /\
  (NoDup all_types /\ (forall t, In t all_types) /\
   List.length (filter (fun t => match documented_id t with Some _ => true | None => false end)
             all_types) = 61%nat).
Proof.
  split; [exact try_from_u32_iff|]. split; [exact try_from_u32_unknown|].
  split; [exact try_from_u32_injective|].
  split; [exact all_types_nodup|]. split; [exact all_types_complete|exact documented_count].
Qed.

(** *** C02 *)

Definition id_registers (id : Z) : list Z := [id / 65536; id mod 65536].

Lemma id_of_registers id : is_u32 id ->
  as_u32 (Z.shiftl (id / 65536) 16) + id mod 65536 = id.
Proof. unfold is_u32, as_u32. intros H. rewrite Z.shiftl_mul_pow2 by lia. change (2 ^ 16) with 65536. lia. Qed.

Lemma list_pair_ind {A} (P : list A -> Prop) :
  P [] -> (forall a, P [a]) -> (forall a b l, P l -> P (a :: b :: l)) -> forall l, P l.
Proof.
  intros H0 H1 H2. fix IH 1. intros [|a [|b l]]; [exact H0|apply H1|]. apply H2. apply IH.
Qed.

Definition module_of_pair (registers : list Z) (idx : nat) : outcome module_type :=
  let? hi := index registers (idx * 2) in
  let? lo := index registers (idx * 2 + 1) in
  try_from_u32 (as_u32 (Z.shiftl hi 16) + lo).

Lemma pairs_traverse_cons hi lo l n :
  traverse (module_of_pair (hi :: lo :: l)) (seq 0 (S n)) =
  let? t := try_from_u32 (as_u32 (Z.shiftl hi 16) + lo) in
  let? ts := traverse (module_of_pair l) (seq 0 n) in Ok (t :: ts).
Proof.
  cbn [seq traverse]. unfold module_of_pair at 1. cbn [Nat.mul Nat.add].
  unfold index. cbn [nth_error bind]. destruct (try_from_u32 _); cbn [bind]; try reflexivity.
  rewrite <- seq_shift, traverse_map. reflexivity.
Qed.

Lemma div2_SS n : Nat.div (S (S n)) 2 = S (Nat.div n 2).
Proof. lia. Qed.

Lemma module_list_unfold regs :
  module_list_from_registers regs =
  if Nat.eqb (List.length regs) 0 || negb (Nat.eqb (Nat.modulo (List.length regs) 2) 0)
  then Err RegisterCount
  else traverse (module_of_pair regs) (seq 0 (Nat.div (List.length regs) 2)).
Proof. reflexivity. Qed.

Lemma pair_value hi lo : is_u16 hi -> is_u16 lo ->
  as_u32 (Z.shiftl hi 16) + lo = hi * 65536 + lo.
Proof.
  unfold is_u16, as_u32. intros H1 H2. rewrite Z.shiftl_mul_pow2 by lia. change (2 ^ 16) with 65536.
  lia.
Qed.

Lemma pairs_ok regs ts :
  Forall is_u16 regs -> Nat.modulo (List.length regs) 2 = 0%nat ->
  (traverse (module_of_pair regs) (seq 0 (Nat.div (List.length regs) 2)) = Ok ts <->
   exists ids, Forall2 (fun t id => documented_id t = Some id) ts ids /\
               regs = flat_map id_registers ids).
Proof.
  revert ts. induction regs as [| a | hi lo regs IH] using list_pair_ind; intros ts Hu Hm.
  - cbn. split.
    + intros H. injection H as <-. exists []. split; [constructor|reflexivity].
    + intros (ids & H & E). destruct H; [reflexivity|discriminate].
  - cbn in Hm. discriminate.
  - cbn [List.length] in *. rewrite div2_SS, pairs_traverse_cons.
    inversion Hu as [|? ? Hhi Hu']; subst. inversion Hu' as [|? ? Hlo Hu'']; subst.
    assert (Hm' : Nat.modulo (List.length regs) 2 = 0%nat) by lia.
    rewrite pair_value by assumption. rewrite bind_ok. split.
    + intros (t & Ht & H). apply bind_ok in H. destruct H as (ts' & Hts & H). injection H as <-.
      apply IH in Hts; [|assumption|assumption]. destruct Hts as (ids & Hf & ->).
      exists ((hi * 65536 + lo) :: ids). split.
      * constructor; [|exact Hf]. apply try_from_u32_iff. exact Ht.
      * unfold is_u16 in *. cbn [flat_map id_registers app]. f_equal; [lia|]. f_equal. lia.
    + intros (ids & Hf & E). destruct Hf as [|t id ts' ids' Hid Hf]; [discriminate|].
      cbn [flat_map id_registers app] in E. injection E as Ehi Elo E.
      exists t. split.
      * apply try_from_u32_iff. rewrite Hid. f_equal. lia.
      * assert (Hts : traverse (module_of_pair regs) (seq 0 (Nat.div (List.length regs) 2)) = Ok ts').
        { apply IH; [assumption|assumption|]. exists ids'. split; assumption. }
        rewrite Hts. reflexivity.
Qed.

Lemma flat_map_id_registers_length ids : List.length (flat_map id_registers ids) = (2 * List.length ids)%nat.
Proof. induction ids as [|i ids IH]; cbn [flat_map id_registers app List.length]; lia. Qed.

Lemma module_list_ok_iff regs ts : Forall is_u16 regs ->
  (module_list_from_registers regs = Ok ts <->
   ts <> [] /\
   exists ids, Forall2 (fun t id => documented_id t = Some id) ts ids /\
               regs = flat_map id_registers ids).
Proof.
  intros Hu. rewrite module_list_unfold.
  destruct (Nat.eqb_spec (List.length regs) 0) as [Hl|Hl]; cbn [orb].
  - split; [discriminate|]. intros (Hne & ids & Hf & ->).
    rewrite flat_map_id_registers_length in Hl. apply Forall2_length in Hf.
    destruct ts; [contradiction|cbn [List.length] in Hf; lia].
  - destruct (Nat.eqb_spec (Nat.modulo (List.length regs) 2) 0) as [Hm|Hm]; cbn [negb].
    + rewrite pairs_ok by assumption. split.
      * intros (ids & Hf & ->). split; [|exists ids; auto].
        intros ->. inversion Hf; subst. apply Hl. reflexivity.
      * intros (_ & H). exact H.
    + split; [discriminate|]. intros (_ & ids & _ & ->).
      rewrite flat_map_id_registers_length in Hm. lia.
Qed.

Lemma module_list_count regs :
  (regs = [] \/ Nat.Odd (List.length regs)) <-> module_list_from_registers regs = Err RegisterCount.
Proof.
  rewrite module_list_unfold.
  destruct (Nat.eqb_spec (List.length regs) 0) as [Hl|Hl]; cbn [orb].
  - destruct regs; [|discriminate]. tauto.
  - destruct (Nat.eqb_spec (Nat.modulo (List.length regs) 2) 0) as [Hm|Hm]; cbn [negb].
    + split.
      * intros [->|[k Hk]]; [contradiction Hl; reflexivity|lia].
      * intros H. exfalso. apply traverse_err in H.
        destruct H as (l1 & i & l2 & r & Hs & _ & H). unfold module_of_pair in H.
        destruct (index regs (i * 2)) as [hi|e|p] eqn:H1; cbn [bind] in H; try discriminate.
        2:{ exact (index_no_err _ _ _ H1). }
        destruct (index regs (i * 2 + 1)) as [lo|e|p] eqn:H2; cbn [bind] in H; try discriminate.
        2:{ exact (index_no_err _ _ _ H2). }
        destruct (try_from_u32_cases (as_u32 (Z.shiftl hi 16) + lo)) as [[t Ht]|Ht]; congruence.
    + split; [reflexivity|]. intros _. right. exists (Nat.div (List.length regs) 2). lia.
Qed.

Lemma module_list_no_panic regs : no_panic (module_list_from_registers regs).
Proof.
  rewrite module_list_unfold. destruct (_ || _); [exact I|].
  apply traverse_no_panic. intros i Hi. apply in_seq in Hi. unfold module_of_pair.
  assert (H : (i * 2 + 1 < List.length regs)%nat) by lia.
  rewrite (index_lt regs (i * 2) 0) by lia. rewrite (index_lt regs (i * 2 + 1) 0) by lia.
  cbn [bind]. destruct (try_from_u32_cases (as_u32 (Z.shiftl (nth (i * 2) regs 0) 16)
    + nth (i * 2 + 1) regs 0)) as [[t ->]| ->]; exact I.
Qed.

Lemma module_list_trichotomy regs :
  module_list_from_registers regs = Err RegisterCount \/
  module_list_from_registers regs = Err UnknownModule \/
  exists ts, module_list_from_registers regs = Ok ts.
Proof.
  destruct (module_list_from_registers regs) as [ts|e|p] eqn:H; [eauto| |].
  - rewrite module_list_unfold in H. destruct (_ || _); [left; congruence|].
    right. left. apply traverse_err in H. destruct H as (l1 & i & l2 & r & _ & _ & H).
    unfold module_of_pair in H.
    destruct (index regs (i * 2)) as [hi|e'|p] eqn:H1; cbn [bind] in H; try discriminate.
    2:{ exfalso. exact (index_no_err _ _ _ H1). }
    destruct (index regs (i * 2 + 1)) as [lo|e'|p] eqn:H2; cbn [bind] in H; try discriminate.
    2:{ exfalso. exact (index_no_err _ _ _ H2). }
    destruct (try_from_u32_cases (as_u32 (Z.shiftl hi 16) + lo)) as [[t Ht]|Ht]; congruence.
  - pose proof (module_list_no_panic regs) as Hn. rewrite H in Hn. contradiction.
Qed.

Lemma module_list_unknown regs k hi lo :
  Forall is_u16 regs -> Nat.Even (List.length regs) ->
  nth_error regs (2 * k) = Some hi -> nth_error regs (2 * k + 1) = Some lo ->
  (forall t, documented_id t <> Some (hi * 65536 + lo)) ->
  module_list_from_registers regs = Err UnknownModule.
Proof.
  intros Hu He Hhi Hlo Hno.
  destruct (module_list_trichotomy regs) as [H|[H|[ts H]]]; [|exact H|].
  - exfalso. apply module_list_count in H. destruct H as [->|[j Hj]].
    + destruct k; discriminate.
    + destruct He as [j' Hj']. lia.
  - exfalso. apply module_list_ok_iff in H; [|exact Hu]. destruct H as (_ & ids & Hf & ->).
    clear Hu He. revert k Hhi Hlo. induction Hf as [|t id ts ids Hid Hf IH]; intros k Hhi Hlo.
    + destruct k; discriminate.
    + destruct k as [|k].
      * cbn in Hhi, Hlo. injection Hhi as <-. injection Hlo as <-. apply (Hno t).
        rewrite Hid. f_equal. lia.
      * replace (2 * S k)%nat with (S (S (2 * k))) in Hhi by lia.
        replace (2 * S k + 1)%nat with (S (S (2 * k + 1))) in Hlo by lia.
        cbn [flat_map id_registers app nth_error] in Hhi, Hlo. exact (IH k Hhi Hlo).
Qed.

Lemma C02_all :
  (forall ts ids, ts <> [] -> Forall2 (fun t id => documented_id t = Some id) ts ids ->
     module_list_from_registers (flat_map (fun id => [id / 65536; id mod 65536]) ids) = Ok ts) /\
  (forall regs ts, Forall is_u16 regs -> module_list_from_registers regs = Ok ts ->
     ts <> [] /\
     exists ids, Forall2 (fun t id => documented_id t = Some id) ts ids /\
                 regs = flat_map (fun id => [id / 65536; id mod 65536]) ids) /\
  (forall regs, module_list_from_registers regs = Err RegisterCount <->
     regs = [] \/ Nat.Odd (List.length regs)) /\
  (forall regs k hi lo, Forall is_u16 regs -> Nat.Even (List.length regs) ->
     nth_error regs (2 * k) = Some hi -> nth_error regs (2 * k + 1) = Some lo ->
     (forall t, documented_id t <> Some (hi * 65536 + lo)) ->
     module_list_from_registers regs = Err UnknownModule) /\
  (forall regs p, module_list_from_registers regs <> Panic p).
Proof.
  split; [|split; [|split; [|split]]].
  - intros ts ids Hne Hf. apply module_list_ok_iff.
    + clear Hne. induction Hf as [|t id ts ids Hid Hf IH]; [constructor|].
      apply documented_id_u32 in Hid. unfold is_u32, is_u16 in *. cbn [flat_map app].
      constructor; [lia|]. constructor; [lia|exact IH].
    + split; [exact Hne|]. exists ids. auto.
  - intros regs ts Hu H. apply module_list_ok_iff in H; assumption.
  - intros regs. symmetry. apply module_list_count.
  - exact module_list_unknown.
  - intros regs p H. pose proof (module_list_no_panic regs) as Hn. rewrite H in Hn. exact Hn.
Qed.

(** *** C03 *)

Lemma codes_eqb_spec a b : reflect (a = b) (codes_eqb a b).
Proof.
  revert b. induction a as [|x a IH]; intros [|y b]; cbn [codes_eqb]; try (constructor; congruence).
  destruct (Z.eqb_spec x y) as [->|Hne]; cbn [andb]; [|constructor; congruence].
  destruct (IH b) as [->|Hne]; constructor; congruence.
Qed.

Lemma codes_code_points s : codes s = code_points s.
Proof.
  unfold codes. induction s as [|c s IH]; [reflexivity|].
  cbn [list_ascii_of_string map code_points]. rewrite IH. f_equal.
  unfold nat_of_ascii. lia.
Qed.

Lemma upper_to_uppercase up s u : upper up s u <-> to_uppercase up s = u.
Proof.
  split.
  - induction 1 as [|c s u Hc _ IH|c s u Hc _ IH|c s u Hc _ IH]; [reflexivity| | |];
      unfold to_uppercase in *; cbn [flat_map]; rewrite IH.
    + destruct (Z.ltb_spec c 128); [|lia]. unfold ascii_upper.
      destruct (Z.leb_spec 97 c); [|lia]. destruct (Z.leb_spec c 122); [|lia]. reflexivity.
    + destruct (Z.ltb_spec c 128); [|lia]. unfold ascii_upper.
      destruct (Z.leb_spec 97 c); destruct (Z.leb_spec c 122); cbn [andb]; try reflexivity. lia.
    + destruct (Z.ltb_spec c 128); [lia|]. reflexivity.
  - revert u. induction s as [|c s IH]; intros u <-; [constructor|].
    unfold to_uppercase. cbn [flat_map]. fold (to_uppercase up s).
    destruct (Z.ltb_spec c 128) as [Hc|Hc]; [|apply upper_unicode; [exact Hc|apply IH; reflexivity]].
    unfold ascii_upper.
    destruct (Z.leb_spec 97 c); destruct (Z.leb_spec c 122); cbn [andb app].
    + apply upper_lower; [lia|apply IH; reflexivity].
    + apply upper_same; [lia|apply IH; reflexivity].
    + apply upper_same; [lia|apply IH; reflexivity].
    + apply upper_same; [lia|apply IH; reflexivity].
Qed.

Lemma dashes_replace_dash u w : dashes_replaced u w <-> replace_dash u = w.
Proof.
  split.
  - induction 1 as [|u w _ IH|c u w Hc _ IH]; [reflexivity| |]; unfold replace_dash in *; cbn [map];
      rewrite IH; [reflexivity|]. destruct (Z.eqb_spec c 45); [contradiction|reflexivity].
  - revert w. induction u as [|c u IH]; intros w <-; [constructor|].
    unfold replace_dash. cbn [map]. fold (replace_dash u).
    destruct (Z.eqb_spec c 45) as [->|Hc]; constructor; auto.
Qed.

Lemma name_table_sound : forallb (fun e => String.eqb (fst e) (product_name (snd e))) module_names = true.
Proof. vm_compute. reflexivity. Qed.

Lemma product_name_injective_codes a b :
  code_points (product_name a) = code_points (product_name b) -> a = b.
Proof.
  assert (H : forallb (fun x => forallb (fun y =>
     if mt_eq_dec x y then true
     else negb (codes_eqb (code_points (product_name x)) (code_points (product_name y))))
     all_types) all_types = true) by (vm_compute; reflexivity).
  intros E. pose proof (proj1 (forallb_forall _ _) H a (all_types_complete a)) as Ha.
  cbv beta in Ha.
  pose proof (proj1 (forallb_forall _ _) Ha b (all_types_complete b)) as Hb. cbv beta in Hb.
  destruct (mt_eq_dec a b) as [|Hne]; [assumption|].
  destruct (codes_eqb_spec (code_points (product_name a)) (code_points (product_name b)));
    [discriminate|contradiction].
Qed.

Lemma from_str_key key t :
  (match find (fun e => codes_eqb (codes (fst e)) key) module_names with
   | Some e => Ok (snd e) | None => Err UnknownModule end = Ok t) <->
  key = code_points (product_name t).
Proof.
  split.
  - destruct (find _ module_names) as [[n t']|] eqn:Hf; [|discriminate].
    intros H. injection H as <-. apply find_some in Hf. destruct Hf as [Hin He].
    cbn [fst snd] in *. destruct (codes_eqb_spec (codes n) key) as [<-|]; [|discriminate].
    pose proof (proj1 (forallb_forall _ _) name_table_sound _ Hin) as H. cbn [fst snd] in H.
    apply String.eqb_eq in H. subst n. apply codes_code_points.
  - intros ->. destruct t; vm_compute; reflexivity.
Qed.

Lemma from_str_iff up s t :
  module_type_from_str up s = Ok t <->
  exists u, upper up s u /\ dashes_replaced u (code_points (product_name t)).
Proof.
  unfold module_type_from_str. cbv zeta. rewrite from_str_key. split.
  - intros H. exists (to_uppercase up s). split; [apply upper_to_uppercase; reflexivity|].
    apply dashes_replace_dash. exact H.
  - intros (u & Hu & Hd). apply upper_to_uppercase in Hu. apply dashes_replace_dash in Hd.
    congruence.
Qed.

Lemma from_str_err up s :
  (exists t, module_type_from_str up s = Ok t) \/ module_type_from_str up s = Err UnknownModule.
Proof. unfold module_type_from_str. cbv zeta. destruct (find _ _); eauto. Qed.

(** Characters of product names. *)
Definition name_char (d : Z) : bool :=
  ((65 <=? d) && (d <=? 90)) || ((48 <=? d) && (d <=? 57)) || (d =? 95).

Lemma product_name_chars t : Forall (fun d => name_char d = true) (code_points (product_name t)).
Proof. destruct t; vm_compute; repeat constructor. Qed.

Lemma spells_key up s ds :
  Forall (fun c => c < 128) s -> Forall (fun d => name_char d = true) ds ->
  (Forall2 spells s ds <-> replace_dash (to_uppercase up s) = ds).
Proof.
  intros Hs. revert ds. induction Hs as [|c s Hc Hs IH]; intros ds Hds.
  - cbn. split; intros H. { inversion H. reflexivity. } { subst. constructor. }
  - unfold to_uppercase. cbn [flat_map]. fold (to_uppercase up s).
    destruct (Z.ltb_spec c 128) as [_|]; [|lia].
    cbn [app replace_dash map]. fold (replace_dash (to_uppercase up s)).
    split.
    + intros H. inversion H as [|? d ? ds' Hd Hf]; subst. inversion Hds as [|? ? Hn Hds']; subst.
      f_equal; [|apply IH; assumption]. unfold spells, name_char, ascii_upper in *.
      destruct ((97 <=? c) && (c <=? 122)) eqn:E1;
        match goal with |- context [if ?b then _ else _] => destruct b eqn:E2 end; lia.
    + intros <-. inversion Hds as [|? ? Hn Hds']; subst.
      constructor; [|apply IH; [assumption|reflexivity]].
      unfold spells, name_char, ascii_upper in *.
      destruct ((97 <=? c) && (c <=? 122)) eqn:E1;
        match goal with |- context [if ?b then _ else _] => destruct b eqn:E2 end; lia.
Qed.

Lemma spells_ascii s ds : Forall (fun d => name_char d = true) ds ->
  Forall2 spells s ds -> Forall (fun c => c < 128) s.
Proof.
  intros Hds H. induction H as [|c d s ds Hcd H IH]; [constructor|].
  inversion Hds; subst. constructor; [|apply IH; assumption].
  unfold spells, name_char in *. lia.
Qed.

Lemma from_str_spelling up s t :
  Forall2 spells s (code_points (product_name t)) -> module_type_from_str up s = Ok t.
Proof.
  intros H. unfold module_type_from_str. cbv zeta. apply from_str_key.
  apply spells_key; [|apply product_name_chars|exact H].
  eapply spells_ascii; [apply product_name_chars|exact H].
Qed.

Lemma from_str_ascii up s t : Forall (fun c => c < 128) s ->
  (module_type_from_str up s = Ok t <-> Forall2 spells s (code_points (product_name t))).
Proof.
  intros Hs. unfold module_type_from_str. cbv zeta. rewrite from_str_key. symmetry.
  apply spells_key; [exact Hs|apply product_name_chars].
Qed.

Lemma C03_all :
  (forall up s t, module_type_from_str up s = Ok t <->
     exists u, upper up s u /\ dashes_replaced u (code_points (product_name t))) /\
  (forall up s, (forall t, module_type_from_str up s <> Ok t) ->
     module_type_from_str up s = Err UnknownModule) /\
  (forall a b, product_name a = product_name b -> a = b) /\
  (forall up s t, Forall2 spells s (code_points (product_name t)) ->
     module_type_from_str up s = Ok t) /\
  (forall up s t, Forall (fun c => c < 128) s -> module_type_from_str up s = Ok t ->
     Forall2 spells s (code_points (product_name t))).
Proof.
  split; [exact from_str_iff|]. split; [|split; [|split]].
  - intros up s H. destruct (from_str_err up s) as [[t Ht]|]; [|assumption].
    exfalso. exact (H t Ht).
  - intros a b H. apply product_name_injective_codes. congruence.
  - exact from_str_spelling.
  - intros up s t Hs. apply from_str_ascii. exact Hs.
Qed.

(** *** C04 *)

Lemma category_table_sound :
  forallb (fun e => String.eqb (fst e) (category_name (snd e)) &&
                    match snd e with PF => false | _ => true end) category_names = true.
Proof. vm_compute. reflexivity. Qed.

Lemma category_key key c :
  (match find (fun e => codes_eqb (codes (fst e)) key) category_names with
   | Some e => Ok (snd e) | None => Err UnknownCategory end = Ok c) <->
  key = code_points (category_name c) /\ c <> PF.
Proof.
  split.
  - destruct (find _ category_names) as [[n c']|] eqn:Hf; [|discriminate].
    intros H. injection H as <-. apply find_some in Hf. destruct Hf as [Hin He].
    cbn [fst snd] in *. destruct (codes_eqb_spec (codes n) key) as [<-|]; [|discriminate].
    pose proof (proj1 (forallb_forall _ _) category_table_sound _ Hin) as H. cbn [fst snd] in H.
    apply andb_true_iff in H. destruct H as [H Hp].
    apply String.eqb_eq in H. subst n. split; [apply codes_code_points|].
    intros ->. discriminate.
  - intros [-> Hp]. destruct c; try (vm_compute; reflexivity). contradiction.
Qed.

Lemma category_from_str_iff up s c :
  category_from_str up s = Ok c <-> upper up s (code_points (category_name c)) /\ c <> PF.
Proof.
  unfold category_from_str. cbv zeta. rewrite category_key, upper_to_uppercase. reflexivity.
Qed.

Lemma category_from_str_err up s :
  (exists t, category_from_str up s = Ok t) \/ category_from_str up s = Err UnknownCategory.
Proof. unfold category_from_str. cbv zeta. destruct (find _ _); eauto. Qed.

Lemma category_name_chars c : Forall (fun d => 65 <= d <= 90) (code_points (category_name c)).
Proof. destruct c; vm_compute; repeat constructor; discriminate. Qed.

Lemma nocase_upper up s ds : Forall (fun d => 65 <= d <= 90) ds ->
  Forall2 spells_nocase s ds -> upper up s ds.
Proof.
  intros Hds H. induction H as [|c d s ds Hcd H IH]; [constructor|].
  inversion Hds as [|? ? Hd Hds']; subst.
  destruct Hcd as [->|[_ ->]].
  - apply upper_same; [lia|apply IH; assumption].
  - replace (upper up (d + 32 :: s) (d :: ds)) with (upper up (d + 32 :: s) ((d + 32) - 32 :: ds))
      by (f_equal; f_equal; lia).
    apply upper_lower; [lia|apply IH; assumption].
Qed.

Lemma C04_named t : named_category t = Some RO \/ named_category t = Some (category_of t).
Proof. destruct t; vm_compute; auto. Qed.

Lemma C04_relay t : named_category t = Some RO -> category_of t = DO.
Proof. destruct t; vm_compute; intros H; try discriminate; reflexivity. Qed.

Lemma C04_partial_all :
  (forall t, named_category t <> Some RO -> named_category t = Some (category_of t)) /\
  (forall t, named_category t = Some RO -> category_of t = DO) /\
  (forall up s c, c <> PF -> Forall2 spells_nocase s (code_points (category_name c)) ->
     category_from_str up s = Ok c) /\
  (forall up s c, category_from_str up s = Ok c -> upper up s (code_points (category_name c))) /\
  (forall up s, (forall c, c <> PF -> ~ upper up s (code_points (category_name c))) ->
     category_from_str up s = Err UnknownCategory).
Proof.
  split; [|split; [exact C04_relay|split; [|split]]].
  - intros t H. destruct (C04_named t); [contradiction|assumption].
  - intros up s c Hp H. apply category_from_str_iff. split; [|exact Hp].
    apply nocase_upper; [apply category_name_chars|exact H].
  - intros up s c H. apply category_from_str_iff in H. tauto.
  - intros up s H. destruct (category_from_str_err up s) as [[c Hc]|]; [|assumption].
    exfalso. apply category_from_str_iff in Hc. apply (H c); tauto.
Qed.

Lemma C04_refuted_all :
  (forall up, category_from_str up (code_points (category_name PF)) = Err UnknownCategory) /\
  (exists t, category_of t = PF) /\
  named_category UR20_4RO_CO_255 = Some RO /\ category_of UR20_4RO_CO_255 = DO /\
  (forall t, category_of t <> RO).
Proof.
  split; [intros up; vm_compute; reflexivity|].
  split; [exists UR20_PF_I; reflexivity|].
  split; [vm_compute; reflexivity|]. split; [reflexivity|]. intros t. destruct t; discriminate.
Qed.

(** *** C05 *)

Lemma C05_all t :
  Some (channel_count t) =
  (if String.eqb (snd (printed t)) "PF" then Some 0%nat
   else if String.eqb (product_name t) "UR20_3EM_230V_AC" then Some 8%nat
   else fst (printed t)).
Proof. destruct t; vm_compute; reflexivity. Qed.
