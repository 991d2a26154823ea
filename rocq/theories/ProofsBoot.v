(** Lemmas for C73. *)
From Coq Require Import ZArith List Bool Lia ZifyBool ZifyNat.
From Verif Require Import Base Facts Types Lib Fbc SpecCatalogue SpecAddr SpecParams SpecCoupler SpecStartup SpecBoot
  ProofsCatalogue ProofsAddr ProofsParams ProofsNew ProofsStartup.
Import ListNotations.
Local Open Scope Z_scope.
Ltac Zify.zify_post_hook ::= Z.div_mod_to_equations.

Lemma traverse_err {A B} (f : A -> outcome B) e l : traverse f l = Err e -> exists a, In a l /\ f a = Err e.
Proof.
  induction l as [|a l IH]; cbn [traverse]; [discriminate|]. destruct (f a) as [b|e'|p] eqn:E; cbn [bind].
  - destruct (traverse f l) as [r|e'|p]; cbn [bind]; try discriminate. intros H. destruct (IH H) as (x & Hx & Hf).
    exists x. split; [right; exact Hx|exact Hf].
  - intros H. exists a. split; [left; reflexivity|]. congruence.
  - discriminate.
Qed.

Lemma traverse_first {A B} (f : A -> outcome B) l a : In a l -> (forall x, In x l -> (exists b, f x = Ok b) \/ f x = Err UnknownModule) ->
  f a = Err UnknownModule -> traverse f l = Err UnknownModule.
Proof.
  induction l as [|x l IH]; intros Hi Hall Ha; [destruct Hi|]. cbn [traverse].
  destruct (Hall x (or_introl eq_refl)) as [[b Hb]|Hb]; rewrite Hb; cbn [bind]; [|reflexivity].
  destruct Hi as [->|Hi]; [congruence|]. rewrite IH; auto. intros y Hy. apply Hall. right. exact Hy.
Qed.

Section Boot.
Variables (prof : profile) (reg : Z -> Z).
Hypothesis Hreg : forall a, is_u16 (reg a).

Lemma read_u16 a n : Forall is_u16 (read_registers reg a n).
Proof. apply Forall_forall. intros x Hx. unfold read_registers in Hx. apply in_map_iff in Hx. destruct Hx as (k & <- & _). apply Hreg. Qed.

Definition count : nat := Z.to_nat (reg 0x27FE).

Lemma count_eq : Z.of_nat count = reg 0x27FE.
Proof. unfold count. pose proof (Hreg 0x27FE) as H. unfold is_u16 in H. lia. Qed.

Definition list_step (idx : nat) : outcome module_type := try_from_u32 (shown_id reg idx).

Lemma list_read : count <> 0%nat ->
  module_list_from_registers (read_registers reg ADDR_CURRENT_MODULE_LIST (2 * reg 0x27FE)) = traverse list_step (seq 0 count).
Proof.
  intros Hc. unfold module_list_from_registers. rewrite read_length.
  assert (E : Z.to_nat (2 * reg 0x27FE) = (2 * count)%nat) by (pose proof count_eq; lia). rewrite E.
  replace (Nat.eqb (2 * count) 0) with false by lia.
  replace (Nat.modulo (2 * count) 2) with 0%nat by (rewrite Nat.mul_comm, Nat.mod_mul by lia; reflexivity). cbn [Nat.eqb negb orb].
  replace (Nat.div (2 * count) 2) with count by (rewrite Nat.mul_comm, Nat.div_mul by lia; reflexivity).
  apply traverse_ext. intros k Hk. apply in_seq in Hk. unfold index.
  rewrite !read_nth by lia. cbn [bind]. unfold list_step, shown_id. f_equal.
  pose proof (Hreg (0x2A00 + 2 * Z.of_nat k)) as H1. unfold is_u16 in H1.
  change ADDR_CURRENT_MODULE_LIST with 0x2A00.
  replace (0x2A00 + Z.of_nat (k * 2)) with (0x2A00 + 2 * Z.of_nat k) by lia.
  replace (0x2A00 + Z.of_nat (k * 2 + 1)) with (0x2A00 + 2 * Z.of_nat k + 1) by lia.
  unfold as_u32. rewrite Z.shiftl_mul_pow2 by lia. change (2 ^ 16) with 65536. rewrite Z.mod_small by lia. reflexivity.
Qed.

Lemma list_step_cases i : (exists t, list_step i = Ok t /\ documented_id t = Some (shown_id reg i)) \/
  (list_step i = Err UnknownModule /\ unknown_at reg i).
Proof.
  unfold list_step. destruct (try_from_u32_cases (shown_id reg i)) as [[t Ht]|Hn].
  - left. exists t. split; [exact Ht|]. apply try_from_u32_iff. exact Ht.
  - right. split; [exact Hn|]. unfold unknown_at. apply try_from_u32_unknown. exact Hn.
Qed.

(** The rack shown by the registers. *)
Definition shown_address (a : Z) : option Z := if a =? 0xFFFF then None else Some a.
Definition the_slot (i : nat) (t : module_type) : slot :=
  mk_slot t (read_registers reg (0xC000 + 256 * Z.of_nat i) (match documented_param_count t with Some c => c | None => 0 end))
    (shown_address (reg (0x2B00 + 2 * Z.of_nat i + 1))) (shown_address (reg (0x2B00 + 2 * Z.of_nat i))).
Definition the_rack (ts : list module_type) : list slot := map (fun it => the_slot (fst it) (snd it)) (enumerate ts).

Lemma the_rack_nth ts i : nth_error (the_rack ts) i = option_map (the_slot i) (nth_error ts i).
Proof.
  unfold the_rack. rewrite nth_error_map. unfold enumerate. rewrite nth_error_enumerate_from.
  destruct (nth_error ts i); reflexivity.
Qed.

Lemma the_rack_length ts : length (the_rack ts) = length ts.
Proof. unfold the_rack. rewrite map_length. apply enumerate_length. Qed.

Lemma address_register_shown a : address_register (shown_address a) = a.
Proof. unfold shown_address. destruct (Z.eqb_spec a 0xFFFF) as [->|H]; reflexivity. Qed.

Lemma the_rack_shows ts : traverse list_step (seq 0 count) = Ok ts -> shows reg (the_rack ts).
Proof.
  intros H. apply traverse_ok in H. apply Forall2_nth_error in H. destruct H as [Hl H]. rewrite seq_length in Hl.
  split; [rewrite the_rack_length, <- Hl; symmetry; apply count_eq|].
  intros i s Hi. rewrite the_rack_nth in Hi. destruct (nth_error ts i) as [t|] eqn:Et; [|discriminate].
  cbn [option_map] in Hi. apply Some_inj in Hi. subst s. cbn [the_slot s_type s_params s_input s_output].
  assert (Hlt : (i < count)%nat) by (rewrite Hl; apply nth_error_Some; congruence).
  split; [|split; [|split]].
  - specialize (H i i t). rewrite (nth_error_nth' _ 0%nat) in H by (rewrite seq_length; exact Hlt). rewrite seq_nth in H by exact Hlt.
    specialize (H eq_refl Et). unfold list_step in H. apply try_from_u32_iff in H. exists (shown_id reg i). split; [exact H|].
    unfold shown_id. pose proof (Hreg (0x2A00 + 2 * Z.of_nat i)). pose proof (Hreg (0x2A00 + 2 * Z.of_nat i + 1)). unfold is_u16 in *. lia.
  - symmetry. apply address_register_shown.
  - symmetry. apply address_register_shown.
  - intros k p Hk. pose proof Hk as Hk'. apply nth_error_Some_lt in Hk'. rewrite read_length in Hk'. rewrite read_nth in Hk by exact Hk'.
    apply Some_inj in Hk. exact Hk.
Qed.

Lemma the_slot_cases i t : supported (the_slot i t) \/ not_supported (the_slot i t) \/ misconfigured (the_slot i t).
Proof.
  unfold supported, not_supported, misconfigured. cbn [the_slot s_type s_params s_input s_output].
  destruct (param_bounds t) as [b|] eqn:B; [|right; left; reflexivity].
  destruct C11_all as (_ & _ & _ & _ & _ & T). destruct (T _ _ B) as (D & _). rewrite D.
  assert (L : length (read_registers reg (0xC000 + 256 * Z.of_nat i) (Z.of_nat (length b))) = length b) by (rewrite read_length; lia).
  destruct (in_range_dec b (read_registers reg (0xC000 + 256 * Z.of_nat i) (Z.of_nat (length b)))) as [R|R].
  - left. split; [exists b; split; [reflexivity|]; split; [exact L|]; split; [exact R|]; apply read_u16|].
    unfold shown_address. pose proof (Hreg (0x2B00 + 2 * Z.of_nat i)). pose proof (Hreg (0x2B00 + 2 * Z.of_nat i + 1)). unfold is_u16 in *.
    split; intros a; destruct (Z.eqb_spec (reg (0x2B00 + 2 * Z.of_nat i + 1)) 65535), (Z.eqb_spec (reg (0x2B00 + 2 * Z.of_nat i)) 65535);
      intros E; try discriminate; apply Some_inj in E; lia.
  - right. right. exists b. auto.
Qed.
End Boot.

(** A shown rack whose slots up to [i] are supported and whose slot [i] is not. *)
Lemma shown_accepted_window reg rack j x c : shows reg rack -> nth_error rack j = Some x -> Z.of_nat (length (s_params x)) = c ->
  read_registers reg (0xC000 + 256 * Z.of_nat j) c = s_params x.
Proof. intros [_ H] Hj <-. apply read_params. exact (proj2 (proj2 (proj2 (H j x Hj)))). Qed.

Lemma rejects_misconfigured s : Forall is_u16 (s_params s) -> misconfigured s -> module_from_params (s_type s) (s_params s) = Err ChannelParameter.
Proof.
  intros U (b & B & L & R). destruct (C09_partial_all _ _ _ B U) as (_ & K1 & _).
  assert (D1 : s_type s <> UR20_16DO_P) by (intros E; rewrite E in B; cbn in B; apply Some_inj in B; subst b; apply R; exact I).
  assert (D2 : s_type s <> UR20_PF_O_1DI_SIL) by (intros E; rewrite E in B; cbn in B; apply Some_inj in B; subst b; apply R; exact I).
  apply (K1 D1 D2); [|lia|exact R].
  destruct (s_type s) eqn:E; try (left; discriminate). right. cbn in B. apply Some_inj in B. subst b. cbn in L. lia.
Qed.

Definition counted (s : slot) : Prop := documented_param_count (s_type s) <> None.

(** Start-up stops at the first slot that is not supported. *)
Lemma stops prof reg rack i s : (forall a, is_u16 (reg a)) -> (length rack <= 64)%nat -> shows reg rack -> Forall counted rack ->
  nth_error rack i = Some s -> (forall j x, (j < i)%nat -> nth_error rack j = Some x -> supported x) ->
  (not_supported s -> start_up prof reg = Panic Unsupported) /\
  (misconfigured s -> start_up prof reg = Err ChannelParameter).
Proof.
  intros Hreg Hlen Hsh Hcnt Hi Hlt. assert (Hne : rack <> []) by (intros ->; destruct i; discriminate).
  pose proof Hsh as [Hn Hslots]. unfold start_up. change ADDR_CURRENT_MODULE_COUNT with 0x27FE. rewrite Hn.
  rewrite (types_read reg rack Hsh Hne). cbn [bind].
  destruct C11_all as (_ & _ & _ & Stop & None_ & T).
  destruct (proj1 C08_all prof (map s_type rack)) as (l & -> & Hl & Hw & _).
  { now rewrite map_length. }
  { apply Forall_forall. intros t Ht. apply in_map_iff in Ht. destruct Ht as (x & <- & Hx). exact (proj1 (Forall_forall _ _) Hcnt x Hx). }
  cbn [bind]. rewrite map_length in Hl. set (cfg := mk_config _ _ _).
  assert (N : forall j x a c, nth_error rack j = Some x -> nth_error l j = Some (a, c) ->
            a = 0xC000 + 256 * Z.of_nat j /\ documented_param_count (s_type x) = Some c).
  { intros j x a c Hj. apply Hw. now rewrite nth_error_map, Hj. }
  destruct (nth_error l i) as [[a c]|] eqn:Ew; [|apply nth_error_None in Ew; apply nth_error_Some_lt in Hi; lia].
  destruct (N i s a c Hi Ew) as [-> Ec].
  destruct (Stop cfg i (s_type s) (read_registers reg (0xC000 + 256 * Z.of_nat i) c)) as [S1 S2]; unfold cfg; cbn [cfg_modules cfg_offsets cfg_params].
  - now rewrite !map_length.
  - rewrite read_length, map_length. lia.
  - intros j t p Hj. rewrite !nth_error_map. destruct (nth_error rack j) as [x|] eqn:Ex; [|discriminate].
    destruct (nth_error l j) as [[a' c']|] eqn:Ea; [|discriminate]. cbn [option_map fst snd].
    intros E1 E2. apply Some_inj in E1, E2. subst t p.
    destruct (N j x a' c' Ex Ea) as [-> Ec']. pose proof (Hlt j x Hj Ex) as Sx.
    destruct (proj1 Sx) as (b & B & L & _). destruct (T _ _ B) as (D & _). rewrite D in Ec'. apply Some_inj in Ec'. subst c'.
    rewrite (shown_accepted_window reg rack j x _ Hsh Ex) by lia. now apply supported_accepted.
  - now rewrite nth_error_map, Hi.
  - now rewrite nth_error_map, Ew.
  - split.
    + intros Hu. apply S2. apply None_. exact Hu.
    + intros Hm. apply S1. destruct Hm as (b & B & L & R). destruct (T _ _ B) as (D & _). rewrite D in Ec. apply Some_inj in Ec. subst c.
      rewrite (shown_accepted_window reg rack i s _ Hsh Hi) by lia. apply rejects_misconfigured; [|exists b; auto].
      apply Forall_forall. intros x Hx. apply In_nth_error in Hx. destruct Hx as (k & Hk).
      rewrite <- (proj2 (proj2 (proj2 (Hslots i s Hi))) k x Hk). apply Hreg.
Qed.

Lemma uncounted prof reg rack : (length rack <= 64)%nat -> shows reg rack -> Exists (fun s => documented_param_count (s_type s) = None) rack ->
  start_up prof reg = Panic Unsupported.
Proof.
  intros Hlen Hsh Hex. assert (Hne : rack <> []) by (intros ->; inversion Hex).
  pose proof Hsh as [Hn Hslots]. unfold start_up. change ADDR_CURRENT_MODULE_COUNT with 0x27FE. rewrite Hn.
  rewrite (types_read reg rack Hsh Hne). cbn [bind].
  destruct (windows_stop prof (map s_type rack)) as [[l El]| ->]; [now rewrite map_length| |reflexivity].
  exfalso. apply param_addresses_spec in El; [|now rewrite map_length]. destruct El as [Hl Hw]. rewrite map_length in Hl.
  apply Exists_exists in Hex. destruct Hex as (s & Hs & Hnone). apply In_nth_error in Hs. destruct Hs as (i & Hi).
  destruct (nth_error l i) as [[a c]|] eqn:Ew; [|apply nth_error_None in Ew; apply nth_error_Some_lt in Hi; lia].
  destruct (Hw i (s_type s) a c) as [_ E]; [now rewrite nth_error_map, Hi|exact Ew|congruence].
Qed.

Definition breaks (rack : list slot) : Prop :=
  (exists s, In s rack /\ documented_param_count (s_type s) = None) \/
  (exists i s, nth_error rack i = Some s /\ not_supported s /\ forall j x, (j < i)%nat -> nth_error rack j = Some x -> supported x).

Lemma counted_dec rack : Forall counted rack \/ Exists (fun s => documented_param_count (s_type s) = None) rack.
Proof.
  induction rack as [|s l IH]; [left; constructor|]. destruct (documented_param_count (s_type s)) as [c|] eqn:Ec.
  - destruct IH as [IH|IH]; [left; constructor; [unfold counted; congruence|exact IH]|right; right; exact IH].
  - right. left. exact Ec.
Qed.

(** Everything that can happen. *)
Inductive boots (prof : profile) (reg : Z -> Z) : Prop :=
| B_none : reg 0x27FE = 0 -> start_up prof reg = Err RegisterCount -> boots prof reg
| B_unknown i : Z.of_nat i < reg 0x27FE -> unknown_at reg i -> start_up prof reg = Err UnknownModule -> boots prof reg
| B_ok rack c : rack <> [] -> shows reg rack -> Forall supported rack -> start_up prof reg = Ok c -> boots prof reg
| B_unsupported rack : shows reg rack -> breaks rack -> start_up prof reg = Panic Unsupported -> boots prof reg
| B_misconfigured rack i s : shows reg rack -> nth_error rack i = Some s -> misconfigured s ->
    (forall j x, (j < i)%nat -> nth_error rack j = Some x -> supported x) -> Forall counted rack ->
    start_up prof reg = Err ChannelParameter -> boots prof reg.

Lemma no_modules prof reg : reg 0x27FE = 0 -> start_up prof reg = Err RegisterCount.
Proof. intros H. unfold start_up. change ADDR_CURRENT_MODULE_COUNT with 0x27FE. rewrite H. reflexivity. Qed.

Lemma unknown_module prof reg i : (forall a, is_u16 (reg a)) -> Z.of_nat i < reg 0x27FE -> unknown_at reg i -> start_up prof reg = Err UnknownModule.
Proof.
  intros Hreg Hi Hu. unfold start_up. change ADDR_CURRENT_MODULE_COUNT with 0x27FE. rewrite (list_read reg Hreg) by (unfold count; lia).
  rewrite (traverse_first (list_step reg) _ i); [reflexivity| | |].
  - apply in_seq. unfold count. lia.
  - intros x _. destruct (list_step_cases reg x) as [(t & Ht & _)|[Hx _]]; eauto.
  - destruct (list_step_cases reg i) as [(t & Ht & Hd)|[Hx _]]; [|exact Hx]. exfalso. exact (Hu t Hd).
Qed.

Lemma boots_all prof reg : (forall a, is_u16 (reg a)) -> reg 0x27FE <= 64 -> boots prof reg.
Proof.
  intros Hreg Hle. destruct (Z.eq_dec (reg 0x27FE) 0) as [E|E].
  { apply B_none; [exact E|]. apply no_modules. exact E. }
  assert (Hc : count reg <> 0%nat) by (unfold count; pose proof (Hreg 0x27FE) as H; unfold is_u16 in H; lia).
  destruct (traverse (list_step reg) (seq 0 (count reg))) as [ts|e|p] eqn:Et.
  2:{ apply traverse_err in Et. destruct Et as (i & Hi & He). apply in_seq in Hi.
      destruct (list_step_cases reg i) as [(t & Ht & _)|[Hx Hu]]; [congruence|].
      assert (Hi' : Z.of_nat i < reg 0x27FE) by (unfold count in Hi; lia).
      apply (B_unknown prof reg i Hi' Hu). exact (unknown_module prof reg i Hreg Hi' Hu). }
  2:{ exfalso. pose proof (proj2 (proj2 (proj2 (proj2 C02_all))) (read_registers reg ADDR_CURRENT_MODULE_LIST (2 * reg 0x27FE)) p) as Hp.
      rewrite (list_read reg Hreg Hc) in Hp. congruence. }
  pose proof (the_rack_shows reg Hreg ts Et) as Hsh.
  assert (Lts : length ts = count reg).
  { apply traverse_ok in Et. apply Forall2_nth_error in Et. destruct Et as [Hl _]. rewrite seq_length in Hl. congruence. }
  assert (Hlen : (length (the_rack reg ts) <= 64)%nat) by (rewrite the_rack_length, Lts; unfold count; lia).
  assert (Hne : the_rack reg ts <> []) by (intros H; apply (f_equal (@length _)) in H; rewrite the_rack_length, Lts in H; cbn in H; lia).
  assert (Hcases : forall s, In s (the_rack reg ts) -> supported s \/ not_supported s \/ misconfigured s).
  { intros s Hs. apply In_nth_error in Hs. destruct Hs as (i & Hi). rewrite the_rack_nth in Hi.
    destruct (nth_error ts i) as [t|]; [|discriminate]. cbn [option_map] in Hi. apply Some_inj in Hi. subst s. apply the_slot_cases. exact Hreg. }
  pose proof (counted_dec (the_rack reg ts)) as Hd.
  destruct Hd as [Hd|Hd].
  2:{ apply (B_unsupported prof reg (the_rack reg ts) Hsh); [|exact (uncounted prof reg _ Hlen Hsh Hd)].
      left. apply Exists_exists in Hd. exact Hd. }
  assert (Hs : Forall supported (the_rack reg ts) \/ Exists (fun s => not_supported s \/ misconfigured s) (the_rack reg ts)).
  { revert Hcases. clear. induction (the_rack reg ts) as [|s l IH]; intros Hc; [left; constructor|].
    destruct (Hc s (or_introl eq_refl)) as [H|H]; [|right; left; exact H].
    destruct IH as [IH|IH]; [intros x Hx; apply Hc; right; exact Hx|left; constructor; assumption|right; right; exact IH]. }
  destruct Hs as [Hs|Hs].
  { destruct (C60_all prof reg _ Hne Hlen Hsh Hs) as (c & Hok & _). exact (B_ok prof reg _ c Hne Hsh Hs Hok). }
  destruct (first_such supported (fun s => not_supported s \/ misconfigured s) (the_rack reg ts)) as (i & s & Hi & Hbad & Hlt); [|exact Hs|].
  { apply Forall_forall. exact Hcases. }
  destruct (stops prof reg _ i s Hreg Hlen Hsh Hd Hi Hlt) as [S1 S2]. destruct Hbad as [Hb|Hb].
  - apply (B_unsupported prof reg _ Hsh); [|exact (S1 Hb)]. right. exists i, s. auto.
  - exact (B_misconfigured prof reg _ i s Hsh Hi Hb Hlt Hd (S2 Hb)).
Qed.

Lemma C73_success_all : forall prof reg, (forall a, is_u16 (reg a)) -> reg 0x27FE <= 64 ->
  (exists c, start_up prof reg = Ok c) <-> exists rack, rack <> [] /\ shows reg rack /\ Forall supported rack.
Proof.
  intros prof reg Hreg Hle. split.
  - intros (c & Hc). destruct (boots_all prof reg Hreg Hle) as [_ H|i _ _ H|rack c' H1 H2 H3 H|rack _ _ H|rack i s _ _ _ _ _ H]; try congruence.
    exists rack. auto.
  - intros (rack & H1 & H2 & H3). destruct (C60_all prof reg rack) as (c & Hc & _); auto; [|eauto].
    destruct H2 as [H2 _]. lia.
Qed.

Lemma C73_failure_all : forall prof reg, (forall a, is_u16 (reg a)) -> reg 0x27FE <= 64 ->
  (start_up prof reg = Err RegisterCount <-> reg 0x27FE = 0) /\
  (start_up prof reg = Err UnknownModule <-> exists i, Z.of_nat i < reg 0x27FE /\ unknown_at reg i) /\
  (start_up prof reg = Err ChannelParameter <->
     exists rack i s, shows reg rack /\ nth_error rack i = Some s /\ misconfigured s /\
       (forall j x, (j < i)%nat -> nth_error rack j = Some x -> supported x) /\
       Forall (fun x => documented_param_count (s_type x) <> None) rack) /\
  (forall e, start_up prof reg = Err e -> e = RegisterCount \/ e = UnknownModule \/ e = ChannelParameter) /\
  (forall p, start_up prof reg = Panic p -> p = Unsupported) /\
  (start_up prof reg = Panic Unsupported <->
     exists rack, shows reg rack /\
       ((exists s, In s rack /\ documented_param_count (s_type s) = None) \/
        (exists i s, nth_error rack i = Some s /\ not_supported s /\ forall j x, (j < i)%nat -> nth_error rack j = Some x -> supported x))).
Proof.
  intros prof reg Hreg Hle. pose proof (boots_all prof reg Hreg Hle) as HB. split; [|split; [|split; [|split; [|split]]]].
  - split; [|apply no_modules]. intros E. destruct HB as [H0 H|i _ _ H|rack c' H1 H2 H3 H|rack _ _ H|rack i s _ _ _ _ _ H]; congruence.
  - split; [|intros (i & Hi & Hu); exact (unknown_module prof reg i Hreg Hi Hu)].
    intros E. destruct HB as [H0 H|i Hi Hu H|rack c' H1 H2 H3 H|rack _ _ H|rack i s _ _ _ _ _ H]; try congruence. eauto.
  - split.
    + intros E. destruct HB as [H0 H|i Hi Hu H|rack c' H1 H2 H3 H|rack _ _ H|rack i s A1 A2 A3 A4 A5 H]; try congruence.
      exists rack, i, s. auto.
    + intros (rack & i & s & A1 & A2 & A3 & A4 & A5). refine (proj2 (stops prof reg rack i s Hreg _ A1 A5 A2 A4) A3).
      destruct A1 as [A1 _]. lia.
  - intros e E. destruct HB as [H0 H|i Hi Hu H|rack c' H1 H2 H3 H|rack _ _ H|rack i s A1 A2 A3 A4 A5 H]; rewrite E in H; try discriminate;
      injection H as ->; auto.
  - intros p E. destruct HB as [H0 H|i Hi Hu H|rack c' H1 H2 H3 H|rack A1 A2 H|rack i s _ _ _ _ _ H]; rewrite E in H; try discriminate.
    injection H as ->. reflexivity.
  - split.
    + intros E. destruct HB as [H0 H|i Hi Hu H|rack c' H1 H2 H3 H|rack A1 A2 H|rack i s _ _ _ _ _ H]; try congruence. exists rack. auto.
    + intros (rack & A1 & A2). assert (Hlen : (length rack <= 64)%nat) by (destruct A1 as [A1 _]; lia).
      destruct (counted_dec rack) as [Hd|Hd]; [|exact (uncounted prof reg _ Hlen A1 Hd)].
      destruct A2 as [(s & Hs & Hn)|(i & s & Hi & Hn & Hlt)].
      * exfalso. exact (proj1 (Forall_forall _ _) Hd s Hs Hn).
      * exact (proj1 (stops prof reg rack i s Hreg Hlen A1 Hd Hi Hlt) Hn).
Qed.

Lemma windows_large ms l : (64 < length ms)%nat -> param_addresses_and_register_counts Debug ms <> Ok l.
Proof.
  intros H E. unfold param_addresses_and_register_counts in E. apply traverse_ok in E. apply Forall2_nth_error in E. destruct E as [El E].
  rewrite enumerate_length in El. destruct (nth_error ms 64) as [t|] eqn:Et; [|apply nth_error_None in Et; lia].
  destruct (nth_error l 64) as [w|] eqn:Ew; [|apply nth_error_None in Ew; lia].
  specialize (E 64%nat (64%nat, t) w). rewrite nth_error_enumerate, Et in E. specialize (E eq_refl Ew). vm_compute in E. discriminate.
Qed.

Lemma C73_large_all : forall reg, (forall a, is_u16 (reg a)) -> 64 < reg 0x27FE -> forall c, start_up Debug reg <> Ok c.
Proof.
  intros reg Hreg Hn c. unfold start_up. change ADDR_CURRENT_MODULE_COUNT with 0x27FE. rewrite (list_read reg Hreg) by (unfold count; lia).
  destruct (traverse (list_step reg) (seq 0 (count reg))) as [ts|e|p] eqn:Et; cbn [bind]; try discriminate.
  apply traverse_ok in Et. apply Forall2_nth_error in Et. destruct Et as [Hl _]. rewrite seq_length in Hl. unfold count in Hl.
  destruct (param_addresses_and_register_counts Debug ts) as [l|e|p] eqn:El; cbn [bind]; try discriminate.
  exfalso. refine (windows_large ts l _ El). lia.
Qed.

Lemma C73_unsupported_all : forall prof reg rack, (forall a, is_u16 (reg a)) -> (length rack <= 64)%nat -> shows reg rack ->
  Exists not_supported rack -> forall c, start_up prof reg <> Ok c.
Proof.
  intros prof reg rack Hreg Hlen Hsh Hex c Hc. assert (Hne : rack <> []) by (intros ->; inversion Hex).
  assert (Hle : reg 0x27FE <= 64) by (destruct Hsh as [-> _]; lia).
  destruct (proj1 (C73_success_all prof reg Hreg Hle) (ex_intro _ c Hc)) as (rack' & Hne' & Hsh' & Hs').
  pose proof (types_read reg rack Hsh Hne) as T1. pose proof (types_read reg rack' Hsh' Hne') as T2.
  assert (L : length rack = length rack') by (destruct Hsh as [A _], Hsh' as [B _]; lia).
  rewrite L in T1. rewrite T1 in T2. apply Ok_inj in T2. apply Exists_exists in Hex. destruct Hex as (s & Hin & Hn).
  assert (Hin' : In (s_type s) (map s_type rack')) by (rewrite <- T2; apply in_map; exact Hin).
  apply in_map_iff in Hin'. destruct Hin' as (s' & E & Hs). rewrite Forall_forall in Hs'. destruct (Hs' s' Hs) as [(b & B & _) _].
  rewrite E in B. unfold not_supported in Hn. congruence.
Qed.
