(** Proofs about the layout of the output image: C40, C42 (outputs), C51. *)
From Coq Require Import ZArith List Bool Lia ZifyBool ZifyNat.
From Verif Require Import Base Facts F32 Types Lib Util Digital Analog Fcnt Com Fbc
  SpecCodec SpecSerial SpecCoupler SpecImage ProofsAddr ProofsCodec ProofsFcnt ProofsSerialCodec
  ProofsModule ProofsImage.
Import ListNotations.
Local Open Scope Z_scope.
Ltac Zify.zify_post_hook ::= Z.div_mod_to_equations.

(** The loop over modules paired with their values. *)
Fixpoint steps (prof : profile) (l : list ((module * module_offset) * list channel_value)) (out : list Z)
  : outcome (list Z) :=
  match l with
  | [] => Ok out
  | ((m, o), v) :: t => let? out := output_step prof m o v out in steps prof t out
  end.

Lemma output_loop_steps prof ms : forall k values out, length values = (k + length ms)%nat ->
  output_loop prof (enumerate_from k ms) values out = steps prof (combine ms (skipn k values)) out.
Proof.
  induction ms as [|(m & o) ms IH]; intros k values out Hl; cbn [enumerate_from output_loop combine steps];
    [reflexivity|].
  cbn [length] in Hl. rewrite (firstn_skipn_S values k []) by lia. cbn [combine steps].
  rewrite (index_lt values k []) by lia. cbn [bind].
  unfold output_step at 2. destruct (mo_output o) as [off|] eqn:Eo.
  - replace (output_step prof m o (nth k values []) out) with
      (output_step prof m o (nth k values []) out) by reflexivity.
    unfold output_step. rewrite Eo.
    match goal with |- bind ?x _ = bind ?x _ => destruct x; cbn [bind]; try reflexivity end.
    apply IH. lia.
  - cbn [bind]. apply IH. lia.
Qed.

Lemma process_output_values_steps prof ms values : length values = length ms ->
  process_output_values prof ms values = steps prof (combine ms values) [].
Proof.
  intros H. unfold process_output_values. rewrite H, Nat.eqb_refl. cbn [negb].
  unfold enumerate. rewrite output_loop_steps by exact H. reflexivity.
Qed.

(** How modules are laid out: the data of a module on a register boundary are appended, a module
    in the middle of a register replaces the high byte of the last register. *)
Inductive lays : list (module_offset * list Z) -> list Z -> list Z -> Prop :=
| L_nil out : lays [] out out
| L_none o d ps out image : mo_output o = None -> lays ps out image -> lays ((o, d) :: ps) out image
| L_word o d off ps out image : mo_output o = Some off -> off mod 16 = 0 ->
    off / 16 = 0x0800 + Z.of_nat (length out) -> lays ps (out ++ d) image ->
    lays ((o, d) :: ps) out image
| L_byte o w d off ps out last image : mo_output o = Some off -> off mod 16 = 8 ->
    off / 16 = 0x0800 + Z.of_nat (length out) ->
    lays ps (out ++ [w mod 256 * 256 + last mod 256]) image ->
    lays ((o, w :: d) :: ps) (out ++ [last]) image.

Definition encodes (prof : profile) (x : (module * module_offset) * list channel_value)
  (p : module_offset * list Z) : Prop :=
  fst p = snd (fst x) /\
  match mo_output (fst p) with
  | Some _ => mod_process_output_values prof (fst (fst x)) (snd x) = Ok (snd p)
  | None => snd p = []
  end.

Lemma split_last {A} (l : list A) n : length l = (n + 1)%nat -> exists t a, l = t ++ [a] /\ length t = n.
Proof.
  intros H. destruct (exists_last (l := l)) as (t & a & ->).
  { intros E. rewrite E in H. cbn [length] in H. lia. }
  exists t, a. split; [reflexivity|]. rewrite app_length in H. cbn [length] in H. lia.
Qed.

Lemma store_last {A} (t : list A) a b : store (t ++ [a]) (length t) b = Ok (t ++ [b]).
Proof. induction t as [|x t IH]; [reflexivity|]. cbn [app length store]. rewrite IH. reflexivity. Qed.

Lemma index_last {A} (t : list A) a : index (t ++ [a]) (length t) = Ok a.
Proof. apply index_ok. rewrite nth_error_app2, Nat.sub_diag by lia. reflexivity. Qed.

Lemma high_low b w : 0 <= b < 256 ->
  Z.lor (as_u16 (Z.shiftl b 8)) (Z.land w 255) = b * 256 + w mod 256.
Proof.
  intros Hb. change 255 with (2 ^ 8 - 1). rewrite land_pow2_mask by lia. change (2 ^ 8) with 256.
  unfold as_u16. rewrite Z.shiftl_mul_pow2 by lia. change (2 ^ 8) with 256.
  rewrite Z.mod_small by lia. rewrite Z.lor_comm.
  replace (b * 256) with (Z.shiftl b 8) by (rewrite Z.shiftl_mul_pow2 by lia; reflexivity).
  rewrite lor_shiftl_add; [rewrite Z.shiftl_mul_pow2 by lia; change (2 ^ 8) with 256; lia|lia|].
  change (2 ^ 8) with 256. lia.
Qed.

(** One module. *)
Definition off_ok (o : module_offset) : Prop := forall off, mo_output o = Some off -> is_u16 off.

Inductive stepped (o : module_offset) (d out : list Z) : outcome (list Z) -> Prop :=
| S_none : mo_output o = None -> stepped o d out (Ok out)
| S_word off : mo_output o = Some off -> off mod 16 = 0 ->
    off / 16 = 0x0800 + Z.of_nat (length out) -> stepped o d out (Ok (out ++ d))
| S_byte off t last w r : mo_output o = Some off -> off mod 16 = 8 -> out = t ++ [last] ->
    off / 16 = 0x0800 + Z.of_nat (length t) -> d = w :: r ->
    stepped o d out (Ok (t ++ [w mod 256 * 256 + last mod 256]))
| S_empty off t last : mo_output o = Some off -> off mod 16 = 8 -> out = t ++ [last] ->
    off / 16 = 0x0800 + Z.of_nat (length t) -> d = [] -> stepped o d out (Panic IndexOutOfBounds)
| S_offset off : mo_output o = Some off ->
    ~ (off mod 16 = 0 /\ off / 16 = 0x0800 + Z.of_nat (length out)) ->
    ~ (off mod 16 = 8 /\ 0x0800 <= off / 16 /\ off / 16 + 1 = 0x0800 + Z.of_nat (length out)) ->
    stepped o d out (Err ModuleOffsetError).

Lemma output_step_cases prof m o v out d : off_ok o ->
  (mo_output o <> None -> mod_process_output_values prof m v = Ok d) ->
  stepped o d out (output_step prof m o v out).
Proof.
  intros Ho Hd. unfold output_step. destruct (mo_output o) as [off|] eqn:Eo; [|constructor; exact Eo].
  specialize (Ho off Eo). rewrite Hd by discriminate. cbn [bind].
  rewrite to_register_address_eq by exact Ho. unfold is_u16 in Ho.
  unfold ADDR_PACKED_PROCESS_OUTPUT_DATA. destruct (Z.ltb_spec (off / 16) 2048) as [Hs|Hs].
  { eapply S_offset; [exact Eo| |]; lia. }
  destruct (Z.eq_dec (off mod 16) 0) as [E0|E0].
  { rewrite E0. change (Z.to_nat 0) with 0%nat. cbv iota.
    destruct (Nat.eqb_spec (length out) (Z.to_nat (off / 16 - 2048))) as [El|El]; cbn [negb].
    - eapply S_word; [exact Eo|exact E0|lia].
    - eapply S_offset; [exact Eo| |]; lia. }
  destruct (Z.eq_dec (off mod 16) 8) as [E8|E8].
  { rewrite E8. change (Z.to_nat 8) with 8%nat. cbv iota.
    destruct (Nat.eqb_spec (length out) (Z.to_nat (off / 16 - 2048) + 1)) as [El|El]; cbn [negb].
    - destruct (split_last out _ El) as (t & last & -> & Ht). rewrite <- Ht. rewrite index_last. cbn [bind].
      rewrite u16_to_u8_bytes. destruct d as [|w r].
      + cbn [bytes_of_words flat_map index nth_error bind].
        eapply S_empty; [exact Eo|exact E8|reflexivity|lia|reflexivity].
      + cbn [bytes_of_words flat_map app index nth_error bind].
        rewrite high_low by lia. rewrite store_last.
        eapply S_byte; [exact Eo|exact E8|reflexivity|lia|reflexivity].
    - eapply S_offset; [exact Eo| |]; lia. }
  assert (Hc : exists k, (k < 16)%nat /\ k <> 0%nat /\ k <> 8%nat /\ Z.to_nat (off mod 16) = k)
    by (exists (Z.to_nat (off mod 16)); lia).
  destruct Hc as (k & Hk & H0 & H8 & ->).
  do 16 (destruct k as [|k]; [first [lia|eapply S_offset; [exact Eo| |]; lia]|]). lia.
Qed.

Lemma steps_lays prof l : forall out image, Forall (fun x => off_ok (snd (fst x))) l ->
  steps prof l out = Ok image -> exists ps, Forall2 (encodes prof) l ps /\ lays ps out image.
Proof.
  induction l as [|((m & o) & v) l IH]; intros out image Hoff H; cbn [steps] in H.
  - apply Ok_inj in H. subst image. exists []. split; constructor.
  - apply bind_ok in H. destruct H as (out' & Hs & H). inversion Hoff as [|? ? Ho Hoff']; subst.
    cbn [fst snd] in Ho.
    destruct (IH out' image Hoff' H) as (ps & Hps & HL).
    destruct (mo_output o) as [off|] eqn:Eo.
    + assert (Hd : exists d, mod_process_output_values prof m v = Ok d).
      { unfold output_step in Hs. rewrite Eo in Hs. apply bind_ok in Hs. destruct Hs as (d & Hd & _). eauto. }
      destruct Hd as (d & Hd).
      pose proof (output_step_cases prof m o v out d Ho (fun _ => Hd)) as Hc. rewrite Hs in Hc.
      exists ((o, d) :: ps). split.
      { constructor; [|exact Hps]. split; [reflexivity|]. cbn [fst snd]. rewrite Eo. exact Hd. }
      inversion Hc as [Hn E|off' Ho' E0 El E|off' t last w r Ho' E8 -> El -> E| |]; subst; try congruence.
      * eapply L_word; eassumption.
      * eapply L_byte; eassumption.
    + exists ((o, []) :: ps). split.
      { constructor; [|exact Hps]. split; [reflexivity|]. cbn [fst snd]. rewrite Eo. reflexivity. }
      apply L_none; [exact Eo|]. unfold output_step in Hs. rewrite Eo in Hs. apply Ok_inj in Hs. subst out'. exact HL.
Qed.

(** *** Facts about layouts *)

Definition claimed (ps : list (module_offset * list Z)) (b : nat) : Prop :=
  exists o d, In (o, d) ps /\ claims o d b.

Lemma first_word off n : 0 <= off -> off mod 16 = 0 -> off / 16 = 0x0800 + Z.of_nat n ->
  first_byte 0x0800 off = (2 * n)%nat.
Proof. intros H0 H1 H2. unfold first_byte. lia. Qed.
Lemma first_byte8 off n : 0 <= off -> off mod 16 = 8 -> off / 16 = 0x0800 + Z.of_nat n ->
  first_byte 0x0800 off = (2 * n + 1)%nat.
Proof. intros H0 H1 H2. unfold first_byte. lia. Qed.

Lemma claims_word o d off n b : mo_output o = Some off -> off mod 16 = 0 ->
  off / 16 = 0x0800 + Z.of_nat n -> (claims o d b <-> (2 * n <= b < 2 * n + 2 * length d)%nat).
Proof.
  intros Eo E El. unfold claims. split.
  - intros (off' & Eo' & H). rewrite Eo in Eo'. apply Some_inj in Eo'. subst off'.
    rewrite (first_word off n) in H by lia. rewrite E in H. cbn [Z.eqb] in H. lia.
  - intros H. exists off. split; [exact Eo|]. rewrite (first_word off n) by lia. rewrite E. cbn [Z.eqb]. lia.
Qed.

Lemma claims_byte o d off n b : mo_output o = Some off -> off mod 16 = 8 ->
  off / 16 = 0x0800 + Z.of_nat n -> (claims o d b <-> b = (2 * n + 1)%nat).
Proof.
  intros Eo E El. unfold claims. split.
  - intros (off' & Eo' & H). rewrite Eo in Eo'. apply Some_inj in Eo'. subst off'.
    rewrite (first_byte8 off n) in H by lia. rewrite E in H. cbn [Z.eqb] in H. lia.
  - intros H. exists off. split; [exact Eo|]. rewrite (first_byte8 off n) by lia. rewrite E. cbn [Z.eqb]. lia.
Qed.

Lemma nth_bytes_app a b i : nth_error (bytes_of_words (a ++ b)) i =
  if Nat.ltb i (2 * length a) then nth_error (bytes_of_words a) i
  else nth_error (bytes_of_words b) (i - 2 * length a).
Proof.
  rewrite bytes_app. destruct (Nat.ltb_spec i (2 * length a)) as [H|H].
  - apply nth_error_app1. rewrite bytes_of_words_length. exact H.
  - rewrite nth_error_app2 by (rewrite bytes_of_words_length; exact H).
    rewrite bytes_of_words_length. reflexivity.
Qed.

Lemma nth_bytes_replaced t last w i :
  nth_error (bytes_of_words (t ++ [w mod 256 * 256 + last mod 256])) i =
  if Nat.eqb i (2 * length t + 1) then Some (w mod 256) else nth_error (bytes_of_words (t ++ [last])) i.
Proof.
  rewrite !nth_bytes_app. destruct (Nat.ltb_spec i (2 * length t)) as [H|H].
  - destruct (Nat.eqb_spec i (2 * length t + 1)); [lia|reflexivity].
  - cbn [bytes_of_words flat_map app]. destruct (Nat.eqb_spec i (2 * length t + 1)) as [E|E].
    + subst i. replace (2 * length t + 1 - 2 * length t)%nat with 1%nat by lia. cbn [nth_error]. f_equal. lia.
    + destruct (i - 2 * length t)%nat as [|[|k]] eqn:Ek; [|lia|destruct k; reflexivity].
      cbn [nth_error]. f_equal. lia.
Qed.

Lemma lays_facts ps out image : lays ps out image ->
  (length out <= length image)%nat /\
  (forall b, (b < 2 * length out)%nat -> ~ claimed ps b ->
     nth_error (bytes_of_words image) b = nth_error (bytes_of_words out) b) /\
  (forall b, (2 * length out <= b < 2 * length image)%nat -> claimed ps b) /\
  (forall o d b, In (o, d) ps -> claims o d b -> (b < 2 * length image)%nat) /\
  (forall o d off, In (o, d) ps -> mo_output o = Some off -> off mod 16 = 0 ->
     (2 * length out <= first_byte 0x0800 off)%nat).
Proof.
  induction 1 as [out|o d ps out image Eo _ IH|o d off ps out image Eo E El _ IH
                 |o w d off ps out last image Eo E El _ IH].
  - split; [lia|]. split; [reflexivity|]. split; [intros; lia|]. split; intros * [].
  - destruct IH as (F1 & F2 & F3 & F4 & F5). repeat match goal with |- _ /\ _ => split end.
    + exact F1.
    + intros b Hb Hn. apply F2; [exact Hb|]. intros (o' & d' & Hi & Hc). apply Hn.
      exists o', d'. split; [right; exact Hi|exact Hc].
    + intros b Hb. destruct (F3 b Hb) as (o' & d' & Hi & Hc). exists o', d'. split; [right; exact Hi|exact Hc].
    + intros o' d' b [Hi|Hi] Hc.
      * apply pair_inj in Hi. destruct Hi as [<- <-]. destruct Hc as (off & Hx & _). congruence.
      * eapply F4; eassumption.
    + intros o' d' off [Hi|Hi] Eo' E0.
      * apply pair_inj in Hi. destruct Hi as [<- <-]. congruence.
      * eapply F5; eassumption.
  - destruct IH as (F1 & F2 & F3 & F4 & F5). rewrite app_length in *.
    pose proof (claims_word o d off (length out) ) as HC.
    repeat match goal with |- _ /\ _ => split end.
    + lia.
    + intros b Hb Hn. rewrite F2; [|lia|].
      * rewrite nth_bytes_app. replace (Nat.ltb b (2 * length out)) with true by lia. reflexivity.
      * intros (o' & d' & Hi & Hc). apply Hn. exists o', d'. split; [right; exact Hi|exact Hc].
    + intros b Hb. destruct (Nat.ltb_spec b (2 * (length out + length d))) as [Hd|Hd].
      * exists o, d. split; [left; reflexivity|]. apply HC; auto. lia.
      * destruct (F3 b) as (o' & d' & Hi & Hc); [lia|]. exists o', d'. split; [right; exact Hi|exact Hc].
    + intros o' d' b [Hi|Hi] Hc.
      * apply pair_inj in Hi. destruct Hi as [<- <-]. apply HC in Hc; auto. lia.
      * eapply F4; eassumption.
    + intros o' d' off' [Hi|Hi] Eo' E0.
      * apply pair_inj in Hi. destruct Hi as [<- <-]. rewrite Eo in Eo'. apply Some_inj in Eo'. subst off'.
        rewrite (first_word off (length out)) by lia. lia.
      * specialize (F5 o' d' off' Hi Eo' E0). lia.
  - destruct IH as (F1 & F2 & F3 & F4 & F5). rewrite app_length in *. cbn [length] in *.
    pose proof (claims_byte o (w :: d) off (length out)) as HC.
    repeat match goal with |- _ /\ _ => split end.
    + exact F1.
    + intros b Hb Hn. rewrite F2; [|exact Hb|].
      * rewrite nth_bytes_replaced. destruct (Nat.eqb_spec b (2 * length out + 1)) as [Eb|Eb]; [|reflexivity].
        exfalso. apply Hn. exists o, (w :: d). split; [left; reflexivity|]. apply HC; auto.
      * intros (o' & d' & Hi & Hc). apply Hn. exists o', d'. split; [right; exact Hi|exact Hc].
    + intros b Hb. destruct (F3 b Hb) as (o' & d' & Hi & Hc). exists o', d'. split; [right; exact Hi|exact Hc].
    + intros o' d' b [Hi|Hi] Hc.
      * apply pair_inj in Hi. destruct Hi as [<- <-]. apply HC in Hc; auto. lia.
      * eapply F4; eassumption.
    + intros o' d' off' [Hi|Hi] Eo' E0.
      * apply pair_inj in Hi. destruct Hi as [<- <-]. congruence.
      * specialize (F5 o' d' off' Hi Eo' E0). lia.
Qed.

Lemma lays_app pre : forall q out image, lays (pre ++ q) out image ->
  exists mid, lays pre out mid /\ lays q mid image.
Proof.
  induction pre as [|(o & d) pre IH]; intros q out image H; cbn [app] in H.
  - exists out. split; [constructor|exact H].
  - inversion H as [|? ? ? ? ? Eo HL|? ? off ? ? ? Eo E El HL|? w d' off ? out' last ? Eo E El HL]; subst.
    + destruct (IH _ _ _ HL) as (mid & H1 & H2). exists mid. split; [apply L_none; assumption|exact H2].
    + destruct (IH _ _ _ HL) as (mid & H1 & H2). exists mid. split; [eapply L_word; eassumption|exact H2].
    + destruct (IH _ _ _ HL) as (mid & H1 & H2). exists mid. split; [eapply L_byte; eassumption|exact H2].
Qed.

Lemma lays_own pre o d post out image off : lays (pre ++ (o, d) :: post) out image ->
  mo_output o = Some off ->
  0x8000 <= off /\ (off mod 16 = 0 \/ (off mod 16 = 8 /\ d <> [])) /\
  (forall k, (k < if (off mod 16 =? 0)%Z then 2 * length d else 1)%nat ->
     ~ claimed post (first_byte 0x0800 off + k) ->
     nth_error (bytes_of_words image) (first_byte 0x0800 off + k) = nth_error (bytes_of_words d) k).
Proof.
  intros H Eo. destruct (lays_app _ _ _ _ H) as (mid & _ & HL).
  inversion HL as [|? ? ? ? ? Eo' HL'|? ? off' ? ? ? Eo' E El HL'|? w d' off' ? out' last ? Eo' E El HL']; subst.
  - congruence.
  - rewrite Eo in Eo'. apply Some_inj in Eo'. subst off'. split; [lia|]. split; [left; exact E|].
    rewrite (first_word off (length mid)) by lia. rewrite E. cbn [Z.eqb]. intros k Hk Hn.
    destruct (lays_facts _ _ _ HL') as (_ & F2 & _). rewrite F2; [|rewrite app_length; lia|exact Hn].
    rewrite nth_bytes_app. replace (Nat.ltb (2 * length mid + k) (2 * length mid)) with false by lia.
    f_equal. lia.
  - rewrite Eo in Eo'. apply Some_inj in Eo'. subst off'. split; [lia|]. split; [right; split; [exact E|discriminate]|].
    rewrite (first_byte8 off (length out')) by lia. rewrite E. cbn [Z.eqb]. intros k Hk Hn.
    destruct (lays_facts _ _ _ HL') as (_ & F2 & _).
    rewrite F2; [|rewrite app_length; cbn [length]; lia|exact Hn].
    rewrite nth_bytes_replaced. replace k with 0%nat by lia. rewrite Nat.add_0_r, Nat.eqb_refl. reflexivity.
Qed.

(** Modules on register boundaries do not overlap. *)
Lemma lays_order pre o d mid o' d' post out image off off' :
  lays (pre ++ (o, d) :: mid ++ (o', d') :: post) out image ->
  mo_output o = Some off -> off mod 16 = 0 -> mo_output o' = Some off' -> off' mod 16 = 0 ->
  (first_byte 0x0800 off + 2 * length d <= first_byte 0x0800 off')%nat.
Proof.
  intros H Eo E0 Eo' E0'. destruct (lays_app _ _ _ _ H) as (w & _ & HL).
  inversion HL as [|? ? ? ? ? Ex HL'|? ? off1 ? ? ? Ex E El HL'|? w1 d1 off1 ? out' last ? Ex E El HL']; subst;
    rewrite Eo in Ex; try discriminate; apply Some_inj in Ex; subst off1; [|lia].
  destruct (lays_facts _ _ _ HL') as (_ & _ & _ & _ & F5).
  specialize (F5 o' d' off'). rewrite app_length in F5. rewrite (first_word off (length w)) by lia.
  enough (2 * (length w + length d) <= first_byte 2048 off')%nat by lia.
  apply F5; auto. apply in_or_app. right. left. reflexivity.
Qed.

(** A byte claimed twice: the later module sits in the middle of a register. *)
Lemma lays_twice pre o d mid o' d' post out image off' b :
  lays (pre ++ (o, d) :: mid ++ (o', d') :: post) out image ->
  claims o d b -> claims o' d' b -> mo_output o' = Some off' -> off' mod 16 = 8.
Proof.
  intros H (off & Eo & Hb) Hc' Eo'.
  assert (Hin : In (o', d') (mid ++ (o', d') :: post)) by (apply in_or_app; right; left; reflexivity).
  assert (Hx : pre ++ (o, d) :: mid ++ (o', d') :: post = (pre ++ (o, d) :: mid) ++ (o', d') :: post)
    by (rewrite <- app_assoc; reflexivity).
  pose proof H as Hw. rewrite Hx in Hw.
  destruct (lays_own _ _ _ _ _ _ _ Hw Eo') as (_ & [E|[E _]] & _); [|exact E].
  exfalso. destruct (lays_app _ _ _ _ H) as (w & _ & HL).
  inversion HL as [|? ? ? ? ? Ex HL'|? ? off1 ? ? ? Ex E1 El HL'|? w1 d1 off1 ? out' last ? Ex E1 El HL']; subst;
    rewrite Eo in Ex; try discriminate; apply Some_inj in Ex; subst off1;
    destruct (lays_facts _ _ _ HL') as (_ & _ & _ & _ & F5); specialize (F5 o' d' off' Hin Eo' E);
    destruct Hc' as (off2 & Eo2 & Hb2); rewrite Eo' in Eo2; apply Some_inj in Eo2; subst off2;
    rewrite app_length in F5; rewrite E1 in Hb; cbn [Z.eqb] in Hb.
  - rewrite (first_word off (length w)) in Hb by lia. lia.
  - rewrite (first_byte8 off (length out')) in Hb by lia. cbn [length] in F5. lia.
Qed.

(** *** Back to the module list *)

Lemma nth_split2 {A} (l : list A) i j a b : (i < j)%nat -> nth_error l i = Some a -> nth_error l j = Some b ->
  exists pre mid post, l = pre ++ a :: mid ++ b :: post.
Proof.
  intros Hij Hi Hj. destruct (nth_error_split l i Hi) as (pre & rest & -> & Hl).
  rewrite nth_error_app2 in Hj by lia. destruct (j - length pre)%nat as [|k] eqn:E; [lia|].
  cbn [nth_error] in Hj. destruct (nth_error_split rest k Hj) as (mid & post & -> & _). eauto.
Qed.

Lemma nth_error_combine {A B} (l : list A) (r : list B) i :
  nth_error (combine l r) i =
  match nth_error l i, nth_error r i with Some a, Some b => Some (a, b) | _, _ => None end.
Proof.
  revert r i. induction l as [|a l IH]; intros r i.
  - destruct i; reflexivity.
  - destruct r as [|b r]; destruct i as [|i]; cbn [combine nth_error]; try reflexivity.
    + destruct (nth_error l i); reflexivity.
    + apply IH.
Qed.

Lemma process_lays prof ms values image : Forall (fun mo => off_ok (snd mo)) ms ->
  process_output_values prof ms values = Ok image ->
  length values = length ms /\
  exists ps, length ps = length ms /\ lays ps [] image /\
    forall i m o, nth_error ms i = Some (m, o) ->
      exists d, nth_error ps i = Some (o, d) /\
        (mo_output o = None -> d = []) /\
        (mo_output o <> None -> exists vs, nth_error values i = Some vs /\ mod_process_output_values prof m vs = Ok d).
Proof.
  intros Hoff H.
  assert (Hl : length values = length ms).
  { unfold process_output_values in H. destruct (Nat.eqb_spec (length ms) (length values)); [auto|discriminate]. }
  split; [exact Hl|]. rewrite process_output_values_steps in H by exact Hl.
  assert (Hoff' : Forall (fun x => off_ok (snd (fst x))) (combine ms values)).
  { apply Forall_forall. intros ((m & o) & v) Hin. apply in_combine_l in Hin.
    rewrite Forall_forall in Hoff. exact (Hoff _ Hin). }
  destruct (steps_lays prof _ _ _ Hoff' H) as (ps & HF & HL). exists ps.
  pose proof (Forall2_length _ _ _ HF) as Hlen. rewrite combine_length in Hlen.
  split; [lia|]. split; [exact HL|]. intros i m o Hi.
  pose proof (nth_error_Some_lt _ _ _ Hi) as Hlt.
  destruct (nth_error_lt_Some values i) as (vs & Hv); [lia|].
  destruct (nth_error_lt_Some ps i) as ((o' & d) & Hp); [lia|].
  apply Forall2_nth_error in HF. destruct HF as (_ & HF).
  specialize (HF i ((m, o), vs) (o', d)). rewrite nth_error_combine, Hi, Hv in HF.
  destruct (HF eq_refl Hp) as (E1 & E2). cbn [fst snd] in *. subst o'.
  exists d. split; [exact Hp|]. destruct (mo_output o).
  - split; [discriminate|]. intros _. exists vs. auto.
  - split; [auto|congruence].
Qed.

Lemma C40_all : forall prof ms values image,
  (forall i m o off, nth_error ms i = Some (m, o) -> mo_output o = Some off -> is_u16 off) ->
  process_output_values prof ms values = Ok image ->
  length values = length ms /\
  exists datas, length datas = length ms /\
    (forall i m o d off, nth_error ms i = Some (m, o) -> nth_error datas i = Some d ->
       mo_output o = Some off ->
       (exists vs, nth_error values i = Some vs /\ mod_process_output_values prof m vs = Ok d) /\
       0x8000 <= off /\ (off mod 16 = 0 \/ (off mod 16 = 8 /\ d <> [])) /\
       forall k, (k < if (off mod 16 =? 0)%Z then 2 * length d else 1)%nat ->
         (forall j m' o' d', (i < j)%nat -> nth_error ms j = Some (m', o') -> nth_error datas j = Some d' ->
            ~ claims o' d' (first_byte 0x0800 off + k)) ->
         nth_error (bytes_of_words image) (first_byte 0x0800 off + k) = nth_error (bytes_of_words d) k) /\
    (forall b, (b < 2 * length image)%nat <->
       exists i m o d, nth_error ms i = Some (m, o) /\ nth_error datas i = Some d /\ claims o d b) /\
    (forall i j m o d off m' o' off', (i < j)%nat ->
       nth_error ms i = Some (m, o) -> nth_error datas i = Some d -> nth_error ms j = Some (m', o') ->
       mo_output o = Some off -> off mod 16 = 0 -> mo_output o' = Some off' -> off' mod 16 = 0 ->
       (first_byte 0x0800 off + 2 * length d <= first_byte 0x0800 off')%nat) /\
    (forall i j m o d m' o' d' off' b, (i < j)%nat ->
       nth_error ms i = Some (m, o) -> nth_error datas i = Some d ->
       nth_error ms j = Some (m', o') -> nth_error datas j = Some d' ->
       claims o d b -> claims o' d' b -> mo_output o' = Some off' -> off' mod 16 = 8).
Proof.
  intros prof ms values image Hoff H.
  assert (Hoff' : Forall (fun mo => off_ok (snd mo)) ms).
  { apply Forall_forall. intros (m & o) Hin. apply In_nth_error in Hin. destruct Hin as (i & Hi).
    intros off Ho. eapply Hoff; eassumption. }
  destruct (process_lays prof ms values image Hoff' H) as (Hl & ps & Hlp & HL & Hps).
  split; [exact Hl|]. exists (map snd ps). split; [rewrite map_length; exact Hlp|].
  assert (Hat : forall i m o d, nth_error ms i = Some (m, o) -> nth_error (map snd ps) i = Some d ->
            nth_error ps i = Some (o, d)).
  { intros i m o d Hi Hd. destruct (Hps i m o Hi) as (d' & Hp & _). rewrite nth_error_map, Hp in Hd.
    cbn [option_map snd] in Hd. apply Some_inj in Hd. subst d'. exact Hp. }
  split; [|split; [|split]].
  - intros i m o d off Hi Hd Eo. pose proof (Hat i m o d Hi Hd) as Hp.
    split.
    { destruct (Hps i m o Hi) as (d' & Hp' & _ & Hv). rewrite Hp in Hp'. apply Some_inj, pair_inj in Hp'.
      destruct Hp' as [_ <-]. apply Hv. rewrite Eo. discriminate. }
    destruct (nth_error_split ps i Hp) as (pre & post & -> & Hpre).
    destruct (lays_own _ _ _ _ _ _ _ HL Eo) as (H1 & H2 & H3). split; [exact H1|]. split; [exact H2|].
    intros k Hk Hn. apply H3; [exact Hk|]. intros (o' & d' & Hin & Hc).
    apply In_nth_error in Hin. destruct Hin as (j & Hj).
    assert (Hpj : nth_error (pre ++ (o, d) :: post) (S (i + j)) = Some (o', d')).
    { rewrite nth_error_app2 by lia. replace (S (i + j) - length pre)%nat with (S j) by lia. exact Hj. }
    destruct (nth_error_lt_Some ms (S (i + j))) as ((m' & o2) & Hm').
    { rewrite <- Hlp. eapply nth_error_Some_lt. exact Hpj. }
    destruct (Hps _ _ _ Hm') as (d2 & Hp2 & _). rewrite Hpj in Hp2. apply Some_inj, pair_inj in Hp2.
    destruct Hp2 as [<- <-].
    apply (Hn (S (i + j)) m' o' d'); [lia|exact Hm'| |exact Hc].
    rewrite nth_error_map, Hpj. reflexivity.
  - destruct (lays_facts _ _ _ HL) as (_ & _ & F3 & F4 & _). intros b. split.
    + intros Hb. destruct (F3 b) as (o & d & Hin & Hc); [cbn [length]; lia|].
      apply In_nth_error in Hin. destruct Hin as (i & Hi).
      destruct (nth_error_lt_Some ms i) as ((m & o2) & Hm). { rewrite <- Hlp. eapply nth_error_Some_lt. exact Hi. }
      destruct (Hps _ _ _ Hm) as (d2 & Hp2 & _). rewrite Hi in Hp2. apply Some_inj, pair_inj in Hp2.
      destruct Hp2 as [<- <-]. exists i, m, o, d. split; [exact Hm|]. split; [|exact Hc].
      rewrite nth_error_map, Hi. reflexivity.
    + intros (i & m & o & d & Hi & Hd & Hc). eapply F4; [|exact Hc]. eapply nth_error_In. eapply Hat; eassumption.
  - intros i j m o d off m' o' off' Hij Hi Hd Hj Eo E Eo' E'.
    destruct (Hps _ _ _ Hj) as (d' & Hpj & _).
    destruct (nth_split2 ps i j (o, d) (o', d') Hij (Hat _ _ _ _ Hi Hd) Hpj) as (pre & mid & post & ->).
    eapply lays_order; eassumption.
  - intros i j m o d m' o' d' off' b Hij Hi Hd Hj Hd' Hc Hc' Eo'.
    destruct (nth_split2 ps i j (o, d) (o', d') Hij (Hat _ _ _ _ Hi Hd) (Hat _ _ _ _ Hj Hd'))
      as (pre & mid & post & ->).
    eapply lays_twice; eassumption.
Qed.

(** Errors. *)
Lemma steps_err prof l : forall out e, Forall (fun x => off_ok (snd (fst x))) l ->
  steps prof l out = Err e ->
  e = ModuleOffsetError \/
  exists x, In x l /\ mo_output (snd (fst x)) <> None /\
    mod_process_output_values prof (fst (fst x)) (snd x) = Err e.
Proof.
  induction l as [|((m & o) & v) l IH]; intros out e Hoff H; cbn [steps] in H; [discriminate|].
  inversion Hoff as [|? ? Ho Hoff']; subst. cbn [fst snd] in Ho.
  destruct (output_step prof m o v out) as [out'|e'|p] eqn:Es; cbn [bind] in H; [|apply (f_equal (fun x => match x with Err e => e | _ => e end)) in H; subst e'|discriminate].
  - destruct (IH out' e Hoff' H) as [He|(x & Hin & Hx)]; [left; exact He|right; exists x; split; [right; exact Hin|exact Hx]].
  - destruct (mo_output o) as [off|] eqn:Eo.
    + destruct (mod_process_output_values prof m v) as [d|e'|p] eqn:Ed.
      * pose proof (output_step_cases prof m o v out d Ho (fun _ => Ed)) as Hc. rewrite Es in Hc.
        inversion Hc; subst. left. reflexivity.
      * right. exists ((m, o), v). split; [left; reflexivity|]. cbn [fst snd]. split; [congruence|].
        unfold output_step in Es. rewrite Eo, Ed in Es. cbn [bind] in Es. congruence.
      * unfold output_step in Es. rewrite Eo, Ed in Es. discriminate.
    + unfold output_step in Es. rewrite Eo in Es. discriminate.
Qed.

Lemma C40_err_all : forall prof ms values e,
  (forall i m o off, nth_error ms i = Some (m, o) -> mo_output o = Some off -> is_u16 off) ->
  process_output_values prof ms values = Err e ->
  (length values <> length ms /\ e = ChannelValueError) \/
  e = ModuleOffsetError \/
  exists i m o vs, nth_error ms i = Some (m, o) /\ mo_output o <> None /\ nth_error values i = Some vs /\
    mod_process_output_values prof m vs = Err e.
Proof.
  intros prof ms values e Hoff H.
  destruct (Nat.eq_dec (length values) (length ms)) as [Hl|Hl].
  - right. rewrite process_output_values_steps in H by exact Hl.
    destruct (steps_err prof (combine ms values) [] e) as [He|(x & Hin & Hx)].
    + apply Forall_forall. intros ((m & o) & v) Hin. apply in_combine_l, In_nth_error in Hin.
      destruct Hin as (i & Hi). intros off Ho. eapply Hoff; eassumption.
    + exact H.
    + left. exact He.
    + right. apply In_nth_error in Hin. destruct Hin as (i & Hi). rewrite nth_error_combine in Hi.
      destruct (nth_error ms i) as [(m & o)|] eqn:Em; [|discriminate].
      destruct (nth_error values i) as [vs|] eqn:Ev; [|discriminate]. apply Some_inj in Hi. subst x.
      cbn [fst snd] in Hx. exists i, m, o, vs. tauto.
  - left. split; [exact Hl|]. unfold process_output_values in H.
    replace (Nat.eqb (length ms) (length values)) with false in H by lia. cbn [negb] in H. congruence.
Qed.

(** *** C51 *)

Lemma steps_no_panic prof l : forall out, Forall (fun x => off_ok (snd (fst x))) l ->
  Forall (fun x => Forall valid_preset (snd x)) l ->
  (forall x off, In x l -> mo_output (snd (fst x)) = Some off -> off mod 16 = 8 ->
     (0 < output_words (fst (fst x)))%nat) ->
  Forall (fun x => Forall wire_value (snd x)) l ->
  no_panic (steps prof l out).
Proof.
  induction l as [|((m & o) & v) l IH]; intros out Hoff Hv Hb Hr; cbn [steps]; [exact I|].
  inversion Hoff as [|? ? Ho Hoff']; subst. inversion Hv as [|? ? Hv1 Hv']; subst.
  inversion Hr as [|? ? Hr1 Hr']; subst. cbn [fst snd] in *.
  apply bind_no_panic.
  2:{ intros out' _. apply IH; auto. intros x off Hin. apply Hb. right. exact Hin. }
  destruct (mo_output o) as [off|] eqn:Eo.
  - destruct (mod_process_output_values prof m v) as [d|e|p] eqn:Ed.
    + pose proof (output_step_cases prof m o v out d Ho (fun _ => Ed)) as Hc.
      inversion Hc as [| | |off' t last Eo' E8 El Et Ed'|]; subst; try exact I.
      exfalso. specialize (Hb ((m, o), v) off' (or_introl eq_refl) Eo' E8). cbn [fst] in Hb.
      destruct (encoded_words prof m v [] Hr1 Ed) as (Hl & _). cbn [length] in Hl. lia.
    + unfold output_step. rewrite Eo, Ed. exact I.
    + exfalso. pose proof (output_values_no_panic prof m v Hv1) as Hn. rewrite Ed in Hn. exact Hn.
  - unfold output_step. rewrite Eo. exact I.
Qed.

Lemma output_words_bytes m : output_words m = 0%nat <-> output_bytes m = 0%nat.
Proof. destruct m as [[]|[]| | | | | | |[]| | | |[]|]; cbn [output_words output_bytes message_size]; split; lia. Qed.

Lemma C51_wire : forall prof ms values,
  (forall i m o off, nth_error ms i = Some (m, o) -> mo_output o = Some off -> is_u16 off) ->
  (forall i m o off, nth_error ms i = Some (m, o) -> mo_output o = Some off -> off mod 16 = 8 ->
     output_bytes m <> 0%nat) ->
  Forall (Forall wire_value) values ->
  forall p, process_output_values prof ms values <> Panic p.
Proof.
  intros prof ms values Hoff H8 Hr. apply not_panic.
  destruct (Nat.eq_dec (length values) (length ms)) as [Hl|Hl].
  2:{ unfold process_output_values. replace (Nat.eqb (length ms) (length values)) with false by lia. exact I. }
  rewrite process_output_values_steps by exact Hl.
  assert (Hin : forall x, In x (combine ms values) -> (exists i, nth_error ms i = Some (fst x)) /\ In (snd x) values).
  { intros (mo & v) Hx. split; [apply in_combine_l, In_nth_error in Hx; exact Hx|eapply in_combine_r; exact Hx]. }
  rewrite Forall_forall in Hr.
  apply steps_no_panic.
  - apply Forall_forall. intros x Hx. destruct (Hin x Hx) as ((i & Hi) & _). intros off Ho.
    destruct x as ((m & o) & v). eapply Hoff; eassumption.
  - apply Forall_forall. intros x Hx. destruct (Hin x Hx) as (_ & Hv). specialize (Hr _ Hv).
    eapply Forall_impl; [|exact Hr]. intros v Hrv. destruct v; exact I || exact Hrv.
  - intros x off Hx Eo E8. destruct (Hin x Hx) as ((i & Hi) & _). destruct x as ((m & o) & v).
    cbn [fst snd] in *. specialize (H8 i m o off Hi Eo E8). pose proof (output_words_bytes m). lia.
  - apply Forall_forall. intros x Hx. destruct (Hin x Hx) as (_ & Hv). exact (Hr _ Hv).
Qed.

Lemma C51_partial_all : forall prof ms values,
  (forall i m o off, nth_error ms i = Some (m, o) -> mo_output o = Some off -> is_u16 off) ->
  (forall i m o off, nth_error ms i = Some (m, o) -> mo_output o = Some off -> off mod 16 = 8 ->
     output_bytes m <> 0%nat) ->
  Forall (Forall rust_value) values ->
  forall p, process_output_values prof ms values <> Panic p.
Proof.
  intros prof ms values Hoff H8 Hr. apply C51_wire; [exact Hoff|exact H8|].
  eapply Forall_impl; [|exact Hr]. exact rust_wires.
Qed.

(** *** When the image exists *)

Lemma lays_tiled ps out image : lays ps out image -> tiled (length out) ps.
Proof.
  induction 1 as [out|o d ps out image Eo _ IH|o d off ps out image Eo E El _ IH
                 |o w d off ps out last image Eo E El _ IH]; cbn [tiled].
  - exact I.
  - rewrite Eo. exact IH.
  - rewrite Eo. left. rewrite app_length in IH. split; [lia|exact IH].
  - rewrite Eo. right. rewrite app_length in *. cbn [length] in *.
    split; [lia|]. split; [lia|]. split; [discriminate|exact IH].
Qed.

Lemma tiled_steps prof l : forall out ps, Forall (fun x => off_ok (snd (fst x))) l ->
  Forall2 (encodes prof) l ps ->
  tiled (length out) ps -> exists image, steps prof l out = Ok image.
Proof.
  induction l as [|((m & o) & v) l IH]; intros out ps Hoff HF HT; inversion HF as [|? (o' & d) ? ps' He HF']; subst;
    cbn [steps]; [eauto|].
  inversion Hoff as [|? ? Ho Hoff']; subst. cbn [fst snd] in Ho.
  destruct He as [E1 E2]. cbn [fst snd] in E1, E2. subst o'. cbn [tiled] in HT.
  assert (Hd : mo_output o <> None -> mod_process_output_values prof m v = Ok d).
  { destruct (mo_output o); [intros _; exact E2|congruence]. }
  pose proof (output_step_cases prof m o v out d Ho Hd) as Hc.
  inversion Hc as [Eo E|off Eo E0 El E|off t last w r Eo E8 -> El -> E|off t last Eo E8 -> El -> E|off Eo N1 N2 E];
    rewrite Eo in HT; cbn [bind].
  - eapply IH; eassumption.
  - eapply IH; [exact Hoff'|exact HF'|]. rewrite app_length.
    destruct HT as [[_ HT]|[Hx _]]; [exact HT|exfalso; lia].
  - eapply IH; [exact Hoff'|exact HF'|]. rewrite app_length in *. cbn [length] in *.
    destruct HT as [[Hx _]|(_ & _ & _ & HT)]; [exfalso; lia|exact HT].
  - exfalso. rewrite app_length in HT. cbn [length] in HT. destruct HT as [[Hx _]|(_ & _ & Hx & _)]; [lia|congruence].
  - exfalso. destruct HT as [[Hx _]|(Hx & Hp & _)]; lia.
Qed.

Lemma Forall2_from_nth {A B} (R : A -> B -> Prop) l r : length l = length r ->
  (forall i a b, nth_error l i = Some a -> nth_error r i = Some b -> R a b) -> Forall2 R l r.
Proof.
  revert r. induction l as [|a l IH]; intros [|b r] Hl H; cbn [length] in Hl; try lia; constructor.
  - apply (H 0%nat); reflexivity.
  - apply IH; [lia|]. intros i x y Hx Hy. apply (H (S i)); assumption.
Qed.

Lemma C40_exists_all : forall prof ms values ps,
  (forall i m o off, nth_error ms i = Some (m, o) -> mo_output o = Some off -> is_u16 off) ->
  length values = length ms -> length ps = length ms ->
  (forall i m o vs o' d, nth_error ms i = Some (m, o) -> nth_error values i = Some vs ->
     nth_error ps i = Some (o', d) ->
     o' = o /\ (mo_output o = None -> d = []) /\ (mo_output o <> None -> mod_process_output_values prof m vs = Ok d)) ->
  (tiled 0 ps <-> exists image, process_output_values prof ms values = Ok image).
Proof.
  intros prof ms values ps Hoff Hl Hp Henc.
  assert (Hoff' : Forall (fun x : (module * module_offset) * list channel_value => off_ok (snd (fst x))) (combine ms values)).
  { apply Forall_forall. intros ((m & o) & v) Hin. apply in_combine_l, In_nth_error in Hin.
    destruct Hin as (i & Hi). intros off Ho. eapply Hoff; eassumption. }
  assert (HF : Forall2 (encodes prof) (combine ms values) ps).
  { apply Forall2_from_nth; [rewrite combine_length; lia|].
    intros i ((m & o) & v) (o' & d) Hi Hd. rewrite nth_error_combine in Hi.
    destruct (nth_error ms i) as [(m' & o2)|] eqn:Em; [|discriminate].
    destruct (nth_error values i) as [vs|] eqn:Ev; [|discriminate].
    apply Some_inj in Hi. apply pair_inj in Hi. destruct Hi as [Hi ->]. apply pair_inj in Hi. destruct Hi as [-> ->].
    destruct (Henc i m o v o' d Em Ev Hd) as (-> & H1 & H2). split; [reflexivity|]. cbn [fst snd].
    destruct (mo_output o); [apply H2; discriminate|apply H1; reflexivity]. }
  rewrite process_output_values_steps by exact Hl. split.
  - intros HT. eapply tiled_steps; eassumption.
  - intros (image & H). destruct (steps_lays prof _ _ _ Hoff' H) as (ps' & HF' & HL).
    assert (ps' = ps) as <-; [|apply lays_tiled in HL; exact HL].
    clear -HF HF'. revert ps HF. induction HF' as [|x p l ps' He HF' IH]; intros ps HF;
      inversion HF as [|? q ? ps2 Hq HF2]; subst; [reflexivity|]. f_equal; [|apply IH; exact HF2].
    destruct p as (o1 & d1), q as (o2 & d2). destruct He as [E1 E2], Hq as [E3 E4]. cbn [fst snd] in *. subst.
    f_equal. destruct (mo_output _); congruence.
Qed.

(** *** C42, encoding *)

Lemma nth_firstn {A} (l : list A) : forall n k, (k < n)%nat -> nth_error (firstn n l) k = nth_error l k.
Proof.
  induction l as [|a l IH]; intros [|n] [|k] H; try lia; cbn [firstn nth_error]; try reflexivity.
  apply IH. lia.
Qed.
Lemma nth_skipn {A} (l : list A) : forall n k, nth_error (skipn n l) k = nth_error l (n + k).
Proof.
  induction l as [|a l IH]; intros [|n] k; cbn [skipn nth_error Nat.add]; try reflexivity.
  - destruct k; reflexivity.
  - apply IH.
Qed.

Lemma output_one_word m : output_bytes m = 1%nat -> output_words m = 1%nat.
Proof. destruct m as [[]|[]| | | | | | |[]| | | |[]|]; cbn [output_words output_bytes message_size]; lia. Qed.

Lemma C42_enc_wire : forall prof ms values image i m o off,
  (forall j m' o' off', nth_error ms j = Some (m', o') -> mo_output o' = Some off' -> is_u16 off') ->
  Forall (Forall wire_value) values ->
  process_output_values prof ms values = Ok image ->
  nth_error ms i = Some (m, o) -> mo_output o = Some off ->
  (off mod 16 = 0 \/ output_bytes m = 1%nat) ->
  (forall j m' o' off', (i < j)%nat -> nth_error ms j = Some (m', o') -> mo_output o' = Some off' ->
     ~ (first_byte 0x0800 off <= first_byte 0x0800 off' < first_byte 0x0800 off + output_bytes m)%nat) ->
  exists vs d, nth_error values i = Some vs /\ mod_process_output_values prof m vs = Ok d /\
    image_bytes image (first_byte 0x0800 off) (output_bytes m) = firstn (output_bytes m) (bytes_of_words d).
Proof.
  intros prof ms values image i m o off Hoff Hr H Hi Eo Hc Hlater.
  destruct (C40_all prof ms values image Hoff H) as (Hl & datas & Hld & Hown & Hcov & Hord & Htwice).
  pose proof (nth_error_Some_lt _ _ _ Hi) as Hlt.
  destruct (nth_error_lt_Some datas i) as (d & Hd); [lia|].
  destruct (Hown i m o d off Hi Hd Eo) as ((vs & Hv & He) & Hlow & Hbit & Hb).
  exists vs, d. split; [exact Hv|]. split; [exact He|].
  assert (Hrv : Forall wire_value vs).
  { rewrite Forall_forall in Hr. apply Hr. eapply nth_error_In. exact Hv. }
  destruct (encoded_words prof m vs d Hrv He) as (Hlen & Hu16).
  assert (Hsz : (output_bytes m <= 2 * length d)%nat /\ (output_bytes m <= if (off mod 16 =? 0)%Z then 2 * length d else 1)%nat).
  { assert (Hx : (output_bytes m <= 2 * output_words m)%nat).
    { clear. destruct m as [[]|[]| | | | | | |[]| | | |[]|]; cbn [output_words output_bytes message_size]; lia. }
    split; [lia|]. destruct Hc as [Hc|Hc].
    - rewrite Hc. cbn [Z.eqb]. lia.
    - rewrite Hc. pose proof (output_one_word m Hc). destruct (off mod 16 =? 0); lia. }
  assert (Hk : forall k, (k < output_bytes m)%nat ->
            nth_error (bytes_of_words image) (first_byte 0x0800 off + k) = nth_error (bytes_of_words d) k).
  { intros k Hk. apply Hb; [lia|]. intros j m' o' d' Hij Hj Hd' (off' & Eo' & Hc').
    destruct (Hown j m' o' d' off' Hj Hd' Eo') as (_ & Hlow' & Hbit' & _).
    assert (Hbit8 : off' mod 16 = 8).
    { eapply (Htwice i j m o d m' o' d' off' (first_byte 0x0800 off + k)%nat); eauto.
      - exists off. split; [exact Eo|]. lia.
      - exists off'. split; [exact Eo'|exact Hc']. }
    rewrite Hbit8 in Hc'. cbn [Z.eqb] in Hc'.
    apply (Hlater j m' o' off' Hij Hj Eo'). lia. }
  unfold image_bytes. apply nth_error_ext. intros k.
  destruct (Nat.ltb_spec k (output_bytes m)) as [Hlk|Hlk].
  - rewrite !nth_firstn by exact Hlk. rewrite nth_skipn. apply Hk. exact Hlk.
  - transitivity (@None Z); [|symmetry]; apply nth_error_None; rewrite firstn_length; lia.
Qed.

Lemma C42_enc_all : forall prof ms values image i m o off,
  (forall j m' o' off', nth_error ms j = Some (m', o') -> mo_output o' = Some off' -> is_u16 off') ->
  Forall (Forall rust_value) values ->
  process_output_values prof ms values = Ok image ->
  nth_error ms i = Some (m, o) -> mo_output o = Some off ->
  (off mod 16 = 0 \/ output_bytes m = 1%nat) ->
  (forall j m' o' off', (i < j)%nat -> nth_error ms j = Some (m', o') -> mo_output o' = Some off' ->
     ~ (first_byte 0x0800 off <= first_byte 0x0800 off' < first_byte 0x0800 off + output_bytes m)%nat) ->
  exists vs d, nth_error values i = Some vs /\ mod_process_output_values prof m vs = Ok d /\
    image_bytes image (first_byte 0x0800 off) (output_bytes m) = firstn (output_bytes m) (bytes_of_words d).
Proof.
  intros prof ms values image i m o off Hoff Hr. apply (C42_enc_wire prof ms values image i m o off Hoff).
  eapply Forall_impl; [|exact Hr]. exact rust_wires.
Qed.

(** *** Witnesses *)

Lemma C40_refuted_all : exists ms values image vs d,
  nth_error ms 1 = Some (MDO V_4DO_P [false; false; false; false], mk_offset None (Some 0x8008)) /\
  nth_error values 1 = Some vs /\
  mod_process_output_values Release (MDO V_4DO_P [false; false; false; false]) vs = Ok d /\
  process_output_values Release ms values = Ok image /\
  nth_error ms 2 = Some (MDO V_4DO_P [false; false; false; false], mk_offset None (Some 0x8008)) /\
  nth_error (bytes_of_words image) (first_byte 0x0800 0x8008) <> nth_error (bytes_of_words d) 0.
Proof.
  exists [(MDO V_4DO_P [false; false; false; false], mk_offset None (Some 0x8000));
     (MDO V_4DO_P [false; false; false; false], mk_offset None (Some 0x8008));
     (MDO V_4DO_P [false; false; false; false], mk_offset None (Some 0x8008))],
    [[Bit true; Bit true; Bit true; Bit true]; [Bit true; Bit true; Bit true; Bit true];
     [Bit false; Bit false; Bit false; Bit false]], [15],
    [Bit true; Bit true; Bit true; Bit true], [15].
  repeat match goal with |- _ /\ _ => split end; try reflexivity. vm_compute. discriminate.
Qed.

(** Without bytes sharing a register the image is the concatenation of the data. *)
Lemma lays_concat ps out image : lays ps out image ->
  (forall o d off, In (o, d) ps -> mo_output o = Some off -> off mod 16 = 0) ->
  (forall o d, In (o, d) ps -> mo_output o = None -> d = []) ->
  image = out ++ concat (map snd ps).
Proof.
  induction 1 as [out|o d ps out image Eo _ IH|o d off ps out image Eo E El _ IH
                 |o w d off ps out last image Eo E El _ IH]; intros H0 Hn; cbn [map snd concat].
  - rewrite app_nil_r. reflexivity.
  - rewrite (Hn o d (or_introl eq_refl) Eo). cbn [app]. apply IH.
    + intros o' d' off' Hin. apply (H0 o' d' off'). right. exact Hin.
    + intros o' d' Hin. apply (Hn o' d'). right. exact Hin.
  - rewrite app_assoc. apply IH.
    + intros o' d' off' Hin. apply (H0 o' d' off'). right. exact Hin.
    + intros o' d' Hin. apply (Hn o' d'). right. exact Hin.
  - specialize (H0 o (w :: d) off (or_introl eq_refl) Eo). lia.
Qed.

Lemma C40_concat_all : forall prof ms values image,
  (forall i m o off, nth_error ms i = Some (m, o) -> mo_output o = Some off -> is_u16 off /\ off mod 16 = 0) ->
  process_output_values prof ms values = Ok image ->
  exists datas, length datas = length ms /\ image = concat datas /\
    forall i m o d, nth_error ms i = Some (m, o) -> nth_error datas i = Some d ->
      (mo_output o = None -> d = []) /\
      (mo_output o <> None -> exists vs, nth_error values i = Some vs /\ mod_process_output_values prof m vs = Ok d).
Proof.
  intros prof ms values image Hoff H.
  assert (Hoff' : Forall (fun mo => off_ok (snd mo)) ms).
  { apply Forall_forall. intros (m & o) Hin. apply In_nth_error in Hin. destruct Hin as (i & Hi).
    intros off Ho. eapply Hoff; eassumption. }
  destruct (process_lays prof ms values image Hoff' H) as (Hl & ps & Hlp & HL & Hps).
  assert (Hin : forall o d, In (o, d) ps -> exists i m, nth_error ms i = Some (m, o) /\ nth_error ps i = Some (o, d)).
  { intros o d Hin. apply In_nth_error in Hin. destruct Hin as (i & Hi).
    destruct (nth_error_lt_Some ms i) as ((m & o2) & Hm). { rewrite <- Hlp. eapply nth_error_Some_lt. exact Hi. }
    destruct (Hps _ _ _ Hm) as (d2 & Hp2 & _). pose proof Hi as Hi'. rewrite Hi in Hp2. apply Some_inj, pair_inj in Hp2.
    destruct Hp2 as [<- _]. eauto. }
  exists (map snd ps). split; [rewrite map_length; exact Hlp|]. split.
  - apply (lays_concat _ _ _ HL).
    + intros o d off Hx Eo. destruct (Hin o d Hx) as (i & m & Hm & _). eapply (Hoff i m o off); eassumption.
    + intros o d Hx Eo. destruct (Hin o d Hx) as (i & m & Hm & Hp).
      destruct (Hps i m o Hm) as (d' & Hp' & Hnone & _). rewrite Hp in Hp'. apply Some_inj, pair_inj in Hp'.
      destruct Hp' as [_ ->]. exact (Hnone Eo).
  - intros i m o d Hi Hd. destruct (Hps i m o Hi) as (d' & Hp & H1 & H2). rewrite nth_error_map, Hp in Hd.
    cbn [option_map snd] in Hd. apply Some_inj in Hd. subst d'. split; assumption.
Qed.

Lemma C42_refuted_in_all : exists m img img' vs vs',
  image_bytes img (first_byte 0 8) (input_bytes m) = image_bytes img' (first_byte 0 0) (input_bytes m) /\
  length (image_bytes img (first_byte 0 8) (input_bytes m)) = input_bytes m /\
  process_input_data Release [(m, mk_offset (Some 8) None)] img = Ok vs /\
  process_input_data Release [(m, mk_offset (Some 0) None)] img' = Ok vs' /\ vs <> vs'.
Proof.
  exists (MFCNT [us5; us5]), (repeat 0 9 ++ [0; 1]), (repeat 0 9 ++ [256]).
  eexists _, _. split; [reflexivity|]. split; [reflexivity|]. split; [vm_compute; reflexivity|].
  split; [vm_compute; reflexivity|]. discriminate.
Qed.

Lemma C42_refuted_out_all : exists m m' vs vs' d image,
  output_bytes m' = 2%nat /\
  mod_process_output_values Release m' vs' = Ok d /\
  process_output_values Release [(m, mk_offset None (Some 0x8000)); (m', mk_offset None (Some 0x8008))]
    [vs; vs'] = Ok image /\
  image_bytes image (first_byte 0x0800 0x8008) 2 <> firstn 2 (bytes_of_words d).
Proof.
  exists (M4RO []), M16DO, (repeat (Bit false) 4), (repeat (Bit true) 16), [0xFFFF], [0xFF00].
  repeat match goal with |- _ /\ _ => split end; try reflexivity. vm_compute. discriminate.
Qed.

Lemma C51_refuted_all : exists ms values,
  (forall prof, process_output_values prof ms values = Panic IndexOutOfBounds) /\
  Forall (Forall rust_value) values.
Proof.
  exists [(M4RO [], mk_offset None (Some 0x8000)); (MSIL, mk_offset None (Some 0x8008))],
    [repeat (Bit false) 4; []]. split; [intros []; reflexivity|repeat constructor].
Qed.
