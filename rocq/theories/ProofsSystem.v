(** Proofs of C49, C50, C55 and C56: serial modules inside a coupler. *)
From Coq Require Import ZArith List Bool Lia ZifyBool ZifyNat Permutation.
From Verif Require Import Base Facts F32 Types Lib Util Digital Analog Fcnt Com Fbc
  SpecCodec ProofsCodec ProofsSerialCodec ProofsNew SpecSerial ProofsSerial ProofsSerialSystem SpecCoupler SpecImage
  ProofsImage ProofsModule ProofsLayout ProofsLoop ProofsCycle ProofsCoupler ProofsOrder SpecSystem.
Import ListNotations.
Local Open Scope Z_scope.
Ltac Zify.zify_post_hook ::= Z.div_mod_to_equations.

Lemma message_even l : Nat.Even (message_size l).
Proof. destruct l; [exists 4%nat|exists 8%nat]; reflexivity. Qed.

Lemma even_words words bytes l : length bytes = message_size l -> words_of_bytes words bytes ->
  bytes_of_words words = bytes.
Proof.
  intros Hl [_ [H|H]]; [exact H|]. exfalso. apply (f_equal (@length Z)) in H.
  rewrite bytes_of_words_length, app_length, Hl in H. cbn [length] in H. destruct (message_even l) as (k & E). lia.
Qed.

Lemma com_encode prof l ch rs d : good_out l rs -> mod_process_output_values prof (MCOM l ch) [ComRsOut rs] = Ok d ->
  rs_out_to_bytes rs l = Ok (bytes_of_words d) /\ length (bytes_of_words d) = message_size l /\
  rs_out_from_bytes (bytes_of_words d) = Ok rs.
Proof.
  intros [(Ht & Hr & Hl) H8] H. unfold counter in *.
  destruct (C26_all l rs) as (_ & _ & C & _); [unfold in_counters, is_usize; lia|exact H8|].
  destruct C as [(bytes & Hb & Lb & Ub & Db) _]; try lia.
  rewrite com_values_one in H by exact Hl. rewrite Hb in H. cbn [bind] in H. apply Ok_inj in H. subst d.
  destruct (u8_to_u16_bytes bytes Ub) as (_ & -> & _). { rewrite Lb. apply message_even. }
  auto.
Qed.

(** What a successful cycle does for a serial module, in terms of its own part of the images. *)
Lemma serial_cycle prof c input output c' image i l ioff ooff :
  coupler_ok c -> cycle prof c input output c' (Ok image) -> serial_at c i l ioff ooff ->
  exists p p' rin rout rs,
    serial c i = Some p /\ serial c' i = Some p' /\
    rs_in_from_bytes (in_part l ioff input) = Ok rin /\ good_in rin /\
    rs_out_from_bytes (out_part l ooff output) = Ok rout /\ good_out l rout /\
    processor_next prof (fed p (requested c (mk_address i 0))) rin rout = Ok (p', rs) /\ good_out l rs /\
    rs_out_to_bytes rs l = Ok (out_part l ooff image) /\
    rs_out_from_bytes (out_part l ooff image) = Ok rs /\ length (out_part l ooff image) = message_size l /\
    requested c' (mk_address i 0) = None /\
    nth_error (inputs c') i = Some [shown_in rin].
Proof.
  intros Hok H ((ch & Hat) & Hi16 & Ho16 & Hov).
  assert (Hui : Forall is_u16 input) by apply H. assert (Huo : Forall is_u16 output) by apply H.
  destruct (ok_cycle _ _ _ _ _ _ Hok H) as (ins & outs & sent & E1 & E2 & E3 & E4 & E4' & _ & _ & E5).
  pose proof (sent_wire _ _ _ _ _ _ _ _ Hok Huo E4 E5) as Hw.
  destruct (E5 i _ _ Hat) as (iv & ov & Hiv & Hov' & Hri & Hro & Hc).
  pose proof (proj2 (infos_at c i _ _) Hat) as Hinf.
  pose proof (infos_off c Hok i _ _ ooff Hinf eq_refl) as Hu.
  assert (Hu0 : is_u16 ioff). { destruct (ok_off c Hok i _ _ Hat) as [O1 _]. exact (O1 ioff eq_refl). }
  assert (Hge : 0x8000 <= ooff).
  { destruct (C40_all prof (infos c) sent image (infos_off c Hok) E3) as (_ & datas & Ld & C40 & _).
    destruct (nth_error datas i) as [d0|] eqn:Ed.
    - destruct (C40 i _ _ d0 ooff Hinf Ed eq_refl) as (_ & A & _). exact A.
    - apply nth_error_None in Ed. apply nth_error_Some_lt in Hinf. lia. }
  destruct Hc as [row S1 S2 S3 S4 S5 S6|l' ch' rin rout p0 p' rs last El -> -> G1 G2 G3 _ _ S1 S2 S3 S4 S5 S6 S7
                     |l' ch' El S1 S2 S3 S4 S5 S6 S7]; [discriminate| |destruct S1 as [[N _]|[N _]]; discriminate].
  injection El as <- <-.
  destruct (C42_in_all prof (infos c) input ins i _ _ ioff Hui Hu0 E1 Hinf eq_refl (or_introl Hi16)) as (Li & wi & ri & Wi & Ri & Di).
  rewrite Hiv in Ri. apply Some_inj in Ri. subst ri.
  destruct (C42_out_all prof (infos c) output outs i _ _ ooff Huo Hu Hge E2 Hinf eq_refl (or_introl Ho16)) as (Lo & wo & ro & Wo & Ro & Do).
  rewrite Hov' in Ro. apply Some_inj in Ro. subst ro.
  destruct (C42_enc_wire prof (infos c) sent image i _ _ ooff (infos_off c Hok) Hw E3 Hinf eq_refl (or_introl Ho16)) as (vs & d & Hvs & He & Himg).
  { intros j m1 o1 off1 Hj Hj1. apply (Hov j m1 o1 off1 Hj). apply infos_at. exact Hj1. }
  rewrite S4 in Hvs. apply Some_inj in Hvs. subst vs.
  destruct (com_encode _ _ _ _ _ G3 He) as (B1 & B2 & B3).
  cbn [input_bytes output_bytes] in *. fold (in_part l ioff input) in *. fold (out_part l ooff output) in *. fold (out_part l ooff image) in Himg.
  rewrite firstn_all2 in Himg by lia. rewrite <- Himg in *.
  exists p0, p', rin, rout, rs.
  split; [exact S1|]. split; [exact S3|]. split.
  { cbn [mod_process_input_data] in Di. unfold com_process_input_data in Di. rewrite words_to_bytes_spec in Di.
    rewrite (even_words _ _ l Li Wi) in Di. apply bind_ok in Di. destruct Di as (x & -> & E). apply Ok_inj in E. congruence. }
  split; [exact G1|]. split.
  { cbn [mod_process_output_data] in Do. unfold com_process_output_data in Do. rewrite words_to_bytes_spec in Do.
    rewrite (even_words _ _ l Lo Wo) in Do. apply bind_ok in Do. destruct Do as (x & -> & E). apply Ok_inj in E. congruence. }
  split; [exact G2|]. split; [exact S2|]. split; [exact G3|]. split; [exact B1|]. split; [exact B3|]. split; [exact B2|].
  split; [apply S5|exact S6].
Qed.

(** ** C49 *)

Definition own_state : Set := (processor * option channel_value)%type.

Definition own_step (prof : profile) (l : process_data_length) (s : own_state) (x : own_call)
  : option (own_state * own_answer) :=
  let (p, req) := s in
  match x with
  | OwnSet ch v =>
      if Nat.ltb ch 1 then Some ((p, Some v), OwnResult (Ok tt)) else Some (s, OwnResult (Err AddressError))
  | OwnRead n => let (p', b) := processor_read p n in Some ((p', req), OwnBytesRead (Some b))
  | OwnWrite buf => let (p', n) := processor_write p buf in Some ((p', req), OwnBytesWritten (Some n))
  | OwnCycle inb outb =>
      match rs_in_from_bytes inb, rs_out_from_bytes outb with
      | Ok rin, Ok rout =>
          match processor_next prof (fed p req) rin rout with
          | Ok (p', rs) =>
              match rs_out_to_bytes rs l with
              | Ok bytes => Some ((p', None), OwnSent bytes (Some [shown_in rin]))
              | _ => None
              end
          | _ => None
          end
      | _, _ => None
      end
  end.

Fixpoint own_run (prof : profile) (l : process_data_length) (s : own_state) (xs : list own_call)
  : option (own_state * list own_answer) :=
  match xs with
  | [] => Some (s, [])
  | x :: xs' =>
      match own_step prof l s x with
      | Some (s', a) =>
          match own_run prof l s' xs' with Some (s'', answers) => Some (s'', a :: answers) | None => None end
      | None => None
      end
  end.

Definition own_of (c : coupler) (i : nat) (s : own_state) : Prop :=
  serial c i = Some (fst s) /\ requested c (mk_address i 0) = snd s.

Lemma serial_at_static c c' i l ioff ooff : c_modules c' = c_modules c -> c_offsets c' = c_offsets c ->
  serial_at c i l ioff ooff -> serial_at c' i l ioff ooff.
Proof. intros E1 E2. unfold serial_at, module_at. rewrite E1, E2. auto. Qed.

Lemma calls_static prof c x c' a : coupler_ok c -> calls prof c x c' a ->
  c_modules c' = c_modules c /\ c_offsets c' = c_offsets c.
Proof.
  intros Hok H. destruct H as [c a v Hv|c i n|c i b Hb|c input output c' r Hc _].
  - destruct (set_static c a v) as (_ & _ & H1 & H2 & _). auto.
  - destruct (read_static c i n) as (_ & _ & H1 & H2 & _). auto.
  - destruct (write_static c i b) as (_ & _ & H1 & H2 & _). auto.
  - destruct (cycle_static _ _ _ _ _ _ Hc) as (H1 & H2). auto.
Qed.

Lemma serial_with c i j p : serial (with_processors c (map_insert Nat.eqb j p (c_processors c))) i =
  if Nat.eqb j i then Some p else serial c i.
Proof. unfold serial, with_processors. cbn [c_processors]. apply (map_get_insert Nat.eqb Nat.eqb_spec). Qed.

Lemma own_projects prof i l ioff ooff xs : forall c c' answers s, coupler_ok c -> serial_at c i l ioff ooff ->
  runs prof c xs c' answers -> all_ok answers -> own_of c i s ->
  exists s', own_run prof l s (fst (own i l ioff ooff xs answers)) = Some (s', snd (own i l ioff ooff xs answers)) /\
    own_of c' i s' /\ coupler_ok c' /\ serial_at c' i l ioff ooff.
Proof.
  induction xs as [|x xs IH]; intros c c' answers s Hok Hat Hr Hall Hs; inversion Hr; subst.
  { exists s. cbn [own fst snd own_run]. auto. }
  match goal with A : calls prof c x ?d ?e, B : runs prof ?d xs _ ?f |- _ => rename d into c1; rename e into a; rename f into answers'; rename A into Hx; rename B into Hrest end.
  pose proof (calls_ok _ _ _ _ _ Hok Hx) as Hok1. destruct (calls_static _ _ _ _ _ Hok Hx) as (M1 & M2).
  pose proof (serial_at_static c c1 _ _ _ _ M1 M2 Hat) as Hat1.
  assert (Hall' : all_ok answers'). { intros r ins outs Hin. apply (Hall r ins outs). right. exact Hin. }
  assert (Hone : forall s1, own_of c1 i s1 -> exists s', own_run prof l s1 (fst (own i l ioff ooff xs answers')) =
            Some (s', snd (own i l ioff ooff xs answers')) /\ own_of c' i s' /\ coupler_ok c' /\ serial_at c' i l ioff ooff).
  { intros s1 Hs1. exact (IH c1 c' answers' s1 Hok1 Hat1 Hrest Hall' Hs1). }
  clear IH. destruct s as [p req]. destruct Hs as [Hp Hreq]. cbn [fst snd] in Hp, Hreq.
  destruct Hx as [c a v Hv|c j n|c j b Hb|c input output c1 r Hc Hnp]; cbn [own].
  - destruct (own i l ioff ooff xs answers') as (calls' & seen). cbn [fst snd] in Hone.
    destruct (Nat.eqb_spec (a_module a) i) as [Ea|Ea]; cbn [fst snd].
    + destruct Hat as ((ch & Hm & _) & _).
      destruct (valid_address_dec c a) as [Hva|Hva].
      * assert (Hc0 : a_channel a = 0%nat).
        { destruct Hva as (m & Em & Hch). rewrite Ea, Hm in Em. apply Some_inj in Em. subst m.
          unfold channels in Hch. cbn in Hch. lia. }
        assert (Eaddr : a = mk_address i 0) by (destruct a; cbn in *; congruence).
        rewrite Hc0, (set_output_valid c a v Hva). cbn [snd own_run own_step Nat.ltb Nat.leb fst].
        destruct (Hone (p, Some v)) as (s' & H1 & H2).
        { split; cbn [fst snd].
          - unfold serial. destruct (set_static c a v) as (_ & _ & _ & _ & E & _). rewrite E. exact Hp.
          - rewrite (set_requested c a v _ Hva). rewrite <- Eaddr. destruct (address_eqb_spec a a); [reflexivity|congruence]. }
        rewrite H1. eauto.
      * rewrite (set_output_invalid c a v Hva) in *. cbn [snd own_run own_step fst] in *.
        assert (Hn : Nat.ltb (a_channel a) 1 = false).
        { apply Nat.ltb_ge. destruct (Nat.le_gt_cases 1 (a_channel a)) as [|Hlt]; [assumption|]. exfalso. apply Hva.
          exists (MCOM l ch). rewrite Ea. split; [exact Hm|]. exact Hlt. }
        rewrite Hn. destruct (Hone (p, req)) as (s' & H1 & H2); [split; assumption|]. rewrite H1. eauto.
    + apply Hone. split; cbn [fst snd].
      * unfold serial. destruct (set_static c a v) as (_ & _ & _ & _ & E & _). rewrite E. exact Hp.
      * destruct (valid_address_dec c a) as [Hva|Hva].
        -- rewrite (set_requested c a v _ Hva). destruct (address_eqb_spec a (mk_address i 0)) as [->|_]; [|exact Hreq].
           cbn in Ea. congruence.
        -- rewrite (set_output_invalid c a v Hva). exact Hreq.
  - destruct (own i l ioff ooff xs answers') as (calls' & seen). cbn [fst snd] in Hone.
    destruct (Nat.eqb_spec j i) as [->|Ej]; cbn [fst snd].
    + cbn [own_run own_step]. unfold coupler_read in *. unfold serial in Hp. rewrite Hp in *.
      destruct (processor_read p n) as (p' & b) eqn:Er. cbn [fst snd] in *.
      destruct (Hone (p', req)) as (s' & H1 & H2).
      { split; cbn [fst snd]; [rewrite serial_with, Nat.eqb_refl; reflexivity|exact Hreq]. }
      rewrite H1. eauto.
    + apply Hone. split; cbn [fst snd].
      * unfold coupler_read. destruct (map_get Nat.eqb j (c_processors c)) as [q|]; [|exact Hp].
        destruct (processor_read q n) as (q' & b). cbn [fst]. rewrite serial_with.
        replace (Nat.eqb j i) with false by lia. exact Hp.
      * unfold requested. destruct (read_static c j n) as (_ & _ & _ & _ & E & _). rewrite E. exact Hreq.
  - destruct (own i l ioff ooff xs answers') as (calls' & seen). cbn [fst snd] in Hone.
    destruct (Nat.eqb_spec j i) as [->|Ej]; cbn [fst snd].
    + cbn [own_run own_step]. unfold coupler_write in *. unfold serial in Hp. rewrite Hp in *.
      destruct (processor_write p b) as (p' & n) eqn:Er. cbn [fst snd] in *.
      destruct (Hone (p', req)) as (s' & H1 & H2).
      { split; cbn [fst snd]; [rewrite serial_with, Nat.eqb_refl; reflexivity|exact Hreq]. }
      rewrite H1. eauto.
    + apply Hone. split; cbn [fst snd].
      * unfold coupler_write. destruct (map_get Nat.eqb j (c_processors c)) as [q|]; [|exact Hp].
        destruct (processor_write q b) as (q' & n). cbn [fst]. rewrite serial_with.
        replace (Nat.eqb j i) with false by lia. exact Hp.
      * unfold requested. destruct (write_static c j b) as (_ & _ & _ & _ & E & _). rewrite E. exact Hreq.
  - destruct (Hall r (inputs c1) (outputs c1)) as (image & ->); [left; reflexivity|].
    destruct (own i l ioff ooff xs answers') as (calls' & seen). cbn [fst snd] in *.
    destruct (serial_cycle _ _ _ _ _ _ _ _ _ _ Hok Hc Hat)
      as (p0 & p' & rin & rout & rs & S1 & S2 & S3 & _ & S4 & _ & S5 & _ & S6 & _ & _ & S7 & S8).
    rewrite Hp in S1. apply Some_inj in S1. subst p0. rewrite Hreq in S5.
    cbn [own_run own_step]. rewrite S3, S4, S5, S6.
    destruct (Hone (p', None)) as (s' & H1 & H2). { split; assumption. }
    rewrite H1, S8. eauto.
Qed.

Lemma C49_partial_all : forall prof l ioff ooff c1 i1 xs1 c1' answers1 c2 i2 xs2 c2' answers2,
  reachable prof c1 -> reachable prof c2 ->
  serial_at c1 i1 l ioff ooff -> serial_at c2 i2 l ioff ooff ->
  serial c1 i1 = serial c2 i2 -> requested c1 (mk_address i1 0) = requested c2 (mk_address i2 0) ->
  runs prof c1 xs1 c1' answers1 -> runs prof c2 xs2 c2' answers2 -> all_ok answers1 -> all_ok answers2 ->
  fst (own i1 l ioff ooff xs1 answers1) = fst (own i2 l ioff ooff xs2 answers2) ->
  snd (own i1 l ioff ooff xs1 answers1) = snd (own i2 l ioff ooff xs2 answers2) /\
  serial c1' i1 = serial c2' i2 /\ requested c1' (mk_address i1 0) = requested c2' (mk_address i2 0).
Proof.
  intros prof l ioff ooff c1 i1 xs1 c1' answers1 c2 i2 xs2 c2' answers2 R1 R2 A1 A2 Es Er H1 H2 O1 O2 Ev.
  pose proof (reachable_ok _ _ R1) as K1. pose proof (reachable_ok _ _ R2) as K2.
  destruct A1 as ((ch1 & M1 & M1') & A1). destruct (ok_com c1 K1 i1 _ _ M1) as (p & Hp).
  assert (A1' : serial_at c1 i1 l ioff ooff) by (split; [exists ch1; split; assumption|exact A1]).
  destruct (own_projects prof i1 l ioff ooff xs1 c1 c1' answers1 (p, requested c1 (mk_address i1 0)) K1 A1' H1 O1) as (s1 & X1 & [Y1 Z1] & _).
  { split; [exact Hp|reflexivity]. }
  destruct (own_projects prof i2 l ioff ooff xs2 c2 c2' answers2 (p, requested c2 (mk_address i2 0)) K2 A2 H2 O2) as (s2 & X2 & [Y2 Z2] & _).
  { split; [cbn [fst]; congruence|reflexivity]. }
  rewrite Er, Ev, X2 in X1. apply Some_inj, pair_inj in X1. destruct X1 as [<- E]. rewrite Y1, Y2, Z1, Z2. auto.
Qed.

(** ** C50, C55, C56 *)

Record alike_plant (i : nat) (l : process_data_length) (ioff ooff : Z) (t : plant) (s : system) : Prop := {
  ap_ok : coupler_ok (t_coupler t);
  ap_at : serial_at (t_coupler t) i l ioff ooff;
  ap_proc : serial (t_coupler t) i = Some (s_proc s);
  ap_latch : rs_in_from_bytes (in_part l ioff (t_latch t)) = Ok (s_latch s);
  ap_image : rs_out_from_bytes (out_part l ooff (t_image t)) = Ok (s_image s);
  ap_register : rs_out_from_bytes (out_part l ooff (t_register t)) = Ok (s_register s);
  ap_device : t_device t = s_device s;
  ap_written : t_written t = s_written s;
  ap_taken : t_taken t = s_taken s;
  ap_offered : t_offered t = s_offered s;
  ap_delivered : t_delivered t = s_delivered s;
  ap_cycles : t_cycles t = s_cycles s }.

Ltac plain := cbn [with_coupler with_device t_coupler t_latch t_image t_register t_device t_written t_taken t_offered t_delivered t_cycles
  set_proc s_proc s_latch s_image s_register s_device s_written s_taken s_offered s_delivered s_cycles] in *.

Lemma schedule_app prof es : forall s es', schedule prof s (es ++ es') =
  (let? s' := schedule prof s es in schedule prof s' es').
Proof. induction es as [|e es IH]; intros s es'; cbn [app schedule bind]; [reflexivity|].
  destruct (happen prof s e); cbn [bind]; [apply IH|reflexivity..]. Qed.

(** The events of the message processor for an event of the plant. *)
Definition kind_of (i : nat) (e : plant_event) (evs : list event) : Prop :=
  match e with
  | PInput _ => evs = [HostRead]
  | PCycle => exists w, evs = w ++ [HostCycle]
  | POutput => evs = [HostWrite]
  | PTake => evs = [DevTake]
  | _ => True
  end.

Lemma bytes_or_not (r : option channel_value) : (exists b, r = Some (Bytes b)) \/
  (forall p, fed p r = p) /\ match r with Some (Bytes b) => b | _ => [] end = [].
Proof. destruct r as [[]|]; eauto. Qed.

Lemma plant_simulates prof i l ioff ooff t e t' s : alike_plant i l ioff ooff t s ->
  plant_step prof i l ioff ooff t e t' ->
  exists evs s', schedule prof s evs = Ok s' /\ alike_plant i l ioff ooff t' s' /\ kind_of i e evs.
Proof.
  intros [Hok Hat Hp Hl Hi Hr Hd Hw Ht Ho Hde Hc] H. unfold kind_of.
  destruct H as [t a v Hv|t j n c r Er|t j b Hb|t input Hu Hin|t c' image Hcy|t|t o Eo|t seg o Eo|t o Eo|t full ready].
  - exists [], s. split; [reflexivity|]. split; [|exact I].
    destruct (set_static (t_coupler t) a v) as (_ & _ & M1 & M2 & M3 & _).
    split; plain; auto.
    + apply set_ok; assumption.
    + eapply serial_at_static; [exact M1|exact M2|exact Hat].
    + unfold serial. rewrite M3. exact Hp.
  - pose proof (read_ok (t_coupler t) j n Hok) as Hok'. destruct (read_static (t_coupler t) j n) as (_ & _ & M1 & M2 & _).
    rewrite Er in Hok', M1, M2. cbn [fst] in Hok', M1, M2.
    unfold coupler_read in Er. destruct (Nat.eqb_spec j i) as [->|Ej].
    + unfold serial in Hp. rewrite Hp in Er. destruct (processor_read (s_proc s) n) as (p' & bytes) eqn:Ep.
      apply pair_inj in Er. destruct Er as [<- <-].
      eexists [UserRead n], _. split; [cbn [schedule happen bind]; rewrite Ep; reflexivity|]. split; [|exact I].
      split; plain; auto; try (eapply serial_at_static; [exact M1|exact M2|exact Hat]); [|congruence].
      rewrite serial_with, Nat.eqb_refl. reflexivity.
    + exists [], s. split; [reflexivity|]. split; [|exact I].
      assert (Hs : serial c i = serial (t_coupler t) i /\ match r with Some bytes => [] | None => [] end = @nil Z).
      { destruct (map_get Nat.eqb j (c_processors (t_coupler t))) as [q|].
        - destruct (processor_read q n) as (q' & bytes). apply pair_inj in Er. destruct Er as [<- <-].
          rewrite serial_with. replace (Nat.eqb j i) with false by lia. auto.
        - apply pair_inj in Er. destruct Er as [<- <-]. auto. }
      destruct Hs as [Hs ->]. rewrite app_nil_r.
      split; plain; auto; [eapply serial_at_static; [exact M1|exact M2|exact Hat]|congruence].
  - pose proof (write_ok (t_coupler t) j b Hok Hb) as Hok'. destruct (write_static (t_coupler t) j b) as (_ & _ & M1 & M2 & _).
    destruct (Nat.eqb_spec j i) as [->|Ej].
    + destruct (processor_write (s_proc s) b) as (p' & n) eqn:Ep.
      eexists [UserWrite b], _. split; [cbn [schedule happen]; rewrite Ep; reflexivity|]. split; [|exact I].
      split; plain; auto; try (eapply serial_at_static; [exact M1|exact M2|exact Hat]); [|congruence].
      unfold coupler_write. unfold serial in Hp. rewrite Hp, Ep. cbn [fst]. rewrite serial_with, Nat.eqb_refl. reflexivity.
    + exists [], s. split; [reflexivity|]. split; [|exact I]. rewrite app_nil_r.
      split; plain; auto; [eapply serial_at_static; [exact M1|exact M2|exact Hat]|].
      unfold coupler_write. destruct (map_get Nat.eqb j (c_processors (t_coupler t))) as [q|]; [|exact Hp].
      destruct (processor_write q b) as (q' & n). cbn [fst]. rewrite serial_with.
      replace (Nat.eqb j i) with false by lia. exact Hp.
  - eexists [HostRead], _. split; [reflexivity|]. split; [|reflexivity]. split; plain; auto. rewrite <- Hd. exact Hin.
  - destruct (serial_cycle _ _ _ _ _ _ _ _ _ _ Hok Hcy Hat)
      as (p0 & p' & rin & rout & rs & S1 & S2 & S3 & _ & S4 & _ & S5 & _ & S6 & S6' & _ & S7 & S8).
    rewrite Hp in S1. apply Some_inj in S1. subst p0. rewrite Hl in S3. apply Ok_inj in S3. subst rin.
    rewrite Hi in S4. apply Ok_inj in S4. subst rout.
    pose proof (cycle_ok _ _ _ _ _ _ Hok Hcy) as Hok'. destruct (cycle_static _ _ _ _ _ _ Hcy) as (M1 & M2).
    assert (Hw' : exists w s1, schedule prof s w = Ok s1 /\ s_proc s1 = fed (s_proc s) (requested (t_coupler t) (mk_address i 0)) /\
       s1 = mk_system (s_proc s1) (s_latch s) (s_image s) (s_register s) (s_device s)
            (s_written s ++ pending (t_coupler t) i) (s_taken s) (s_offered s) (s_delivered s) (s_cycles s)).
    { unfold pending. destruct (bytes_or_not (requested (t_coupler t) (mk_address i 0))) as [(b & ->)|(N1 & N2)].
      - destruct (processor_write (s_proc s) b) as (p1 & n) eqn:Ew.
        eexists [UserWrite b], _. cbn [schedule happen bind fed]. rewrite Ew. plain. split; [reflexivity|]. split; reflexivity.
      - exists [], s. rewrite N1, N2, app_nil_r. clear. destruct s. auto. }
    destruct Hw' as (w & s1 & Hs1 & Ep1 & Es1).
    eexists (w ++ [HostCycle]), _. split.
    { rewrite schedule_app, Hs1. cbn [bind schedule happen]. rewrite Ep1. rewrite Es1. plain. rewrite S5. cbn [bind]. reflexivity. }
    split; [|exists w; reflexivity].
    split; plain; auto; try congruence. eapply serial_at_static; [exact M1|exact M2|exact Hat].
  - eexists [HostWrite], _. split; [reflexivity|]. split; [|reflexivity]. split; plain; auto.
  - rewrite Hr in Eo. apply Ok_inj in Eo. subst o.
    exists [DevTake]. cbn [schedule happen]. rewrite Hd. destruct (ro_tx_cnt (s_register s) =? ri_tx_cnt_ack (s_device s)).
    + exists s. split; [reflexivity|]. split; [|reflexivity]. split; auto.
    + eexists. split; [reflexivity|]. split; [|reflexivity]. split; plain; auto; try congruence.
  - rewrite Hr in Eo. apply Ok_inj in Eo. subst o.
    exists [DevOffer seg]. cbn [schedule happen]. rewrite Hd. destruct (ro_rx_cnt_ack (s_register s) =? ri_rx_cnt (s_device s)).
    + eexists. split; [reflexivity|]. split; [|exact I]. split; plain; auto; try congruence.
    + exists s. split; [reflexivity|]. split; [|exact I]. split; auto.
  - rewrite Hr in Eo. apply Ok_inj in Eo. subst o.
    exists [DevClear]. cbn [schedule happen]. rewrite Hd. destruct (ro_rx_cnt_ack (s_register s) =? ri_rx_cnt (s_device s)).
    + eexists. split; [reflexivity|]. split; [|exact I]. split; plain; auto; try congruence.
    + exists s. split; [reflexivity|]. split; [|exact I]. split; auto.
  - exists [DevStatus full ready]. cbn [schedule happen]. rewrite Hd. eexists. split; [reflexivity|]. split; [|exact I].
    split; plain; auto; try congruence.
Qed.

Lemma plant_run_simulates prof i l ioff ooff es : forall t t' s, alike_plant i l ioff ooff t s ->
  plant_runs prof i l ioff ooff t es t' -> exists evs s', schedule prof s evs = Ok s' /\ alike_plant i l ioff ooff t' s'.
Proof.
  induction es as [|e es IH]; intros t t' s Ha H; inversion H; subst.
  - exists [], s. auto.
  - match goal with A : plant_step _ _ _ _ _ t e ?t1, B : plant_runs _ _ _ _ _ ?t1 es t' |- _ =>
      destruct (plant_simulates _ _ _ _ _ _ _ _ _ Ha A) as (evs1 & s1 & H1 & Ha1 & _);
      destruct (IH t1 t' s1 Ha1 B) as (evs2 & s2 & H2 & Ha2) end.
    exists (evs1 ++ evs2), s2. rewrite schedule_app, H1. auto.
Qed.

Lemma plant_runs_app prof i l ioff ooff es1 : forall t es2 t', plant_runs prof i l ioff ooff t (es1 ++ es2) t' ->
  exists t1, plant_runs prof i l ioff ooff t es1 t1 /\ plant_runs prof i l ioff ooff t1 es2 t'.
Proof.
  induction es1 as [|e es1 IH]; intros t es2 t' H; cbn [app] in H.
  - exists t. split; [constructor|exact H].
  - inversion H; subst. match goal with B : plant_runs _ _ _ _ _ ?t1 (es1 ++ es2) t' |- _ => destruct (IH t1 es2 t' B) as (t2 & H1 & H2) end.
    exists t2. split; [econstructor; eassumption|exact H2].
Qed.

Lemma plant_one prof i l ioff ooff t e t' s : alike_plant i l ioff ooff t s ->
  plant_runs prof i l ioff ooff t [e] t' ->
  exists evs s', schedule prof s evs = Ok s' /\ alike_plant i l ioff ooff t' s' /\ kind_of i e evs.
Proof.
  intros Ha H. inversion H; subst.
  match goal with A : plant_step _ _ _ _ _ t e ?t1, B : plant_runs _ _ _ _ _ ?t1 [] t' |- _ => inversion B; subst; eapply plant_simulates; eassumption end.
Qed.

Lemma plant_round_simulates prof i l ioff ooff es t t' s : alike_plant i l ioff ooff t s -> plant_round es ->
  plant_runs prof i l ioff ooff t es t' ->
  exists evs s', schedule prof s evs = Ok s' /\ alike_plant i l ioff ooff t' s' /\ fair_round evs.
Proof.
  intros Ha (a & input & b & c & d & e & ->) H.
  apply plant_runs_app in H. destruct H as (t1 & H1 & H). apply plant_runs_app in H. destruct H as (t2 & H2 & H).
  apply plant_runs_app in H. destruct H as (t3 & H3 & H). apply plant_runs_app in H. destruct H as (t4 & H4 & H).
  apply plant_runs_app in H. destruct H as (t5 & H5 & H). apply plant_runs_app in H. destruct H as (t6 & H6 & H).
  apply plant_runs_app in H. destruct H as (t7 & H7 & H). apply plant_runs_app in H. destruct H as (t8 & H8 & H9).
  destruct (plant_run_simulates _ _ _ _ _ _ _ _ _ Ha H1) as (e1 & s1 & G1 & A1).
  destruct (plant_one _ _ _ _ _ _ _ _ _ A1 H2) as (e2 & s2 & G2 & A2 & ->).
  destruct (plant_run_simulates _ _ _ _ _ _ _ _ _ A2 H3) as (e3 & s3 & G3 & A3).
  destruct (plant_one _ _ _ _ _ _ _ _ _ A3 H4) as (e4 & s4 & G4 & A4 & (w & ->)).
  destruct (plant_run_simulates _ _ _ _ _ _ _ _ _ A4 H5) as (e5 & s5 & G5 & A5).
  destruct (plant_one _ _ _ _ _ _ _ _ _ A5 H6) as (e6 & s6 & G6 & A6 & ->).
  destruct (plant_run_simulates _ _ _ _ _ _ _ _ _ A6 H7) as (e7 & s7 & G7 & A7).
  destruct (plant_one _ _ _ _ _ _ _ _ _ A7 H8) as (e8 & s8 & G8 & A8 & ->).
  destruct (plant_run_simulates _ _ _ _ _ _ _ _ _ A8 H9) as (e9 & s9 & G9 & A9).
  exists (e1 ++ [HostRead] ++ e3 ++ (w ++ [HostCycle]) ++ e5 ++ [HostWrite] ++ e7 ++ [DevTake] ++ e9), s9.
  split.
  { rewrite schedule_app, G1. cbn [bind]. rewrite schedule_app, G2. cbn [bind]. rewrite schedule_app, G3. cbn [bind].
    rewrite schedule_app, G4. cbn [bind]. rewrite schedule_app, G5. cbn [bind]. rewrite schedule_app, G6. cbn [bind].
    rewrite schedule_app, G7. cbn [bind]. rewrite schedule_app, G8. cbn [bind]. exact G9. }
  split; [exact A9|]. exists e1, (e3 ++ w), e5, e7, e9. rewrite <- !app_assoc. reflexivity.
Qed.

Lemma plant_rounds_simulate prof i l ioff ooff rounds : forall t t' s, alike_plant i l ioff ooff t s ->
  Forall plant_round rounds -> plant_runs prof i l ioff ooff t (concat rounds) t' ->
  exists evs s', length evs = length rounds /\ Forall fair_round evs /\ schedule prof s (concat evs) = Ok s' /\
    alike_plant i l ioff ooff t' s'.
Proof.
  induction rounds as [|r rounds IH]; intros t t' s Ha Hf H; cbn [concat] in H.
  - inversion H; subst. exists [], s. auto.
  - apply plant_runs_app in H. destruct H as (t1 & H1 & H2). inversion Hf as [|? ? Hr Hf']; subst.
    destruct (plant_round_simulates _ _ _ _ _ _ _ _ _ Ha Hr H1) as (e1 & s1 & G1 & A1 & F1).
    destruct (IH t1 t' s1 A1 Hf' H2) as (e2 & s2 & L2 & F2 & G2 & A2).
    exists (e1 :: e2), s2. cbn [length concat]. rewrite L2. split; [reflexivity|]. split; [constructor; assumption|].
    rewrite schedule_app, G1. auto.
Qed.

Lemma image_bytes_u8 img f n : Forall is_u16 img -> Forall is_u8 (image_bytes img f n).
Proof. intros H. unfold image_bytes. apply Forall_firstn_skipn, bytes_of_words_u8. exact H. Qed.

Lemma new_processor cfg c i l ch p : coupler_new cfg = Ok c -> nth_error (c_modules c) i = Some (MCOM l ch) ->
  serial c i = Some p -> p = processor_new l.
Proof.
  intros H Hm Hp.
  assert (Hlen : length (cfg_params cfg) = length (cfg_modules cfg) /\
                 length (cfg_offsets cfg) = (2 * length (cfg_modules cfg))%nat).
  { unfold coupler_new in H. apply bind_ok in H. destruct H as (u & Hv & _). unfold validate in Hv.
    destruct (Nat.eqb_spec (length (cfg_modules cfg)) (length (cfg_params cfg))) as [E1|E1]; [|discriminate].
    destruct (Nat.eqb_spec (length (cfg_modules cfg) * 2) (length (cfg_offsets cfg))) as [E2|E2]; [|discriminate]. lia. }
  destruct Hlen as [L1 L2]. destruct (coupler_new_closed cfg L1 L2) as (offs & Hoffs & Lo & Hc).
  rewrite Hc in H. apply bind_ok in H. destruct H as (ms & Hms & H). apply Ok_inj in H. subst c.
  unfold serial in Hp. cbn [c_processors c_modules] in *. rewrite processors_from_get in Hp. cbn [Nat.leb] in Hp.
  rewrite Nat.sub_0_r, Hm in Hp. congruence.
Qed.

Lemma plant_starts i l ioff ooff t : plant_start i l ioff ooff t ->
  exists s, start l s /\ alike_plant i l ioff ooff t s.
Proof.
  intros ((cfg & Hcfg & Hnew) & Hat & Hl & Hul & Ei & Hui & Hlen & (o & Ho & Hav & Hack & Hrx) & W & T & O & D & C).
  pose proof (new_ok _ _ Hcfg Hnew) as Hok.
  destruct Hat as ((ch & Hm & Hoff) & Hrest).
  destruct (ok_com _ Hok i l ch Hm) as (p & Hp).
  assert (Ep : p = processor_new l).
  { eapply new_processor; eassumption. }
  exists (mk_system (processor_new l) (t_device t) o o (t_device t) [] [] [] [] 0).
  assert (Hin : decoded_in (t_device t)).
  { eapply C32_all; [|exact Hl]. apply image_bytes_u8. exact Hul. }
  assert (Hout : encodable l o).
  { eapply C32_all; [| |exact Ho]; [apply image_bytes_u8; rewrite <- Ei; exact Hui|rewrite <- Ei; exact Hlen]. }
  split.
  - unfold start. plain. repeat match goal with |- _ /\ _ => split end; auto.
  - split; plain; auto.
    + split; [exists ch; split; assumption|exact Hrest].
    + rewrite Hp, Ep. reflexivity.
    + rewrite Ei. exact Ho.
Qed.

Lemma alike_on_its_way i l ioff ooff t s : alike_plant i l ioff ooff t s ->
  on_its_way l ooff t = concat (in_flight s) /\ waiting_in (t_coupler t) i = queued (s_proc s) /\
  readable_in (t_coupler t) i = buffered (s_proc s) /\
  outstanding i l ooff t = (length (in_flight s) + length (waiting s))%nat.
Proof.
  intros [_ _ Hp _ Hi _ Hd _ _ _ _ _]. unfold on_its_way, in_flight, waiting_in, readable_in, outstanding, waiting.
  rewrite Hi, Hp, Hd. destruct (ro_tx_cnt (s_image s) =? ri_tx_cnt_ack (s_device s)); cbn [concat length]; rewrite ?app_nil_r; auto.
Qed.

Lemma C50_all : forall prof i l ioff ooff t0 es t, plant_start i l ioff ooff t0 ->
  plant_runs prof i l ioff ooff t0 es t ->
  t_written t = t_taken t ++ on_its_way l ooff t ++ waiting_in (t_coupler t) i.
Proof.
  intros prof i l ioff ooff t0 es t H0 H. destruct (plant_starts _ _ _ _ _ H0) as (s0 & S0 & A0).
  destruct (plant_run_simulates _ _ _ _ _ _ _ _ _ A0 H) as (evs & s & G & A).
  destruct (C33_all prof l s0 evs S0) as (s' & G' & _ & E). rewrite G in G'. apply Ok_inj in G'. subst s'.
  destruct (alike_on_its_way _ _ _ _ _ _ A) as (-> & -> & _). destruct A. congruence.
Qed.

Lemma C55_partial_all : forall prof i l ioff ooff t0 es1 t1 es2 t2, plant_start i l ioff ooff t0 ->
  plant_runs prof i l ioff ooff t0 es1 t1 -> (2 <= t_cycles t1)%nat ->
  plant_runs prof i l ioff ooff t1 es2 t2 ->
  (exists lost fetched,
    (lost <= length (t_offered t1))%nat /\
    (lost + fetched <= length (t_offered t2) <= lost + fetched + 1)%nat /\
    t_delivered t2 ++ readable_in (t_coupler t2) i = concat (firstn fetched (skipn lost (t_offered t2)))) /\
  (t_offered t1 = [] ->
   exists fetched, (fetched <= length (t_offered t2) <= fetched + 1)%nat /\
     t_delivered t2 ++ readable_in (t_coupler t2) i = concat (firstn fetched (t_offered t2))).
Proof.
  intros prof i l ioff ooff t0 es1 t1 es2 t2 H0 H1 Hc H2. destruct (plant_starts _ _ _ _ _ H0) as (s0 & S0 & A0).
  destruct (plant_run_simulates _ _ _ _ _ _ _ _ _ A0 H1) as (ev1 & s1 & G1 & A1).
  destruct (plant_run_simulates _ _ _ _ _ _ _ _ _ A1 H2) as (ev2 & s2 & G2 & A2).
  assert (Hc1 : (2 <= s_cycles s1)%nat) by (destruct A1; congruence).
  destruct (C35_partial_all prof l s0 ev1 s1 ev2 S0 G1 Hc1) as (s' & G' & R1 & R2). rewrite G2 in G'. apply Ok_inj in G'. subst s'.
  destruct (alike_on_its_way _ _ _ _ _ _ A2) as (_ & _ & -> & _). unfold received in *.
  destruct A1 as [_ _ _ _ _ _ _ _ _ -> _ _]. destruct A2 as [_ _ _ _ _ _ _ _ _ -> -> _]. auto.
Qed.

Lemma C56_all :
  (forall prof i l ioff ooff t0 es t rounds t', plant_start i l ioff ooff t0 ->
     plant_runs prof i l ioff ooff t0 es t -> (2 <= t_cycles t)%nat ->
     Forall plant_round rounds -> (outstanding i l ooff t <= length rounds)%nat ->
     plant_runs prof i l ioff ooff t (concat rounds) t' ->
     exists rest, t_taken t' = t_written t ++ rest) /\
  (forall prof i l ioff ooff t0 es ti es1 t1 input a b c t2, plant_start i l ioff ooff t0 ->
     plant_runs prof i l ioff ooff t0 es ti -> (2 <= t_cycles ti)%nat ->
     plant_runs prof i l ioff ooff ti es1 t1 ->
     plant_runs prof i l ioff ooff t1 (a ++ [PInput input] ++ b ++ [PCycle] ++ c) t2 ->
     exists lost fetched,
       (lost <= length (t_offered ti))%nat /\
       (length (t_offered t1) <= lost + fetched <= length (t_offered t2))%nat /\
       t_delivered t2 ++ readable_in (t_coupler t2) i = concat (firstn fetched (skipn lost (t_offered t2)))).
Proof.
  split.
  - intros prof i l ioff ooff t0 es t rounds t' H0 H1 Hc Hf Hn H2. destruct (plant_starts _ _ _ _ _ H0) as (s0 & S0 & A0).
    destruct (plant_run_simulates _ _ _ _ _ _ _ _ _ A0 H1) as (ev1 & s1 & G1 & A1).
    destruct (plant_rounds_simulate _ _ _ _ _ _ _ _ _ A1 Hf H2) as (ev2 & s2 & L2 & F2 & G2 & A2).
    destruct (alike_on_its_way _ _ _ _ _ _ A1) as (_ & _ & _ & En). rewrite En in Hn.
    assert (Hc1 : (2 <= s_cycles s1)%nat) by (destruct A1; congruence).
    destruct (C34_rounds prof l s0 ev1 s1 ev2 S0 G1 Hc1 F2) as (s' & rest & G' & E); [lia|].
    rewrite G2 in G'. apply Ok_inj in G'. subst s'. exists rest. destruct A1, A2. congruence.
  - intros prof i l ioff ooff t0 es ti es1 t1 input a b c t2 H0 Hi Hc H1 H2.
    destruct (plant_starts _ _ _ _ _ H0) as (s0 & S0 & A0).
    destruct (plant_run_simulates _ _ _ _ _ _ _ _ _ A0 Hi) as (ev0 & si & G0 & Ai).
    destruct (plant_run_simulates _ _ _ _ _ _ _ _ _ Ai H1) as (ev1 & s1 & G1 & A1).
    apply plant_runs_app in H2. destruct H2 as (u1 & X1 & H2). apply plant_runs_app in H2. destruct H2 as (u2 & X2 & H2).
    apply plant_runs_app in H2. destruct H2 as (u3 & X3 & H2). apply plant_runs_app in H2. destruct H2 as (u4 & X4 & X5).
    destruct (plant_run_simulates _ _ _ _ _ _ _ _ _ A1 X1) as (e1 & r1 & Y1 & B1).
    destruct (plant_one _ _ _ _ _ _ _ _ _ B1 X2) as (e2 & r2 & Y2 & B2 & ->).
    destruct (plant_run_simulates _ _ _ _ _ _ _ _ _ B2 X3) as (e3 & r3 & Y3 & B3).
    destruct (plant_one _ _ _ _ _ _ _ _ _ B3 X4) as (e4 & r4 & Y4 & B4 & (w & ->)).
    destruct (plant_run_simulates _ _ _ _ _ _ _ _ _ B4 X5) as (e5 & r5 & Y5 & B5).
    assert (Hci : (2 <= s_cycles si)%nat) by (destruct Ai; congruence).
    destruct (C53_all prof l s0 ev0 si ev1 s1 e1 (e3 ++ w) e5 r5 S0 G0 Hci G1) as (lost & fetched & Q1 & Q2 & Q3).
    { rewrite schedule_app, Y1. cbn [bind]. rewrite schedule_app, Y2. cbn [bind].
      rewrite <- app_assoc, schedule_app, Y3. cbn [bind].
      replace (w ++ [HostCycle] ++ e5) with ((w ++ [HostCycle]) ++ e5) by (rewrite <- app_assoc; reflexivity).
      rewrite schedule_app, Y4. exact Y5. }
    exists lost, fetched. destruct (alike_on_its_way _ _ _ _ _ _ B5) as (_ & _ & -> & _). unfold received in *.
    destruct Ai as [_ _ _ _ _ _ _ _ _ -> _ _]. destruct A1 as [_ _ _ _ _ _ _ _ _ -> _ _].
    destruct B5 as [_ _ _ _ _ _ _ _ _ -> -> _]. auto.
Qed.
