(** Proofs of the exact exceptions to C09, C12, C36, C51 and C52. *)
From Coq Require Import ZArith List Bool Lia ZifyBool ZifyNat.
From Verif Require Import Base Facts F32 Types Lib Util Digital Analog Fcnt Com Fbc
  SpecParams ProofsParams SpecCodec ProofsCodec SpecSerial SpecCoupler SpecImage ProofsImage ProofsModule ProofsLayout ProofsCycle
  ProofsCoupler SpecExact.
Import ListNotations.
Local Open Scope Z_scope.
Ltac Zify.zify_post_hook ::= Z.div_mod_to_equations.

(** *** C09 *)

Lemma tc_parse_range a b c d e f g : Forall is_u16 [a; b; c; d; e; f; g] ->
  (in_range [19; 4; 5; 1; 1; 65535; 65535] [a; b; c; d; e; f; g] /\ exists x, tc_parse [a; b; c; d; e; f; g] = Ok x) \/
  (~ in_range [19; 4; 5; 1; 1; 65535; 65535] [a; b; c; d; e; f; g] /\ tc_parse [a; b; c; d; e; f; g] = Err ChannelParameter).
Proof.
  intros H. repeat match goal with H : Forall is_u16 (_ :: _) |- _ => inversion H; clear H; subst end.
  unfold tc_parse. cbn [index nth_error bind].
  repeat (param_step; [|out_of_range]).
  left. split; [cbn [in_range]; unfold is_u16 in *; repeat split; lia|eauto].
Qed.

Lemma tc_chunks_range : forall n l, (length l < n)%nat -> Forall is_u16 l ->
  (in_range (concat (repeat [19; 4; 5; 1; 1; 65535; 65535] (length l / 7))) l /\
     exists x, traverse tc_parse (chunks_exact_7 l) = Ok x) \/
  (~ in_range (concat (repeat [19; 4; 5; 1; 1; 65535; 65535] (length l / 7))) l /\
     traverse tc_parse (chunks_exact_7 l) = Err ChannelParameter).
Proof.
  induction n as [|n IH]; intros l Hn Hu; [lia|].
  destruct (Nat.ltb_spec (length l) 7) as [Hs|Hs].
  { rewrite chunks_exact_7_short by exact Hs. rewrite Nat.div_small by exact Hs. left. split; [exact I|]. exists []. reflexivity. }
  destruct l as [|a [|b [|c [|d [|e [|f [|g l]]]]]]]; cbn [length] in Hs; try lia.
  assert (Hd : (length (a :: b :: c :: d :: e :: f :: g :: l) / 7 = S (length l / 7))%nat).
  { cbn [length]. replace (S (S (S (S (S (S (S (length l)))))))) with (1 * 7 + length l)%nat by lia.
    rewrite Nat.div_add_l by lia. lia. }
  rewrite Hd. clear Hd. cbn [chunks_exact_7 repeat concat app traverse].
  assert (Hu7 : Forall is_u16 [a; b; c; d; e; f; g] /\ Forall is_u16 l).
  { change (Forall is_u16 ([a; b; c; d; e; f; g] ++ l)) in Hu. apply Forall_app in Hu. exact Hu. }
  destruct Hu7 as [H7 Hl].
  destruct (tc_parse_range a b c d e f g H7) as [(R & x & ->)|(R & ->)]; cbn [bind in_range] in *.
  - destruct (IH l) as [(R' & xs & ->)|(R' & ->)]; [cbn [length] in Hn; lia|exact Hl| |]; cbn [bind].
    + left. split; [tauto|eauto].
    + right. split; [tauto|reflexivity].
  - right. split; [tauto|reflexivity].
Qed.

Lemma C09_thermocouple_all : forall regs, Forall is_u16 regs -> (36 <= length regs)%nat ->
  (in_range (thermocouple_bounds ((length regs - 1) / 7)) regs ->
     module_from_params UR20_4AI_TC_DIAG regs = Panic ExpectFailed) /\
  (~ in_range (thermocouple_bounds ((length regs - 1) / 7)) regs ->
     module_from_params UR20_4AI_TC_DIAG regs = Err ChannelParameter).
Proof.
  intros regs Hu Hl. pose proof (tc_too_many regs Hl) as Ht.
  destruct regs as [|r regs]; [cbn [length] in Hl; lia|].
  inversion Hu as [|? ? Hr Hu']. subst. replace (length (r :: regs) - 1)%nat with (length regs) by (cbn [length]; lia).
  unfold thermocouple_bounds. cbn [in_range].
  revert Ht. unfold module_from_params, tc_parameters.
  destruct (Nat.ltb_spec (length (r :: regs)) (1 + 4 * 7)) as [H0|_]; [lia|].
  cbn [index nth_error bind skipn].
  change (traverse _ (chunks_exact_7 regs)) with (traverse tc_parse (chunks_exact_7 regs)).
  destruct (unit_cases r Hr) as [(u & -> & Hru & Hr2)|(-> & Hru)]; cbn [bind].
  - destruct (tc_chunks_range (S (length regs)) regs) as [(R & xs & ->)|(R & ->)]; [lia|exact Hu'| |]; cbn [bind].
    + intros [H|H]; (split; intros Hn; [|exfalso; apply Hn; split; [|exact R]]).
      * exact H.
      * exact Hr2.
      * destruct (Nat.eqb (length xs) 4); discriminate.
      * exact Hr2.
    + intros _. split; [intros [_ H]; contradiction|reflexivity].
  - intros _. split; [intros [H _]; lia|reflexivity].
Qed.

(** *** C12 *)

Lemma C12_reported_all : forall t regs m, module_from_params t regs = Ok m ->
  (t = UR20_4AI_UI_16 -> mod_type m = UR20_4AI_UI_12) /\ (t <> UR20_4AI_UI_16 -> mod_type m = t).
Proof.
  intros t regs m H. split; [intros ->; exact (ui16_always_reports_ui12 _ _ H)|exact (C12_partial_all _ _ _ H)].
Qed.

(** *** C36 *)

Lemma C36_sil_all : forall prof c input output c' image, reachable prof c -> cycle prof c input output c' (Ok image) ->
  forall i o, module_at c i MSIL o -> exists row, nth_error (inputs c') i = Some row /\
    (mo_input o = None -> row = []) /\ (mo_input o <> None -> length row = 1%nat).
Proof.
  intros prof c input output c' image Hr H i o Hat. pose proof (reachable_ok _ _ Hr) as Hok.
  destruct (cycle_inv _ _ _ _ _ _ Hok H) as [(_ & _ & _ & _ & Hn)|[(ins & _ & _ & _ & _ & _ & Hn)|(ins & outs & sent & E1 & _ & _ & _ & E2 & E3 & _ & _ & E4)]];
    [exfalso; exact (Hn image eq_refl)|exfalso; exact (Hn image eq_refl)|].
  destruct (decoded_shape _ _ _ _ _ _ _ _ Hok E1 E2 E3 E4) as [[_ S1] _].
  apply infos_at in Hat. destruct (S1 i MSIL o Hat) as (row & Hrow & L). exists row. split; [exact Hrow|].
  destruct (mo_input o) as [a|]; (split; intros Hx; [try discriminate|try congruence]).
  - exact L.
  - destruct row; [reflexivity|discriminate].
Qed.

(** *** C51 *)

Lemma steps_panic prof l : forall out, Forall (fun x => off_ok (snd (fst x))) l ->
  Forall (fun x => Forall wire_value (snd x)) l ->
  (exists p, steps prof l out = Panic p) <->
  exists i m o v off image, nth_error l i = Some ((m, o), v) /\ mo_output o = Some off /\ off mod 16 = 8 /\
    mod_process_output_values prof m v = Ok [] /\ steps prof (firstn i l) out = Ok image /\
    0x0800 <= off / 16 /\ off / 16 + 1 = 0x0800 + Z.of_nat (length image).
Proof.
  induction l as [|((m & o) & v) l IH]; intros out Hoff Hw.
  - split; [intros (p & H); discriminate|]. intros (i & m & o & v & off & image & Hi & _). destruct i; discriminate.
  - inversion Hoff as [|? ? Ho Hoff']; subst. inversion Hw as [|? ? Hw1 Hw']; subst. cbn [fst snd] in *. cbn [steps].
    assert (Hstep : match output_step prof m o v out with
      | Panic p => exists off, mo_output o = Some off /\ off mod 16 = 8 /\ mod_process_output_values prof m v = Ok [] /\
                     0x0800 <= off / 16 /\ off / 16 + 1 = 0x0800 + Z.of_nat (length out)
      | _ => forall off, mo_output o = Some off -> off mod 16 = 8 -> mod_process_output_values prof m v = Ok [] ->
                     0x0800 <= off / 16 -> off / 16 + 1 = 0x0800 + Z.of_nat (length out) -> False
      end).
    { destruct (mo_output o) as [off|] eqn:Eo.
      - destruct (mod_process_output_values prof m v) as [d|e|p] eqn:Ed.
        + pose proof (output_step_cases prof m o v out d Ho (fun _ => Ed)) as Hc.
          revert Hc. generalize (output_step prof m o v out). intros res Hc.
          inversion Hc as [A|off' A B C D|off' t last w r A B C D E F|off' t last A B C D E|off' A B C D]; subst;
            try (rewrite Eo in A; try discriminate; apply Some_inj in A; subst off').
          * intros off0 E0 E8. apply Some_inj in E0. subst off0. lia.
          * exists off. split; [reflexivity|]. split; [exact B|]. split; [reflexivity|].
            rewrite app_length. cbn [length]. lia.
          * intros off0 E0 E8 E9 E10 E11. apply Some_inj in E0. subst off0. apply C. auto.
        + unfold output_step. rewrite Eo, Ed. cbn [bind]. intros; discriminate.
        + exfalso. assert (Hv : Forall valid_preset v).
          { eapply Forall_impl; [|exact Hw1]. intros x Hx. destruct x; exact I || exact Hx. }
          pose proof (output_values_no_panic prof m v Hv) as Hn. rewrite Ed in Hn. exact Hn.
      - unfold output_step. rewrite Eo. intros; discriminate. }
    destruct (output_step prof m o v out) as [out'|e|p] eqn:Es; cbn [bind].
    + rewrite (IH out' Hoff' Hw'). split.
      * intros (i & m' & o' & v' & off & image & Hi & Eo & E8 & Ee & Es' & El).
        exists (S i), m', o', v', off, image. cbn [nth_error firstn steps]. rewrite Es. cbn [bind]. tauto.
      * intros (i & m' & o' & v' & off & image & Hi & Eo & E8 & Ee & Es' & E1 & E2). destruct i as [|i].
        -- cbn [nth_error firstn steps] in *. apply Some_inj in Hi. apply pair_inj in Hi. destruct Hi as [Hi <-].
           apply pair_inj in Hi. destruct Hi as [<- <-]. apply Ok_inj in Es'. subst image. exfalso. eapply Hstep; eassumption.
        -- cbn [nth_error firstn steps] in *. rewrite Es in Es'. cbn [bind] in Es'.
           exists i, m', o', v', off, image. tauto.
    + split; [intros (p & H); discriminate|].
      intros (i & m' & o' & v' & off & image & Hi & Eo & E8 & Ee & Es' & E1 & E2). exfalso. destruct i as [|i].
      * cbn [nth_error firstn steps] in *. apply Some_inj in Hi. apply pair_inj in Hi. destruct Hi as [Hi <-].
        apply pair_inj in Hi. destruct Hi as [<- <-]. apply Ok_inj in Es'. subst image. eapply Hstep; eassumption.
      * cbn [firstn steps] in Es'. rewrite Es in Es'. discriminate.
    + split; [intros _|eauto]. destruct Hstep as (off & Eo & E8 & Ee & E1 & E2).
      exists 0%nat, m, o, v, off, out. cbn [nth_error firstn steps]. auto 10.
Qed.

Lemma combine_firstn {A B} (l : list A) (l' : list B) n : firstn n (combine l l') = combine (firstn n l) (firstn n l').
Proof.
  revert l l'. induction n as [|n IH]; intros [|a l] [|b l']; try reflexivity. cbn [combine firstn]. rewrite IH. reflexivity.
Qed.

Lemma C51_exact_all : forall prof ms values,
  (forall i m o off, nth_error ms i = Some (m, o) -> mo_output o = Some off -> is_u16 off) ->
  Forall (Forall rust_value) values ->
  (exists p, process_output_values prof ms values = Panic p) <->
  length values = length ms /\
  exists i m o vs off image, nth_error ms i = Some (m, o) /\ nth_error values i = Some vs /\
    mo_output o = Some off /\ off mod 16 = 8 /\ mod_process_output_values prof m vs = Ok [] /\
    process_output_values prof (firstn i ms) (firstn i values) = Ok image /\
    0x0800 <= off / 16 /\ off / 16 + 1 = 0x0800 + Z.of_nat (length image).
Proof.
  intros prof ms values Hoff Hv.
  destruct (Nat.eq_dec (length values) (length ms)) as [Hl|Hl].
  2:{ unfold process_output_values at 1. replace (Nat.eqb (length ms) (length values)) with false by lia.
      split; [intros (p & H); discriminate|intros (H & _); contradiction]. }
  rewrite process_output_values_steps by exact Hl. rewrite steps_panic.
  - split.
    + intros (i & m & o & v & off & image & Hi & Eo & E8 & Ee & Es & El). split; [exact Hl|].
      rewrite nth_error_combine in Hi. destruct (nth_error ms i) as [mo|] eqn:Em; [|discriminate].
      destruct (nth_error values i) as [v'|] eqn:Ev; [|discriminate]. apply Some_inj, pair_inj in Hi. destruct Hi as [-> ->].
      exists i, m, o, v, off, image. rewrite process_output_values_steps, <- combine_firstn by (rewrite !firstn_length; lia). tauto.
    + intros (_ & i & m & o & v & off & image & Hi & Hvi & Eo & E8 & Ee & Es & El).
      exists i, m, o, v, off, image. rewrite nth_error_combine, Hi, Hvi.
      rewrite process_output_values_steps, <- combine_firstn in Es by (rewrite !firstn_length; lia). tauto.
  - apply Forall_forall. intros ((m & o) & v) Hin. apply in_combine_l, In_nth_error in Hin.
    destruct Hin as (i & Hi). intros off Ho. exact (Hoff i m o off Hi Ho).
  - apply Forall_forall. intros (mo & v) Hin. apply in_combine_r in Hin. cbn [snd].
    rewrite Forall_forall in Hv. exact (rust_wires v (Hv v Hin)).
Qed.

(** *** C52 *)

Lemma readback_panics {P} (f : P -> Z -> channel_value) (params : list P) (data : list Z) : length data = 4%nat ->
  (length params < 4)%nat ->
  traverse (fun iv => let '(i, v) := iv in let? p := index params i in Ok (f p v)) (enumerate data) = Panic IndexOutOfBounds.
Proof.
  intros Hd Hp. destruct data as [|a [|b [|c [|d [|e data]]]]]; try discriminate.
  destruct params as [|p0 [|p1 [|p2 [|p3 params]]]]; try reflexivity. cbn [length] in Hp. lia.
Qed.

Lemma C52_exact_all : forall m data, (exists p, mod_process_output_data m data = Panic p) <->
  length data = 4%nat /\ ((exists ch, m = M4AO ch /\ (length ch < 4)%nat) \/ (exists ch, m = M4AODIAG ch /\ (length ch < 4)%nat)).
Proof.
  intros m data. destruct (C52_partial_all Debug m data [] (Forall_nil _)) as (_ & _ & H1 & H2). split.
  - intros (p & Hp). destruct (Nat.eq_dec (length data) 4) as [Hl|Hl]; [|exfalso; exact (H2 Hl p Hp)].
    split; [exact Hl|].
    destruct m as [v ch|v ch| |ch|ch|ch|u ch|f ch|v f ch|f ch|u ch|ch|l ch| ];
      try (exfalso; apply (H1 ltac:(intros; discriminate) ltac:(intros; discriminate) p Hp)).
    + destruct (Nat.ltb_spec (length ch) 4) as [Hc|Hc]; [left; eauto|exfalso]. apply (H1) with p; [| |exact Hp].
      * intros ch' E. injection E as <-. exact Hc.
      * intros; discriminate.
    + destruct (Nat.ltb_spec (length ch) 4) as [Hc|Hc]; [right; eauto|exfalso]. apply (H1) with p; [| |exact Hp].
      * intros; discriminate.
      * intros ch' E. injection E as <-. exact Hc.
  - intros (Hl & [(ch & -> & Hc)|(ch & -> & Hc)]); exists IndexOutOfBounds; cbn [mod_process_output_data].
    + unfold ao_process_output_data. rewrite Hl. cbn [Nat.eqb negb].
      exact (readback_panics (fun p v => analog_value (u16_to_analog_ui_value v (ao_range p) (ao_format p))) ch data Hl Hc).
    + unfold ao_diag_process_output_data. rewrite Hl. cbn [Nat.eqb negb].
      exact (readback_panics (fun p v => analog_value (u16_to_analog_ui_value v (aod_range p) (aod_format p))) ch data Hl Hc).
Qed.
