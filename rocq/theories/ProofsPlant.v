(** Execution of the plant, for the examples. *)
From Coq Require Import ZArith List Bool Lia.
From Verif Require Import Base Facts F32 Types Lib Com Fbc SpecCodec SpecSerial SpecCoupler SpecImage SpecSystem ProofsWitness.
Import ListNotations.
Local Open Scope Z_scope.

Lemma fits_config cfg : forallb fits (cfg_offsets cfg) = true -> forallb (forallb fits) (cfg_params cfg) = true ->
  rust_config cfg.
Proof.
  intros H1 H2. split; [apply fits_u16; exact H1|].
  apply Forall_forall. intros x Hx. apply fits_u16. rewrite forallb_forall in H2. apply H2. exact Hx.
Qed.

Definition good_value (v : channel_value) : bool :=
  match v with Bit _ | Disabled | VNone => true | Bytes b => forallb (fun x => (0 <=? x) && (x <=? 255)) b | _ => false end.
Definition byte_values (b : list Z) : bool := forallb (fun x => (0 <=? x) && (x <=? 255)) b.

Definition plant_exec (prof : profile) (i : nat) (l : process_data_length) (ioff ooff : Z) (t : plant) (e : plant_event) : option plant :=
  match e with
  | PSet a v => if good_value v then Some (with_coupler t (fst (set_output (t_coupler t) a v))) else None
  | PRead j size =>
      let (c, r) := coupler_read (t_coupler t) j size in
      Some (mk_plant c (t_latch t) (t_image t) (t_register t) (t_device t) (t_written t) (t_taken t) (t_offered t)
         (t_delivered t ++ match r with Some bytes => if Nat.eqb j i then bytes else [] | None => [] end)
         (t_cycles t))
  | PWrite j buf => if byte_values buf then
      Some (mk_plant (fst (coupler_write (t_coupler t) j buf)) (t_latch t) (t_image t) (t_register t) (t_device t)
         (t_written t ++ if Nat.eqb j i then buf else []) (t_taken t) (t_offered t) (t_delivered t) (t_cycles t)) else None
  | PInput input =>
      match rs_in_from_bytes (in_part l ioff input) with
      | Ok d =>
          if forallb fits input && Bool.eqb (ri_data_available d) (ri_data_available (t_device t)) &&
             Bool.eqb (ri_buffer_nearly_full d) (ri_buffer_nearly_full (t_device t)) && Bool.eqb (ri_ready d) (ri_ready (t_device t)) &&
             (ri_rx_cnt d =? ri_rx_cnt (t_device t)) && (ri_tx_cnt_ack d =? ri_tx_cnt_ack (t_device t)) &&
             (if list_eq_dec Z.eq_dec (ri_data d) (ri_data (t_device t)) then true else false)
          then Some (mk_plant (t_coupler t) input (t_image t) (t_register t) (t_device t)
                 (t_written t) (t_taken t) (t_offered t) (t_delivered t) (t_cycles t)) else None
      | _ => None
      end
  | PCycle =>
      match next prof as_is as_is (t_coupler t) (t_latch t) (t_image t) with
      | (c', Ok image) => if forallb fits (t_latch t) && forallb fits (t_image t) then
          Some (mk_plant c' (t_latch t) image (t_register t) (t_device t)
            (t_written t ++ pending (t_coupler t) i) (t_taken t) (t_offered t) (t_delivered t) (S (t_cycles t))) else None
      | _ => None
      end
  | POutput => Some (mk_plant (t_coupler t) (t_latch t) (t_image t) (t_image t) (t_device t)
         (t_written t) (t_taken t) (t_offered t) (t_delivered t) (t_cycles t))
  | PTake =>
      match rs_out_from_bytes (out_part l ooff (t_register t)) with
      | Ok o => Some (if ro_tx_cnt o =? ri_tx_cnt_ack (t_device t) then t
       else with_device t
         (mk_rs_in (ri_data_available (t_device t)) (ri_buffer_nearly_full (t_device t)) (ri_rx_cnt (t_device t))
            (ro_tx_cnt o) (ri_ready (t_device t)) (ri_data (t_device t)))
         (t_taken t ++ ro_data o) (t_offered t))
      | _ => None
      end
  | POffer seg =>
      match rs_out_from_bytes (out_part l ooff (t_register t)) with
      | Ok o => Some (if ro_rx_cnt_ack o =? ri_rx_cnt (t_device t) then
         with_device t
           (mk_rs_in true (ri_buffer_nearly_full (t_device t)) (succ4 (ri_rx_cnt (t_device t)))
              (ri_tx_cnt_ack (t_device t)) (ri_ready (t_device t)) seg)
           (t_taken t) (t_offered t ++ [seg])
       else t)
      | _ => None
      end
  | PClear =>
      match rs_out_from_bytes (out_part l ooff (t_register t)) with
      | Ok o => Some (if ro_rx_cnt_ack o =? ri_rx_cnt (t_device t) then
         with_device t
           (mk_rs_in false (ri_buffer_nearly_full (t_device t)) (ri_rx_cnt (t_device t))
              (ri_tx_cnt_ack (t_device t)) (ri_ready (t_device t)) [])
           (t_taken t) (t_offered t)
       else t)
      | _ => None
      end
  | PStatus full ready => Some (with_device t
         (mk_rs_in (ri_data_available (t_device t)) full (ri_rx_cnt (t_device t))
            (ri_tx_cnt_ack (t_device t)) ready (ri_data (t_device t))) (t_taken t) (t_offered t))
  end.

Fixpoint plant_execs (prof : profile) (i : nat) (l : process_data_length) (ioff ooff : Z) (t : plant) (es : list plant_event) : option plant :=
  match es with
  | [] => Some t
  | e :: es' => match plant_exec prof i l ioff ooff t e with Some t' => plant_execs prof i l ioff ooff t' es' | None => None end
  end.

Lemma byte_values_u8 b : byte_values b = true -> Forall is_u8 b.
Proof.
  unfold byte_values. rewrite forallb_forall, Forall_forall. intros H x Hx. specialize (H x Hx). unfold is_u8.
  apply andb_prop in H. destruct H as [H1 H2]. apply Z.leb_le in H1, H2. lia.
Qed.

Lemma exec_step prof i l ioff ooff t e t' : plant_exec prof i l ioff ooff t e = Some t' ->
  plant_step prof i l ioff ooff t e t'.
Proof.
  intros H. destruct e as [a v|j n|j b|input| | | |seg| |full ready]; cbn [plant_exec] in H.
  - destruct (good_value v) eqn:E; [|discriminate]. apply Some_inj in H. subst t'. apply P_set.
    destruct v; try discriminate; try exact I. apply byte_values_u8. exact E.
  - destruct (coupler_read (t_coupler t) j n) as (c & r) eqn:E. apply Some_inj in H. subst t'. apply P_read. exact E.
  - destruct (byte_values b) eqn:E; [|discriminate]. apply Some_inj in H. subst t'. apply P_write. apply byte_values_u8. exact E.
  - destruct (rs_in_from_bytes (in_part l ioff input)) as [d|e|p] eqn:E; try discriminate.
    match type of H with (if ?b then _ else _) = _ => destruct b eqn:Eb; [|discriminate] end. apply Some_inj in H. subst t'.
    repeat (apply andb_prop in Eb; destruct Eb as [Eb ?]).
    apply P_input; [apply fits_u16; exact Eb|]. rewrite E. f_equal.
    repeat match goal with X : Bool.eqb _ _ = true |- _ => apply Bool.eqb_prop in X end.
    repeat match goal with X : (_ =? _) = true |- _ => apply Z.eqb_eq in X end.
    destruct (list_eq_dec Z.eq_dec (ri_data d) (ri_data (t_device t))); [|discriminate].
    destruct d, (t_device t); cbn in *; congruence.
  - destruct (next prof as_is as_is (t_coupler t) (t_latch t) (t_image t)) as (c' & [image|e|p]) eqn:E; try discriminate.
    match type of H with (if ?b then _ else _) = _ => destruct b eqn:Eb; [|discriminate] end. apply Some_inj in H. subst t'.
    apply andb_prop in Eb. destruct Eb as [E1 E2]. apply P_cycle. apply step_cycle; assumption.
  - apply Some_inj in H. subst t'. apply P_output.
  - destruct (rs_out_from_bytes (out_part l ooff (t_register t))) as [o|e|p] eqn:E; try discriminate.
    apply Some_inj in H. subst t'. apply P_take. exact E.
  - destruct (rs_out_from_bytes (out_part l ooff (t_register t))) as [o|e|p] eqn:E; try discriminate.
    apply Some_inj in H. subst t'. apply P_offer. exact E.
  - destruct (rs_out_from_bytes (out_part l ooff (t_register t))) as [o|e|p] eqn:E; try discriminate.
    apply Some_inj in H. subst t'. apply P_clear. exact E.
  - apply Some_inj in H. subst t'. apply P_status.
Qed.

Lemma exec_runs prof i l ioff ooff es : forall t t', plant_execs prof i l ioff ooff t es = Some t' ->
  plant_runs prof i l ioff ooff t es t'.
Proof.
  induction es as [|e es IH]; intros t t' H; cbn [plant_execs] in H.
  - apply Some_inj in H. subst t'. constructor.
  - destruct (plant_exec prof i l ioff ooff t e) as [t1|] eqn:E; [|discriminate].
    econstructor; [apply exec_step; exact E|apply IH; exact H].
Qed.
