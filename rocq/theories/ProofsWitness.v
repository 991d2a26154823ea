(** Concrete histories that contradict the properties C36, C39, C43 - C46 and C49. *)
From Coq Require Import ZArith List Bool Lia Permutation.
From Verif Require Import Base Facts F32 Types Lib Util Digital Analog Fcnt Com Fbc
  SpecCodec SpecSerial SpecCoupler SpecImage ProofsLoop ProofsCycle ProofsCoupler ProofsOrder.
Import ListNotations.
Local Open Scope Z_scope.

Definition after {A} (d : A) (o : outcome A) : A := match o with Ok x => x | _ => d end.
Definition no_coupler : coupler := mk_coupler [] [] [] [] [] [] 0.
Definition as_is (l : list (nat * channel_value)) : list (nat * channel_value) := l.

Lemma as_is_order : hash_order as_is.
Proof. intros l. apply Permutation_refl. Qed.

Definition fits (w : Z) : bool := (0 <=? w) && (w <=? 65535).
Lemma fits_u16 l : forallb fits l = true -> Forall is_u16 l.
Proof.
  rewrite forallb_forall, Forall_forall. intros H x Hx. specialize (H x Hx). unfold fits in H. unfold is_u16.
  apply andb_prop in H. destruct H as [H1 H2]. apply Z.leb_le in H1, H2. lia.
Qed.

Lemma start_reachable prof cfg c : forallb fits (cfg_offsets cfg) = true -> forallb (forallb fits) (cfg_params cfg) = true ->
  coupler_new cfg = Ok c -> reachable prof c.
Proof.
  intros H1 H2 H3. apply (R_new prof cfg c); [|exact H3]. split; [apply fits_u16; exact H1|].
  apply Forall_forall. intros x Hx. apply fits_u16. rewrite forallb_forall in H2. apply H2. exact Hx.
Qed.

Lemma step_cycle prof c input output c' r : forallb fits input = true -> forallb fits output = true ->
  next prof as_is as_is c input output = (c', r) -> cycle prof c input output c' r.
Proof.
  intros H1 H2 H. split; [apply fits_u16; exact H1|]. split; [apply fits_u16; exact H2|].
  exists as_is, as_is. auto using as_is_order.
Qed.

(** C36 *)
Definition w36 : coupler := after no_coupler (coupler_new (mk_config [UR20_PF_O_1DI_SIL] [0xFFFF; 0] [[]])).
Lemma C36_refuted_all : exists prof c input output c' image m row,
  reachable prof c /\ cycle prof c input output c' (Ok image) /\
  nth_error (c_modules c) 0 = Some m /\ nth_error (inputs c') 0 = Some row /\ length row <> channels m.
Proof.
  exists Release, w36, [0; 0], [],
    (fst (next Release as_is as_is w36 [0; 0] [])), [], MSIL, [SilPFIn (mk_sil_in false false false false false false false)].
  repeat match goal with |- _ /\ _ => split end.
  - apply (start_reachable _ (mk_config [UR20_PF_O_1DI_SIL] [0xFFFF; 0] [[]])); vm_compute; reflexivity.
  - apply step_cycle; vm_compute; reflexivity.
  - vm_compute; reflexivity.
  - vm_compute; reflexivity.
  - vm_compute. discriminate.
Qed.

(** C39: a module with sixteen channels in the middle of a register, and two modules at one byte *)
Definition cfg39 : config := mk_config [UR20_4DO_P; UR20_16DO_P] [0x8000; 0xFFFF; 0x8008; 0xFFFF] [repeat 0 4; []].
Definition w39 : coupler := after no_coupler (coupler_new cfg39).
Definition a39 : address := mk_address 1 9.
Definition w39' : coupler := fst (set_output w39 a39 (Bit true)).
Lemma C39_refuted_wide_all : exists prof c a input output c' image m off,
  reachable prof c /\ requested c a = Some (Bit true) /\ cycle prof c input output c' (Ok image) /\
  module_at c (a_module a) m (mk_offset None (Some off)) /\ digital_outputs m = Some 16%nat /\
  (a_channel a < 16)%nat /\
  nth_error (bytes_of_words image) (first_byte 0x0800 off + Nat.div (a_channel a) 8) = None.
Proof.
  exists Release, w39', a39, [], [0; 0],
    (fst (next Release as_is as_is w39' [] [0; 0])), [0], M16DO, 0x8008.
  repeat match goal with |- _ /\ _ => split end.
  - apply R_set; [|exact I]. apply (start_reachable _ cfg39); vm_compute; reflexivity.
  - vm_compute; reflexivity.
  - apply step_cycle; vm_compute; reflexivity.
  - split; vm_compute; reflexivity.
  - reflexivity.
  - cbn. lia.
  - vm_compute; reflexivity.
Qed.

Definition cfg39b : config := mk_config [UR20_4DO_P; UR20_4DO_P; UR20_4DO_P]
  [0x8000; 0xFFFF; 0x8008; 0xFFFF; 0x8008; 0xFFFF] (repeat (repeat 0 4) 3).
Definition w39b : coupler := after no_coupler (coupler_new cfg39b).
Definition a39b : address := mk_address 1 2.
Definition w39b' : coupler := fst (set_output w39b a39b (Bit true)).
Lemma C39_refuted_overlap_all : exists prof c a input output c' image m off,
  reachable prof c /\ requested c a = Some (Bit true) /\ cycle prof c input output c' (Ok image) /\
  module_at c (a_module a) m (mk_offset None (Some off)) /\ digital_outputs m = Some 4%nat /\
  (a_channel a < 4)%nat /\ output_bit image off (a_channel a) = false.
Proof.
  exists Release, w39b', a39b, [], [0; 0],
    (fst (next Release as_is as_is w39b' [] [0; 0])), [0], (MDO V_4DO_P (repeat false 4)), 0x8008.
  repeat match goal with |- _ /\ _ => split end.
  - apply R_set; [|exact I]. apply (start_reachable _ cfg39b); vm_compute; reflexivity.
  - vm_compute; reflexivity.
  - apply step_cycle; vm_compute; reflexivity.
  - split; vm_compute; reflexivity.
  - reflexivity.
  - cbn. lia.
  - vm_compute; reflexivity.
Qed.

(** C43 *)
Definition cfg43 : config := mk_config [UR20_4DO_P] [0; 0xFFFF] [repeat 0 4].
Definition w43 : coupler := after no_coupler (coupler_new cfg43).
Lemma C43_refuted_all : exists c input output c' p,
  reachable Debug c /\ cycle Debug c input output c' (Panic p).
Proof.
  exists w43, [], [0], (fst (next Debug as_is as_is w43 [] [0])), ArithmeticOverflow.
  split; [apply (start_reachable _ cfg43)|apply step_cycle]; vm_compute; reflexivity.
Qed.

(** C44: [inputs] change although the cycle failed *)
Definition cfg44 : config := mk_config [UR20_4DI_P; UR20_4DO_P] [0xFFFF; 0; 0x8000; 0xFFFF] [repeat 0 4; repeat 0 4].
Definition w44 : coupler := after no_coupler (coupler_new cfg44).
Lemma C44_refuted_inputs_all : exists prof c input output c' e,
  reachable prof c /\ cycle prof c input output c' (Err e) /\ inputs c' <> inputs c.
Proof.
  exists Release, w44, [5], [], (fst (next Release as_is as_is w44 [5] [])), BufferLength.
  split; [apply (start_reachable _ cfg44); vm_compute; reflexivity|]. split; [apply step_cycle; vm_compute; reflexivity|].
  vm_compute. discriminate.
Qed.

(** C44, C45: a valid request is lost because of an invalid one for another module *)
Definition cfg45 : config := mk_config [UR20_4DO_P; UR20_4DO_P] [0x8000; 0xFFFF; 0x8010; 0xFFFF] [repeat 0 4; repeat 0 4].
Definition w45 : coupler := after no_coupler (coupler_new cfg45).
Definition w45' : coupler := fst (set_output (fst (set_output w45 (mk_address 0 0) (Bit true))) (mk_address 1 0) VNone).
Definition w45'' : coupler := fst (next Release as_is as_is w45' [] [0; 0]).
Lemma C45_reach : reachable Release w45' /\ cycle Release w45' [] [0; 0] w45'' (Err ChannelValueError).
Proof.
  split.
  - apply R_set; [|exact I]. apply R_set; [|exact I]. apply (start_reachable _ cfg45); vm_compute; reflexivity.
  - apply step_cycle; vm_compute; reflexivity.
Qed.
Lemma C44_refuted_requests_all : exists prof c input output c' e a v,
  reachable prof c /\ cycle prof c input output c' (Err e) /\
  requested c a = Some v /\ requested c' a = None.
Proof.
  destruct C45_reach as [H1 H2].
  exists Release, w45', [], [0; 0], w45'', ChannelValueError, (mk_address 0 0), (Bit true).
  split; [exact H1|]. split; [exact H2|]. split; vm_compute; reflexivity.
Qed.
Lemma C45_refuted_all : exists prof c a b v w m off input output c1 e c2 image,
  reachable prof c /\ a_module a <> a_module b /\
  module_at c (a_module a) m (mk_offset None (Some off)) /\
  requested c a = Some v /\ can_output m v /\ switches v = Some true /\
  requested c b = Some w /\ (forall m', nth_error (c_modules c) (a_module b) = Some m' -> ~ can_output m' w) /\
  (forall d, d <> a -> d <> b -> requested c d = None) /\
  cycle prof c input output c1 (Err e) /\
  cycle prof c1 input output c2 (Ok image) /\
  output_bit image off (a_channel a) = false /\ requested c2 a = None.
Proof.
  destruct C45_reach as [H1 H2].
  exists Release, w45', (mk_address 0 0), (mk_address 1 0), (Bit true), VNone, (MDO V_4DO_P (repeat false 4)), 0x8000,
    [], [0; 0], w45'', ChannelValueError, (fst (next Release as_is as_is w45'' [] [0; 0])), [0; 0].
  split; [exact H1|]. split; [discriminate|]. split; [split; vm_compute; reflexivity|].
  split; [vm_compute; reflexivity|]. split; [exists true; reflexivity|]. split; [reflexivity|].
  split; [vm_compute; reflexivity|]. split.
  { intros m' Hm. replace (nth_error (c_modules w45') (a_module (mk_address 1 0))) with (Some (MDO V_4DO_P (repeat false 4))) in Hm
      by (vm_compute; reflexivity). apply Some_inj in Hm. subst m'. intros (b & Hb). discriminate. }
  split.
  { intros d Hd1 Hd2. unfold w45', requested.
    change (map_get address_eqb d (map_insert address_eqb (mk_address 1 0) VNone (map_insert address_eqb (mk_address 0 0) (Bit true) [])) = None).
    rewrite !(map_get_insert address_eqb address_eqb_spec).
    destruct (address_eqb_spec (mk_address 1 0) d); [congruence|]. destruct (address_eqb_spec (mk_address 0 0) d); [congruence|]. reflexivity. }
  split; [exact H2|]. split; [apply step_cycle; vm_compute; reflexivity|]. split; vm_compute; reflexivity.
Qed.

(** C44, C45: a segment of serial data is dequeued although the cycle failed *)
Definition cfg44s : config := mk_config [UR20_1COM_232_485_422; UR20_4DO_P]
  [0x8000; 0x0000; 0x8040; 0xFFFF] [repeat 0 10; repeat 0 4].
Definition com_settings : com_params := mk_com OM_Disabled SevenBits Baud_300 OneBit ParityNone FlowNone 0 0 false.
Definition zeros : list Z := [0; 0; 0; 0; 0].
Definition com0 : coupler := after no_coupler (coupler_new cfg44s).
Definition com1 : coupler := fst (next Release as_is as_is com0 zeros zeros).
Definition com2 : coupler := fst (next Release as_is as_is com1 zeros zeros).
Definition com3 : coupler := fst (coupler_write com2 0 [65]).
Definition com4 : coupler := fst (set_output com3 (mk_address 1 0) VNone).
Definition com5 : coupler := fst (next Release as_is as_is com4 zeros zeros).
Definition com6 : coupler := fst (next Release as_is as_is com5 zeros zeros).
Lemma cycle_reachable prof c input output c' r : reachable prof c -> cycle prof c input output c' r ->
  (forall p, r <> Panic p) -> reachable prof c'.
Proof.
  intros Hr (Hui & Huo & oi & oo & Hi & Ho & Hn) Hp. exact (R_next prof c oi oo input output c' r Hr Hi Ho Hui Huo Hn Hp).
Qed.
Lemma com2_reach : reachable Release com2.
Proof.
  assert (H0 : reachable Release com0) by (apply (start_reachable _ cfg44s); vm_compute; reflexivity).
  assert (H1 : reachable Release com1).
  { apply (cycle_reachable _ com0 zeros zeros com1 (snd (next Release as_is as_is com0 zeros zeros)) H0).
    - apply step_cycle; [vm_compute; reflexivity..|]. unfold com1. apply surjective_pairing.
    - intros p. vm_compute. discriminate. }
  apply (cycle_reachable _ com1 zeros zeros com2 (snd (next Release as_is as_is com1 zeros zeros)) H1).
  - apply step_cycle; [vm_compute; reflexivity..|]. unfold com2. apply surjective_pairing.
  - intros p. vm_compute. discriminate.
Qed.
Lemma C45_refuted_serial_all : exists prof c input output c1 e c2 image p p2 words ch,
  reachable prof c /\ serial c 0 = Some p /\ queued p = [65] /\
  cycle prof c input output c1 (Err e) /\ cycle prof c1 input output c2 (Ok image) /\
  serial c2 0 = Some p2 /\ queued p2 = [] /\
  module_at c 0 (MCOM EightBytes ch) (mk_offset (Some 0) (Some 0x8000)) /\
  words_of_bytes words (image_bytes image (first_byte 0x0800 0x8000) 8) /\
  exists rs, mod_process_output_data (MCOM EightBytes ch) words = Ok [ComRsOut rs] /\ ro_data rs = [].
Proof.
  exists Release, com4, zeros, zeros, com5, ChannelValueError, com6, [0; 0; 0; 0; 0],
    (mk_processor Done 4 [] [[65]] EightBytes), (mk_processor Done 4 [] [] EightBytes), [0; 0; 0; 0], [com_settings].
  split.
  { apply R_set; [|exact I]. apply R_write; [exact com2_reach|]. repeat constructor; discriminate. }
  split; [vm_compute; reflexivity|]. split; [vm_compute; reflexivity|].
  split; [apply step_cycle; vm_compute; reflexivity|]. split; [apply step_cycle; vm_compute; reflexivity|].
  split; [vm_compute; reflexivity|]. split; [vm_compute; reflexivity|].
  split; [split; vm_compute; reflexivity|].
  split; [split; [repeat constructor; discriminate|left; vm_compute; reflexivity]|].
  eexists. split; vm_compute; reflexivity.
Qed.
Lemma C44_refuted_serial_all : exists prof c input output c' e p p',
  reachable prof c /\ cycle prof c input output c' (Err e) /\
  serial c 0 = Some p /\ serial c' 0 = Some p' /\ queued p = [65] /\ queued p' = [].
Proof.
  exists Release, com4, zeros, zeros, com5, ChannelValueError,
    (mk_processor Done 4 [] [[65]] EightBytes), (mk_processor Done 4 [] [] EightBytes).
  split.
  { apply R_set; [|exact I]. apply R_write; [exact com2_reach|]. repeat constructor; discriminate. }
  split; [apply step_cycle; vm_compute; reflexivity|]. vm_compute. auto.
Qed.

(** C46 *)
Definition cfg46 : config := mk_config [UR20_4DI_P] [0xFFFF; 0] [repeat 0 4].
Definition w46 : coupler := after no_coupler (coupler_new cfg46).
Definition w46' : coupler := fst (set_output w46 (mk_address 0 1) (Bit true)).
Lemma C46_refuted_input_all : exists prof c a v c1 input output c2 c3 image m,
  reachable prof c /\ rust_value v /\ set_output c a v = (c1, Ok tt) /\
  nth_error (c_modules c) (a_module a) = Some m /\ output_bytes m = 0%nat /\
  cycle prof c1 input output c2 (Ok image) /\
  cycle prof c input output c3 (Ok image) /\ same_coupler c2 c3.
Proof.
  exists Release, w46, (mk_address 0 1), (Bit true), w46', [5], [],
    (fst (next Release as_is as_is w46' [5] [])), (fst (next Release as_is as_is w46 [5] [])), [], (MDI V_4DI_P (repeat ID_no 4)).
  split; [apply (start_reachable _ cfg46); vm_compute; reflexivity|]. split; [exact I|].
  split; [vm_compute; reflexivity|]. split; [vm_compute; reflexivity|]. split; [reflexivity|].
  split; [apply step_cycle; vm_compute; reflexivity|]. split; [apply step_cycle; vm_compute; reflexivity|].
  vm_compute. auto 20.
Qed.

(** C46: a value for a serial module that is not a byte string is dropped without an error *)
Definition com3b : coupler := fst (set_output com2 (mk_address 0 0) (Bit true)).
Lemma C46_refuted_serial_all : exists prof c a v c1 input output c2 c3 image m,
  reachable prof c /\ rust_value v /\ set_output c a v = (c1, Ok tt) /\
  nth_error (c_modules c) (a_module a) = Some m /\ is_serial m = true /\
  cycle prof c1 input output c2 (Ok image) /\
  cycle prof c input output c3 (Ok image) /\ same_coupler c2 c3.
Proof.
  exists Release, com2, (mk_address 0 0), (Bit true), com3b, zeros, zeros,
    (fst (next Release as_is as_is com3b zeros zeros)), (fst (next Release as_is as_is com2 zeros zeros)),
    [0; 0; 0; 0; 0], (MCOM EightBytes [com_settings]).
  split; [exact com2_reach|]. split; [exact I|].
  split; [vm_compute; reflexivity|]. split; [vm_compute; reflexivity|]. split; [reflexivity|].
  split; [apply step_cycle; vm_compute; reflexivity|]. split; [apply step_cycle; vm_compute; reflexivity|].
  replace (fst (next Release as_is as_is com3b zeros zeros)) with (fst (next Release as_is as_is com2 zeros zeros))
    by (vm_compute; reflexivity).
  apply same_coupler_refl.
Qed.

(** C49: what [outputs] shows for module 1 depends on the process data of module 0 *)
Definition cfg49 : config := mk_config [UR20_1COM_232_485_422; UR20_1COM_232_485_422]
  [0x8000; 0x0000; 0x8040; 0x0040] [repeat 0 10; repeat 0 10].
Definition w49 : coupler := after no_coupler (coupler_new cfg49).
Definition idle49 : list Z := repeat 0 8.
Definition busy49 (first : Z) : list Z := [0x0108; first; 0; 0; 0x0108; 66; 0; 0].
Definition other49 : list Z := [0; 0; 0; 0; 0x0108; 66; 0; 0].
Lemma C49_refuted_all : exists prof c m o off input out1 out2 c1 c2 image1 image2,
  reachable prof c /\ module_at c 1 m o /\ is_serial m = true /\ mo_output o = Some off /\
  cycle prof c input out1 c1 (Ok image1) /\ cycle prof c input out2 c2 (Ok image2) /\
  image_bytes out1 (first_byte 0x0800 off) (output_bytes m) = image_bytes out2 (first_byte 0x0800 off) (output_bytes m) /\
  nth_error (outputs c1) 1 = Some [VNone] /\ nth_error (outputs c2) 1 = Some [Bytes [66]].
Proof.
  exists Release, w49, (MCOM EightBytes [com_settings]), (mk_offset (Some 0x40) (Some 0x8040)), 0x8040,
    idle49, (busy49 65), other49,
    (fst (next Release as_is as_is w49 idle49 (busy49 65))), (fst (next Release as_is as_is w49 idle49 other49)),
    (after [] (snd (next Release as_is as_is w49 idle49 (busy49 65)))), (after [] (snd (next Release as_is as_is w49 idle49 other49))).
  split; [apply (start_reachable _ cfg49); vm_compute; reflexivity|].
  split; [split; vm_compute; reflexivity|]. split; [reflexivity|]. split; [reflexivity|].
  split; [apply step_cycle; vm_compute; reflexivity|]. split; [apply step_cycle; vm_compute; reflexivity|].
  vm_compute. auto.
Qed.
