(** C95: modules of any implementation in the process images. *)
From Coq Require Import ZArith List Bool Lia.
From Verif Require Import Base Facts F32 Types Lib Com Fbc Generic SpecCodec SpecImage SpecGeneric ProofsGeneric.
Import ListNotations.
Local Open Scope Z_scope.

(** For the modules of this crate these are the functions the coupler uses. *)
Theorem C95_crate_modules : forall prof (ms : list (module * module_offset)) image values,
  let own := map (fun mo => (of_module prof (fst mo), snd mo)) ms in
  any_process_input_data prof own image = process_input_data prof ms image /\
  any_process_output_data prof own image = process_output_data prof ms image /\
  any_process_output_values own values = process_output_values prof ms values.
Proof. exact C95_crate_all. Qed.
Print Assumptions C95_crate_modules.

(** Reading the inputs, and reading back the outputs. *)
Theorem C95_inputs : forall prof (ms : list (implementation * module_offset)) image,
  Forall is_u16 image -> (forall m o off, In (m, o) ms -> mo_input o = Some off -> is_u16 off) ->
  forall result, any_process_input_data prof ms image = result <-> all_rows (in_row image) ms result.
Proof. exact C95_inputs_all. Qed.
Print Assumptions C95_inputs.
Theorem C95_readback : forall prof (ms : list (implementation * module_offset)) image,
  Forall is_u16 image ->
  (forall m o off, In (m, o) ms -> mo_output o = Some off -> is_u16 off /\ 0x8000 <= off) ->
  forall result, any_process_output_data prof ms image = result <-> all_rows (out_row image) ms result.
Proof. exact C95_readback_all. Qed.
Print Assumptions C95_readback.

(** Writing: the layout of the image ... *)
Theorem C95_outputs : forall (ms : list (implementation * module_offset)) values image,
  (forall m o off, In (m, o) ms -> mo_output o = Some off -> is_u16 off) ->
  any_process_output_values ms values = Ok image ->
  length values = length ms /\
  exists datas, length datas = length ms /\
    (forall i m o d off, nth_error ms i = Some (m, o) -> nth_error datas i = Some d ->
       mo_output o = Some off ->
       (exists vs, nth_error values i = Some vs /\ im_process_output_values m vs = Ok d) /\
       0x8000 <= off /\ (off mod 16 = 0 \/ (off mod 16 = 8 /\ d <> [])) /\
       forall k, (k < if (off mod 16 =? 0)%Z then 2 * length d else 1)%nat ->
         (forall j m' o' d', (i < j)%nat -> nth_error ms j = Some (m', o') -> nth_error datas j = Some d' ->
            ~ claims o' d' (first_byte 0x0800 off + k)) ->
         nth_error (bytes_of_words image) (first_byte 0x0800 off + k) = nth_error (bytes_of_words d) k) /\
    (forall b, (b < 2 * length image)%nat <->
       exists i m o d, nth_error ms i = Some (m, o) /\ nth_error datas i = Some d /\ claims o d b) /\
    (forall i j m o d m' o' d' off' b, (i < j)%nat ->
       nth_error ms i = Some (m, o) -> nth_error datas i = Some d ->
       nth_error ms j = Some (m', o') -> nth_error datas j = Some d' ->
       claims o d b -> claims o' d' b -> mo_output o' = Some off' -> off' mod 16 = 8).
Proof. exact C95_outputs_all. Qed.
Print Assumptions C95_outputs.

(** ... when there is one ... *)
Theorem C95_outputs_exist : forall (ms : list (implementation * module_offset)) values ps,
  (forall m o off, In (m, o) ms -> mo_output o = Some off -> is_u16 off) ->
  length values = length ms -> length ps = length ms ->
  (forall i m o vs o' d, nth_error ms i = Some (m, o) -> nth_error values i = Some vs ->
     nth_error ps i = Some (o', d) ->
     o' = o /\ (mo_output o = None -> d = []) /\
     (mo_output o <> None -> im_process_output_values m vs = Ok d)) ->
  (tiled 0 ps <-> exists image, any_process_output_values ms values = Ok image).
Proof. exact C95_exist_all. Qed.
Print Assumptions C95_outputs_exist.

(** ... and every failure: it is that of the first module that cannot be encoded or does not
    follow the image [out] of the modules before it. *)
Theorem C95_output_errors : forall (ms : list (implementation * module_offset)) values e,
  (forall m o off, In (m, o) ms -> mo_output o = Some off -> is_u16 off) ->
  (any_process_output_values ms values = Err e <->
   (length values <> length ms /\ e = ChannelValueError) \/
   (length values = length ms /\
    exists i m o off vs out, nth_error ms i = Some (m, o) /\ mo_output o = Some off /\
      nth_error values i = Some vs /\
      any_process_output_values (firstn i ms) (firstn i values) = Ok out /\
      (im_process_output_values m vs = Err e \/
       (exists d, im_process_output_values m vs = Ok d) /\ e = ModuleOffsetError /\
        off <> 16 * (0x0800 + Z.of_nat (length out)) /\
        (off <> 16 * (0x0800 + Z.of_nat (length out) - 1) + 8 \/ out = [])))).
Proof. exact C95_errors_all. Qed.
Print Assumptions C95_output_errors.
Theorem C95_output_panics : forall (ms : list (implementation * module_offset)) values p,
  (forall m o off, In (m, o) ms -> mo_output o = Some off -> is_u16 off) ->
  (any_process_output_values ms values = Panic p <->
   length values = length ms /\
   exists i m o off vs out, nth_error ms i = Some (m, o) /\ mo_output o = Some off /\
     nth_error values i = Some vs /\
     any_process_output_values (firstn i ms) (firstn i values) = Ok out /\
     (im_process_output_values m vs = Panic p \/
      im_process_output_values m vs = Ok [] /\ p = IndexOutOfBounds /\
      off = 16 * (0x0800 + Z.of_nat (length out) - 1) + 8 /\ out <> [])).
Proof. exact C95_panics_all. Qed.
Print Assumptions C95_output_panics.

(** A module that overrides nothing: without offsets it takes part with a row of [None] and no
    output; with an offset it can never be read, as it is always given at least one register. *)
Theorem C95_defaults : forall t n k prof image offset,
  Forall is_u16 image ->
  (mo_input offset = None ->
   any_process_input_data prof [(without_data t n k, offset)] image = Ok [repeat VNone (channel_count t)]) /\
  (mo_output offset = None ->
   any_process_output_data prof [(without_data t n k, offset)] image = Ok [repeat VNone (channel_count t)]) /\
  (forall off, mo_input offset = Some off -> is_u16 off ->
   exists e, any_process_input_data prof [(without_data t n k, offset)] image = Err e) /\
  (forall off, mo_output offset = Some off -> is_u16 off -> 0x8000 <= off ->
   exists e, any_process_output_data prof [(without_data t n k, offset)] image = Err e) /\
  (forall vs, im_process_output_values (without_data t n k) vs = Ok [] <->
     (length vs = 0 \/ length vs = channel_count t)%nat).
Proof. exact C95_defaults_all. Qed.
Print Assumptions C95_defaults.
(** An own module of three registers that shows the bytes of its registers, next to a module of this
    crate, and the same module in the middle of a register. *)
Example C95_example :
  let own := mk_implementation UR20_4DI_P (Ok 6%nat) (Ok 6%nat)
    (fun words => Ok (map (fun w => Bytes [w mod 256; w / 256]) words)) (fun words => Ok (map (fun w => Bytes [w mod 256; w / 256]) words))
    (fun values => Ok (flat_map (fun v => match v with Bytes [a; b] => [a + 256 * b] | _ => [] end) values)) in
  let ro := of_module Debug (M4RO [false; false; false; false]) in
  let ms := [(own, mk_offset (Some 0) (Some 0x8000)); (ro, mk_offset None (Some 0x8030));
             (without_data UR20_4DI_P 0 0, mk_offset None None); (own, mk_offset (Some 0x18) (Some 0x8038))] in
  let ro_row := [Bit true; Bit false; Bit false; Bit true] in
  let none := [VNone; VNone; VNone; VNone] in
  any_process_input_data Debug ms [0x0102; 0x0304; 0x0506; 0x0708] =
    Ok [[Bytes [0x2; 0x1]; Bytes [0x4; 0x3]; Bytes [0x6; 0x5]]; none; none; [Bytes [0x3; 0x6]; Bytes [0x5; 0x8]; Bytes [7; 0]]] /\
  any_process_input_data Debug ms [0x0102; 0x0304; 0x0506] = Err BufferLength /\
  any_process_output_values ms [[Bytes [1; 0]; Bytes [2; 0]; Bytes [3; 0]]; ro_row; []; [Bytes [0x34; 0x12]; Bytes [0x78; 0x56]]] =
    Ok [1; 2; 3; 0x3409] /\
  any_process_output_data Debug ms [1; 2; 3; 0x3409; 0; 0] =
    Ok [[Bytes [1; 0]; Bytes [2; 0]; Bytes [3; 0]]; ro_row; none; [Bytes [0x34; 0]; Bytes [0; 0]; Bytes [0; 0]]] /\
  any_process_output_values ms [[Bytes [1; 0]; Bytes [2; 0]]; ro_row; []; [Bytes [0x34; 0x12]]] = Err ModuleOffsetError /\
  any_process_output_values ms [[Bytes [1; 0]; Bytes [2; 0]; Bytes [3; 0]]; ro_row; []; [VNone]] = Panic IndexOutOfBounds /\
  tiled 0 [(mk_offset (Some 0) (Some 0x8000), [1; 2; 3]); (mk_offset None (Some 0x8030), [9])] /\
  (forall m o off, In (m, o) ms -> mo_output o = Some off -> is_u16 off /\ 0x8000 <= off) /\
  (forall m o off, In (m, o) ms -> mo_input o = Some off -> is_u16 off).
Proof.
  cbv zeta. repeat match goal with |- _ /\ _ => split end; try reflexivity.
  - left. split; [reflexivity|]. left. split; [reflexivity|exact I].
  - intros m o off [H|[H|[H|[H|[]]]]] E; apply (f_equal snd) in H; cbn [snd] in H; subst o; cbn [mo_output] in E;
      try discriminate; apply Some_inj in E; subst off; unfold is_u16; lia.
  - intros m o off [H|[H|[H|[H|[]]]]] E; apply (f_equal snd) in H; cbn [snd] in H; subst o; cbn [mo_input] in E;
      try discriminate; apply Some_inj in E; subst off; unfold is_u16; lia.
Qed.
