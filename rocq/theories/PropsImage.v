(** Property theorems C40 - C42, C51 and C52: process images and modules. *)
From Coq Require Import ZArith List Bool SpecFloat.
From Verif Require Import Base F32 Types Lib Analog Com Fbc Defaults SpecCodec SpecCoupler SpecImage
  ProofsModule ProofsImage ProofsLayout.
Import ListNotations.
Local Open Scope Z_scope.

(** C40, as far as it holds: the output image contains each module's bytes at its configured
    offset.  Whenever the image exists, every module lies at its offset at or above register
    0x0800, on a register boundary or (at least one word of data) in the middle of a register;
    every byte of it that no later module claims holds the byte of its own data; the modules
    cover the image without gap; modules on register boundaries come in order and do not
    overlap; a byte belongs to two modules only if the later one sits in the middle of a
    register.  That last case is not rejected, against the property: see [C40_refuted]. *)
Theorem C40_image_layout_partial : forall prof ms values image,
  (forall i m o off, nth_error ms i = Some (m, o) -> mo_output o = Some off -> is_u16 off) ->
  process_output_values prof ms values = Ok image ->
  length values = length ms /\
  exists datas, length datas = length ms /\
    (forall i m o d off, nth_error ms i = Some (m, o) -> nth_error datas i = Some d ->
       mo_output o = Some off ->
       (exists vs, nth_error values i = Some vs /\ mod_process_output_values prof m vs = Ok d) /\
       0x8000 <= off /\ (off mod 16 = 0 \/ (off mod 16 = 8 /\ d <> [])) /\
       forall k, (k < if (off mod 16 =? 0)%Z then 2 * length d else 1)%nat ->
         (forall j m' o' d', (i < j)%nat -> nth_error ms j = Some (m', o') -> nth_error datas j = Some d' ->
            ~ claims o' d' (first_byte 0x0800 off + k)) ->
         nth_error (bytes_of_words image) (first_byte 0x0800 off + k) = nth_error (bytes_of_words d) k) /\
    (forall b, (b < 2 * length image)%nat <->
       exists i m o d, nth_error ms i = Some (m, o) /\ nth_error datas i = Some d /\ claims o d b) /\
    (forall i j m o d off m' o' off', (i < j)%nat ->
       nth_error ms i = Some (m, o) -> nth_error datas i = Some d -> nth_error ms j = Some (m', o') ->
       mo_output o = Some off -> off mod 16 = 0 -> mo_output o' = Some off' -> off' mod 16 = 0 ->
       (first_byte 0x0800 off + 2 * length d <= first_byte 0x0800 off')%nat) /\
    (forall i j m o d m' o' d' off' b, (i < j)%nat ->
       nth_error ms i = Some (m, o) -> nth_error datas i = Some d ->
       nth_error ms j = Some (m', o') -> nth_error datas j = Some d' ->
       claims o d b -> claims o' d' b -> mo_output o' = Some off' -> off' mod 16 = 8).
Proof. exact C40_all. Qed.
Print Assumptions C40_image_layout_partial.

(** The image exists exactly if the modules fill it without gap; other layouts are errors. *)
Theorem C40_image_exists : forall prof ms values ps,
  (forall i m o off, nth_error ms i = Some (m, o) -> mo_output o = Some off -> is_u16 off) ->
  length values = length ms -> length ps = length ms ->
  (forall i m o vs o' d, nth_error ms i = Some (m, o) -> nth_error values i = Some vs ->
     nth_error ps i = Some (o', d) ->
     o' = o /\ (mo_output o = None -> d = []) /\
     (mo_output o <> None -> mod_process_output_values prof m vs = Ok d)) ->
  (tiled 0 ps <-> exists image, process_output_values prof ms values = Ok image).
Proof. exact C40_exists_all. Qed.
Print Assumptions C40_image_exists.

(** With all modules on register boundaries the image is the concatenation of their data. *)
Theorem C40_image_concat : forall prof ms values image,
  (forall i m o off, nth_error ms i = Some (m, o) -> mo_output o = Some off -> is_u16 off /\ off mod 16 = 0) ->
  process_output_values prof ms values = Ok image ->
  exists datas, length datas = length ms /\ image = concat datas /\
    forall i m o d, nth_error ms i = Some (m, o) -> nth_error datas i = Some d ->
      (mo_output o = None -> d = []) /\
      (mo_output o <> None -> exists vs, nth_error values i = Some vs /\ mod_process_output_values prof m vs = Ok d).
Proof. exact C40_concat_all. Qed.
Print Assumptions C40_image_concat.

(** The errors: number of values, offsets, or values that a module cannot encode. *)
Theorem C40_image_errors : forall prof ms values e,
  (forall i m o off, nth_error ms i = Some (m, o) -> mo_output o = Some off -> is_u16 off) ->
  process_output_values prof ms values = Err e ->
  (length values <> length ms /\ e = ChannelValueError) \/
  e = ModuleOffsetError \/
  exists i m o vs, nth_error ms i = Some (m, o) /\ mo_output o <> None /\ nth_error values i = Some vs /\
    mod_process_output_values prof m vs = Err e.
Proof. exact C40_err_all. Qed.
Print Assumptions C40_image_errors.

(** C40 does not hold as stated: two modules at the same byte in the middle of a register
    are accepted, and the data of the first one are lost. *)
Theorem C40_refuted : exists ms values image vs d,
  nth_error ms 1 = Some (MDO V_4DO_P [false; false; false; false], mk_offset None (Some 0x8008)) /\
  nth_error values 1 = Some vs /\
  mod_process_output_values Release (MDO V_4DO_P [false; false; false; false]) vs = Ok d /\
  process_output_values Release ms values = Ok image /\
  nth_error ms 2 = Some (MDO V_4DO_P [false; false; false; false], mk_offset None (Some 0x8008)) /\
  nth_error (bytes_of_words image) (first_byte 0x0800 0x8008) <> nth_error (bytes_of_words d) 0.
Proof. exact C40_refuted_all. Qed.
Print Assumptions C40_refuted.
Example C40_example :
  let ro := M4RO [false; false; false; false] in
  let ms := [(ro, mk_offset None (Some 0x8000)); (MDI V_4DI_P [], mk_offset (Some 0) None);
             (ro, mk_offset None (Some 0x8008)); (M16DO, mk_offset None (Some 0x8010))] in
  let bits := [Bit true; Bit false; Bit true; Bit false] in
  let values := [bits; []; bits; bits ++ bits ++ bits ++ bits] in
  process_output_values Debug ms values = Ok [0x0505; 0x5555] /\
  tiled 0 [(mk_offset None (Some 0x8000), [5]); (mk_offset (Some 0) None, []);
           (mk_offset None (Some 0x8008), [5]); (mk_offset None (Some 0x8010), [0x5555])] /\
  process_output_values Debug [(ro, mk_offset None (Some 0x8010))] [bits] = Err ModuleOffsetError /\
  process_output_values Debug [(M16DO, mk_offset None (Some 0x8000))] [bits ++ bits ++ bits ++ bits] =
    Ok (concat [[0x5555]]).
Proof.
  cbv zeta. split; [reflexivity|]. split; [|split; reflexivity]. cbn.
  left. split; [reflexivity|]. right. split; [reflexivity|]. split; [auto|]. split; [discriminate|].
  left. split; [reflexivity|exact I].
Qed.

(** C41: A module's inputs depend only on its own bytes. *)
Theorem C41_input_isolation : forall prof ms1 ms2 img1 img2 vs1 vs2 i1 i2 m o1 o2 off,
  Forall is_u16 img1 -> Forall is_u16 img2 -> is_u16 off ->
  process_input_data prof ms1 img1 = Ok vs1 -> process_input_data prof ms2 img2 = Ok vs2 ->
  nth_error ms1 i1 = Some (m, o1) -> nth_error ms2 i2 = Some (m, o2) ->
  mo_input o1 = Some off -> mo_input o2 = Some off ->
  image_bytes img1 (first_byte 0 off) (input_bytes m) =
  image_bytes img2 (first_byte 0 off) (input_bytes m) ->
  exists row, nth_error vs1 i1 = Some row /\ nth_error vs2 i2 = Some row.
Proof. exact C41_all. Qed.
Print Assumptions C41_input_isolation.
Example C41_example :
  let di := MDI V_4DI_P [] in
  let row := [Bit true; Bit true; Bit false; Bit false] in
  process_input_data Debug [(di, mk_offset (Some 0x08) None)] [0x0300] = Ok [row] /\
  process_input_data Debug [(MSIL, mk_offset (Some 0x10) None); (di, mk_offset (Some 0x08) None)]
    [0x03FF; 7; 8] = Ok [[SilPFIn (mk_sil_in true true false false false false false)]; row] /\
  image_bytes [0x0300] (first_byte 0 0x08) (input_bytes di) =
  image_bytes [0x03FF; 7; 8] (first_byte 0 0x08) (input_bytes di).
Proof. cbv zeta. repeat match goal with |- _ /\ _ => split end; reflexivity. Qed.

(** C42, as far as it holds: a module on a register boundary, and a module of one byte
    anywhere, decodes exactly its own bytes and encodes its output into its own bytes.
    For larger modules in the middle of a register see [C42_refuted_input], [C42_refuted_output]. *)
Theorem C42_input_bytes_partial : forall prof ms img vs i m o off,
  Forall is_u16 img -> is_u16 off -> process_input_data prof ms img = Ok vs ->
  nth_error ms i = Some (m, o) -> mo_input o = Some off ->
  (off mod 16 = 0 \/ input_bytes m = 1%nat) ->
  length (image_bytes img (first_byte 0 off) (input_bytes m)) = input_bytes m /\
  exists words row, words_of_bytes words (image_bytes img (first_byte 0 off) (input_bytes m)) /\
    nth_error vs i = Some row /\ mod_process_input_data m words = Ok row.
Proof. exact C42_in_all. Qed.
Print Assumptions C42_input_bytes_partial.
Theorem C42_readback_bytes_partial : forall prof ms img vs i m o off,
  Forall is_u16 img -> is_u16 off -> 0x8000 <= off -> process_output_data prof ms img = Ok vs ->
  nth_error ms i = Some (m, o) -> mo_output o = Some off ->
  (off mod 16 = 0 \/ output_bytes m = 1%nat) ->
  length (image_bytes img (first_byte 0x0800 off) (output_bytes m)) = output_bytes m /\
  exists words row, words_of_bytes words (image_bytes img (first_byte 0x0800 off) (output_bytes m)) /\
    nth_error vs i = Some row /\ mod_process_output_data m words = Ok row.
Proof. exact C42_out_all. Qed.
Print Assumptions C42_readback_bytes_partial.
Theorem C42_output_bytes_partial : forall prof ms values image i m o off,
  (forall j m' o' off', nth_error ms j = Some (m', o') -> mo_output o' = Some off' -> is_u16 off') ->
  Forall (Forall rust_value) values ->
  process_output_values prof ms values = Ok image ->
  nth_error ms i = Some (m, o) -> mo_output o = Some off ->
  (off mod 16 = 0 \/ output_bytes m = 1%nat) ->
  (forall j m' o' off', (i < j)%nat -> nth_error ms j = Some (m', o') -> mo_output o' = Some off' ->
     ~ (first_byte 0x0800 off <= first_byte 0x0800 off' < first_byte 0x0800 off + output_bytes m)%nat) ->
  exists vs d, nth_error values i = Some vs /\ mod_process_output_values prof m vs = Ok d /\
    image_bytes image (first_byte 0x0800 off) (output_bytes m) = firstn (output_bytes m) (bytes_of_words d).
Proof. exact C42_enc_all. Qed.
Print Assumptions C42_output_bytes_partial.

(** C42 does not hold as stated.  Input: a larger module in the middle of a register is decoded
    with a zero instead of its last byte.  Output: only its first byte is encoded. *)
Theorem C42_refuted_input : exists m img img' vs vs',
  image_bytes img (first_byte 0 8) (input_bytes m) = image_bytes img' (first_byte 0 0) (input_bytes m) /\
  length (image_bytes img (first_byte 0 8) (input_bytes m)) = input_bytes m /\
  process_input_data Release [(m, mk_offset (Some 8) None)] img = Ok vs /\
  process_input_data Release [(m, mk_offset (Some 0) None)] img' = Ok vs' /\ vs <> vs'.
Proof. exact C42_refuted_in_all. Qed.
Print Assumptions C42_refuted_input.
Theorem C42_refuted_output : exists m m' vs vs' d image,
  output_bytes m' = 2%nat /\
  mod_process_output_values Release m' vs' = Ok d /\
  process_output_values Release [(m, mk_offset None (Some 0x8000)); (m', mk_offset None (Some 0x8008))]
    [vs; vs'] = Ok image /\
  image_bytes image (first_byte 0x0800 0x8008) 2 <> firstn 2 (bytes_of_words d).
Proof. exact C42_refuted_out_all. Qed.
Print Assumptions C42_refuted_output.
(** Exactly what happens to the larger modules in the middle of a register, when they are read:
    all their bytes but the last one are decoded, with a zero byte in place of the last one.
    (For the byte that is written see [C40_image_layout_partial].) *)
Theorem C42_input_shifted : forall prof ms img vs i m o off,
  Forall is_u16 img -> is_u16 off -> process_input_data prof ms img = Ok vs ->
  nth_error ms i = Some (m, o) -> mo_input o = Some off ->
  off mod 16 = 8 -> (2 <= input_bytes m)%nat ->
  let own := image_bytes img (first_byte 0 off) (input_bytes m - 1) in
  length own = (input_bytes m - 1)%nat /\
  exists words row, Forall is_u16 words /\ bytes_of_words words = own ++ [0] /\
    nth_error vs i = Some row /\ mod_process_input_data m words = Ok row.
Proof. exact C42_shift_in_all. Qed.
Print Assumptions C42_input_shifted.
Theorem C42_readback_shifted : forall prof ms img vs i m o off,
  Forall is_u16 img -> is_u16 off -> 0x8000 <= off -> process_output_data prof ms img = Ok vs ->
  nth_error ms i = Some (m, o) -> mo_output o = Some off ->
  off mod 16 = 8 -> (2 <= output_bytes m)%nat ->
  let own := image_bytes img (first_byte 0x0800 off) (output_bytes m - 1) in
  length own = (output_bytes m - 1)%nat /\
  exists words row, Forall is_u16 words /\ bytes_of_words words = own ++ [0] /\
    nth_error vs i = Some row /\ mod_process_output_data m words = Ok row.
Proof. exact C42_shift_out_all. Qed.
Print Assumptions C42_readback_shifted.
Example C42_shifted_example :
  let sil := (MSIL, mk_offset (Some 8) None) in
  process_input_data Debug [sil] [0x0300; 0x0001] =
    Ok [[SilPFIn (mk_sil_in true false false false false true false)]] /\
  mod_process_input_data MSIL [0x0103; 0] =
    Ok [SilPFIn (mk_sil_in true false false false false true false)] /\
  bytes_of_words [0x0103; 0] = image_bytes [0x0300; 0x0001] (first_byte 0 8) 3 ++ [0] /\
  process_output_data Debug [(M16DO, mk_offset None (Some 0x8008))] [0xFF00] =
    Ok [repeat (Bit true) 8 ++ repeat (Bit false) 8] /\
  bytes_of_words [0x00FF] = image_bytes [0xFF00] (first_byte 0x0800 0x8008) 1 ++ [0].
Proof. cbv zeta. repeat match goal with |- _ /\ _ => split end; reflexivity. Qed.
Example C42_example :
  let ro := M4RO [false; false; false; false] in
  let ms := [(ro, mk_offset None (Some 0x8000)); (ro, mk_offset None (Some 0x8008))] in
  let row := [Bit false; Bit false; Bit true; Bit true] in
  process_output_data Debug ms [0x0C03] = Ok [[Bit true; Bit true; Bit false; Bit false]; row] /\
  process_output_values Debug ms [[Bit true; Bit true; Bit false; Bit false]; row] = Ok [0x0C03] /\
  image_bytes [0x0C03] (first_byte 0x0800 0x8008) (output_bytes ro) = [0x0C].
Proof. cbv zeta. repeat match goal with |- _ /\ _ => split end; reflexivity. Qed.

(** C51, as far as it holds: encoding values never panics unless a module without output
    data is placed in the middle of a register. *)
Theorem C51_encode_no_panic_partial : forall prof ms values,
  (forall i m o off, nth_error ms i = Some (m, o) -> mo_output o = Some off -> is_u16 off) ->
  (forall i m o off, nth_error ms i = Some (m, o) -> mo_output o = Some off -> off mod 16 = 8 ->
     output_bytes m <> 0%nat) ->
  Forall (Forall rust_value) values ->
  forall p, process_output_values prof ms values <> Panic p.
Proof. exact C51_partial_all. Qed.
Print Assumptions C51_encode_no_panic_partial.
Theorem C51_refuted : exists ms values,
  (forall prof, process_output_values prof ms values = Panic IndexOutOfBounds) /\
  Forall (Forall rust_value) values.
Proof. exact C51_refuted_all. Qed.
Print Assumptions C51_refuted.
Example C51_example :
  let ms := [(M16DO, mk_offset None (Some 0x8000)); (M4RO [], mk_offset None (Some 0x8008))] in
  (forall i m o off, nth_error ms i = Some (m, o) -> mo_output o = Some off -> off mod 16 = 8 ->
     output_bytes m <> 0%nat) /\
  Forall (Forall rust_value) [[Bit true]; [Decimal32 S754_nan]] /\
  process_output_values Debug ms [[Bit true]; [Decimal32 S754_nan]] = Err ChannelValueError.
Proof.
  cbv zeta. split; [|split; [repeat constructor|reflexivity]].
  intros [|[|i]] m o off Hi Ho E8; [| |destruct i; discriminate];
    injection Hi as <- <-; injection Ho as <-; [discriminate E8|discriminate].
Qed.

(** C52, as far as it holds: hand-built modules with missing parameters fail gracefully.
    Only reading back the outputs of the analog output modules can panic. *)
Theorem C52_module_no_panic_partial : forall prof m data values,
  Forall rust_value values ->
  (forall p, mod_process_input_data m data <> Panic p) /\
  (forall p, mod_process_output_values prof m values <> Panic p) /\
  ((forall ch, m = M4AO ch -> (4 <= length ch)%nat) ->
   (forall ch, m = M4AODIAG ch -> (4 <= length ch)%nat) ->
   forall p, mod_process_output_data m data <> Panic p) /\
  ((length data <> 4)%nat -> forall p, mod_process_output_data m data <> Panic p).
Proof. exact C52_partial_all. Qed.
Print Assumptions C52_module_no_panic_partial.
Theorem C52_refuted :
  mod_process_output_data (M4AO []) [0; 0; 0; 0] = Panic IndexOutOfBounds /\
  mod_process_output_data (M4AODIAG []) [0; 0; 0; 0] = Panic IndexOutOfBounds.
Proof. exact C52_refuted_all. Qed.
Print Assumptions C52_refuted.
Example C52_example :
  mod_process_output_values Debug (M4AO []) [Decimal32 S754_nan] = Err ChannelValueError /\
  mod_process_output_values Debug (M4AO []) (repeat (Decimal32 S754_nan) 4) = Err ChannelParameter /\
  mod_process_output_data (M4AO []) [0; 0] = Err BufferLength /\
  mod_process_input_data (MTC Celsius []) [0; 0; 0; 0] = Ok [].
Proof. vm_compute. auto. Qed.
