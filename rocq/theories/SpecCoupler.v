(** Specification of the coupler (C36 - C52): reachable couplers, pending requests and serial
    processors of a coupler, and the layout of process images. *)
From Coq Require Import ZArith List Bool Permutation.
From Verif Require Import Base F32 Types Lib Com Fbc SpecCodec SpecSerial.
Import ListNotations.
Local Open Scope Z_scope.

(** ** Reachable couplers *)

(** A value that a Rust program can hold in a [ChannelValue]. *)
Definition rust_value (v : channel_value) : Prop :=
  match v with
  | Decimal32 x => f32_valid x = true
  | ComRsIn i => is_usize (ri_rx_cnt i) /\ is_usize (ri_tx_cnt_ack i) /\ Forall is_u8 (ri_data i)
  | ComRsOut o => in_counters o /\ Forall is_u8 (ro_data o)
  | FcntIn i => is_u32 (fi_count i) /\ forall d, fi_duration i = Some d -> valid_duration d
  | FcntOut o => valid_duration (fo_duration o)
  | Bytes b => Forall is_u8 b
  | Bit _ | SilPFIn _ | Disabled | VNone => True
  end.

(** A configuration and process data as a Rust program can hold them: all registers have
    16 bits. *)
Definition rust_config (cfg : config) : Prop :=
  Forall is_u16 (cfg_offsets cfg) /\ Forall (Forall is_u16) (cfg_params cfg).

(** An iteration order of a hash map: any permutation of its entries. *)
Definition hash_order (ord : list (nat * channel_value) -> list (nat * channel_value)) : Prop :=
  forall l, Permutation l (ord l).

(** The couplers that a program can hold: built from a configuration and then used in any way
    by its public methods, including cycles that fail with an error. *)
Inductive reachable (prof : profile) : coupler -> Prop :=
| R_new cfg c : rust_config cfg -> coupler_new cfg = Ok c -> reachable prof c
| R_set c a v : reachable prof c -> rust_value v -> reachable prof (fst (set_output c a v))
| R_read c i size : reachable prof c -> reachable prof (fst (coupler_read c i size))
| R_write c i buf : reachable prof c -> Forall is_u8 buf -> reachable prof (fst (coupler_write c i buf))
| R_next c ord_in ord_out input output c' r :
    reachable prof c -> hash_order ord_in -> hash_order ord_out ->
    Forall is_u16 input -> Forall is_u16 output ->
    next prof ord_in ord_out c input output = (c', r) -> (forall p, r <> Panic p) ->
    reachable prof c'.

(** ** What a coupler holds *)

(** The pending request for a channel, and the processor of a serial module. *)
Definition requested (c : coupler) (a : address) : option channel_value :=
  map_get address_eqb a (c_write c).
Definition serial (c : coupler) (i : nat) : option processor := map_get Nat.eqb i (c_processors c).

(** Module [i] of a coupler with its offsets. *)
Definition module_at (c : coupler) (i : nat) (m : module) (o : module_offset) : Prop :=
  nth_error (c_modules c) i = Some m /\ nth_error (c_offsets c) i = Some o.

Definition is_serial (m : module) : bool := match m with MCOM _ _ => true | _ => false end.

(** Value [j] of row [i]. *)
Definition cell {A} (rows : list (list A)) (i j : nat) : option A :=
  match nth_error rows i with Some row => nth_error row j | None => None end.

(** Number of channels of a module (C05 compares it with the data sheets). *)
Definition channels (m : module) : nat := channel_count (mod_type m).

(** Two couplers that a program cannot tell apart: equal but for the order of the entries
    of the two hash maps. *)
Definition same_coupler (c c' : coupler) : Prop :=
  inputs c = inputs c' /\ outputs c = outputs c' /\ c_modules c = c_modules c' /\
  c_offsets c = c_offsets c' /\ c_last_tx_cnt c = c_last_tx_cnt c' /\
  (forall a, requested c a = requested c' a) /\ (forall i, serial c i = serial c' i).

(** ** Cycles and requests *)

(** A cycle: [next] is given two process images of 16 bit registers, with any iteration
    orders of its hash maps; [c'] is the coupler afterwards, [r] the result. *)
Definition cycle (prof : profile) (c : coupler) (input output : list Z) (c' : coupler)
  (r : outcome (list Z)) : Prop :=
  Forall is_u16 input /\ Forall is_u16 output /\
  exists ord_in ord_out, hash_order ord_in /\ hash_order ord_out /\
    next prof ord_in ord_out c input output = (c', r).

(** The address of a channel of a module of the coupler. *)
Definition valid_address (c : coupler) (a : address) : Prop :=
  exists m, nth_error (c_modules c) (a_module a) = Some m /\ (a_channel a < channels m)%nat.

(** Several requests one after the other, and the last one for an address. *)
Fixpoint set_all (c : coupler) (requests : list (address * channel_value)) : coupler :=
  match requests with
  | [] => c
  | (a, v) :: t => set_all (fst (set_output c a v)) t
  end.
Inductive latest : list (address * channel_value) -> address -> option channel_value -> Prop :=
| Latest_none l a : (forall v, ~ In (a, v) l) -> latest l a None
| Latest_some l1 l2 a v : (forall w, ~ In (a, w) l2) -> latest (l1 ++ (a, v) :: l2) a (Some v).

(** The values an output channel of a module accepts. *)
Definition can_output (m : module) (v : channel_value) : Prop :=
  match m with
  | MDO _ _ | M16DO | M4RO _ => exists b, switches v = Some b
  | M4AO _ | M4AODIAG _ => v = Disabled \/ exists x, v = Decimal32 x
  | MFCNT _ => exists f, preset v = Some f /\ nanoseconds (fo_duration f) <= max_preset
  | _ => False
  end.

(** ** Histories of a coupler *)

(** The public methods of a coupler, with their results; [Cycled] also shows [inputs] and
    [outputs] after the cycle. *)
Inductive call : Set :=
| SetOutput (a : address) (v : channel_value)
| ReadFrom (i : nat) (size : nat)
| WriteTo (i : nat) (buf : list Z)
| NextCycle (input output : list Z).
Inductive answer : Set :=
| SetResult (r : outcome unit)
| BytesRead (r : option (list Z))
| BytesWritten (r : option nat)
| CycleResult (r : outcome (list Z)) (ins outs : list (list channel_value)).

Inductive calls (prof : profile) : coupler -> call -> coupler -> answer -> Prop :=
| Calls_set c a v : rust_value v ->
    calls prof c (SetOutput a v) (fst (set_output c a v)) (SetResult (snd (set_output c a v)))
| Calls_read c i size :
    calls prof c (ReadFrom i size) (fst (coupler_read c i size)) (BytesRead (snd (coupler_read c i size)))
| Calls_write c i buf : Forall is_u8 buf ->
    calls prof c (WriteTo i buf) (fst (coupler_write c i buf)) (BytesWritten (snd (coupler_write c i buf)))
| Calls_next c input output c' r : cycle prof c input output c' r -> (forall p, r <> Panic p) ->
    calls prof c (NextCycle input output) c' (CycleResult r (inputs c') (outputs c')).

Inductive runs (prof : profile) : coupler -> list call -> coupler -> list answer -> Prop :=
| Runs_nil c : runs prof c [] c []
| Runs_cons c x c1 a xs c2 xa : calls prof c x c1 a -> runs prof c1 xs c2 xa ->
    runs prof c (x :: xs) c2 (a :: xa).
