(** C73: exactly when start-up succeeds, and how it fails. *)
From Coq Require Import ZArith List.
From Verif Require Import Base Types Lib Fbc SpecCatalogue SpecAddr SpecParams SpecStartup SpecBoot ProofsBoot.
Import ListNotations.
Local Open Scope Z_scope.

(** C73. For every content of the registers of a field bus coupler with at most 64 modules, the client of the documentation
    gets a coupler if and only if the registers show a rack of supported modules with parameters in their ranges. *)
Theorem C73_start_up_succeeds : forall prof register, (forall a, is_u16 (register a)) -> register 0x27FE <= 64 ->
  (exists c, start_up prof register = Ok c) <-> exists rack, rack <> [] /\ shows register rack /\ Forall supported rack.
Proof. exact C73_success_all. Qed.
Print Assumptions C73_start_up_succeeds.

(** C73. Each way in which start-up can fail happens in exactly one situation: no modules; a module with an unknown id; a module whose
    parameters are out of range, with only supported ones before it; a known module without support, which panics. *)
Theorem C73_start_up_fails : forall prof register, (forall a, is_u16 (register a)) -> register 0x27FE <= 64 ->
  (start_up prof register = Err RegisterCount <-> register 0x27FE = 0) /\
  (start_up prof register = Err UnknownModule <-> exists i, Z.of_nat i < register 0x27FE /\ unknown_at register i) /\
  (start_up prof register = Err ChannelParameter <->
     exists rack i s, shows register rack /\ nth_error rack i = Some s /\ misconfigured s /\
       (forall j x, (j < i)%nat -> nth_error rack j = Some x -> supported x) /\
       Forall (fun x => documented_param_count (s_type x) <> None) rack) /\
  (forall e, start_up prof register = Err e -> e = RegisterCount \/ e = UnknownModule \/ e = ChannelParameter) /\
  (forall p, start_up prof register = Panic p -> p = Unsupported) /\
  (start_up prof register = Panic Unsupported <->
     exists rack, shows register rack /\
       ((exists s, In s rack /\ documented_param_count (s_type s) = None) \/
        (exists i s, nth_error rack i = Some s /\ not_supported s /\ forall j x, (j < i)%nat -> nth_error rack j = Some x -> supported x))).
Proof. exact C73_failure_all. Qed.
Print Assumptions C73_start_up_fails.

(** C73. A rack with a module that the crate does not support never starts, wherever the module is plugged. *)
Theorem C73_unsupported_never_starts : forall prof register rack, (forall a, is_u16 (register a)) -> (length rack <= 64)%nat -> shows register rack ->
  Exists not_supported rack -> forall c, start_up prof register <> Ok c.
Proof. exact C73_unsupported_all. Qed.
Print Assumptions C73_unsupported_never_starts.

(** C73. A checked build never starts with more than 64 modules: the parameter windows do not fit into 16-bit addresses. *)
Theorem C73_too_many : forall register, (forall a, is_u16 (register a)) -> 64 < register 0x27FE -> forall c, start_up Debug register <> Ok c.
Proof. exact C73_large_all. Qed.
Print Assumptions C73_too_many.

(** An output module with its four parameters, and an input module. *)
Definition good (a : Z) : Z :=
  match find (fun w => fst w =? a)
    [(0x27FE, 2); (0x2A00, 0x0101); (0x2A01, 0x2FA0); (0x2A02, 0x0009); (0x2A03, 0x1F84);
     (0x2B00, 0x8000); (0x2B01, 0xFFFF); (0x2B02, 0xFFFF); (0x2B03, 0); (0xC000, 1); (0xC003, 1)] with
  | Some w => snd w
  | None => 0
  end.
(** The same registers with one of them changed. *)
Definition with_register (a v : Z) : Z -> Z := fun x => if x =? a then v else good x.
Definition is_ok {A} (o : outcome A) : bool := match o with Ok _ => true | _ => false end.
Lemma changed_u16 a v : 0 <= v < 65536 -> forall x, is_u16 (with_register a v x).
Proof.
  intros H x. unfold with_register. destruct (x =? a); [exact H|]. unfold good.
  destruct (find _ _) as [w|] eqn:E; [|split; [discriminate|reflexivity]]. apply find_some in E. destruct E as [E _].
  repeat (destruct E as [<-|E]; [split; [discriminate|reflexivity]|]). destruct E.
Qed.
Example C73_example : forall prof,
  ((forall a, is_u16 (with_register 0 0 a)) /\ with_register 0 0 0x27FE <= 64 /\ is_ok (start_up prof (with_register 0 0)) = true) /\
  ((forall a, is_u16 (with_register 0x27FE 0 a)) /\ with_register 0x27FE 0 0x27FE <= 64 /\ start_up prof (with_register 0x27FE 0) = Err RegisterCount) /\
  ((forall a, is_u16 (with_register 0x2A03 7 a)) /\ start_up prof (with_register 0x2A03 7) = Err UnknownModule) /\
  ((forall a, is_u16 (with_register 0xC002 2 a)) /\ start_up prof (with_register 0xC002 2) = Err ChannelParameter) /\
  ((forall a, is_u16 (with_register 0x2A02 0x001B a)) /\ start_up prof (with_register 0x2A02 0x001B) = Panic Unsupported).
Proof.
  intros prof. split; [|split; [|split; [|split]]]; (split; [apply changed_u16; split; [discriminate|reflexivity]|]).
  - split; [discriminate|]. destruct prof; vm_compute; reflexivity.
  - split; [discriminate|]. destruct prof; vm_compute; reflexivity.
  - destruct prof; vm_compute; reflexivity.
  - destruct prof; vm_compute; reflexivity.
  - destruct prof; vm_compute; reflexivity.
Qed.
