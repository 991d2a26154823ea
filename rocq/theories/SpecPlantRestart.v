(** Specification of restarts of a program that drives a coupler (C67). *)
From Coq Require Import ZArith List Bool.
From Verif Require Import Base F32 Types Com Fbc SpecCodec SpecSerial SpecCoupler SpecImage SpecSystem SpecRestart.
Import ListNotations.
Local Open Scope Z_scope.

(** The program is stopped at any point and started again.  The new program builds a coupler (its
    configuration may differ from the old one as long as the serial module has kept its place), reads
    an input image, which contains what the serial module presents, and the output image that was
    written last.  Everything the old program had in memory is lost: requests, queued and unread
    bytes, images it had read or computed.  The module goes on undisturbed; the segment it presents
    is the first one offered to the new program. *)
Definition plant_restart (i : nat) (l : process_data_length) (ioff ooff : Z) (t t' : plant) : Prop :=
  (exists cfg, rust_config cfg /\ coupler_new cfg = Ok (t_coupler t')) /\
  serial_at (t_coupler t') i l ioff ooff /\
  Forall is_u16 (t_latch t') /\ rs_in_from_bytes (in_part l ioff (t_latch t')) = Ok (t_device t) /\
  t_image t' = t_register t /\ t_register t' = t_register t /\ t_device t' = t_device t /\
  t_written t' = [] /\ t_taken t' = t_taken t /\ t_offered t' = presented (t_device t) /\
  t_delivered t' = [] /\ t_cycles t' = O.

(** Any number of programs one after the other, with the bytes that each of them handed over for
    transmission. *)
Inductive plant_lives (prof : profile) (i : nat) (l : process_data_length) (ioff ooff : Z)
  : plant -> list (list Z) -> plant -> Prop :=
| PL_nil t : plant_lives prof i l ioff ooff t [] t
| PL_cons t t1 es t2 ws t3 : plant_restart i l ioff ooff t t1 -> plant_runs prof i l ioff ooff t1 es t2 ->
    plant_lives prof i l ioff ooff t2 ws t3 -> plant_lives prof i l ioff ooff t (t_written t2 :: ws) t3.
