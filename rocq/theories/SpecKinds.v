(** Specification of the kinds of values a channel can show (C92). *)
From Coq Require Import ZArith List Bool.
From Verif Require Import Base F32 Types Util Digital Analog Fcnt Com Fbc SpecCodec SpecCoupler SpecAnalog SpecResolution SpecSerial.
Import ListNotations.
Local Open Scope Z_scope.

(** A number that is neither infinite nor NaN. *)
Definition number (v : channel_value) : Prop := exists x, v = Decimal32 x /\ finite x.

(** A received or sent segment of a serial module: at least one byte, at most as many as its process data hold. *)
Definition segment (l : process_data_length) (v : channel_value) : Prop :=
  exists d, v = Bytes d /\ d <> [] /\ (length d <= payload_size l)%nat /\ Forall is_u8 d.

(** The values that inputs() can hold for channel [k] of a module with the offsets [o]. *)
Definition input_kind (m : module) (o : module_offset) (k : nat) (v : channel_value) : Prop :=
  match mo_input o with
  | None => v = VNone
  | Some _ =>
      match m with
      | MDI _ _ => exists b, v = Bit b
      | MRTD _ _ | MUI16DIAG _ _ | MAIUI _ _ _ | M8AI _ _ => match measures m k with None => v = Disabled | Some _ => number v end
      | MTC _ _ => match measures m k with None => v = Disabled | Some _ => number v \/ v = VNone end
      | MFCNT _ => exists i, v = FcntIn i /\ is_u32 (fi_count i) /\ forall d, fi_duration i = Some d -> valid_duration d
      | MSIL => exists i, v = SilPFIn i
      | MCOM l _ => v = VNone \/ segment l v \/
          exists i, v = ComRsIn i /\ counter (ri_rx_cnt i) /\ counter (ri_tx_cnt_ack i) /\ (length (ri_data i) <= payload_size l)%nat
      | MDO _ _ | M16DO | M4RO _ | M4AO _ | M4AODIAG _ => False
      end
  end.

(** The values that outputs() can hold for channel [k]. *)
Definition output_kind (m : module) (o : module_offset) (k : nat) (v : channel_value) : Prop :=
  match mo_output o with
  | None => v = VNone
  | Some _ =>
      match m with
      | MDO _ _ | M16DO | M4RO _ => exists b, v = Bit b
      | M4AO _ | M4AODIAG _ => match analog_output m k with Some (UI_Disabled, _) => v = Disabled | _ => number v end
      | MFCNT _ => exists p, v = FcntOut p /\ valid_duration (fo_duration p)
      | MCOM l _ => v = VNone \/ segment l v \/
          exists p, v = ComRsOut p /\ counter (ro_tx_cnt p) /\ counter (ro_rx_cnt_ack p) /\ (length (ro_data p) <= payload_size l)%nat
      | MDI _ _ | MRTD _ _ | MUI16DIAG _ _ | MAIUI _ _ _ | M8AI _ _ | MTC _ _ | MSIL => False
      end
  end.
