(** Specification of the flow control of serial reception (C110). *)
From Coq Require Import ZArith List Bool.
From Verif Require Import Base Types Com Fbc SpecCodec SpecSerial SpecSystem SpecThroughput.
Import ListNotations.

(** A stretch of a history in which an input image is read and processed, the output image is
    written, and then the module has a segment to offer, with anything else in between. *)
Definition reception_round (es : list plant_event) : Prop :=
  exists a input b c d seg e,
    es = a ++ [PInput input] ++ b ++ [PCycle] ++ c ++ [POutput] ++ d ++ [POffer seg] ++ e.
