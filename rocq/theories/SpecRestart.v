(** Specification of restarts of the host program (C57, C58). *)
From Coq Require Import ZArith List Bool.
From Verif Require Import Base Types Com SpecCodec SpecSerial.
Import ListNotations.
Local Open Scope Z_scope.

(** The segment the module presents, if any. *)
Definition presented (i : rs_in) : list (list Z) := if ri_data_available i then [ri_data i] else [].

(** The host program is stopped at any point and started again: everything it had in memory is lost (queued
    and unread bytes, the input it had latched, an output it had computed but not written), and the new
    processor works with the process data found in the module.  The module goes on undisturbed; the segment it
    presents is the first one offered to the new program. *)
Definition restart (l : process_data_length) (s : system) : system :=
  mk_system (processor_new l) (s_device s) (s_register s) (s_register s) (s_device s)
    [] (s_taken s) (presented (s_device s)) [] 0.

(** Any number of programs one after the other: program [n] runs schedule [n] and is then stopped. *)
Fixpoint lives (prof : profile) (l : process_data_length) (s : system) (ess : list (list event)) : outcome system :=
  match ess with
  | [] => Ok s
  | es :: ess' => let? s' := schedule prof (restart l s) es in lives prof l s' ess'
  end.

Definition prefix (a b : list Z) : Prop := exists rest, b = a ++ rest.
