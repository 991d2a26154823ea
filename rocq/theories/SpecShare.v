(** Specification of calls whose order does not matter (C78). *)
From Coq Require Import ZArith List Bool.
From Verif Require Import Base Types Com Fbc SpecCodec SpecSerial SpecCoupler.
Import ListNotations.

(** Calls that do not get in each other's way: no cycle is among them, they are not requests for the same channel,
    not both reading from the same module and not both writing to the same module. *)
Definition independent (x y : call) : Prop :=
  match x, y with
  | NextCycle _ _, _ | _, NextCycle _ _ => False
  | SetOutput a _, SetOutput b _ => a <> b
  | ReadFrom i _, ReadFrom j _ => i <> j
  | WriteTo i _, WriteTo j _ => i <> j
  | _, _ => True
  end.

(** A history: calls with their answers, from coupler [c] to coupler [c']. *)
Definition history (prof : profile) (c : coupler) (h : list (call * answer)) (c' : coupler) : Prop :=
  runs prof c (map fst h) c' (map snd h).

(** The same calls with the same answers in another order; only independent calls change places. *)
Inductive reordered : list (call * answer) -> list (call * answer) -> Prop :=
| Re_same h : reordered h h
| Re_swap h1 x y h2 : independent (fst x) (fst y) -> reordered (h1 ++ x :: y :: h2) (h1 ++ y :: x :: h2)
| Re_again h h' h'' : reordered h h' -> reordered h' h'' -> reordered h h''.

(** Several tasks share a coupler: a schedule lists the calls, each with the number of the task that makes it.
    What task [k] calls, and the answers it gets. *)
Definition called_by (k : nat) (s : list (nat * call)) : list call :=
  map snd (filter (fun e => Nat.eqb (fst e) k) s).
Definition answers_to (k : nat) (s : list (nat * call)) (a : list answer) : list answer :=
  map snd (filter (fun e => Nat.eqb (fst (fst e)) k) (combine s a)).

(** The calls of different tasks do not get in each other's way. *)
Definition tasks_independent (s : list (nat * call)) : Prop :=
  forall e1 e2, In e1 s -> In e2 s -> fst e1 <> fst e2 -> independent (snd e1) (snd e2).
