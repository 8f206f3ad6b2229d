(** The answers that a CI test gave during a run, and what they say about a variable. *)
From Verif Require Import Base.

(** one answered question: X, Y, the conditioning set, and the answer (true: independent) *)
Definition answered := (nat * nat * list nat * res bool)%type.
Definition says (e : answered) : res bool := snd e.
Definition about (x y : nat) (e : answered) : Prop :=
  let '(a, b, _, _) := e in (a = x /\ b = y) \/ (a = y /\ b = x).

(** the same CI test, writing down every question with its answer *)
Definition recorded {St} (ci : St -> nat -> nat -> list nat -> res bool * St) (sl : St * list answered) (x y : nat) (Z : list nat)
  : res bool * (St * list answered) :=
  let '(r, st') := ci (fst sl) x y Z in (r, (st', snd sl ++ [(x, y, Z, r)])).
(** a heuristic that shares the state but is not recorded *)
Definition unrecorded {St A} (h : St -> nat -> nat -> list nat -> A * St) (sl : St * list answered) (x y : nat) (Z : list nat)
  : A * (St * list answered) :=
  let '(r, st') := h (fst sl) x y Z in (r, (st', snd sl)).

(** a CI test object that keeps its answers itself, in the part [L] of its state: every answer and every
    InsufficientSamples is appended (any other error ends the run) *)
Definition keeps_log {St} (ci : St -> nat -> nat -> list nat -> res bool * St) (L : St -> list answered) : Prop :=
  forall st x y Z r st', ci st x y Z = (r, st') -> (forall e, r = Err e -> e = InsufficientSamples) -> L st' = L st ++ [(x, y, Z, r)].

(** [r] is the last answer in the log to a question about x and y (in either order) *)
Definition last_answer (log : list answered) (x y : nat) (r : res bool) : Prop :=
  exists before e after, log = before ++ e :: after /\ about x y e /\ says e = r /\ forall e', In e' after -> ~ about x y e'.
