(** What the feature-selection algorithms should deliver, stated about their inputs and outputs. *)
From Verif Require Import Base Graph_Spec.

(** A CI question "x independent of y given Z?" that makes sense: distinct variables of [V], none
    of them in the conditioning set, which has no repetitions *)
Definition sensible_question (V : list nat) (x y : nat) (Z : list nat) :=
  x <> y /\ ~ In x Z /\ ~ In y Z /\ NoDup Z /\ In x V /\ In y V /\ incl Z V.

(** A CI test object with states [St]: started from a state satisfying [Inv], it answers every
    sensible question about V with a truth value or InsufficientSamples.  It may raise anything when
    asked something else. *)
Definition answers_sensibly {St} (ci : St -> nat -> nat -> list nat -> res bool * St) (V : list nat) (Inv : St -> Prop) :=
  forall st x y Z, Inv st -> sensible_question V x y Z ->
    exists r st', ci st x y Z = (r, st') /\ Inv st' /\ (r = Ok true \/ r = Ok false \/ r = Err InsufficientSamples).

(** A CI test object that decides the relation [SEP] on sensible questions *)
Definition decides {St} (ci : St -> nat -> nat -> list nat -> res bool * St) (V : list nat) (Inv : St -> Prop)
    (SEP : nat -> list nat -> nat -> Prop) :=
  forall st x y Z, Inv st -> sensible_question V x y Z ->
    exists r st', ci st x y Z = (Ok r, st') /\ Inv st' /\ (r = true <-> SEP x Z y).

(** set iteration: any order *)
Definition iterates {St} (iter : St -> list nat -> list nat) := forall st l, Permutation l (iter st l).

(** a DAG over the variables U *)
Definition dag_over (U : list nat) (E : nat -> nat -> Prop) :=
  NoDup U /\ acyclic E /\ (forall u v, E u v -> In u U /\ In v U) /\ (forall u v, E u v \/ ~ E u v).

Definition pearl (E : nat -> nat -> Prop) x (Z : list nat) y := d_sep E x (fun z => In z Z) y.
Definition library_rule (E : nat -> nat -> Prop) x (Z : list nat) y := d_sep1 E x (fun z => In z Z) y.

(** [l] is the increasing list of the variables with property [P] *)
Definition lists (l : list nat) (P : nat -> Prop) := StronglySorted lt l /\ forall x, In x l <-> P x.

(** A correlation heuristic that scores every dependent variable above every independent one
    ([high s]: a score given to dependent variables; [gt] is the comparison `>` of scores) *)
Definition ranks_dependent_first {St Score} (heur : St -> nat -> nat -> list nat -> res Score * St) (gt : Score -> Score -> bool)
    (V : list nat) (Inv : St -> Prop) (SEP : nat -> list nat -> nat -> Prop) :=
  exists high : Score -> Prop,
    (forall a b, high a -> ~ high b -> gt a b = true /\ gt b a = false) /\
    (forall st x y Z, Inv st -> sensible_question V x y Z ->
       exists s st', heur st x y Z = (Ok s, st') /\ Inv st' /\ (high s <-> ~ SEP x Z y)).

(** the same CI test, writing down every question it is asked *)
Definition logged {St A} (ci : St -> nat -> nat -> list nat -> A * St) (sl : St * list (nat * nat * list nat)) (x y : nat) (Z : list nat)
  : A * (St * list (nat * nat * list nat)) :=
  let '(r, st') := ci (fst sl) x y Z in (r, (st', snd sl ++ [(x, y, Z)])).
Definition all_sensible (V : list nat) (log : list (nat * nat * list nat)) :=
  forall x y Z, In (x, y, Z) log -> sensible_question V x y Z.
