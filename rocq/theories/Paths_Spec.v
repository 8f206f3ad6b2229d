(** What the printed form of the paths of a setup is to tell. *)
From Verif Require Import Base Matrix_Model Paths_Model.
Open Scope nat_scope.
Open Scope list_scope.

(** a / b of pathlib *)
Definition joined (a b : ppath) : ppath := if absolute b then b else PP (absolute a) (parts a ++ parts b).
(** [r] names [p] seen from [a] *)
Definition names_from (a p r : ppath) : Prop := absolute r = false /\ joined a r = p.
(** the folder that holds [a]; '/' and '.' hold themselves *)
Definition holds (b a : ppath) : Prop := (parts a = [] /\ b = a) \/ exists name, joined b (PP false [name]) = a.
(** how [p] is shown under the root [root]: from the root if it is below, otherwise from the folder of the root if it is
    below that, otherwise in full *)
Definition shown_as (root p shown : ppath) : Prop :=
  names_from root p shown \/
  ((forall r, ~ names_from root p r) /\ exists b, holds b root /\ names_from b p shown) \/
  ((forall r, ~ names_from root p r) /\ (forall b r, holds b root -> ~ names_from b p r) /\ shown = p).

(** a path as pathlib makes it, without line break: no part is empty, '.', or holds '/' *)
Definition proper (p : ppath) : Prop := Forall (fun x => x <> [] /\ x <> [46] /\ ~ In 47 x /\ ~ In 10 x) (parts p).
(** a name without blank, ':' or line break, such as every Python identifier *)
Definition identifier (k : text) : Prop := k <> [] /\ ~ In 32 k /\ ~ In 58 k /\ ~ In 10 k.
(** below the root, or not seen from its folder *)
Definition unambiguous (root p : ppath) : Prop :=
  (exists r, names_from root p r) \/ (absolute p = true /\ forall b r, holds b root -> ~ names_from b p r).

(** lines, one after the other *)
Fixpoint as_lines (l : list text) : text := match l with [] => [] | [x] => x | x :: l' => x ++ 10 :: as_lines l' end.
(** a name, with blanks in front up to the width [w], and what it stands for *)
Definition row (w : nat) (name what : text) : text := repeat 32 (w - length name) ++ name ++ [58; 32] ++ what.

(** the root given last *)
Fixpoint last_root (ops : list paths_op) : option ppath :=
  match ops with [] => None | o :: ops' => match last_root ops', o with Some r, _ => Some r | None, SetPaths r => Some r | None, _ => None end end.
(** the definitions given last *)
Fixpoint last_experiment (ops : list paths_op) : option ppath :=
  match ops with [] => None | o :: ops' => match last_experiment ops', o with Some r, _ => Some r | None, SetExperiment r => Some r | None, _ => None end end.
(** the dataset definition given last (None inside: taken away), if any was given *)
Fixpoint last_dataset (ops : list paths_op) : option (option ppath) :=
  match ops with [] => None | o :: ops' => match last_dataset ops', o with Some d, _ => Some d | None, SetExDs d => Some d | None, _ => None end end.
