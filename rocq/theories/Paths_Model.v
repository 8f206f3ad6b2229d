(** Model of the paths of an experimental setup (mbtk/utilities/experiment.py:1-59, 205-206):
    ExperimentalPathSet with its printed form, and ExperimentalSetup.update_paths.

    Simplifications: POSIX paths; a pathlib path is its anchor and its parts, with nothing resolved ('..' is a part like
    any other); the attributes of a path set are paths; of ExperimentDef and ExDsDef only the attribute path is there
    (an ExDsDef without it behaves like None). *)
From Coq Require Import String Ascii.
From Verif Require Import Base Matrix_Model Sources_Model Render_Model.
Open Scope nat_scope.
Open Scope list_scope.

(** a pathlib path: absolute or not, and its parts [experiment.py:8-10] *)
Record ppath := PP { absolute : bool; parts : list text }.
(** path / 'name' (experiment.py:9-10) *)
Definition child (p : ppath) (name : text) : ppath := PP (absolute p) (parts p ++ [name]).
(** path.parent (experiment.py:36); the parent of '/' or '.' is itself *)
Definition parent_of (p : ppath) : ppath := PP (absolute p) (removelast (parts p)).
(** what is left of [l] after [pre] [relative_to, experiment.py:33, 36] *)
Fixpoint strip_parts (pre l : list text) : option (list text) :=
  match pre, l with
  | [], _ => Some l
  | x :: pre', y :: l' => if text_eqb x y then strip_parts pre' l' else None
  | _ :: _, [] => None
  end.
(** path.relative_to(other): ValueError unless [other] is [path] or above it (experiment.py:33, 36) *)
Definition relative_to (p other : ppath) : res ppath :=
  if Bool.eqb (absolute p) (absolute other) then
    match strip_parts (parts other) (parts p) with Some l => Ok (PP false l) | None => Err ValueError end
  else Err ValueError.
(** parts joined by '/' [str of a path, experiment.py:20, 25] *)
Fixpoint join_slash (l : list text) : text :=
  match l with [] => [] | [x] => x | x :: l' => x ++ 47 :: join_slash l' end.
(** str(path): '/' in front of an absolute one, '.' for no parts (experiment.py:20, 25) *)
Definition str_path (p : ppath) : text :=
  if absolute p then 47 :: join_slash (parts p) else match parts p with [] => [46] | l => join_slash l end.

(** the attributes of a path set, __dict__ in insertion order [experiment.py:7-10] *)
Definition path_set := list (text * ppath).
(** reading an attribute (experiment.py:20, 31) *)
Definition attribute (s : path_set) (k : text) : res ppath := of_option AttributeError (assoc text_eqb k s).
(** setting an attribute (experiment.py:54, 57) *)
Definition set_attribute (s : path_set) (k : text) (p : ppath) : path_set := assoc_set text_eqb k p s.
(** the name 'Root' (experiment.py:20-22, 29) *)
Definition root_key : text := lit "Root".
(** ExperimentalPathSet.__init__ (7-10) *)
Definition new_paths (root : ppath) : path_set :=
  [(root_key, root); (lit "ExDsRepository", child root (lit "exds_repository")); (lit "ExpRunRepository", child root (lit "exprun_repository"))].
(** shorten_path (28-39) *)
Definition shorten_path (s : path_set) (key : text) : res ppath :=
  if text_eqb key root_key then attribute s root_key else
  path <- of_option KeyError (assoc text_eqb key s) ;;
  root <- attribute s root_key ;;
  match relative_to path root with
  | Ok p => Ok p
  | Err _ => match relative_to path (parent_of root) with Ok p => Ok p | Err _ => Ok path end
  end.
(** '{key:>w}: {path}' (15, 20, 25) *)
Definition path_line (w : nat) (key : text) (p : ppath) : text := pad_left w key ++ [58; 32] ++ str_path p.
(** '\n'.join(output) (26) *)
Fixpoint join_break (l : list text) : text :=
  match l with [] => [] | [x] => x | x :: l' => x ++ 10 :: join_break l' end.
(** max of the lengths of the names (14): ValueError if there are none *)
Definition max_width (keys : list text) : res nat :=
  match keys with [] => Err ValueError | _ => Ok (fold_right Nat.max 0 (map (@length nat) keys)) end.
(** ExperimentalPathSet.__str__ (13-26) *)
Definition str_paths (s : path_set) : res text :=
  w <- max_width (map fst s) ;;
  root <- attribute s root_key ;;
  others <- mapM (fun key => p <- shorten_path s key ;; Ok (path_line w key p))
              (filter (fun key => negb (text_eqb key root_key)) (sort_text (map fst s))) ;;
  Ok (join_break (path_line w root_key root :: others)).

(** ExperimentalSetup (43-50): ExperimentDef.path, ExDsDef.path, Paths; None if not configured *)
Record paths_setup := PSetup { ps_exp : option ppath; ps_exds : option ppath; ps_paths : option path_set }.
(** update_paths (53-59): the setup afterwards, and how it ended *)
Definition update_paths (su : paths_setup) : paths_setup * res unit :=
  match ps_exp su, ps_paths su with
  | Some e, Some s =>
    let s1 := set_attribute s (lit "Experiment") e in
    let s2 := match ps_exds su with Some d => set_attribute s1 (lit "ExDs") d | None => s1 end in
    (PSetup (ps_exp su) (ps_exds su) (Some s2), Ok tt)
  | _, _ => (su, Err AttributeError)
  end.
(** command_paths_show (205-206): what is printed *)
Definition paths_show (su : paths_setup) : res text :=
  match ps_paths su with Some s => str_paths s | None => Ok (lit "None") end.
(** what a script does with a setup: configure ExperimentDef, ExDsDef (or take it away), Paths, and call update_paths
    [experiment.py:43-59] *)
Inductive paths_op := SetExperiment (p : ppath) | SetExDs (p : option ppath) | SetPaths (root : ppath) | UpdatePaths.
(** one of them [experiment.py:43-59] *)
Definition paths_step (su : paths_setup) (o : paths_op) : paths_setup :=
  match o with
  | SetExperiment p => PSetup (Some p) (ps_exds su) (ps_paths su)
  | SetExDs d => PSetup (ps_exp su) d (ps_paths su)
  | SetPaths root => PSetup (ps_exp su) (ps_exds su) (Some (new_paths root))
  | UpdatePaths => fst (update_paths su)
  end.
(** a script, from a new ExperimentalSetup (43-50) *)
Definition paths_run (ops : list paths_op) : paths_setup := fold_left paths_step ops (PSetup None None None).
