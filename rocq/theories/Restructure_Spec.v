(** What moving the old results of the dcMI experiment to their new place means, in terms of what is at
    which path below the repository folder (independent of Restructure_Model.v). *)
From Coq Require Import String.
From Verif Require Import Base Matrix_Model FS_Model.
Open Scope list_scope.

(** the folder of a sub-experiment before, and the folder of the experiment now *)
Definition old_folder (sub : string) : string := String.append "dcMIEvExpII_" sub.
Definition new_folder : string := "dcMIEvExpII".
(** the kinds of results that are moved *)
Definition moved_kind (df : string) : Prop :=
  df = "adtree_analysis"%string \/ df = "adtrees"%string \/ df = "algorithm_run_datapoints"%string \/
  df = "algorithm_run_logs"%string \/ df = "ci_test_results"%string \/ df = "dof_cache"%string \/
  df = "jht"%string \/ df = "summaries"%string.

(** where what is at a path belongs in the new layout (for what has to move) *)
Inductive moves (s : fs) : path -> path -> Prop :=
| moves_data sub df rest :
    moved_kind df -> moves s (old_folder sub :: df :: rest) (new_folder :: df :: sub :: rest)
| moves_lock sub name c :
    prefix "locked" name = true -> lookup s [old_folder sub; name] = Some (File c) ->
    moves s [old_folder sub; name] [new_folder; "locks"%string; sub; name].

(** the folders of the new layout that the script creates when they are missing *)
Definition created (s : fs) (p : path) : Prop :=
  p = [new_folder] \/ (exists df, moved_kind df /\ p = [new_folder; df]) \/ p = [new_folder; "locks"%string] \/
  (exists sub, lookup s [old_folder sub] = Some Dir /\ p = [new_folder; "locks"%string; sub]).

(** something leaves this path, or arrives at it *)
Definition involved (s : fs) (p : path) : Prop :=
  exists q, (moves s p q /\ lookup s p <> None) \/ (moves s q p /\ lookup s q <> None).
(** everything else is as it was, apart from created folders *)
Definition rest_kept (s t : fs) : Prop :=
  forall p, ~ involved s p ->
    lookup t p = lookup s p \/ (created s p /\ lookup s p = None /\ lookup t p = Some Dir).

(** everything is at its new place *)
Definition Moved (s t : fs) : Prop :=
  (forall p q n, moves s p q -> lookup s p = Some n -> lookup t p = None /\ lookup t q = Some n) /\
  rest_kept s t.

(** a folder of results has to move, but at its new place there is a file or a folder with something in it *)
Definition in_the_way (s : fs) (sub df : string) : Prop :=
  moved_kind df /\ lookup s [old_folder sub; df] <> None /\
  ((exists c, lookup s [new_folder; df; sub] = Some (File c)) \/
   (exists x rest, lookup s (new_folder :: df :: sub :: x :: rest) <> None)).

(** each file and folder is either still at its old place, and nothing has changed at its new one, or has
    moved; what is in one folder of results moves together, and only if nothing is in the way *)
Definition Between (s t : fs) : Prop :=
  (forall p q n, moves s p q -> lookup s p = Some n ->
     (lookup t p = Some n /\ lookup t q = lookup s q) \/ (lookup t p = None /\ lookup t q = Some n)) /\
  (forall sub df, moved_kind df ->
     (forall rest, lookup t (old_folder sub :: df :: rest) = lookup s (old_folder sub :: df :: rest)) \/
     ((forall rest, lookup t (old_folder sub :: df :: rest) = None) /\ ~ in_the_way s sub df)) /\
  rest_kept s t.

(** what the script expects to find: folders where folders should be, named sub-experiments, and no lock
    file where another one is to go *)
Record Old_layout (s : fs) : Prop := {
  ol_parent : forall sub x rest, lookup s (old_folder sub :: x :: rest) <> None -> lookup s [old_folder sub] = Some Dir;
  ol_inside : forall sub df rest, moved_kind df ->
    lookup s (old_folder sub :: df :: rest) <> None -> lookup s [old_folder sub; df] <> None;
  ol_target : forall df sub x rest, moved_kind df ->
    lookup s (new_folder :: df :: sub :: x :: rest) <> None -> lookup s [new_folder; df; sub] = Some Dir;
  ol_named : lookup s [old_folder ""] = None;
  ol_data : forall sub df c, moved_kind df -> lookup s [old_folder sub; df] <> Some (File c);
  ol_new : forall p c, created s p -> lookup s p <> Some (File c);
  ol_lock : forall sub name c, prefix "locked" name = true -> lookup s [old_folder sub; name] = Some (File c) ->
            lookup s [new_folder; "locks"%string; sub; name] = None }.
