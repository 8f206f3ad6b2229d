(** Model of experiments/experiment_dcmi/restructure.py: the script that moves the results of the
    sub-experiments from the old folders <repository>/dcMIEvExpII_<sub>/... to the new ones.
    Paths are relative to the repository folder (paths.ExpRunRepository), which exists.
    Not modelled: the printing of the folders' names, and expsetup.DCMIEvExpPathSet, which only
    computes the repository's path. *)
From Coq Require Import String.
From Verif Require Import Base Matrix_Model FS_Model.
Open Scope list_scope.

(** EXPERIMENT_NAME [restructure.py:14] *)
Definition experiment_name : string := "dcMIEvExpII".
(** EXPERIMENT_NAME + '_' [restructure.py:44] *)
Definition old_prefix : string := "dcMIEvExpII_".
(** DATA_FOLDERS [restructure.py:15-17] *)
Definition data_folders : list string :=
  ["adtree_analysis"; "adtrees"; "algorithm_run_datapoints"; "algorithm_run_logs"; "ci_test_results";
   "dof_cache"; "jht"; "summaries"]%string.

(** what Path.rename can do: nothing raised, FileNotFoundError, or another OSError [restructure.py:55, 72] *)
Inductive renamed := RDone | RMissing | RFailed.

(** the script's system calls: a reading one (iterdir, is_dir, is_file), mkdir of one folder, rename
    [restructure.py:34-36, 41-42, 55, 63-72] *)
Inductive mprog :=
| MRet
| MRaise (e : pyerr)
| MRead (k : fs -> mprog)
| MMkdir (p : path) (k : mprog)
| MRename (p q : path) (k : renamed -> mprog).

(** something lies strictly below the path [the folder is not empty: rename refuses it, restructure.py:55] *)
Definition occupied (s : fs) (q : path) : bool :=
  existsb (fun e => below (fst e) q && negb (path_eqb (fst e) q)) s.
(** the entries after p and all below it have gone to q [rename(2), as called by restructure.py:55, 72] *)
Definition move_tree (s : fs) (p q : path) : fs :=
  map (fun e => if below (fst e) p then (q ++ skipn (length p) (fst e), snd e) else e) (remove s q).
(** rename(2) on one file system: a file replaces a file, a folder replaces an empty folder; p = q does
    nothing; into its own inside is refused [os.rename, as called by restructure.py:55, 72] *)
Definition do_rename (s : fs) (p q : path) : fs * renamed :=
  match lookup s p with
  | None => (s, RMissing)
  | Some n =>
      if negb (is_dir s (parent q)) then (s, if exists_ s (parent q) then RFailed else RMissing)
      else if path_eqb p q then (s, RDone)
      else if below q p then (s, RFailed)
      else match n, lookup s q with
           | File _, None | File _, Some (File _) => (update (remove s p) q n, RDone)
           | Dir, None => (move_tree s p q, RDone)
           | Dir, Some Dir => if occupied s q then (s, RFailed) else (move_tree s p q, RDone)
           | File _, Some Dir | Dir, Some (File _) => (s, RFailed)
           end
  end.

(** running to the end: None, or the exception that ended the script [restructure.py:82-83] *)
Fixpoint mexec (s : fs) (m : mprog) : fs * option pyerr :=
  match m with
  | MRet => (s, None)
  | MRaise e => (s, Some e)
  | MRead k => mexec s (k s)
  | MMkdir p k => let (s', b) := do_mkdir s p in if b then mexec s' k else (s', Some OSErr)
  | MRename p q k => let (s', r) := do_rename s p q in mexec s' (k r)
  end.
(** what the disk holds before the script and after each of its system calls: what a kill can leave
    [restructure.py:82-83] *)
Fixpoint mstates (s : fs) (m : mprog) : list fs :=
  s :: match m with
       | MRet | MRaise _ => []
       | MRead k => mstates s (k s)
       | MMkdir p k => let (s', b) := do_mkdir s p in if b then mstates s' k else [s']
       | MRename p q k => let (s', r) := do_rename s p q in mstates s' (k r)
       end.

(** path.mkdir(parents=True, exist_ok=True), then the rest [restructure.py:34, 36, 63, 71] *)
Definition mmkdirs (p : path) (k : mprog) : mprog := fold_right MMkdir k (prefixes p).
(** what iterdir lists: each name once [restructure.py:41, 65] *)
Definition listing (s : fs) (p : path) : list string := nodup string_dec (names_in s p "").

(** path.is_file() [restructure.py:66] *)
Definition is_file (s : fs) (p : path) : bool :=
  match lookup s p with Some (File _) => true | _ => false end.

(** get_new_subexperiment_name [restructure.py:76-78] *)
Definition new_name (old : string) : string :=
  let i := String.length experiment_name + 1 in String.substring i (String.length old - i) old.

(** the loop of restructure_subexperiment_folder [restructure.py:50-57] *)
Fixpoint move_data (subexp : string) (dfs : list string) (k : mprog) : mprog :=
  match dfs with
  | [] => k
  | df :: dfs' =>
      MRename [subexp; df] [experiment_name; df; new_name subexp] (fun r =>
        match r with
        | RFailed => MRaise OSErr
        | RDone | RMissing => move_data subexp dfs' k
        end)
  end.
(** the loop of restructure_subexperiment_locks [restructure.py:65-72] *)
Fixpoint move_locks (subexp : string) (names : list string) (k : mprog) : mprog :=
  match names with
  | [] => k
  | name :: names' =>
      MRead (fun s =>
        if negb (is_file s [subexp; name]) then move_locks subexp names' k
        else if negb (prefix "locked" name) then move_locks subexp names' k
        else mmkdirs [experiment_name; "locks"%string; new_name subexp] (
             MRename [subexp; name] [experiment_name; "locks"%string; new_name subexp; name] (fun r =>
               match r with
               | RDone => move_locks subexp names' k
               | RMissing | RFailed => MRaise OSErr
               end)))
  end.
(** restructure_subexperiment_locks [restructure.py:61-72] *)
Definition move_subexp_locks (subexp : string) (k : mprog) : mprog :=
  mmkdirs [experiment_name; "locks"%string] (
    MRead (fun s => move_locks subexp (listing s [subexp]) k)).
(** the loop over get_subexperiment_folders, which looks at each entry when it comes to it
    [restructure.py:25-29, 40-46] *)
Fixpoint move_all (names : list string) : mprog :=
  match names with
  | [] => MRet
  | name :: names' =>
      MRead (fun s =>
        if negb (is_dir s [name]) then move_all names'
        else if negb (prefix old_prefix name) then move_all names'
        else move_data name data_folders (move_subexp_locks name (move_all names')))
  end.
(** create_new_structure, then the rest [restructure.py:33-36] *)
Definition create_structure (k : mprog) : mprog :=
  mmkdirs [experiment_name] (fold_right (fun df => mmkdirs [experiment_name; df]) k data_folders).
(** restructure [restructure.py:20-29] *)
Definition restructure : mprog :=
  create_structure (MRead (fun s => move_all (listing s []))).
