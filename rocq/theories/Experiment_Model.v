(** Model of ExperimentDefinition (mbtk/experiment/ExperimentDefinition.py) with the methods it inherits
    from LockablePath (mbtk/utilities/LockablePath.py), and of ExperimentRun
    (mbtk/experiment/ExperimentRun.py).
    Simplifications: an algorithm run is described by what it does (its ID, whether it is skipped, the
    outcome of constructing and running it, what it prints); printing to the console is not modelled. *)
From Coq Require Import String.
From Verif Require Import Base Matrix_Model Text_Model FS_Model Split_Model Storage_Model.
Open Scope string_scope.
Open Scope list_scope.

(** ExperimentDefinition.__init__ (6-27): self.path, self.subexperiment_name; default_lock_type is
    'experiment' *)
Record experiment := Experiment { ex_path : path; ex_sub : string }.
(** ExperimentDefinition.py:6-27 *)
Definition default_lock_type : string := "experiment".

(** ensure_subfolder (34-37), subfolder (LockablePath.py:81-82): path / name / subexperiment, created *)
Definition sub_path (e : experiment) (name : string) : path := ex_path e ++ [name; ex_sub e].
(** LockablePath.py:81-82 *)
Definition subfolder (e : experiment) (name : string) : prog path :=
  mkdirs (sub_path e name) ;;; Ret (sub_path e name).
(** get_lock (40-43) *)
Definition lock_file (e : experiment) (ty : string) : path :=
  sub_path e "locks" ++ [String.append "locked_" (if String.eqb ty "" then default_lock_type else ty)].
(** get_lock (ExperimentDefinition.py:40-43) *)
Definition ex_get_lock (e : experiment) (ty : string) : prog path :=
  subfolder e "locks" ;;; Ret (lock_file e ty).
(** get_locks (46-47) *)
Definition ex_get_locks (e : experiment) : prog (list string) :=
  p <~ subfolder e "locks" ;; Glob p "locked_" (fun l => Ret l).
(** folder_is_locked (LockablePath.py:20-25) *)
Definition ex_is_locked (e : experiment) (ty : string) : prog bool :=
  if String.eqb ty "" then l <~ ex_get_locks e ;; Ret (match l with [] => false | _ => true end)
  else p <~ ex_get_lock e ty ;; Exists p (fun b => Ret b).
(** lock_folder (36-42) *)
Definition ex_lock (e : experiment) (ty : string) : prog unit :=
  let ty := if String.eqb ty "" then default_lock_type else ty in
  locked <~ ex_is_locked e ty ;;
  if locked : bool then Ret tt else p <~ ex_get_lock e ty ;; write_file p (CText [108; 111; 99; 107; 101; 100]).
(** unlock_folder (62-68) *)
Definition ex_unlock (e : experiment) (ty : string) : prog unit :=
  let ty := if String.eqb ty "" then default_lock_type else ty in
  locked <~ ex_is_locked e ty ;;
  if locked : bool then p <~ ex_get_lock e ty ;; unlink p else Ret tt.
(** delete_folder (45-51) *)
Definition ex_delete_folder (e : experiment) : prog unit :=
  Exists (ex_path e) (fun ex =>
    if negb ex then Raise LockedErr else
    locked <~ ex_is_locked e "" ;;
    if locked : bool then Raise LockedErr else rmtree (ex_path e)).
(** delete_subfolder (54-59) with the subfolder_exists of ExperimentDefinition (50-52) *)
Definition ex_delete_subfolder (e : experiment) (name : string) : prog unit :=
  locked <~ ex_is_locked e "" ;;
  if locked : bool then Raise LockedErr else
  Exists (sub_path e name) (fun ex =>
    if negb ex then Raise LockedErr else rmtree (ex_path e ++ [name])).

(** *** ExperimentRun *)
(** one entry of algorithm_run_parameters, with what its run does: constructing the AlgorithmRun,
    running it (the Markov boundary found), and the text it prints [ExperimentRun.py:35-43, 71-87] *)
Record alg_run := AlgRun { ar_ID : string; ar_skip : bool; ar_init : res unit; ar_outcome : res (list nat); ar_output : text }.
(** ExperimentRun.py:62-68, 83, 97-105 *)
Record run_options := RunOptions { save_datapoints : bool; log_to_file : bool; lock_after : bool }.
(** the experimental dataset, if there is one: its definition, whether it has training and testing
    matrices, whether build() saves and locks, and what its source gives [ExperimentRun.py:46-54] *)
Record exds_use := ExdsUse { eu_folder : lockable; eu_split : bool; eu_save : bool; eu_lock : bool; eu_source : res built }.

(** turn an exception into a value [ExperimentRun.py:74-81, where the clean-up happens and the exception goes on] *)
Fixpoint attempt {A} (m : prog A) : prog (res A) :=
  match m with
  | Ret a => Ret (Ok a)
  | Raise e => Ret (Err e)
  | Exists p k => Exists p (fun b => attempt (k b))
  | Glob p pre k => Glob p pre (fun l => attempt (k l))
  | ReadFile p k => ReadFile p (fun c => attempt (k c))
  | Mkdir p k => Mkdir p (fun b => attempt (k b))
  | Open p k => Open p (fun b => attempt (k b))
  | Put p c k => Put p c (attempt k)
  | Unlink p k => Unlink p (fun b => attempt (k b))
  | ListTree p k => ListTree p (fun l => attempt (k l))
  | RemoveEntry p k => RemoveEntry p (attempt k)
  end.

(** ExperimentRun.py:91 *)
Definition datapoint_file (e : experiment) (id : string) : path := sub_path e "algorithm_run_datapoints" ++ [String.append id ".pickle"].
(** ExperimentRun.py:102 *)
Definition log_file (e : experiment) (id : string) : path := sub_path e "algorithm_run_logs" ++ [String.append id ".log"].
(** save_algorithm_run_datapoint (90-94) *)
Definition save_datapoint (e : experiment) (id : string) (mb : list nat) : prog unit :=
  subfolder e "algorithm_run_datapoints" ;;; write_file (datapoint_file e id) (CDatapoint id mb).
(** get_algorithm_run_stdout_destination (97-105): opens the log file *)
Definition open_log (e : experiment) (o : run_options) (id : string) : prog unit :=
  if log_to_file o then subfolder e "algorithm_run_logs" ;;; Open (log_file e id) (fun ok => if ok : bool then Ret tt else Raise OSErr)
  else Ret tt.
(** ... which is completed when it is closed [ExperimentRun.py:80-81, MultiFileWriter.py:20-24] *)
Definition close_log (e : experiment) (o : run_options) (id : string) (output : text) : prog unit :=
  if log_to_file o then Put (log_file e id) (CText output) (Ret tt) else Ret tt.
(** run_algorithm (71-87): the returned list has the ID if algorithm_run.run() was called *)
Definition run_algorithm (e : experiment) (o : run_options) (a : alg_run) : prog (list string * res unit) :=
  r <~ attempt (lift (ar_init a) ;;; open_log e o (ar_ID a)) ;;
  match r with
  | Err err => Ret ([], Err err)
  | Ok _ =>
    close_log e o (ar_ID a) (ar_output a) ;;;
    match ar_outcome a with
    | Err err => Ret ([ar_ID a], Err err)
    | Ok mb =>
      if save_datapoints o then r <~ attempt (save_datapoint e (ar_ID a) mb) ;; Ret ([ar_ID a], r)
      else Ret ([ar_ID a], Ok tt)
    end
  end.
(** the loop of run (35-41) *)
Fixpoint run_all (e : experiment) (o : run_options) (l : list alg_run) : prog (list string * res unit) :=
  match l with
  | [] => Ret ([], Ok tt)
  | a :: l' =>
    if ar_skip a then run_all e o l' else
    r <~ run_algorithm e o a ;;
    match r with
    | (ids, Err err) => Ret (ids, Err err)
    | (ids, Ok _) => rest <~ run_all e o l' ;; Ret ((ids ++ fst rest)%list, snd rest)
    end
  end.
(** prepare_exds (46-54) *)
Definition prepare_exds (x : option exds_use) : prog unit :=
  match x with
  | None => Ret tt
  | Some u =>
    ready <~ exds_ready (eu_folder u) ;;
    if ready : bool then load_built (eu_folder u) (eu_split u) ;;; Ret tt
    else build (eu_folder u) (eu_save u) (eu_lock u) (eu_source u)
  end.
(** run (22-43), end_run (62-68): the IDs of the algorithm runs that were started, in order, and how
    it ended *)
Definition run_experiment (e : experiment) (o : run_options) (x : option exds_use) (l : list alg_run) : prog (list string * res unit) :=
  start <~ attempt (
    mkdirs (ex_path e) ;;;
    locked <~ ex_is_locked e "experiment" ;;
    if locked : bool then Raise LockedErr else
    subfolder e "algorithm_run_logs" ;;;
    subfolder e "algorithm_run_datapoints" ;;;
    prepare_exds x) ;;
  match start with
  | Err err => Ret ([], Err err)
  | Ok _ =>
    r <~ run_all e o l ;;
    match r with
    | (ids, Err err) => Ret (ids, Err err)
    | (ids, Ok _) =>
      if lock_after o then r <~ attempt (ex_lock e "experiment") ;; Ret (ids, r) else Ret (ids, Ok tt)
    end
  end.
