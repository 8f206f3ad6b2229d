(** Model of the command line of mbtk (mbtk/utilities/experiment.py): handle_command (133-201) and the
    commands it dispatches to (205-352), with the tag selections of ExperimentalSetup (62-76).

    Simplifications: parsing of the arguments by argparse is not modelled (the parsed namespace is
    given); what is printed is a list of items, blank lines left out; a parameter dictionary is given
    by its algorithm run, its 'tags' and the printed form of its values; a saved datapoint is its ID
    and its Markov boundary, other attributes being printed by name. *)
From Coq Require Import String.
From Verif Require Import Base Matrix_Model Text_Model FS_Model Split_Model Storage_Model Experiment_Model Select_Model.
Open Scope string_scope.
Open Scope list_scope.

(** one element of AlgorithmRunParameters; [en_get] is the printed form of parameters[key] [experiment.py:49, 306-316] *)
Record entry := Entry { en_run : alg_run; en_tags : option (list string); en_get : string -> option text }.
(** parameters['ID'] (experiment.py:330) *)
Definition en_ID (en : entry) : string := ar_ID (en_run en).

(** ExperimentalSetup (43-50): ExperimentDef (with its options and its exds_definition), ExDsDef (None
    if not configured), AlgorithmRunParameters *)
Record setup := Setup { su_exp : experiment; su_options : run_options; su_exp_exds : option exds_use; su_exds : option exds_use; su_params : list entry }.
(** the parsed command line (80-130); [a_type] is '' and the others None by default *)
Record arguments := Arguments { a_object : string; a_verb : option string; a_index : option text; a_type : string; a_key : option string }.

(** what is printed [experiment.py:205-352] *)
Inductive item :=
| DatapointHeader (index : text) (id : string)      (* AlgorithmRun datapoint [index] id: *)
| ParametersHeader (index : text) (id : string)     (* AlgorithmRun parameters [index] id: *)
| Missing                                           (* (missing) *)
| ShowDatapoint (id : string) (mb : list nat)       (* print(datapoint) *)
| ShowAttribute (key id : string) (mb : list nat)   (* key: datapoint.key *)
| ShowParameters (en : entry)                       (* pprint(parameters) *)
| ShowValue (key : string) (value : text)           (* key: parameters[key] *)
| NotFound (key : string)                           (* key: not found *)
| TotalDatapoints (n : nat)                         (* Total: n AlgorithmRun datapoints *)
| TotalParameters (n : nat)                         (* Total of n AlgorithmRun parameters *)
| ShowExperiment (locks : list string) (folder_exists : bool)
| ShowDefinition (locks : list string) (ready folder_exists : bool)
| ShowDataset (b : built)
| ShowPaths | NotImplementedYet | MustBeBuilt | AlreadyBuilt | HasBeenBuilt
| RunStarted (id : string).                         (* algorithm_run.run() was called *)

(** a command: what it has printed, and how it ended [experiment.py:205-352] *)
Definition command := prog (list item * res unit).
(** a command that prints nothing [experiment.py:227-281] *)
Definition silent (m : prog unit) : command := r <~ attempt m ;; Ret ([], r).
(** a command that computes what to print [experiment.py:205-352] *)
Definition printing (m : prog (list item)) : command :=
  r <~ attempt m ;; match r with Ok l => Ret (l, Ok tt) | Err e => Ret ([], Err e) end.

(** get_algruns_by_tag (66-69), consumed by list() in filter_algruns_by_tag (62-63): a KeyError leaves
    AlgorithmRunParameters as it was *)
Fixpoint get_algruns_by_tag (tag : string) (l : list entry) : res (list entry) :=
  match l with
  | [] => Ok []
  | en :: l' =>
    tags <- of_option KeyError (en_tags en) ;;
    rest <- get_algruns_by_tag tag l' ;;
    Ok (if existsb (String.eqb tag) tags then en :: rest else rest)
  end.
(** filter_algruns_by_tag (experiment.py:62-63) *)
Definition filter_algruns_by_tag (tag : string) (su : setup) : setup * res unit :=
  match get_algruns_by_tag tag (su_params su) with
  | Ok l => (Setup (su_exp su) (su_options su) (su_exp_exds su) (su_exds su) l, Ok tt)
  | Err e => (su, Err e)
  end.
(** is_tag_present_in_any_algrun (72-76) *)
Fixpoint is_tag_present (tag : string) (l : list entry) : res bool :=
  match l with
  | [] => Ok false
  | en :: l' =>
    tags <- of_option KeyError (en_tags en) ;;
    if existsb (String.eqb tag) tags then Ok true else is_tag_present tag l'
  end.

(** command_exp_def_show (210-214): get_locks() of an ExperimentDefinition creates its folder *)
Definition command_exp_def_show (su : setup) : command :=
  printing (locks <~ ex_get_locks (su_exp su) ;; Exists (ex_path (su_exp su)) (fun b => Ret [ShowExperiment locks b])).
(** command_exds_def_show (218-223); LockablePath.get_locks (85-86) *)
Definition command_exds_def_show (u : exds_use) : command :=
  printing (Glob (lp_path (eu_folder u)) "locked_" (fun locks =>
    ready <~ exds_ready (eu_folder u) ;; b <~ folder_exists (eu_folder u) ;; Ret [ShowDefinition locks ready b])).
(** command_exds_delete (227-228), command_exds_lock (275-276), command_exds_unlock (252-253) *)
Definition command_exds_delete (u : exds_use) : command := silent (delete_folder (eu_folder u)).
(** command_exds_lock (experiment.py:275-276) *)
Definition command_exds_lock (u : exds_use) (a : arguments) : command := silent (lock_folder (eu_folder u) (a_type a)).
(** command_exds_unlock (experiment.py:252-253) *)
Definition command_exds_unlock (u : exds_use) (a : arguments) : command := silent (unlock_folder (eu_folder u) (a_type a)).
(** command_exds_show (232-238), command_exds_build (242-248) *)
Definition command_exds_show (u : exds_use) : command :=
  printing (ready <~ exds_ready (eu_folder u) ;;
            if ready : bool then b <~ load_built (eu_folder u) (eu_split u) ;; Ret [ShowDataset b] else Ret [MustBeBuilt]).
(** command_exds_build (experiment.py:242-248) *)
Definition command_exds_build (u : exds_use) : command :=
  printing (ready <~ exds_ready (eu_folder u) ;;
            if ready : bool then Ret [AlreadyBuilt]
            else build (eu_folder u) (eu_save u) (eu_lock u) (eu_source u) ;;; Ret [HasBeenBuilt]).
(** command_exp_run (257-261): the selected parameters become those of the experiment, which is then
    run (Experiment_Model.run_experiment) *)
Definition command_exp_run (su : setup) (a : arguments) : command :=
  match get_parameters_by_index (a_index a) (su_params su) with
  | Err e => Ret ([], Err e)
  | Ok selected =>
    r <~ run_experiment (su_exp su) (su_options su) (su_exp_exds su) (map en_run selected) ;;
    Ret (map RunStarted (fst r), snd r)
  end.
(** command_exp_unlock (265-266), command_exp_lock (270-271), command_exp_delete (280-281) *)
Definition command_exp_lock (su : setup) (a : arguments) : command := silent (ex_lock (su_exp su) (a_type a)).
(** command_exp_unlock (experiment.py:265-266) *)
Definition command_exp_unlock (su : setup) (a : arguments) : command := silent (ex_unlock (su_exp su) (a_type a)).
(** command_exp_delete (experiment.py:280-281) *)
Definition command_exp_delete (su : setup) : command := silent (ex_delete_folder (su_exp su)).

(** the loop of command_parameters_list (306-315) *)
Fixpoint list_parameters (key : option string) (l : list entry) : list item * res unit :=
  match l with
  | [] => ([], Ok tt)
  | en :: l' =>
    match en_get en "index" with
    | None => ([], Err KeyError)
    | Some i =>
      let body := match key with
                  | Some k => match en_get en k with Some v => ShowValue k v | None => NotFound k end
                  | None => ShowParameters en
                  end in
      let rest := list_parameters key l' in
      (ParametersHeader i (en_ID en) :: body :: fst rest, snd rest)
    end
  end.
(** command_parameters_list (298-316) *)
Definition command_parameters_list (su : setup) (a : arguments) : command :=
  match get_parameters_by_index (a_index a) (su_params su) with
  | Err e => Ret ([], Err e)
  | Ok selected =>
    match list_parameters (a_key a) selected with
    | (out, Ok _) => Ret (out ++ [TotalParameters (length selected)], Ok tt)
    | (out, Err e) => Ret (out, Err e)
    end
  end.

(** the attributes of an AlgorithmRunDatapoint (mbtk/experiment/AlgorithmRunDatapoint.py:8-15) *)
Definition datapoint_attributes : list string :=
  ["parameters"; "ID"; "algorithm_name"; "mb"; "start_time"; "end_time"; "duration"].
(** the loop of command_datapoints_list (329-350); opening a folder raises an OSError that is not a
    FileNotFoundError, unpickling anything but a complete pickle raises *)
Fixpoint list_datapoints (e : experiment) (key : option string) (l : list entry) : command :=
  match l with
  | [] => Ret ([], Ok tt)
  | en :: l' =>
    ReadFile (datapoint_file e (en_ID en)) (fun c =>
    Exists (datapoint_file e (en_ID en)) (fun ex =>
      let shown := match c with
                   | Some (CDatapoint id mb) =>
                     Ok (match key with
                         | None => ShowDatapoint id mb
                         | Some k => if existsb (String.eqb k) datapoint_attributes then ShowAttribute k id mb else NotFound k
                         end)
                   | Some _ => Err PickleErr
                   | None => if ex : bool then Err OSErr else Ok Missing
                   end in
      match shown with
      | Err er => Ret ([], Err er)
      | Ok body =>
        match en_get en "index" with
        | None => Ret ([], Err KeyError)
        | Some i => rest <~ list_datapoints e key l' ;; Ret (DatapointHeader i (en_ID en) :: body :: fst rest, snd rest)
        end
      end))
  end.
(** command_datapoints_list (320-352) *)
Definition command_datapoints_list (su : setup) (a : arguments) : command :=
  match get_parameters_by_index (a_index a) (su_params su) with
  | Err e => Ret ([], Err e)
  | Ok selected =>
    f <~ attempt (subfolder (su_exp su) "algorithm_run_datapoints") ;;
    match f with
    | Err e => Ret ([], Err e)
    | Ok _ =>
      r <~ list_datapoints (su_exp su) (a_key a) selected ;;
      match r with
      | (out, Ok _) => Ret (out ++ [TotalDatapoints (length selected)], Ok tt)
      | (out, Err e) => Ret (out, Err e)
      end
    end
  end.

(** a command on ExDsDef, which may be None [experiment.py:133-201] *)
Definition with_exds (su : setup) (f : exds_use -> command) : command :=
  match su_exds su with None => Ret ([], Err AttributeError) | Some u => f u end.
(** handle_command (133-201): a missing verb is ''; the result is command_handled *)
Definition handle_command (su : setup) (a : arguments) : prog (list item * res bool) :=
  let verb := match a_verb a with Some v => v | None => "" end in
  let handled (c : command) := r <~ c ;; Ret (fst r, match snd r with Ok _ => Ok true | Err e => Err e end) in
  let unhandled := Ret ([], Ok false) in
  if String.eqb (a_object a) "paths" then (if String.eqb verb "show" then handled (Ret ([ShowPaths], Ok tt)) else unhandled)
  else if String.eqb (a_object a) "exp-def" then
    (if String.eqb verb "show" then handled (command_exp_def_show su) else unhandled)
  else if String.eqb (a_object a) "exds-def" then
    (if String.eqb verb "show" then handled (with_exds su command_exds_def_show) else unhandled)
  else if String.eqb (a_object a) "exds" then
    (if String.eqb verb "show" then handled (with_exds su command_exds_show)
     else if String.eqb verb "build" then handled (with_exds su command_exds_build)
     else if String.eqb verb "lock" then handled (with_exds su (fun u => command_exds_lock u a))
     else if String.eqb verb "unlock" then handled (with_exds su (fun u => command_exds_unlock u a))
     else if String.eqb verb "delete" then handled (with_exds su command_exds_delete)
     else unhandled)
  else if String.eqb (a_object a) "exp" then
    (if String.eqb verb "show" then handled (Ret ([NotImplementedYet], Ok tt))
     else if String.eqb verb "run" then handled (command_exp_run su a)
     else if String.eqb verb "lock" then handled (command_exp_lock su a)
     else if String.eqb verb "unlock" then handled (command_exp_unlock su a)
     else if String.eqb verb "delete" then handled (command_exp_delete su)
     else unhandled)
  else if String.eqb (a_object a) "parameters" then
    (if String.eqb verb "list" then handled (command_parameters_list su a) else unhandled)
  else if String.eqb (a_object a) "datapoints" then
    (if String.eqb verb "list" then handled (command_datapoints_list su a) else unhandled)
  else unhandled.
