(** Model of the experiment set up by experiments/experiment_dsep/expsetup.py: which arguments it accepts, its folders, its dataset and the parameters of its runs.

    Simplifications: of the parameters of a run its target, index, ID, tags, files, kind of CI test and significance are kept; `int(float(text))`, the reading of networks and
    their numbers of variables are parameters; 0.95 is the significance; POSIX paths as in Paths_Model.v; the folders that subfolder() creates are not looked at. *)
From Coq Require Import String Ascii QArith.
From Verif Require Import Base Matrix_Model Sources_Model Render_Model BifText_Model Paths_Model DcmiRuns_Model.
Open Scope nat_scope.
Open Scope list_scope.

(** SOURCES, BAYESIAN_NETWORKS, ALGORITHMS (expsetup.py:20-22) *)
Definition SOURCES : list text := [Render_Model.lit "bn"; Render_Model.lit "ds"].
(** BAYESIAN_NETWORKS (expsetup.py:21) *)
Definition BAYESIAN_NETWORKS : list text := [Render_Model.lit "alarm"; Render_Model.lit "mildew"; Render_Model.lit "child"].
(** ALGORITHMS (expsetup.py:22) *)
Definition ALGORITHMS : list text := [Render_Model.lit "iamb"; Render_Model.lit "ipcmb"].
(** arguments: algorithm, source_type, source_name, sample_count (main.py:44-54) *)
Record dsep_arguments := DArgs { a_algorithm : text; a_source_type : text; a_source_name : text; a_sample_count : option text }.
(** validate_algorithm, validate_source_type, validate_source_name (expsetup.py:215-231) *)
Definition known (names : list text) (t : text) : res unit := if existsb (text_eqb t) names then Ok tt else Err ValueError.
(** validate_arguments (expsetup.py:207-212); [arguments.source_type == ['ds']] compares a text with a list *)
Definition validate_arguments (a : dsep_arguments) : res unit :=
  _ <- known ALGORITHMS (a_algorithm a) ;; _ <- known SOURCES (a_source_type a) ;; known BAYESIAN_NETWORKS (a_source_name a).

Section Setup.
(** int(float(t)) (expsetup.py:81) *)
Variable number : text -> res Z.
(** the number of variables of the network read from a file (expsetup.py:73, 147) *)
Variable network : ppath -> res nat.

(** a setup (expsetup.py:39-56) *)
Record dsep_setup := DSetup { d_root : ppath; d_type : text; d_algorithm : text; d_network : text; d_variables : nat;
  d_samples : text; d_count : option Z; d_significance : option Q }.
(** the file of a network (expsetup.py:30, 70-71) *)
Definition bif_file (root : ppath) (name : text) : ppath := child (child root (Render_Model.lit "bif_repository")) (name ++ Render_Model.lit ".bif").
(** DsepAlgsEvalExpSetup(root, arguments) (expsetup.py:42-61, 64-82) *)
Definition dsep_setup_of (root : ppath) (a : dsep_arguments) : res dsep_setup :=
  _ <- validate_arguments a ;;
  n <- network (bif_file root (a_source_name a)) ;;
  if text_eqb (a_source_type a) (Render_Model.lit "ds") then
    match a_sample_count a with
    | None => Err ValueError
    | Some t => c <- number t ;; Ok (DSetup root (a_source_type a) (a_algorithm a) (a_source_name a) n t (Some c) (Some (95 # 100)))
    end
  else Ok (DSetup root (a_source_type a) (a_algorithm a) (a_source_name a) n [] None None).

(** create_experiment_run_stem (expsetup.py:178-187); None for other source types *)
Definition create_experiment_run_stem (d : dsep_setup) (source_type : text) : option text :=
  if text_eqb source_type (Render_Model.lit "bn") then Some (source_type ++ [95] ++ d_network d ++ [95] ++ d_algorithm d)
  else if text_eqb source_type (Render_Model.lit "ds") then Some (source_type ++ [95] ++ d_network d ++ [95] ++ d_samples d ++ [95] ++ d_algorithm d)
  else None.
(** create_algrun_ID (expsetup.py:190-204); UnboundLocalError, a NameError, for other source types *)
Definition create_algrun_ID (d : dsep_setup) (target : nat) (source_type : text) : res text :=
  if text_eqb source_type (Render_Model.lit "ds") then
    Ok (Render_Model.lit "ds_" ++ d_network d ++ [95] ++ d_samples d ++ [95] ++ d_algorithm d ++ Render_Model.lit "_T" ++ num target)
  else if text_eqb source_type (Render_Model.lit "bn") then
    Ok (Render_Model.lit "bn_" ++ d_network d ++ [95] ++ d_algorithm d ++ Render_Model.lit "_T" ++ num target)
  else Err NameErr.
(** an experiment definition's folder and sub-experiment (ExperimentDefinition.py:6-15, 34-37): subfolder(name) *)
Definition definition_subfolder (repo : ppath) (name : text) (subexp : option text) (folder : string) : ppath :=
  child (child (child repo name) (Render_Model.lit folder)) (match subexp with Some t => t | None => Render_Model.lit "main" end).
(** ExpRunRepository (mbtk/utilities/experiment.py:10) *)
Definition exprun_repository (root : ppath) : ppath := child root (Render_Model.lit "exprun_repository").
(** ExDsRepository (mbtk/utilities/experiment.py:9) *)
Definition exds_repository (root : ppath) : ppath := child root (Render_Model.lit "exds_repository").
(** experiment_definition.subfolder(name) (expsetup.py:88-92, 96-100) *)
Definition dsep_subfolder (d : dsep_setup) (folder : string) : ppath :=
  definition_subfolder (exprun_repository (d_root d)) (Render_Model.lit "DsepAlgsEval") (create_experiment_run_stem d (d_type d)) folder.
(** make_bn_experiment_definition, make_bn_datapoints_path (expsetup.py:241-250) *)
Definition make_bn_datapoints_path (d : dsep_setup) : ppath :=
  definition_subfolder (exprun_repository (d_root d)) (Render_Model.lit "DsepAlgsEval") (create_experiment_run_stem d (Render_Model.lit "bn")) "algorithm_run_datapoints".

(** get_ci_test_class (expsetup.py:253-257) *)
Inductive dsep_test := DSeparation | GTest.
(** get_ci_test_class (expsetup.py:253-257) *)
Definition get_ci_test_class (d : dsep_setup) : option dsep_test :=
  if text_eqb (d_type d) (Render_Model.lit "bn") then Some DSeparation else if text_eqb (d_type d) (Render_Model.lit "ds") then Some GTest else None.
(** the parameters of a run (expsetup.py:148-174) *)
Record dsep_run := DRun { u_index : nat; u_target : nat; u_ID : text; u_tags : list text; u_results : ppath; u_heuristic : ppath; u_test : option dsep_test; u_significance : option Q }.
(** one run (expsetup.py:147-170) *)
Definition dsep_run_of (d : dsep_setup) (target : nat) : res dsep_run :=
  ID <- create_algrun_ID d target (d_type d) ;;
  Ok {| u_index := target; u_target := target; u_ID := Render_Model.lit "run_" ++ ID; u_tags := [d_algorithm d; d_network d];
        u_results := child (dsep_subfolder d "ci_test_results") (Render_Model.lit "citr_" ++ ID ++ Render_Model.lit ".pickle");
        u_heuristic := child (dsep_subfolder d "heuristic_results") (Render_Model.lit "hr_" ++ ID ++ Render_Model.lit ".pickle");
        u_test := get_ci_test_class d; u_significance := d_significance d |}.
(** create_algrun_parameters (expsetup.py:137-176): the targets are 0, 1, ..., so that the position of a run is its target *)
Definition dsep_runs (d : dsep_setup) : res (list dsep_run) := mapM (dsep_run_of d) (seq 0 (d_variables d)).
(** the datapoint that a run writes (ExperimentRun.py:90-94) *)
Definition run_datapoint (d : dsep_setup) (r : dsep_run) : ppath := child (dsep_subfolder d "algorithm_run_datapoints") (u_ID r ++ Render_Model.lit ".pickle").
(** the file of a Markov blanket that the summary reads (analysis.py:86, 155-156) *)
Definition found_blanket_file (d : dsep_setup) (r : dsep_run) : ppath := child (dsep_subfolder d "algorithm_run_datapoints") (u_ID r ++ Render_Model.lit ".pickle").
(** the file of the true Markov blanket that the summary reads, if the source is 'ds' (analysis.py:89-97, 155-156) *)
Definition true_blanket_file (d : dsep_setup) (r : dsep_run) : res (option ppath) :=
  if text_eqb (d_type d) (Render_Model.lit "ds") then
    ID <- create_algrun_ID d (u_target r) (Render_Model.lit "bn") ;;
    Ok (Some (child (make_bn_datapoints_path d) ((Render_Model.lit "run_" ++ ID) ++ Render_Model.lit ".pickle")))
  else Ok None.

(** the definition of the dataset: folder, file of the network, sample count, seed (expsetup.py:118-135) *)
Record exds_def := ExDsDef { x_path : ppath; x_network : ppath; x_count : Z; x_seed : Z }.
(** define_source (expsetup.py:118-135) *)
Definition define_source (d : dsep_setup) : option exds_def :=
  if text_eqb (d_type d) (Render_Model.lit "ds") then
    match d_count d with
    | Some c => Some (ExDsDef (child (exds_repository (d_root d)) (Render_Model.lit "synthetic_" ++ d_network d ++ [95] ++ d_samples d)) (bif_file (d_root d) (d_network d)) c (81628965211 + c))
    | None => None
    end
  else None.
(** the dataset of the dcMI experiment with the same root (experiment_dcmi/definitions.py:19-39, expsetup.py:38) *)
Definition dcmi_exds_def (root : ppath) (dataset samples : text) : res exds_def :=
  c <- number samples ;;
  Ok (ExDsDef (child (exds_repository root) (exds_name (Study root dataset samples 0 0 []))) (bif_file root dataset) c (81628965211 + c)).
End Setup.
