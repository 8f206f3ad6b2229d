(** Model of the runs that experiments/experiment_dcmi defines: the command line's sample count (expsetup.py), the folders (definitions.py), the parameters
    of every run (algrun_parameters.py) and the preloading of AD-trees (expsetup.py).

    Simplifications: of the parameters of a run its index, target, kind of test, ID, tags, files, leaf-list threshold and whether it has a source_bayesian_network are kept; classes are told by the kind;
    AllowedLLT is a list of numbers written without leading zeros; the division in calculate_absolute_LLT is exact; POSIX paths as in Paths_Model.v;
    the folders that subfolder() creates are not looked at. *)
From Coq Require Import String Ascii.
From Verif Require Import Base Matrix_Model Sources_Model Render_Model BifText_Model Paths_Model.
Open Scope nat_scope.
Open Scope list_scope.

(** str(n) [algrun_parameters.py:84, 109, 142] *)
Definition num (n : nat) : text := digits (Nat.to_uint n).
(** [0-9]+ and what follows it (expsetup.py:93) *)
Definition some_digits (t : text) : option text :=
  match span (fun c => andb (48 <=? c) (c <=? 57)) t with ([], _) => None | (_, r) => Some r end.
(** validate_sample_count_string (expsetup.py:92-96): `$` also matches before a line feed that ends the text *)
Definition validate_sample_count_string (t : text) : res unit :=
  match some_digits t with
  | Some (101 :: r) => match some_digits r with Some [] => Ok tt | Some [10] => Ok tt | _ => Err ValueError end
  | _ => Err ValueError
  end.
(** AllowedDatasetNames (expsetup.py:24) *)
Definition allowed_names : list text := [Render_Model.lit "alarm"; Render_Model.lit "andes"; Render_Model.lit "munin"].
(** validate_dataset_name (expsetup.py:86-89) *)
Definition validate_dataset_name (t : text) : res unit := if existsb (text_eqb t) allowed_names then Ok tt else Err ValueError.

(** the setup that the definitions read: ExpRunRepository, DatasetName, SampleCountString, SampleCount, the number of variables of the network, AllowedLLT (expsetup.py:17-40) *)
Record study := Study { st_repo : ppath; st_dataset : text; st_samples : text; st_count : nat; st_targets : nat; st_llts : list nat }.
(** the name of the dataset (definitions.py:27) *)
Definition exds_name (s : study) : text := Render_Model.lit "synthetic_" ++ st_dataset s ++ [95] ++ st_samples s.
(** ExperimentDef.subfolder(name) (expsetup.py:47-56, definitions.py:51-60, ExperimentDefinition.py:34-37) *)
Definition subfolder (s : study) (name : string) : ppath :=
  child (child (child (st_repo s) (Render_Model.lit "dcMIEvExpII")) (Render_Model.lit name)) (st_dataset s ++ [95] ++ st_samples s).
(** calculate_absolute_LLT (expsetup.py:43-44) *)
Definition absolute_LLT (s : study) (llt : nat) : nat := st_count s * llt / 1000.
(** 'static' and 'dynamic' (expsetup.py:25) *)
Definition tree_type (dyn : bool) : text := Render_Model.lit (if dyn then "dynamic" else "static").
(** get_ADTree_path (expsetup.py:59-61) *)
Definition get_ADTree_path (s : study) (dyn : bool) (llt : nat) : ppath :=
  child (subfolder s "adtrees") (Render_Model.lit "adtree_" ++ tree_type dyn ++ Render_Model.lit "_llt" ++ num llt ++ Render_Model.lit ".pickle").

(** which CI test a run uses (algrun_parameters.py:75, 99, 125, 166) *)
Inductive kind := Dsep | Unoptimized | Adtree (dyn : bool) (llt : nat) | Dcmi.
(** the parameters of a run (algrun_parameters.py:85-92, 110-118, 145-158, 183-194) *)
Record run := Run { r_index : nat; r_target : nat; r_kind : kind; r_ID : text; r_tags : list text; r_results : ppath;
  r_tree_load : option ppath; r_tree_save : option ppath; r_threshold : option nat; r_jht : option ppath; r_dof : option ppath; r_network : bool }.
(** the name of the file of CI results (algrun_parameters.py:84, 109, 142, 182) *)
Definition citr_name (s : study) (t : nat) (k : kind) : text :=
  Render_Model.lit "ci_test_results_" ++ exds_name s ++ Render_Model.lit "_T" ++ num t ++
  match k with
  | Dsep => Render_Model.lit "_dsep.pickle"
  | Unoptimized => Render_Model.lit "_unoptimized.pickle"
  | Adtree dyn llt => Render_Model.lit "_ADtree_" ++ tree_type dyn ++ Render_Model.lit "_LLT" ++ num llt ++ Render_Model.lit ".pickle"
  | Dcmi => Render_Model.lit "_dcMI.pickle"
  end.
(** the tags (algrun_parameters.py:89, 115, 143-144, 156, 192) *)
Definition tags_of (k : kind) : list text :=
  match k with
  | Dsep => [Render_Model.lit "dsep"; Render_Model.lit "fast"; Render_Model.lit "no_dependencies"]
  | Unoptimized => [Render_Model.lit "unoptimized"; Render_Model.lit "slow"; Render_Model.lit "no_dependencies"]
  | Adtree dyn llt => [Render_Model.lit "adtree"; Render_Model.lit "adtree-" ++ tree_type dyn; Render_Model.lit "adtree-" ++ tree_type dyn ++ Render_Model.lit "-llt" ++ num llt;
                       Render_Model.lit "fast"; Render_Model.lit "has_dependencies"]
  | Dcmi => [Render_Model.lit "dcmi"; Render_Model.lit "fast"; Render_Model.lit "no_dependencies"]
  end.
(** the part of the ID after the target (algrun_parameters.py:90, 116, 157, 193) *)
Definition ID_end (k : kind) : text :=
  match k with
  | Dsep => Render_Model.lit "__dsep"
  | Unoptimized => Render_Model.lit "__unoptimized"
  | Adtree dyn llt => Render_Model.lit "__adtree_" ++ tree_type dyn ++ Render_Model.lit "_@LLT=" ++ num llt
  | Dcmi => Render_Model.lit "__dcMI"
  end.
(** the parameters, without index and ID (algrun_parameters.py:83-93, 108-119, 139-160, 174-197) *)
Definition parameters (s : study) (k : kind) (t : nat) : run :=
  {| r_index := 0; r_target := t; r_kind := k; r_ID := []; r_tags := tags_of k;
     r_results := child (subfolder s "ci_test_results") (citr_name s t k);
     r_tree_load := match k with Adtree dyn llt => Some (get_ADTree_path s dyn llt) | _ => None end;
     r_tree_save := match k with Adtree dyn llt => Some (get_ADTree_path s dyn llt) | _ => None end;
     r_threshold := match k with Adtree dyn llt => Some (absolute_LLT s llt) | _ => None end;
     r_jht := match k with Dcmi => Some (child (subfolder s "jht") (Render_Model.lit "jht_" ++ exds_name s ++ Render_Model.lit ".pickle")) | _ => None end;
     r_dof := match k with Dcmi => Some (child (subfolder s "dof_cache") (Render_Model.lit "dofcache_" ++ exds_name s ++ Render_Model.lit ".pickle")) | _ => None end; r_network := true |}.
(** create_algrun_parameters__dsep, __unoptimized, __dcmi: one run per target (algrun_parameters.py:75-95, 99-121, 166-199) *)
Definition per_target (s : study) (k : kind) : list run := map (parameters s k) (seq 0 (st_targets s)).
(** create_algrun_parameters__adtree: per target, one run per threshold (algrun_parameters.py:125-162) *)
Definition per_tree (s : study) (dyn : bool) : list run :=
  flat_map (fun t => map (fun llt => parameters s (Adtree dyn llt) t) (st_llts s)) (seq 0 (st_targets s)).
(** the index and the ID of a run; its source_bayesian_network becomes None (algrun_parameters.py:46-52) *)
Definition with_index (i : nat) (r : run) : run :=
  {| r_index := i; r_target := r_target r; r_kind := r_kind r;
     r_ID := Render_Model.lit "run_" ++ num i ++ Render_Model.lit "_T" ++ num (r_target r) ++ ID_end (r_kind r);
     r_tags := r_tags r; r_results := r_results r; r_tree_load := r_tree_load r; r_tree_save := r_tree_save r; r_threshold := r_threshold r; r_jht := r_jht r; r_dof := r_dof r; r_network := false |}.
(** enumerate(parameters_list) (algrun_parameters.py:45) *)
Fixpoint number_from (i : nat) (l : list run) : list run := match l with [] => [] | r :: l' => with_index i r :: number_from (S i) l' end.
(** create_algrun_parameters (algrun_parameters.py:29-54) *)
Definition create_algrun_parameters (s : study) : list run :=
  number_from 0 (per_target s Dsep ++ per_target s Unoptimized ++ per_tree s false ++ per_tree s true ++ per_target s Dcmi).
(** the datapoint of a run (expsetup.py:49, ExperimentRun.py:90-94) *)
Definition datapoint_file (s : study) (r : run) : ppath := child (subfolder s "algorithm_run_datapoints") (r_ID r ++ Render_Model.lit ".pickle").
(** get_algruns_by_tag (mbtk/utilities/experiment.py:66-69) *)
Definition by_tag (tag : text) (l : list run) : list run := filter (fun r => existsb (text_eqb tag) (r_tags r)) l.
(** DefaultTags (expsetup.py:27-30) *)
Definition default_tags : list text :=
  map Render_Model.lit ["unoptimized"; "adtree-static-llt0"; "adtree-static-llt5"; "adtree-static-llt10";
    "adtree-dynamic-llt0"; "adtree-dynamic-llt5"; "adtree-dynamic-llt10"; "dcmi"]%string.

(** ** preload_ADTrees (expsetup.py:64-78) *)
Section Preload.
Context {T : Type}.
(** the files; missing ones have no content [expsetup.py:74] *)
Variable files : ppath -> option T.
(** equality of paths, as keys (expsetup.py:72) *)
Definition ppath_eqb (p q : ppath) : bool := andb (Bool.eqb (absolute p) (absolute q)) (if list_eq_dec (list_eq_dec Nat.eq_dec) (parts p) (parts q) then true else false).
(** a run during preloading: its parameters, ci_test_ad_tree_path__load, and ci_test_ad_tree_preloaded (an object and its content) [expsetup.py:68, 77-78] *)
Record prun := PRun { p_run : run; p_load : option ppath; p_preloaded : option (nat * T) }.
(** the dictionary, the next new object, and the files opened so far (expsetup.py:65, 72-76) *)
Record loader := Loader { ld_trees : list (ppath * (nat * T)); ld_next : nat; ld_opened : list ppath }.
(** the object for a path (expsetup.py:70-76) *)
Definition fetch (p : ppath) (l : loader) : res (nat * T) * loader :=
  match assoc ppath_eqb p (ld_trees l) with
  | Some o => (Ok o, l)
  | None => match files p with
            | Some t => (Ok (ld_next l, t), Loader (assoc_set ppath_eqb p (ld_next l, t) (ld_trees l)) (S (ld_next l)) (ld_opened l ++ [p]))
            | None => (Err OSErr, l)
            end
  end.
(** the loop (expsetup.py:66-78); an exception leaves the runs that come later as they are *)
Fixpoint preload_loop (l : loader) (rs : list prun) : list prun * loader * res unit :=
  match rs with
  | [] => ([], l, Ok tt)
  | r :: rs' =>
    if existsb (text_eqb (Render_Model.lit "adtree")) (r_tags (p_run r)) then
      match p_load r with
      | Some p => match fetch p l with
                  | (Ok o, l') => let '(rs'', l'', u) := preload_loop l' rs' in (PRun (p_run r) None (Some o) :: rs'', l'', u)
                  | (Err e, l') => (rs, l', Err e)
                  end
      | None => let '(rs'', l'', u) := preload_loop l rs' in (r :: rs'', l'', u)
      end
    else let '(rs'', l'', u) := preload_loop l rs' in (r :: rs'', l'', u)
  end.
(** preload_ADTrees (expsetup.py:64-78); [n] objects exist already *)
Definition preload_ADTrees (n : nat) (rs : list prun) : list prun * loader * res unit := preload_loop (Loader [] n []) rs.
End Preload.
(** a run before preloading (algrun_parameters.py:153) *)
Definition fresh {T} (r : run) : @prun T := PRun r (r_tree_load r) None.
