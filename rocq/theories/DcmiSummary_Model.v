(** Model of what experiments/experiment_dcmi/commands.py and plotting.py compute from the stored results of the dcMI experiment: the summary command with its stored summaries, and the plot.

    Simplifications: durations are rational numbers with exact arithmetic; files are their contents or missing; a CI result or datapoint is its duration; a joint-entropy table is its two
    counters and the sizes of its other keys, a cache of degrees of freedom is the sizes of its keys; sizes in memory (asizeof, naturalsize) are left out; the tags are given as a list;
    of the plot its lines and the names in the legend are kept: matplotlib refuses lines whose axes differ in length, and gives the names of the legend to the lines in order. *)
From Coq Require Import String Ascii QArith.
From Verif Require Import Base Matrix_Model Sources_Model Render_Model BifText_Model Paths_Model DcmiRuns_Model.
Open Scope nat_scope.
Open Scope list_scope.

(** what command_adtree_build_analysis stores (commands.py:164-170) *)
Record tree_analysis := TA { ta_llt : nat; ta_nodes : nat; ta_duration : Q; ta_size : nat }.
(** a joint-entropy table with its entries 'reads' and 'misses' (G_test__with_dcMI.py:126-132) *)
Record jht_content := Jht { jht_reads : Z; jht_misses : Z; jht_key_sizes : list nat }.
(** the files that the commands read (commands.py:329-457) *)
Record stored := Stored { f_results : ppath -> option (list Q); f_datapoint : ppath -> option Q; f_analysis : ppath -> option tree_analysis;
  f_jht : ppath -> option jht_content; f_dof : ppath -> option (list nat) }.

(** sum(l) (commands.py:282-283) *)
Definition sumQ (l : list Q) : Q := fold_left Qplus l 0%Q.
(** max(l) of durations (commands.py:291) *)
Fixpoint maxQ (l : list Q) : res Q := match l with [] => Err ValueError | [x] => Ok x | x :: l' => m <- maxQ l' ;; Ok (if Qle_bool m x then x else m) end.
(** sorted(l) as done by median [commands.py:292] *)
Fixpoint insertQ (x : Q) (l : list Q) : list Q := match l with [] => [x] | y :: l' => if Qle_bool x y then x :: l else y :: insertQ x l' end.
(** statistics.median [commands.py:292] *)
Definition medianQ (l : list Q) : res Q :=
  let s := fold_right insertQ [] l in
  let n := length s in
  match n with
  | O => Err ValueError
  | _ => if Nat.odd n then Ok (nth (n / 2) s 0%Q) else Ok ((nth (n / 2 - 1) s 0%Q + nth (n / 2) s 0%Q) / 2)%Q
  end.
(** max(map(len, keys)) (commands.py:311, 323) *)
Definition maxN (l : list nat) : res nat := match l with [] => Err ValueError | x :: l' => Ok (fold_left Nat.max l' x) end.

(** load_citr_for_algrun_list, read to its end (commands.py:356-360): the first missing file raises *)
Fixpoint load_citr (f : stored) (rs : list run) : res (list Q) :=
  match rs with
  | [] => Ok []
  | r :: rs' => match f_results f (r_results r) with
                | Some l => l' <- load_citr f rs' ;; Ok (l ++ l')
                | None => Err OSErr
                end
  end.
(** load_datapoints (commands.py:329-342): missing ones are left out *)
Definition load_datapoints (s : study) (f : stored) (rs : list run) : list Q :=
  flat_map (fun r => match f_datapoint f (datapoint_file s r) with Some d => [d] | None => [] end) rs.
(** the name of the analysis of an AD-tree: the name of the tree's file (commands.py:369) *)
Definition analysis_path (s : study) (tree : ppath) : ppath := child (subfolder s "adtree_analysis") (last (parts tree) []).
(** 'adtree-{}-llt{}' (commands.py:378) *)
Definition analysis_key (dyn : bool) (llt : nat) : text := Render_Model.lit "adtree-" ++ tree_type dyn ++ Render_Model.lit "-llt" ++ num llt.
(** load_adtrees_analysis (commands.py:364-383): runs without a tree to load, and missing files, are passed over *)
Fixpoint load_adtrees_analysis (s : study) (f : stored) (rs : list run) (d : list (text * tree_analysis)) : list (text * tree_analysis) :=
  match rs with
  | [] => d
  | r :: rs' => load_adtrees_analysis s f rs'
                  (match r_tree_load r with
                   | Some tree => match f_analysis f (analysis_path s tree), r_kind r with
                                  | Some a, Adtree dyn llt => assoc_set text_eqb (analysis_key dyn llt) a d
                                  | _, _ => d
                                  end
                   | None => d
                   end)
  end.
(** load_jht (commands.py:387-401): the table of the first run that has one; None if there is none *)
Fixpoint load_jht (f : stored) (rs : list run) : res (option jht_content) :=
  match rs with
  | [] => Ok None
  | r :: rs' => match r_jht r with
                | Some p => match f_jht f p with Some j => Ok (Some j) | None => Err OSErr end
                | None => load_jht f rs'
                end
  end.
(** load_dof_cache (commands.py:405-420) *)
Fixpoint load_dof_cache (f : stored) (rs : list run) : res (option (list nat)) :=
  match rs with
  | [] => Ok None
  | r :: rs' => match r_dof r with
                | Some p => match f_dof f p with Some c => Ok (Some c) | None => Err OSErr end
                | None => load_dof_cache f rs'
                end
  end.

(** tag.startswith('adtree') (commands.py:262, 294) *)
Definition starts_with_adtree (tag : text) : bool := text_eqb (firstn 6 tag) (Render_Model.lit "adtree").
(** the part of a summary about the joint-entropy table and the cache (commands.py:300-326) *)
Record dcmi_part := DcmiPart { s_entries : nat; s_reads : Z; s_hits : Z; s_misses : Z; s_hit_rate : Q; s_max_key : nat; s_dof_entries : nat; s_dof_max_key : nat }.
(** the numbers of a summary (commands.py:285-292) *)
Record numbers := Numbers { s_datapoints : nat; s_citr : nat; s_duration : Q; s_ci_duration : Q; s_average : Q; s_per_second : Q; s_max : Q; s_median : Q;
  s_tree : option tree_analysis; s_dcmi : option dcmi_part }.
(** a summary; without numbers it is 'No CI tests found' (commands.py:258-277) *)
Record summary := Summary { s_runs : nat; s_numbers : option numbers }.
(** create_summary for the tag 'dcmi' (commands.py:300-326) *)
Definition create_dcmi_part (f : stored) (all : list run) : res dcmi_part :=
  j <- load_jht f all ;;
  match j with
  | None => Err TypeError
  | Some j =>
    let hits := (jht_reads j - jht_misses j)%Z in
    if (jht_reads j =? 0)%Z then Err ZeroDivisionError else
    max_key <- maxN (jht_key_sizes j) ;;
    c <- load_dof_cache f all ;;
    match c with
    | None => Err TypeError
    | Some c => dof_max <- maxN c ;;
                Ok (DcmiPart (length (jht_key_sizes j)) (jht_reads j) hits (jht_misses j) (inject_Z hits / inject_Z (jht_reads j))%Q max_key (length c) dof_max)
    end
  end.
(** create_summary (commands.py:258-325); [all]: the runs of the setup, [trees]: what load_adtrees_analysis has found *)
Definition create_summary (s : study) (f : stored) (all : list run) (trees : list (text * tree_analysis)) (tag : text) : res summary :=
  _ <- (if starts_with_adtree tag then match assoc text_eqb tag trees with Some a => Ok (Some a) | None => Err KeyError end else Ok None) ;;
  let algruns := by_tag tag all in
  match (match load_citr f algruns with Ok l => l | Err _ => [] end) with
  | [] => Ok (Summary (length algruns) None)
  | citr =>
    let datapoints := load_datapoints s f algruns in
    let total_ci_duration := sumQ citr in
    if Qeq_bool total_ci_duration 0 then Err ZeroDivisionError else
    biggest <- maxQ citr ;;
    middle <- medianQ citr ;;
    tree <- (if starts_with_adtree tag then match assoc text_eqb tag trees with Some a => Ok (Some a) | None => Err KeyError end else Ok None) ;;
    dcmi <- (if text_eqb tag (Render_Model.lit "dcmi") then p <- create_dcmi_part f all ;; Ok (Some p) else Ok None) ;;
    Ok (Summary (length algruns) (Some {| s_datapoints := length datapoints; s_citr := length citr; s_duration := sumQ datapoints; s_ci_duration := total_ci_duration;
      s_average := (total_ci_duration / inject_Z (Z.of_nat (length citr)))%Q; s_per_second := (inject_Z (Z.of_nat (length citr)) / total_ci_duration)%Q;
      s_max := biggest; s_median := middle; s_tree := tree; s_dcmi := dcmi |}))
  end.
(** one line of output: the tag, whether the summary comes from its file, the summary (commands.py:238-254) *)
Record shown := Shown { sh_tag : text; sh_cached : bool; sh_summary : summary }.
(** the loop of command_summary_show (commands.py:222-254): the stored summaries afterwards, what is shown, and how it ends *)
Fixpoint show_tags (s : study) (f : stored) (all : list run) (trees : list (text * tree_analysis)) (refresh : bool) (cache : list (text * summary)) (tags : list text)
  : list (text * summary) * list shown * res unit :=
  match tags with
  | [] => (cache, [], Ok tt)
  | tag :: tags' =>
    match (if refresh then None else assoc text_eqb tag cache) with
    | Some summ => let '(c, out, u) := show_tags s f all trees refresh cache tags' in (c, Shown tag true summ :: out, u)
    | None => match create_summary s f all trees tag with
              | Err e => (cache, [], Err e)
              | Ok summ => let '(c, out, u) := show_tags s f all trees refresh (assoc_set text_eqb tag summ cache) tags' in (c, Shown tag false summ :: out, u)
              end
    end
  end.
(** command_summary_show (commands.py:212-254); [only]: the --algrun-tag of the command line (main.py:76-77); no tags are the default tags *)
Definition command_summary_show (s : study) (f : stored) (only : option text) (refresh : bool) (tags : option (list text)) (cache : list (text * summary))
  : list (text * summary) * list shown * res unit :=
  let all := match only with Some t => by_tag t (create_algrun_parameters s) | None => create_algrun_parameters s end in
  show_tags s f all (load_adtrees_analysis s f all []) refresh cache (match tags with Some l => l | None => default_tags end).

(** ** the plot *)
(** itertools.accumulate (plotting.py:14) *)
Fixpoint accumulate_from (acc : Q) (l : list Q) : list Q := match l with [] => [] | x :: l' => (acc + x)%Q :: accumulate_from (acc + x)%Q l' end.
(** itertools.accumulate (plotting.py:14): the first element is taken as it is *)
Definition accumulate (l : list Q) : list Q := match l with [] => [] | x :: l' => x :: accumulate_from x l' end.
(** make_plot_data (plotting.py:5-16); [cumulative]: the metric is duration-cummulative *)
Definition make_plot_data (cumulative : bool) (citr : list (text * res (list Q))) : list (text * res (list Q)) :=
  map (fun tl => (fst tl, l <- snd tl ;; Ok (if cumulative then accumulate l else l))) citr.
(** load_citr (commands.py:346-352): a dictionary; the results of a tag are read only when the plot needs them *)
Definition load_citr_of_tags (f : stored) (all : list run) (tags : list text) : list (text * res (list Q)) :=
  fold_left (fun d tag => assoc_set text_eqb tag (load_citr f (by_tag tag all)) d) tags [].
(** the loop of plot (plotting.py:46-51) *)
Fixpoint plot_loop (data : list (text * res (list Q))) (xaxis : option nat) (tags : list text) : res (list (list Q)) :=
  match tags with
  | [] => Ok []
  | tag :: tags' =>
    match assoc text_eqb tag data with
    | None => Err KeyError
    | Some y =>
      values <- y ;;
      let x := match xaxis with None => length values | Some n => n end in
      match values with
      | [] => plot_loop data (Some x) tags'
      | _ => if Nat.eqb x (length values) then ls <- plot_loop data (Some x) tags' ;; Ok (values :: ls) else Err ValueError
      end
    end
  end.
(** plot (plotting.py:30-65) without AD-tree data in the legend: the lines with the names the legend gives them *)
Definition plot (data : list (text * res (list Q))) : res (list (text * list Q)) :=
  let keys := sort_text (map fst data) in
  ls <- plot_loop data None keys ;; Ok (combine keys ls).
(** command_plot_create (commands.py:189-207) *)
Definition command_plot_create (s : study) (f : stored) (only : option text) (cumulative : bool) (tags : list text) : res (list (text * list Q)) :=
  let all := match only with Some t => by_tag t (create_algrun_parameters s) | None => create_algrun_parameters s end in
  plot (make_plot_data cumulative (load_citr_of_tags f all tags)).
