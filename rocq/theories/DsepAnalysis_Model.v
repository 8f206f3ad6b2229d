(** Model of experiments/experiment_dsep/analysis.py: the summary of an experiment, computed from the files its runs have left behind.

    Simplifications: floats are reals; a file is its unpickled content or missing; int(math.log2(count)) is the integer part of the exact logarithm; the
    percentage is kept as a number (the text has four digits of it); the entries of the single runs, which the flags of the command add to the summary, are
    the values computed here per run. *)
From Coq Require Import Reals String.
From Verif Require Import Base Matrix_Model Sources_Model PMF_Model GTest_Model CIResult_Model.
Open Scope nat_scope.

(** a result as stored, with its attribute duration (CITestResult.py:39-41, 126-128) *)
Definition stored := (ci_result * R)%type.
(** the files of one run: its CI test results (analysis.py:148-152), its datapoint and the datapoint of the run with the true network (analysis.py:156-160) *)
Record run_files := { f_target : nat; f_results : option (list stored); f_mb : option (list nat); f_true_mb : option (list nat) }.

(** collections.Counter, in the order of insertion (analysis.py:120, 27) *)
Definition counter := list (nat * nat).
(** one key of Counter.update (analysis.py:120, 27) *)
Fixpoint counter_add (k n : nat) (c : counter) : counter :=
  match c with [] => [(k, n)] | (k', m) :: c' => if Nat.eqb k k' then (k', m + n) :: c' else (k', m) :: counter_add k n c' end.
(** Counter(iterable) (analysis.py:120) *)
Definition counter_of (l : list nat) : counter := fold_left (fun c k => counter_add k 1 c) l [].
(** Counter.update(counter) (analysis.py:27) *)
Definition counter_update (c d : counter) : counter := fold_left (fun c kn => counter_add (fst kn) (snd kn) c) d c.
(** len(result.Z) (analysis.py:118-120): Z is None, the list [], or the text that set_variables has stored *)
Definition len_shown (s : shown) : res nat := match s with ShownNone => Err TypeError | ShownEmptyList => Ok 0 | Shown t => Ok (length t) end.
(** create_condset_size_counter (analysis.py:117-122) *)
Definition create_condset_size_counter (rs : list stored) : res counter :=
  l <- mapM (fun r => len_shown (cZ (fst r))) rs ;; Ok (counter_of l).
(** calculate_condset_average (analysis.py:126-132) *)
Definition calculate_condset_average (c : counter) : res R :=
  let avg := list_sum (map (fun kn => fst kn * snd kn) c) in
  let total := list_sum (map snd c) in
  if Nat.eqb total 0 then Err ZeroDivisionError else Ok (INR avg / INR total)%R.

(** sorted(keys) (analysis.py:138) *)
Fixpoint insert_size (k : nat) (l : list nat) : list nat := match l with [] => [k] | x :: l' => if k <=? x then k :: l else x :: insert_size k l' end.
(** sorted(keys) (analysis.py:138) *)
Definition sort_sizes (l : list nat) : list nat := fold_right insert_size [] l.
(** cond_counter[size] (analysis.py:139) *)
Definition counter_get (c : counter) (k : nat) : nat := match find (fun kn => Nat.eqb (fst kn) k) c with Some (_, n) => n | None => 0 end.
(** '{n:w}' (analysis.py:140) *)
Definition padded (w n : nat) : text := let d := digits (Nat.to_uint n) in repeat 32 (w - length d) ++ d.
(** one line of the histogram (analysis.py:140-142) *)
Definition histogram_line (size count : nat) : text :=
  [9; 9] ++ padded 2 size ++ [58; 32] ++ padded 6 count ++ [32] ++ repeat 45 (Nat.log2 count) ++ [10].
(** render_condset_size_histogram (analysis.py:136-144) *)
Definition render_condset_size_histogram (c : counter) : text :=
  [10] ++ flat_map (fun size => histogram_line size (counter_get c size)) (sort_sizes (map fst c)).

(** int(result.accurate()) (analysis.py:68): int(None) raises *)
Definition int_accurate (r : stored) : res nat := match accurate (fst r) with None => Err TypeError | Some b => Ok (if b then 1 else 0) end.
(** what create_algrun_citr_analysis computes (analysis.py:68-79) *)
Record citr_values := { v_count : nat; v_accurate : nat; v_duration : R; v_counter : counter }.
(** create_algrun_citr_analysis (analysis.py:63-79) *)
Definition create_algrun_citr_analysis (r : run_files) : res citr_values :=
  rs <- of_option OSErr (f_results r) ;;
  acc <- mapM int_accurate rs ;;
  c <- create_condset_size_counter rs ;;
  Ok {| v_count := length rs; v_accurate := list_sum acc; v_duration := Rsum (map snd rs); v_counter := c |}.

(** set(...) (analysis.py:90, 97) *)
Definition as_set (l : list nat) : list nat := nodup Nat.eq_dec l.
(** x in a set (analysis.py:98, 102) *)
Definition mem (x : nat) (l : list nat) : bool := existsb (Nat.eqb x) l.
(** the scores of a run (analysis.py:98-111) *)
Record scores := { s_errors : nat; s_precision : R; s_recall : R; s_distance : R }.
(** create_algrun_mb_analysis (analysis.py:83-113): [ds] is source_type == 'ds' *)
Definition create_algrun_mb_analysis (ds : bool) (r : run_files) : res (option scores) :=
  mb0 <- of_option OSErr (f_mb r) ;;
  let mb := as_set mb0 in
  if ds then
    tm0 <- of_option OSErr (f_true_mb r) ;;
    let tm := as_set tm0 in
    let errors := length (filter (fun x => negb (mem x tm)) mb ++ filter (fun x => negb (mem x mb)) tm) in
    let true_positives := length (filter (fun x => mem x tm) mb) in
    let precision := (if Nat.eqb (length mb) 0 then 0 else INR true_positives / INR (length mb))%R in
    if Nat.eqb (length tm) 0 then Err ZeroDivisionError
    else let recall := (INR true_positives / INR (length tm))%R in
         Ok (Some {| s_errors := errors; s_precision := precision; s_recall := recall; s_distance := sqrt ((1 - precision)^2 + (1 - recall)^2)%R |})
  else Ok None.

(** the totals in the loop (analysis.py:15-22) *)
Record running := { a_count : nat; a_accurate : nat; a_errors : nat; a_counter : counter; a_distance : R; a_precision : R; a_recall : R; a_duration : R }.
(** analysis.py:15-22 *)
Definition running_start : running :=
  {| a_count := 0; a_accurate := 0; a_errors := 0; a_counter := []; a_distance := 0%R; a_precision := 0%R; a_recall := 0%R; a_duration := 0%R |}.
(** one turn of the loop (analysis.py:23-44): without the scores the KeyError is swallowed at the first of the four additions *)
Definition run_step (ds : bool) (a : running) (r : run_files) : res running :=
  v <- create_algrun_citr_analysis r ;;
  m <- create_algrun_mb_analysis ds r ;;
  let a' := {| a_count := a_count a + v_count v; a_accurate := a_accurate a + v_accurate v; a_errors := a_errors a;
               a_counter := counter_update (a_counter a) (v_counter v); a_distance := a_distance a; a_precision := a_precision a; a_recall := a_recall a;
               a_duration := (a_duration a + v_duration v)%R |} in
  match m with
  | None => Ok a'
  | Some s => Ok {| a_count := a_count a'; a_accurate := a_accurate a'; a_errors := a_errors a' + s_errors s; a_counter := a_counter a';
                    a_distance := (a_distance a' + s_distance s)%R; a_precision := (a_precision a' + s_precision s)%R; a_recall := (a_recall a' + s_recall s)%R;
                    a_duration := a_duration a' |}
  end.
(** the loop (analysis.py:23-44) *)
Fixpoint run_loop (ds : bool) (a : running) (runs : list run_files) : res running :=
  match runs with [] => Ok a | r :: runs' => a' <- run_step ds a r ;; run_loop ds a' runs' end.

(** the entries of the summary (analysis.py:46-58) *)
Record totals := { t_histogram : text; t_count : nat; t_accurate : nat; t_percent : R; t_errors : nat; t_condset : R;
  t_precision : R; t_recall : R; t_distance : R; t_duration : R }.
(** create_citr_analysis (analysis.py:9-59) *)
Definition create_citr_analysis (ds : bool) (runs : list run_files) : res totals :=
  a <- run_loop ds running_start runs ;;
  let h := render_condset_size_histogram (a_counter a) in
  if Nat.eqb (a_count a) 0 then Err ZeroDivisionError else
  avg <- calculate_condset_average (a_counter a) ;;
  if Nat.eqb (length runs) 0 then Err ZeroDivisionError else
  let n := INR (length runs) in
  Ok {| t_histogram := h; t_count := a_count a; t_accurate := a_accurate a; t_percent := (INR (a_accurate a) * 100 / INR (a_count a))%R;
        t_errors := a_errors a; t_condset := avg; t_precision := (a_precision a / n)%R; t_recall := (a_recall a / n)%R;
        t_distance := (a_distance a / n)%R; t_duration := a_duration a |}.
