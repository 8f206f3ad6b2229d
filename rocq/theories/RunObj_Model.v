(** Model of AlgorithmRun and AlgorithmAndClassifierRun objects (mbtk/experiment/AlgorithmRun.py:6-87), of
    the datapoints made from them (mbtk/experiment/AlgorithmRunDatapoint.py:6-24, 44-49) and of writing
    a datapoint to its file (mbtk/experiment/ExperimentRun.py:90-94): which objects are shared.

    Simplifications:
    - an algorithm class is given by its name and by what constructing it and discover_mb() do: they
      may write to the dictionary of parameters (G_test__unoptimized.py:22 does) and then return a
      list or raise; evaluating a classifier (C46) is given by its outcome;
    - the two values of time.time() in a run are arguments, integers;
    - parameter values are texts, callables (pickled by name, which works only for those that can be
      imported), and other objects; str() and picklability of other objects are arbitrary functions;
    - reading a file gives new objects with the same contents; the texts printed are left out. *)
From Coq Require Import String.
From Verif Require Import Base Matrix_Model Select_Model.
Open Scope nat_scope.

(** a value of the dictionary of parameters [AlgorithmRun.py:8-11, AlgorithmRunDatapoint.py:18-24] *)
Inductive value := Text (t : string) | Callable (name : string) (importable : bool) | Other (o : nat).
(** a dictionary of parameters [AlgorithmRun.py:10] *)
Definition params := list (string * value).
(** an experimental dataset: `matrix`, and `matrix_train`, `matrix_test` if it has them [AlgorithmRun.py:35, 75-76] *)
Record exds := { ex_matrix : dmatrix; ex_parts : option (dmatrix * dmatrix) }.
(** what `algorithm(matrix, parameters).discover_mb()` does (33-38) *)
Definition behaviour := option dmatrix -> params -> params * res (list nat).
(** what evaluate_classifier does once it has the two parts (77-87) *)
Definition evaluator := dmatrix -> dmatrix -> list nat -> params -> res evaluation.
(** `configuration`: 'algorithm' and 'classifier' with their names (AlgorithmRun.py:12-13, 51-52) *)
Record configuration := { cf_algorithm : option (string * behaviour); cf_classifier : option (string * evaluator) }.

(** An AlgorithmRun (8-22), or AlgorithmAndClassifierRun (48-62).  [ru_params], [ru_mb]: which
    dictionary, which list. *)
Record run := { ru_exds : option exds; ru_params : nat; ru_ID : value; ru_algorithm : string * behaviour; ru_mb : nat;
  ru_start : Z; ru_end : Z; ru_duration : Z; ru_classifier : option (string * evaluator); ru_evaluation : option evaluation }.
(** an AlgorithmRunDatapoint (8-15), or AlgorithmAndClassifierRunDatapoint (46-49) *)
Record datapoint := { dp_params : nat; dp_ID : value; dp_name : string; dp_mb : nat; dp_start : Z; dp_end : Z; dp_duration : Z;
  dp_classifier : option (string * option evaluation) }.
(** the contents of a pickled datapoint [ExperimentRun.py:93-94] *)
Record pickled := { pk_params : params; pk_ID : value; pk_name : string; pk_mb : list nat; pk_start : Z; pk_end : Z; pk_duration : Z;
  pk_classifier : option (string * option evaluation) }.
(** a file: opening it for writing empties it [ExperimentRun.py:93-94] *)
Inductive file := Torn | Pickled (c : pickled).
(** the objects of a program, and the files [AlgorithmRun.py:6-87, AlgorithmRunDatapoint.py:6-49, ExperimentRun.py:90-94] *)
Record world := { dicts : list params; lists : list (list nat); runs : list run; points : list datapoint; files : list (string * file) }.

Section Runs.
  (** str() of an object, and whether pickle can write it [AlgorithmRunDatapoint.py:22, ExperimentRun.py:94] *)
  Variable show : nat -> string.
  Variable picklable : nat -> bool.

  (** `str(v)` unless callable(v) (21-22) *)
  Definition rendered (v : value) : value :=
    match v with Callable n i => Callable n i | Text t => Text t | Other o => Text (show o) end.
  (** pickleable_parameters (18-24) *)
  Definition pickleable_parameters (d : params) : params := map (fun kv => (fst kv, rendered (snd kv))) d.
  (** whether pickle.dump can write a value (ExperimentRun.py:94) *)
  Definition pickles (v : value) : bool := match v with Text _ => true | Callable _ i => i | Other o => picklable o end.

  (** replacing the i-th object [AlgorithmRun.py:25-38] *)
  Definition put {A} (i : nat) (x : A) (l : list A) : list A := firstn i l ++ match skipn i l with [] => [] | _ :: r => x :: r end.
  (** changed worlds [AlgorithmRun.py:6-87] *)
  Definition set_dict (d : nat) (p : params) (w : world) : world :=
    {| dicts := put d p (dicts w); lists := lists w; runs := runs w; points := points w; files := files w |}.
  (** in-place change of a list [AlgorithmRun.py:38] *)
  Definition set_list (l : nat) (xs : list nat) (w : world) : world :=
    {| dicts := dicts w; lists := put l xs (lists w); runs := runs w; points := points w; files := files w |}.
  (** a new list object [AlgorithmRun.py:21, 38] *)
  Definition new_list (xs : list nat) (w : world) : world :=
    {| dicts := dicts w; lists := lists w ++ [xs]; runs := runs w; points := points w; files := files w |}.
  (** a new dictionary object [AlgorithmRunDatapoint.py:19] *)
  Definition new_dict (p : params) (w : world) : world :=
    {| dicts := dicts w ++ [p]; lists := lists w; runs := runs w; points := points w; files := files w |}.
  (** attributes of a run object [AlgorithmRun.py:8-38] *)
  Definition set_run (i : nat) (r : run) (w : world) : world :=
    {| dicts := dicts w; lists := lists w; runs := put i r (runs w); points := points w; files := files w |}.
  (** a new run object [AlgorithmRun.py:8-22] *)
  Definition add_run (r : run) (w : world) : world :=
    {| dicts := dicts w; lists := lists w; runs := runs w ++ [r]; points := points w; files := files w |}.
  (** a new datapoint object [AlgorithmRunDatapoint.py:8-15] *)
  Definition add_point (p : datapoint) (w : world) : world :=
    {| dicts := dicts w; lists := lists w; runs := runs w; points := points w ++ [p]; files := files w |}.
  (** the file f [ExperimentRun.py:91-94] *)
  Definition set_file (f : string) (c : file) (w : world) : world :=
    {| dicts := dicts w; lists := lists w; runs := runs w; points := points w; files := assoc_set String.eqb f c (files w) |}.

  (** What a program can do with these objects [AlgorithmRun.py:6-87, AlgorithmRunDatapoint.py:6-49, ExperimentRun.py:90-94] *)
  Inductive op :=
  | NewDict (p : params)                                              (* {...} *)
  | NewRun (x : option exds) (c : configuration) (d : nat)            (* AlgorithmRun(x, c, d) *)
  | NewClassifierRun (x : option exds) (c : configuration) (d : nat)  (* AlgorithmAndClassifierRun(x, c, d) *)
  | Run (i : nat) (t0 t1 : Z)                                         (* runs[i].run() *)
  | MakePoint (i : nat)                                               (* AlgorithmRunDatapoint(runs[i]) *)
  | MakeClassifierPoint (i : nat)                                     (* AlgorithmAndClassifierRunDatapoint(runs[i]) *)
  | SetParam (d : nat) (k : string) (v : value)                       (* dicts[d][k] = v *)
  | SetList (l : nat) (xs : list nat)                                 (* lists[l][:] = xs *)
  | Save (p : nat) (f : string)                                       (* pickle.dump(points[p], open(f, 'wb')) *)
  | Load (f : string).                                                (* pickle.load(open(f, 'rb')) *)

  (** AlgorithmRun.__init__ (8-22) *)
  Definition make_run (x : option exds) (c : configuration) (d : nat) (cl : option (string * evaluator)) (w : world) : res world :=
    p <- of_option IndexError (nth_error (dicts w) d) ;;
    id <- of_option KeyError (assoc String.eqb "ID"%string p) ;;
    a <- of_option KeyError (cf_algorithm c) ;;
    Ok (add_run {| ru_exds := x; ru_params := d; ru_ID := id; ru_algorithm := a; ru_mb := length (lists w);
                   ru_start := 0; ru_end := 0; ru_duration := 0; ru_classifier := cl; ru_evaluation := None |} (new_list [] w)).
  (** AlgorithmRun.run (25-38): start_time, then the algorithm; on an exception the rest does not happen *)
  Definition run_plain (i : nat) (r : run) (p : params) (t0 t1 : Z) (w : world) : world * res run :=
    let started := {| ru_exds := ru_exds r; ru_params := ru_params r; ru_ID := ru_ID r; ru_algorithm := ru_algorithm r; ru_mb := ru_mb r;
                      ru_start := t0; ru_end := ru_end r; ru_duration := ru_duration r; ru_classifier := ru_classifier r; ru_evaluation := ru_evaluation r |} in
    let '(p', o) := snd (ru_algorithm r) (option_map ex_matrix (ru_exds r)) p in
    let w1 := set_dict (ru_params r) p' (set_run i started w) in
    match o with
    | Err e => (w1, Err e)
    | Ok mb =>
      let finished := {| ru_exds := ru_exds r; ru_params := ru_params r; ru_ID := ru_ID r; ru_algorithm := ru_algorithm r; ru_mb := length (lists w);
                         ru_start := t0; ru_end := t1; ru_duration := (t1 - t0)%Z; ru_classifier := ru_classifier r; ru_evaluation := ru_evaluation r |} in
      (set_run i finished (new_list mb w1), Ok finished)
    end.
  (** AlgorithmAndClassifierRun.run (65-76): the evaluation needs the two parts of the dataset *)
  Definition run_object (i : nat) (t0 t1 : Z) (w : world) : world * res unit :=
    match nth_error (runs w) i with
    | None => (w, Err IndexError)
    | Some r =>
      match nth_error (dicts w) (ru_params r) with
      | None => (w, Err IndexError)
      | Some p =>
        match run_plain i r p t0 t1 w with
        | (w1, Err e) => (w1, Err e)
        | (w1, Ok r1) =>
          match ru_classifier r1 with
          | None => (w1, Ok tt)
          | Some (name, ev) =>
            match (x <- of_option AttributeError (ru_exds r1) ;; parts <- of_option AttributeError (ex_parts x) ;;
                   q <- of_option IndexError (nth_error (dicts w1) (ru_params r1)) ;;
                   ev (fst parts) (snd parts) (nth (ru_mb r1) (lists w1) []) q) with
            | Err e => (w1, Err e)
            | Ok v => (set_run i {| ru_exds := ru_exds r1; ru_params := ru_params r1; ru_ID := ru_ID r1; ru_algorithm := ru_algorithm r1; ru_mb := ru_mb r1;
                                    ru_start := ru_start r1; ru_end := ru_end r1; ru_duration := ru_duration r1; ru_classifier := ru_classifier r1;
                                    ru_evaluation := Some v |} w1, Ok tt)
            end
          end
        end
      end
    end.
  (** AlgorithmRunDatapoint.__init__ (8-15); [cl]: the two more attributes of the classifier datapoint (46-49) *)
  Definition make_point (r : run) (p : params) (cl : option (string * option evaluation)) (w : world) : world :=
    add_point {| dp_params := length (dicts w); dp_ID := ru_ID r; dp_name := fst (ru_algorithm r); dp_mb := ru_mb r;
                 dp_start := ru_start r; dp_end := ru_end r; dp_duration := ru_duration r; dp_classifier := cl |}
              (new_dict (pickleable_parameters p) w).
  (** what pickle.dump writes for a datapoint [ExperimentRun.py:93-94] *)
  Definition contents (w : world) (p : datapoint) : pickled :=
    {| pk_params := nth (dp_params p) (dicts w) []; pk_ID := dp_ID p; pk_name := dp_name p; pk_mb := nth (dp_mb p) (lists w) [];
       pk_start := dp_start p; pk_end := dp_end p; pk_duration := dp_duration p; pk_classifier := dp_classifier p |}.
  (** ... if it can write all of it (ExperimentRun.py:93-94) *)
  Definition can_pickle (c : pickled) : bool := (pickles (pk_ID c) && forallb (fun kv => pickles (snd kv)) (pk_params c))%bool.

  (** one action [AlgorithmRun.py:6-87, AlgorithmRunDatapoint.py:6-49, ExperimentRun.py:90-94] *)
  Definition step (w : world) (a : op) : world * res unit :=
    match a with
    | NewDict p => (new_dict p w, Ok tt)
    | NewRun x c d => match make_run x c d None w with Ok w' => (w', Ok tt) | Err e => (w, Err e) end
    | NewClassifierRun x c d =>
      match (w' <- make_run x c d (cf_classifier c) w ;; _ <- of_option KeyError (cf_classifier c) ;; Ok w') with
      | Ok w' => (w', Ok tt) | Err e => (w, Err e) end
    | Run i t0 t1 => run_object i t0 t1 w
    | MakePoint i =>
      match (r <- of_option IndexError (nth_error (runs w) i) ;; p <- of_option IndexError (nth_error (dicts w) (ru_params r)) ;; Ok (r, p)) with
      | Err e => (w, Err e)
      | Ok (r, p) => (make_point r p None w, Ok tt)
      end
    | MakeClassifierPoint i =>
      match (r <- of_option IndexError (nth_error (runs w) i) ;; p <- of_option IndexError (nth_error (dicts w) (ru_params r)) ;;
             c <- of_option AttributeError (ru_classifier r) ;; Ok (r, p, c)) with
      | Err e => (w, Err e)
      | Ok (r, p, c) => (make_point r p (Some (fst c, ru_evaluation r)) w, Ok tt)
      end
    | SetParam d k v =>
      match nth_error (dicts w) d with
      | None => (w, Err IndexError)
      | Some p => (set_dict d (assoc_set String.eqb k v p) w, Ok tt)
      end
    | SetList l xs => match nth_error (lists w) l with None => (w, Err IndexError) | Some _ => (set_list l xs w, Ok tt) end
    | Save i f =>
      match nth_error (points w) i with
      | None => (w, Err IndexError)
      | Some p => if can_pickle (contents w p) then (set_file f (Pickled (contents w p)) w, Ok tt) else (set_file f Torn w, Err PickleErr)
      end
    | Load f =>
      match assoc String.eqb f (files w) with
      | None => (w, Err OSErr)
      | Some Torn => (w, Err PickleErr)
      | Some (Pickled c) =>
        (add_point {| dp_params := length (dicts w); dp_ID := pk_ID c; dp_name := pk_name c; dp_mb := length (lists w);
                      dp_start := pk_start c; dp_end := pk_end c; dp_duration := pk_duration c; dp_classifier := pk_classifier c |}
                   (new_list (pk_mb c) (new_dict (pk_params c) w)), Ok tt)
      end
    end.
  (** a program, whatever it does with exceptions [AlgorithmRun.py:6-87] *)
  Definition history (w : world) (ops : list op) : world := fold_left (fun w a => fst (step w a)) ops w.
End Runs.
