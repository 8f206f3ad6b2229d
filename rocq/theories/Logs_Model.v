(** Model of the streams in ExperimentRun (mbtk/experiment/ExperimentRun.py:22-43, 57-123) and of
    MultiFileWriter (mbtk/utilities/MultiFileWriter.py): what is printed where, and which file
    objects are closed.

    Simplifications: an algorithm run is described by what it prints and by how it ends; the files
    themselves (folders, locks, datapoints) are modelled in Experiment_Model.v, here saving a
    datapoint is an outcome; the content of a file object includes what it has buffered; opening the
    log file succeeds; a run does not itself redirect or close streams. *)
From Verif Require Import Base Matrix_Model.
Open Scope nat_scope.

(** file objects: 0 is sys.__stdout__ *)
Definition handle := nat.
(** ExperimentRun.py:80 *)
Definition terminal : handle := 0.
(** MultiFileWriter.py:4-24, ExperimentRun.py:97-105 *)
Record streams := { written : handle -> text; is_open : handle -> bool }.
(** an assignment; what the statements of MultiFileWriter.py:10-24 do to the streams *)
Definition upd {A} (f : handle -> A) (h : handle) (a : A) : handle -> A := fun h' => if h' =? h then a else f h'.
(** f.write(s), f.flush(): ValueError if the file object is closed; f.close() [MultiFileWriter.py:10-12] *)
Definition write_one (h : handle) (s : text) (st : streams) : streams * res unit :=
  if is_open st h then ({| written := upd (written st) h (written st h ++ s); is_open := is_open st |}, Ok tt) else (st, Err ValueError).
(** f.flush() (MultiFileWriter.py:15-17) *)
Definition flush_one (h : handle) (st : streams) : streams * res unit := (st, if is_open st h then Ok tt else Err ValueError).
(** f.close() (MultiFileWriter.py:20-24) *)
Definition close_one (h : handle) (st : streams) : streams := {| written := written st; is_open := upd (is_open st) h false |}.

(** MultiFileWriter.write (10-12), flush (15-17), close (20-24), with self.files = [hs] *)
Fixpoint write (hs : list handle) (s : text) (st : streams) : streams * res unit :=
  match hs with
  | [] => (st, Ok tt)
  | h :: hs' => match write_one h s st with (st1, Ok _) => write hs' s st1 | (st1, Err e) => (st1, Err e) end
  end.
(** MultiFileWriter.flush (MultiFileWriter.py:15-17) *)
Fixpoint flush (hs : list handle) (st : streams) : streams * res unit :=
  match hs with
  | [] => (st, Ok tt)
  | h :: hs' => match flush_one h st with (st1, Ok _) => flush hs' st1 | (st1, Err e) => (st1, Err e) end
  end.
(** MultiFileWriter.close (MultiFileWriter.py:20-24) *)
Definition close (hs : list handle) (st : streams) : streams * res unit :=
  match flush hs st with
  | (st1, Err e) => (st1, Err e)
  | (st1, Ok _) => (fold_left (fun st h => if h =? terminal then st else close_one h st) hs st1, Ok tt)
  end.
(** print(s) while sys.stdout writes to [hs] [ExperimentRun.py:75-78] *)
Definition print (hs : list handle) (s : text) (st : streams) : streams * res unit :=
  match write hs s st with (st1, Ok _) => write hs [10] st1 | (st1, Err e) => (st1, Err e) end.
(** several prints (ExperimentRun.py:75-78) *)
Fixpoint prints (hs : list handle) (ss : list text) (st : streams) : streams * res unit :=
  match ss with
  | [] => (st, Ok tt)
  | s :: ss' => match print hs s st with (st1, Ok _) => prints hs ss' st1 | (st1, Err e) => (st1, Err e) end
  end.

(** one entry of algorithm_run_parameters: its ID, its 'skip', how constructing the AlgorithmRun ends,
    what run() prints and how it ends, how saving its datapoint ends, and its str() [ExperimentRun.py:35-41, 71-87] *)
Record logged_run := { lr_ID : nat; lr_skip : bool; lr_init : res unit; lr_prints : list text; lr_outcome : res unit; lr_save : res unit; lr_str : text }.
(** algorithm_run_log__stdout, algorithm_run_log__file, quiet [ExperimentRun.py:86, 97-105] *)
Record log_options := { log_stdout : bool; log_file : bool; quiet : bool }.
(** the file object of the log of the run with a given ID (its file is '{ID}.log') [ExperimentRun.py:102] *)
Definition log_handle (id : nat) : handle := 2 + id.
(** output_file.open(mode='wt') [ExperimentRun.py:103] *)
Definition open_log (id : nat) (st : streams) : streams :=
  {| written := upd (written st) (log_handle id) []; is_open := upd (is_open st) (log_handle id) true |}.
(** get_algorithm_run_stdout_destination (97-105) *)
Definition destinations (o : log_options) (stdout : handle) (id : nat) : list handle :=
  (if log_stdout o then [stdout] else []) ++ (if log_file o then [log_handle id] else []).
(** run_algorithm (71-87); the destination is a MultiFileWriter, never sys.__stdout__ itself, so it is
    always closed *)
Definition run_algorithm (o : log_options) (stdout : handle) (r : logged_run) (st : streams) : streams * res unit :=
  match lr_init r with
  | Err e => (st, Err e)
  | Ok _ =>
    let st1 := if log_file o then open_log (lr_ID r) st else st in
    let dest := destinations o stdout (lr_ID r) in
    let '(st2, r2) := prints dest (lr_prints r) st1 in
    let r3 := match r2 with Ok _ => lr_outcome r | Err e => Err e end in
    let '(st4, r4) := close dest st2 in
    match (match r4 with Ok _ => r3 | Err e => Err e end) with
    | Err e => (st4, Err e)
    | Ok _ => match lr_save r with
              | Err e => (st4, Err e)
              | Ok _ => if quiet o then (st4, Ok tt) else print [stdout] (lr_str r) st4
              end
    end
  end.
(** the loop of run (35-41) *)
Fixpoint run_all (o : log_options) (stdout : handle) (skipped : nat -> text) (l : list logged_run) (st : streams) : streams * res unit :=
  match l with
  | [] => (st, Ok tt)
  | r :: l' =>
    let '(st1, r1) := if lr_skip r then (if quiet o then (st, Ok tt) else print [stdout] (skipped (lr_ID r)) st)
                      else run_algorithm o stdout r st in
    match r1 with Ok _ => run_all o stdout skipped l' st1 | Err e => (st1, Err e) end
  end.
(** run (22-43) from begin_run (57-59) to end_run (62-65): [begins] and [ends] are the texts of lines
    110 and 115, [skipped] that of line 38 *)
Definition run_logged (o : log_options) (stdout : handle) (begins ends : text) (skipped : nat -> text) (l : list logged_run) (st : streams) : streams * res unit :=
  let '(st1, r1) := if quiet o then (st, Ok tt) else print [stdout] begins st in
  match r1 with
  | Err e => (st1, Err e)
  | Ok _ => let '(st2, r2) := run_all o stdout skipped l st1 in
            match r2 with
            | Err e => (st2, Err e)
            | Ok _ => if quiet o then (st2, Ok tt) else print [stdout] ends st2
            end
  end.
