(** A small file system, and programs that act on it one system call at a time.
    Used to model the parts of mbtk that save, load, lock and delete folders.
    What it stands for: pathlib / shutil / scipy.io / pickle calls, each broken into the steps between
    which the process may be stopped (or another process may run):
    - a directory is created atomically, one at a time;
    - writing a file is two steps: opening it (which creates or empties it: [Partial]) and completing
      the content;
    - shutil.rmtree removes one entry at a time.
    Operating-system caches are not modelled: the steps reach the disk in program order. *)
From Coq Require Import String.
From Verif Require Import Base Matrix_Model.

(** pathlib paths, as used by LockablePath.py:7-86 and DatasetMatrix.py:460-519 *)
Definition path := list string.
(** file contents: a text, a sparse matrix (Matrix Market file), a pickled datapoint of an algorithm
    run (its ID and Markov boundary), or an incomplete content [DatasetMatrix.py:460-490, ExperimentRun.py:90-94] *)
Inductive content :=
| CText (t : text)
| CMatrix (ncols : nat) (rows : list (list Z))
| CDatapoint (id : string) (mb : list nat)
| Partial.
(** a folder or a file, on which LockablePath.py:7-86 and DatasetMatrix.py:460-519 act *)
Inductive node := Dir | File (c : content).
(** a path at most once [the file system seen by LockablePath.py:7-86] *)
Definition fs := list (path * node).

(** whether two paths are the same (LockablePath.py:7-86 compares none; used by the file system below) *)
Definition path_eqb (p q : path) : bool := if list_eq_dec string_dec p q then true else false.
(** what is at a path; no code of mbtk, the operating system under LockablePath.py:7-86 *)
Definition lookup (s : fs) (p : path) : option node := assoc path_eqb p s.
(** put something at a path; no code of mbtk, the operating system under LockablePath.py:7-86 *)
Definition update (s : fs) (p : path) (n : node) : fs := assoc_set path_eqb p n s.
(** take away what is at a path; no code of mbtk, the operating system under LockablePath.py:7-86 *)
Definition remove (s : fs) (p : path) : fs := filter (fun e => negb (path_eqb p (fst e))) s.
(** the root folder always exists [LockablePath.py:28-33] *)
Definition is_dir (s : fs) (p : path) : bool :=
  match p with [] => true | _ => match lookup s p with Some Dir => true | _ => false end end.
(** path.exists() (LockablePath.py:20-33) *)
Definition exists_ (s : fs) (p : path) : bool :=
  match p with [] => true | _ => match lookup s p with Some _ => true | None => false end end.
(** path.parent; the folder that must exist for open and mkdir (LockablePath.py:71-78) *)
Definition parent (p : path) : path := removelast p.
(** names of the entries of a folder that start with the given prefix (glob('prefix*')) [LockablePath.py:85-86] *)
Definition names_in (s : fs) (p : path) (pre : string) : list string :=
  flat_map (fun e => match rev (fst e) with
                     | name :: q => if path_eqb (rev q) p && prefix pre name then [name] else []
                     | [] => []
                     end) s.
(** [p] is [q] or lies below it [used for shutil.rmtree (LockablePath.py:45-59)] *)
Fixpoint below (p q : path) : bool :=
  match q, p with
  | [], _ => true
  | x :: q', y :: p' => String.eqb x y && below p' q'
  | _, [] => false
  end.

(** ** programs [the system calls made by LockablePath.py:7-86, DatasetMatrix.py:460-519 and ExperimentRun.py:22-105] *)
Inductive prog (A : Type) :=
| Ret (a : A)
| Raise (e : pyerr)
| Exists (p : path) (k : bool -> prog A)
| Glob (p : path) (pre : string) (k : list string -> prog A)
| ReadFile (p : path) (k : option content -> prog A)
| Mkdir (p : path) (k : bool -> prog A)         (* exist_ok; false: not possible *)
| Open (p : path) (k : bool -> prog A)          (* for writing; false: not possible *)
| Put (p : path) (c : content) (k : prog A)     (* complete the content of the opened file *)
| Unlink (p : path) (k : bool -> prog A)        (* false: no such file *)
| ListTree (p : path) (k : list path -> prog A) (* everything at or below p, last created first *)
| RemoveEntry (p : path) (k : prog A).
Arguments Ret {A}. Arguments Raise {A}. Arguments Exists {A}. Arguments Glob {A}. Arguments ReadFile {A}.
Arguments Mkdir {A}. Arguments Open {A}. Arguments Put {A}. Arguments Unlink {A}. Arguments ListTree {A}. Arguments RemoveEntry {A}.

(** one program after the other (the statements of LockablePath.py:7-86) *)
Fixpoint pbind {A B} (m : prog A) (f : A -> prog B) : prog B :=
  match m with
  | Ret a => f a
  | Raise e => Raise e
  | Exists p k => Exists p (fun b => pbind (k b) f)
  | Glob p pre k => Glob p pre (fun l => pbind (k l) f)
  | ReadFile p k => ReadFile p (fun c => pbind (k c) f)
  | Mkdir p k => Mkdir p (fun b => pbind (k b) f)
  | Open p k => Open p (fun b => pbind (k b) f)
  | Put p c k => Put p c (pbind k f)
  | Unlink p k => Unlink p (fun b => pbind (k b) f)
  | ListTree p k => ListTree p (fun l => pbind (k l) f)
  | RemoveEntry p k => RemoveEntry p (pbind k f)
  end.
Notation "x <~ a ;; b" := (pbind a (fun x => b)) (at level 61, a at next level, right associativity).
Notation "a ;;; b" := (pbind a (fun _ => b)) (at level 61, right associativity).
(** a computation without system calls inside such a program (DatasetMatrix.py:493-519) *)
Definition lift {A} (r : res A) : prog A := match r with Ok a => Ret a | Err e => Raise e end.

(** ** effects [mkdir of one folder (LockablePath.py:71-78)] *)
Definition do_mkdir (s : fs) (p : path) : fs * bool :=
  if is_dir s p then (s, true)
  else if exists_ s p then (s, false)
  else if is_dir s (parent p) then (update s p Dir, true) else (s, false).
(** open for writing, which truncates the file (DatasetMatrix.py:460-490, LockablePath.py:36-42) *)
Definition do_open (s : fs) (p : path) : fs * bool :=
  if is_dir s p then (s, false)
  else if is_dir s (parent p) then (update s p (File Partial), true) else (s, false).
(** unlink (LockablePath.py:62-68) *)
Definition do_unlink (s : fs) (p : path) : fs * bool :=
  match lookup s p with Some (File _) => (remove s p, true) | _ => (s, false) end.
(** open for reading and read (DatasetMatrix.py:493-519) *)
Definition do_read (s : fs) (p : path) : option content :=
  match lookup s p with Some (File c) => Some c | _ => None end.
(** the entries removed by shutil.rmtree (LockablePath.py:45-59), last created first *)
Definition tree_of (s : fs) (p : path) : list path := rev (filter (fun q => below q p) (map fst s)).

(** one step; None when the program has ended [one system call of LockablePath.py:7-86 or DatasetMatrix.py:460-519] *)
Definition step {A} (s : fs) (m : prog A) : option (fs * prog A) :=
  match m with
  | Ret _ | Raise _ => None
  | Exists p k => Some (s, k (exists_ s p))
  | Glob p pre k => Some (s, k (names_in s p pre))
  | ReadFile p k => Some (s, k (do_read s p))
  | Mkdir p k => Some (fst (do_mkdir s p), k (snd (do_mkdir s p)))
  | Open p k => Some (fst (do_open s p), k (snd (do_open s p)))
  | Put p c k => Some (update s p (File c), k)
  | Unlink p k => Some (fst (do_unlink s p), k (snd (do_unlink s p)))
  | ListTree p k => Some (s, k (tree_of s p))
  | RemoveEntry p k => Some (remove s p, k)
  end.
(** running alone to the end [any of LockablePath.py:7-86, DatasetMatrix.py:460-519 run to the end] *)
Fixpoint exec {A} (s : fs) (m : prog A) : fs * res A :=
  match m with
  | Ret a => (s, Ok a)
  | Raise e => (s, Err e)
  | Exists p k => exec s (k (exists_ s p))
  | Glob p pre k => exec s (k (names_in s p pre))
  | ReadFile p k => exec s (k (do_read s p))
  | Mkdir p k => exec (fst (do_mkdir s p)) (k (snd (do_mkdir s p)))
  | Open p k => exec (fst (do_open s p)) (k (snd (do_open s p)))
  | Put p c k => exec (update s p (File c)) k
  | Unlink p k => exec (fst (do_unlink s p)) (k (snd (do_unlink s p)))
  | ListTree p k => exec s (k (tree_of s p))
  | RemoveEntry p k => exec (remove s p) k
  end.
(** the states of the file system while the program runs alone: before it starts, and after each of
    its steps.  A crash leaves one of them. [the crash points of LockablePath.py:7-86, DatasetMatrix.py:460-519] *)
Fixpoint states {A} (s : fs) (m : prog A) : list fs :=
  s :: match m with
       | Ret _ | Raise _ => []
       | Exists p k => states s (k (exists_ s p))
       | Glob p pre k => states s (k (names_in s p pre))
       | ReadFile p k => states s (k (do_read s p))
       | Mkdir p k => states (fst (do_mkdir s p)) (k (snd (do_mkdir s p)))
       | Open p k => states (fst (do_open s p)) (k (snd (do_open s p)))
       | Put p c k => states (update s p (File c)) k
       | Unlink p k => states (fst (do_unlink s p)) (k (snd (do_unlink s p)))
       | ListTree p k => states s (k (tree_of s p))
       | RemoveEntry p k => states (remove s p) k
       end.
(** two programs running at the same time: [sched] says whose step is next [two processes using LockablePath.py:7-86, ExperimentRun.py:22-43] *)
Fixpoint interleave {A B} (sched : list bool) (s : fs) (m1 : prog A) (m2 : prog B) : fs * prog A * prog B :=
  match sched with
  | [] => (s, m1, m2)
  | true :: sched' => match step s m1 with Some (s', m1') => interleave sched' s' m1' m2 | None => interleave sched' s m1 m2 end
  | false :: sched' => match step s m2 with Some (s', m2') => interleave sched' s' m1 m2' | None => interleave sched' s m1 m2 end
  end.

(** *** helpers: pathlib's mkdir(parents=True, exist_ok=True), write_text, unlink, shutil.rmtree [LockablePath.py:71-78] *)
Fixpoint mkdir_all (ps : list path) : prog unit :=
  match ps with
  | [] => Ret tt
  | p :: ps' => Mkdir p (fun ok => if ok then mkdir_all ps' else Raise OSErr)
  end.
(** the non-empty prefixes of a path, shortest first [the folders made by mkdir(parents=True) (LockablePath.py:71-78)] *)
Fixpoint prefixes (p : path) : list path :=
  match p with [] => [] | x :: p' => [x] :: map (cons x) (prefixes p') end.
(** path.mkdir(parents=True, exist_ok=True) (LockablePath.py:71-78, functions.py:9-11) *)
Definition mkdirs (p : path) : prog unit := mkdir_all (prefixes p).
(** open for writing and write (LockablePath.py:36-42, DatasetMatrix.py:483-490) *)
Definition write_file (p : path) (c : content) : prog unit :=
  Open p (fun ok => if ok then Put p c (Ret tt) else Raise OSErr).
(** path.unlink() (LockablePath.py:62-68) *)
Definition unlink (p : path) : prog unit := Unlink p (fun ok => if ok then Ret tt else Raise OSErr).
(** shutil.rmtree, one entry after the other (LockablePath.py:45-59) *)
Fixpoint remove_entries (ps : list path) : prog unit :=
  match ps with [] => Ret tt | p :: ps' => RemoveEntry p (remove_entries ps') end.
(** shutil.rmtree (LockablePath.py:45-59) *)
Definition rmtree (p : path) : prog unit := ListTree p remove_entries.
