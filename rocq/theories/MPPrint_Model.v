(** Model of mpprint (mbtk/utilities/mpprint.py:1-17): several processes print through one lock.

    Simplifications: a process is the list of mpprint calls it makes, and its number; the terminal is one sequence of characters; what print()
    puts into the stream's buffer reaches the terminal in pieces of any size (a full buffer is written early), the rest at flush();
    an exception raised in mpprint is caught by the caller.  A process may be killed at any moment; the lock is a semaphore, it does not notice. *)
From Coq Require Import DecimalNat.
From Verif Require Import Base Matrix_Model Sources_Model.
Open Scope list_scope.
Set Warnings "-abstract-large-number".

(** the characters at which str.splitlines breaks, with "\r\n" as one [mpprint.py:17] *)
Definition line_break (c : nat) : bool :=
  existsb (Nat.eqb c) [10; 11; 12; 13; 28; 29; 30; 133; 8232; 8233].
(** text.splitlines() (mpprint.py:17): [cur] is the current line, reversed; [cr]: the last character was "\r" *)
Fixpoint splitlines_from (cr : bool) (cur : text) (t : text) : list text :=
  match t with
  | [] => match cur with [] => [] | _ => [rev cur] end
  | c :: t' =>
      if cr && Nat.eqb c 10 then splitlines_from false [] t'
      else if line_break c then rev cur :: splitlines_from (Nat.eqb c 13) [] t'
      else splitlines_from false (c :: cur) t'
  end.
(** text.splitlines() (mpprint.py:17) *)
Definition splitlines (t : text) : list text := splitlines_from false [] t.
(** 'P{pid:<6} :|\t{line}' (mpprint.py:6): left-justified in six columns *)
Definition format_line (pid : nat) (line : text) : text :=
  let d := digits (Nat.to_uint pid) in 80 :: d ++ repeat 32 (6 - length d) ++ [32; 58; 124; 9] ++ line.
(** '\n'.join (mpprint.py:17) *)
Fixpoint join_lines (l : list text) : text :=
  match l with [] => [] | [x] => x | x :: l' => x ++ 10 :: join_lines l' end.
(** prepend_pid (mpprint.py:15-17) *)
Definition prepend_pid (pid : nat) (t : text) : text := join_lines (map (format_line pid) (splitlines t)).

(** the argument of one call: a string, or something else, which has no splitlines [mpprint.py:8, 17] *)
Inductive call := Txt (t : text) | NotText.
(** where a process is: outside mpprint, after acquire(), with characters still in the buffer after print(), after flush(), killed [mpprint.py:8-12] *)
Inductive phase := Ready | Acquired (c : call) | Writing (buffer : text) | Flushed | Dead.
(** one process and the calls it has still to make [mpprint.py:8-12, 16] *)
Record proc := Proc { p_pid : nat; p_calls : list call; p_phase : phase }.
(** the terminal, whether the lock is taken, the processes [mpprint.py:5] *)
Record world := World { w_out : text; w_lock : bool; w_procs : list proc }.
(** what happens next: process [i] goes on (writing at most [k] characters if it is writing), or is killed [mpprint.py:8-12] *)
Inductive event := Run (i k : nat) | Kill (i : nat).

(** one step of a process (mpprint.py:8-12) *)
Definition move (lock : bool) (out : text) (k : nat) (p : proc) : bool * text * proc :=
  match p_phase p with
  | Ready =>
      match p_calls p with
      | [] => (lock, out, p)
      | c :: cs => if lock then (lock, out, p) else (true, out, Proc (p_pid p) cs (Acquired c))
      end
  | Acquired (Txt t) => (lock, out, Proc (p_pid p) (p_calls p) (Writing (prepend_pid (p_pid p) t ++ [10])))
  | Acquired NotText => (lock, out, Proc (p_pid p) (p_calls p) Ready)
  | Writing buffer =>
      match skipn k buffer with
      | [] => (lock, out ++ buffer, Proc (p_pid p) (p_calls p) Flushed)
      | rest => (lock, out ++ firstn k buffer, Proc (p_pid p) (p_calls p) (Writing rest))
      end
  | Flushed => (false, out, Proc (p_pid p) (p_calls p) Ready)
  | Dead => (lock, out, p)
  end.
(** the other processes stay as they are [mpprint.py:8-12] *)
Definition put_proc (ps : list proc) (i : nat) (p : proc) : list proc := firstn i ps ++ p :: skipn (S i) ps.
(** one step of the whole (mpprint.py:8-12) *)
Definition mp_step (w : world) (e : event) : world :=
  match e with
  | Run i k =>
      match nth_error (w_procs w) i with
      | None => w
      | Some p => let '(lock, out, p') := move (w_lock w) (w_out w) k p in World out lock (put_proc (w_procs w) i p')
      end
  | Kill i =>
      match nth_error (w_procs w) i with
      | None => w
      | Some p => World (w_out w) (w_lock w) (put_proc (w_procs w) i (Proc (p_pid p) (p_calls p) Dead))
      end
  end.
(** a schedule (mpprint.py:8-12) *)
Definition mp_run (sched : list event) (w : world) : world := fold_left mp_step sched w.
(** the processes at the beginning: outside mpprint, the lock free (mpprint.py:5) *)
Definition start (ps : list (nat * list call)) : world := World [] false (map (fun x => Proc (fst x) (snd x) Ready) ps).
