(** Model of how label lists are written to and read from text files
    (mbtk/dataset/DatasetMatrix.py:483-490 and 510-517): '\n'.join(labels) with Path.write_text, and
    list(map(str.strip, list(f))) on a file opened in mode 'rt'.
    Characters are Unicode code points; the file encoding is assumed to be lossless, and os.linesep
    to be '\n' (POSIX). *)
From Verif Require Import Base Matrix_Model.
Set Warnings "-abstract-large-number".

(** DatasetMatrix.py:483-490 *)
Definition LF : nat := 10.
(** universal newlines (DatasetMatrix.py:510-517) *)
Definition CR : nat := 13.
(** the characters for which str.isspace() holds, which str.strip() removes [DatasetMatrix.py:510-517] *)
Definition is_space (c : nat) : bool :=
  ((9 <=? c) && (c <=? 13)) || ((28 <=? c) && (c <=? 32)) || (c =? 133) || (c =? 160) || (c =? 5760) ||
  ((8192 <=? c) && (c <=? 8202)) || (c =? 8232) || (c =? 8233) || (c =? 8239) || (c =? 8287) || (c =? 12288).

(** '\n'.join(l) [DatasetMatrix.py:483-490] *)
Fixpoint join_lines (l : list text) : text :=
  match l with
  | [] => []
  | [x] => x
  | x :: l' => x ++ LF :: join_lines l'
  end.
(** universal newlines: in text mode "\r\n" and "\r" are read as "\n" [DatasetMatrix.py:510-517] *)
Fixpoint universal_newlines (t : text) : text :=
  match t with
  | [] => []
  | c :: t' =>
    if c =? CR then
      match t' with
      | d :: t'' => if d =? LF then LF :: universal_newlines t'' else LF :: universal_newlines t'
      | [] => [LF]
      end
    else c :: universal_newlines t'
  end.
(** iterating over a text file yields its lines, each with its final newline if there is one [DatasetMatrix.py:510-517] *)
Fixpoint lines_from (current : text) (t : text) : list text :=
  match t with
  | [] => match current with [] => [] | _ => [current] end
  | c :: t' => if c =? LF then (current ++ [c]) :: lines_from [] t' else lines_from (current ++ [c]) t'
  end.
(** the lines of a file (DatasetMatrix.py:510-517) *)
Definition file_lines (t : text) : list text := lines_from [] t.
(** str.strip() [DatasetMatrix.py:510-517] *)
Fixpoint lstrip (t : text) : text := match t with c :: t' => if is_space c then lstrip t' else t | [] => [] end.
(** str.strip() (DatasetMatrix.py:510-517) *)
Definition strip (t : text) : text := rev (lstrip (rev (lstrip t))).

(** DatasetMatrix.py:483-490 *)
Definition write_labels (l : list text) : text := join_lines l.
(** DatasetMatrix.py:510-517 *)
Definition read_labels (t : text) : list text := map strip (file_lines (universal_newlines t)).
