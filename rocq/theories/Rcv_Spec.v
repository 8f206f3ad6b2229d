(** Independent vocabulary for C54: a collection of documents, the files that publish it, and what a
    document-term matrix of some of the documents is. *)
From Coq Require Import String DecimalNat.
From Verif Require Import Base Matrix_Model Matrix_Spec Text_Model Sources_Model Sources_Proofs.
Open Scope nat_scope.

(** a document: its number and its words, line by line *)
Record document := Document { doc_id : nat; doc_lines : list (list text) }.
Definition words_of (d : document) : list text := concat (doc_lines d).
(** the decimal numeral of a number *)
Definition numeral (k : nat) : text := digits (Nat.to_uint k).

(** ** The published files *)
Definition SP : nat := 32.
Fixpoint spaced (l : list text) : text :=
  match l with [] => [] | [x] => x | x :: l' => x ++ SP :: spaced l' end.
(** ".I number", ".W", the lines of words, an empty line *)
Definition render_document (d : document) : text :=
  ([46; 73; 32] ++ numeral (doc_id d) ++ [LF]) ++ ([46; 87] ++ [LF]) ++
  concat (map (fun l => spaced l ++ [LF]) (doc_lines d)) ++ [LF].
Definition render_documents (docs : list document) : text := concat (map render_document docs).
(** "CODE number 1" for every assignment of a document to a topic (or to an industry) *)
Definition render_assignments (assigned : list (text * nat)) : text :=
  concat (map (fun a => spaced [fst a; numeral (snd a); [49]] ++ [LF]) assigned).

(** a word: not empty, no white space *)
Definition word (w : text) : Prop := w <> [] /\ forall c, In c w -> is_space c = false.
(** a line of words that cannot be taken for a mark: it is not empty, and does not begin with the word
    ".I" or with the characters ".W" *)
Definition word_line (l : list text) : Prop :=
  Forall word l /\ exists w l', l = w :: l' /\ w <> [46; 73] /\ firstn 2 w <> [46; 87].
(** a collection: distinct numbers, well-formed lines *)
Definition collection (docs : list document) : Prop :=
  NoDup (map doc_id docs) /\ Forall (fun d => Forall word_line (doc_lines d)) docs.
Definition assignments (assigned : list (text * nat)) : Prop := Forall (fun a => word (fst a)) assigned.

(** ** The matrix *)
Definition text_dec : forall a b : text, {a = b} + {a <> b} := list_eq_dec Nat.eq_dec.
Definition occurrences (d : document) (w : text) : nat := count_occ text_dec (words_of d) w.

(** [D] has one row for each number in [order]; a column of X for each word of these documents, and a
    column of Y for each topic to which one of them is assigned, in alphabetical order; X holds what
    [value] says, Y says which document is assigned to which topic *)
Definition document_term_matrix (docs : list document) (assigned : list (text * nat)) (order : list nat)
  (value : document -> text -> Z) (D : dmatrix) : Prop :=
  dm_row_labels D = map numeral order /\
  StronglySorted before (dm_labels_X D) /\
  (forall w, In w (dm_labels_X D) <-> exists d, In d docs /\ In (doc_id d) order /\ In w (words_of d)) /\
  StronglySorted before (dm_labels_Y D) /\
  (forall t, In t (dm_labels_Y D) <-> exists k, In (t, k) assigned /\ In k order) /\
  aligned D /\
  (forall i j d w, In d docs -> nth_error order i = Some (doc_id d) -> nth_error (dm_labels_X D) j = Some w ->
     entry (dm_X D) i j = value d w) /\
  (forall i j k t, nth_error order i = Some k -> nth_error (dm_labels_Y D) j = Some t ->
     (In (t, k) assigned -> entry (dm_Y D) i j = 1%Z) /\ (~ In (t, k) assigned -> entry (dm_Y D) i j = 0%Z)).
