(** Model of mbtk/dataset/sources/RCV1v2DatasetSource.py: from the four downloaded files to the
    document-term matrix.

    Simplifications:
    - the file of document IDs is what numpy.loadtxt makes of it: a list of numbers (not negative,
      since the data type is uint32);
    - scipy's dok_matrix is an association list from positions to values with a shape; converting it
      with tocsr() gives its dense content (as in Matrix_Model.v), and shapes with a zero are allowed;
      int32 is assumed to hold the values;
    - dictionaries are association lists in insertion order; a document keeps its dictionary of word
      frequencies (its keys are the list `words`) and its list `topics` (every topic has the value 1 in
      `topic_values`);
    - a feature type is 'wordcount', 'binary' or another string; metadata is left out. *)
From Coq Require Import String.
From Verif Require Import Base Matrix_Model Text_Model Sources_Model Select_Model.
Open Scope nat_scope.

(** s.split(): the maximal runs of characters that are not white space [RCV1v2DatasetSource.py:115-128, 261-279, 309-323] *)
Fixpoint words_from (current : text) (t : text) : list text :=
  match t with
  | [] => match current with [] => [] | _ => [current] end
  | c :: t' =>
    if is_space c then match current with [] => words_from [] t' | _ => current :: words_from [] t' end
    else words_from (current ++ [c]) t'
  end.
(** s.split() (RCV1v2DatasetSource.py:115-128, 261-279, 309-323) *)
Definition split_words (t : text) : list text := words_from [] t.

(** the lines of a file opened in mode 'rt' [RCV1v2DatasetSource.py:115-128, 195-279] *)
Definition text_lines (t : text) : list text := file_lines (universal_newlines t).

(** RCV1v2Document (283-306) *)
Record rdoc := RDoc { rd_words : list (text * Z); rd_topics : list text }.
(** RCV1v2Document.__init__ (RCV1v2DatasetSource.py:300-306) *)
Definition new_rdoc : rdoc := RDoc [] [].
(** read_line_with_tokens (309-323) *)
Definition count_word (f : list (text * Z)) (w : text) : list (text * Z) :=
  assoc_set text_eqb w (match assoc text_eqb w f with Some n => (n + 1)%Z | None => 1%Z end) f.
(** read_line_with_tokens (RCV1v2DatasetSource.py:309-323) *)
Definition read_line_with_tokens (d : rdoc) (line : text) : rdoc :=
  RDoc (fold_left count_word (split_words line) (rd_words d)) (rd_topics d).
(** add_topic (326-334) *)
Definition add_topic (d : rdoc) (topic : text) : rdoc := RDoc (rd_words d) (rd_topics d ++ [topic]).

(** the dictionary of documents (RCV1v2DatasetSource.py:195-258) *)
Definition documents := list (Z * rdoc).

(** read_all_documentIDs (103-112): a single number is loaded as an array without dimensions, whose
    tolist() is a number, which cannot be sorted *)
Definition read_all_documentIDs (ids : list Z) : res (list Z) :=
  match ids with [_] => Err TypeError | _ => Ok (sort_Z ids) end.
(** read_documentIDs_in_industry (115-128) *)
Definition read_documentIDs_in_industry (industries : text) (industry : text) : res (list Z) :=
  ids <- foldM (fun ids line =>
      let a := split_words line in
      i <- of_option IndexError (nth_error a 0) ;;
      if text_eqb i industry then (s <- of_option IndexError (nth_error a 1) ;; k <- py_int s ;; Ok (ids ++ [k])) else Ok ids)
    (text_lines industries) [] ;;
  Ok (sort_Z ids).

(** assign_topics_to_documents (261-279) *)
Definition assign_topics_to_documents (topics : text) (ds : documents) : res documents :=
  foldM (fun ds line =>
      let a := split_words line in
      s <- of_option IndexError (nth_error a 1) ;; k <- py_int s ;;
      t <- of_option IndexError (nth_error a 0) ;;
      match assoc Z.eqb k ds with Some d => Ok (assoc_set Z.eqb k (add_topic d t) ds) | None => Ok ds end)
    (text_lines topics) ds.

(** read_documents (195-258).  The state of the loop: the dictionary and the document being read. *)
Definition save_document (ds : documents) (current : option (Z * rdoc)) : documents :=
  match current with Some (k, d) => assoc_set Z.eqb k d ds | None => ds end.
(** the prefix '.I ' (RCV1v2DatasetSource.py:195-258) *)
Definition dot_I : text := [46; 73; 32].
(** the prefix '.W' (RCV1v2DatasetSource.py:195-258) *)
Definition dot_W : text := [46; 87].
(** one turn of the loop of read_documents (RCV1v2DatasetSource.py:195-258) *)
Definition token_line (requested : list Z) (st : documents * option (Z * rdoc)) (line : text) : res (documents * option (Z * rdoc)) :=
  let (ds, current) := st in
  let line := strip line in
  if text_eqb (firstn 3 line) dot_I then
    let ds := save_document ds current in
    k <- py_int (strip (skipn 3 line)) ;;
    Ok (ds, if mem_Z k requested then Some (k, new_rdoc) else None)
  else if text_eqb (firstn 2 line) dot_W then Ok (ds, current)
  else match line with
       | [] => Ok (ds, current)
       | _ => Ok (ds, match current with Some (k, d) => Some (k, read_line_with_tokens d line) | None => None end)
       end.
(** read_documents (RCV1v2DatasetSource.py:195-258) *)
Definition read_documents (tokens topics : text) (requested : list Z) : res documents :=
  match requested with
  | [] => Ok []
  | _ =>
    '(ds, current) <- foldM (token_line requested) (text_lines tokens) ([], None) ;;
    assign_topics_to_documents topics (save_document ds current)
  end.

(** list(set(l)), up to its order [RCV1v2DatasetSource.py:131-151] *)
Fixpoint distinct_texts (l : list text) : list text :=
  match l with
  | [] => []
  | x :: l' => if existsb (text_eqb x) l' then distinct_texts l' else x :: distinct_texts l'
  end.
(** gather_complete_word_list (131-140), gather_complete_topic_list (143-151) *)
Definition gather_complete_word_list (ds : documents) : list text :=
  sort_text (distinct_texts (concat (map (fun kd => map fst (rd_words (snd kd))) ds))).
(** gather_complete_topic_list (RCV1v2DatasetSource.py:143-151) *)
Definition gather_complete_topic_list (ds : documents) : list text :=
  sort_text (distinct_texts (concat (map (fun kd => rd_topics (snd kd)) ds))).

(** mbtk/utilities/functions.py:33-34 *)
Definition create_index (l : list text) : list (text * nat) := combine l (seq 0 (length l)).

(** a dok_matrix: its shape and the values at some positions [RCV1v2DatasetSource.py:154-192] *)
Definition dok := list ((nat * nat) * Z).
(** == of two positions (RCV1v2DatasetSource.py:154-192) *)
Definition pos_eqb (p q : nat * nat) : bool := (fst p =? fst q) && (snd p =? snd q).
(** m[row, column] = value [RCV1v2DatasetSource.py:179-190] *)
Definition dok_set (nrows ncols : nat) (m : dok) (row column : nat) (value : Z) : res dok :=
  if (row <? nrows) && (column <? ncols) then Ok (assoc_set pos_eqb (row, column) value m) else Err IndexError.
(** a cell, zero if it was not set (RCV1v2DatasetSource.py:154-192) *)
Definition dok_get (m : dok) (row column : nat) : Z := match assoc pos_eqb (row, column) m with Some v => v | None => 0%Z end.
(** tocsr() (RCV1v2DatasetSource.py:39-100) *)
Definition tocsr (nrows ncols : nat) (m : dok) : smat :=
  SMat CSR ncols (map (fun r => map (fun c => dok_get m r c) (seq 0 ncols)) (seq 0 nrows)).

(** the inner loops of create_dok_matrices (179-190) *)
Definition fill_row (nrows ncols : nat) (index : list (text * nat)) (row : nat) (values : list (text * Z)) (m : dok) : res dok :=
  foldM (fun m wv => c <- of_option KeyError (assoc text_eqb (fst wv) index) ;; dok_set nrows ncols m row c (snd wv)) values m.

(** configuration['feature_type'] (RCV1v2DatasetSource.py:22-36) *)
Inductive feature := Wordcount | Binary | OtherFeature.
(** what is stored for a document of the given feature type [RCV1v2DatasetSource.py:154-192] *)
Definition features (f : feature) (d : rdoc) : list (text * Z) :=
  match f with
  | Wordcount => rd_words d
  | Binary => map (fun wv => (fst wv, 1%Z)) (rd_words d)
  | OtherFeature => []
  end.
(** create_dok_matrices (154-192) *)
Definition create_dok_matrices (ds : documents) (ids : list Z) (words topics : list text) (f : feature) : res (dok * dok) :=
  let nr := length ds in
  foldM (fun mm row_id =>
      let (row, k) := row_id : nat * Z in
      d <- of_option KeyError (assoc Z.eqb k ds) ;;
      mw <- fill_row nr (length words) (create_index words) row (features f d) (fst mm) ;;
      mt <- fill_row nr (length topics) (create_index topics) row (map (fun t => (t, 1%Z)) (rd_topics d)) (snd mm) ;;
      Ok (mw, mt))
    (combine (seq 0 (length ids)) ids) ([], []).

(** str() of a number that is not negative [RCV1v2DatasetSource.py:39-100] *)
Definition decimal (k : Z) : text := digits (Nat.to_uint (Z.to_nat k)).

(** the four files [RCV1v2DatasetSource.py:103-128, 195-279] *)
Record rcv_files := { f_ids : list Z; f_tokens : text; f_topics : text; f_industries : text }.
(** __init__ (22-36): configuration['filters'] and configuration['feature_type'], with their defaults *)
Record rcv_conf := { rc_filters : list (string * text); rc_feature : feature }.
(** RCV1v2DatasetSource.py:22-36 *)
Definition default_conf : rcv_conf := {| rc_filters := []; rc_feature := Wordcount |}.

(** create_dataset_matrix (39-100).  [filters] is [] for None as well; [feature_type] is None for ''. *)
Definition rcv_create (files : rcv_files) (conf : rcv_conf) (label : string) (feature_type : option feature)
  (filters : list (string * text)) : res dmatrix :=
  let filters := match filters with [] => rc_filters conf | _ => filters end in
  ids <- match assoc String.eqb "industry"%string filters with
         | Some industry => read_documentIDs_in_industry (f_industries files) industry
         | None => match filters with [] => read_all_documentIDs (f_ids files) | _ => Err ValueError end
         end ;;
  let f := match feature_type with Some f => f | None => rc_feature conf end in
  ds <- read_documents (f_tokens files) (f_topics files) ids ;;
  let words := gather_complete_word_list ds in
  let topics := gather_complete_topic_list ds in
  '(mw, mt) <- create_dok_matrices ds ids words topics f ;;
  Ok (DMat label (tocsr (length ds) (length words) mw) (tocsr (length ds) (length topics) mt)
           (map decimal ids) words topics false).
