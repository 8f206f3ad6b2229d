(** Model of the text of BIF files: Lark(bif_grammar).parse(text) (mbtk/structures/BayesianNetwork.py:777-785
    with mbtk/utilities/bif/Grammar.py), and of the parts of mbtk/utilities/bif/Transformers.py that turn
    the words of the text into names, numbers and properties.

    Lark is used with its default parser (Earley) and lexer (dynamic): where the grammar expects a
    terminal, the terminal is matched as a regular expression at the current position, as far as it
    reaches, after as much whitespace as there is; words are not cut at word boundaries first.  In this
    grammar the next character always decides which rule to follow, so that a parser that reads the
    text once, from left to right, accepts the same texts and builds the same trees.

    Simplifications:
    - lark itself is modelled by that parser; its exception (UnexpectedInput) is [None];
    - characters are Unicode code points; read_text() has already decoded the file;
    - float() of a literal is its exact value (no rounding, no overflow to inf). *)
From Coq Require Import Reals String Ascii.
From Verif Require Import Base Matrix_Model BN_Model Bif_Model.
Open Scope nat_scope.

(** a literal of the grammar (Grammar.py:17-45) *)
Definition str (s : string) : text := map nat_of_ascii (list_ascii_of_string s).

(** ** terminals (Grammar.py:2-8, 21-22 and lark's common.lark) *)
(** WS : /[ \t\f\r\n]/+ [Grammar.py:7-8] *)
Definition is_ws (c : nat) : bool := (c =? 32) || (c =? 9) || (c =? 10) || (c =? 12) || (c =? 13).
(** LETTER (Grammar.py:3) *)
Definition is_letter (c : nat) : bool := ((65 <=? c) && (c <=? 90)) || ((97 <=? c) && (c <=? 122)).
(** DIGIT (Grammar.py:4) *)
Definition is_digit (c : nat) : bool := (48 <=? c) && (c <=? 57).
(** identifier : /[a-zA-Z0-9-_]+/ (21) *)
Definition is_ident (c : nat) : bool := is_letter c || is_digit c || (c =? 45) || (c =? 95).
(** string_value : /[a-zA-Z0-9-_.]+/ (22) *)
Definition is_value (c : nat) : bool := is_ident c || (c =? 46).

(** %ignore WS (8) *)
Fixpoint skip (t : text) : text := match t with c :: t' => if is_ws c then skip t' else t | [] => [] end.
(** a literal at the front of the text (Grammar.py:17-45) *)
Fixpoint strip_prefix (s t : text) : option text :=
  match s, t with
  | [], _ => Some t
  | a :: s', b :: t' => if a =? b then strip_prefix s' t' else None
  | _ :: _, [] => None
  end.
(** a keyword or a punctuation mark [Grammar.py:17-45] *)
Definition lit (s : text) (t : text) : option text := strip_prefix s (skip t).
(** the longest prefix of characters that satisfy [p], and the rest [Grammar.py:21-22, 37] *)
Fixpoint span (p : nat -> bool) (t : text) : text * text :=
  match t with
  | c :: t' => if p c then let (a, r) := span p t' in (c :: a, r) else ([], t)
  | [] => ([], [])
  end.
(** a regular expression [p]+ [Grammar.py:21-22, 37] *)
Definition run (p : nat -> bool) (t : text) : option (text * text) :=
  let (a, r) := span p (skip t) in match a with [] => None | _ => Some (a, r) end.

(** NUMBER : FLOAT | INT;  FLOAT : INT _EXP | DECIMAL _EXP?;  DECIMAL : INT "." INT? | "." INT;
    _EXP : ("e"|"E") SIGNED_INT [Grammar.py:5, 33] *)
Record number := Number { n_int : text; n_frac : option text; n_exp : option (nat * option nat * text) }.
(** _EXP (Grammar.py:5, 33) *)
Definition exponent (t : text) : option (nat * option nat * text * text) :=
  match t with
  | e :: t1 =>
    if (e =? 101) || (e =? 69) then
      let (sign, t2) := match t1 with c :: t2 => if (c =? 43) || (c =? 45) then (Some c, t2) else (None, t1) | [] => (None, t1) end in
      let (ds, r) := span is_digit t2 in
      match ds with [] => None | _ => Some (e, sign, ds, r) end
    else None
  | [] => None
  end.
(** a number with the exponent that may follow (Grammar.py:5, 33) *)
Definition with_exponent (i : text) (f : option text) (t : text) : number * text :=
  match exponent t with
  | Some (x, r) => (Number i f (Some x), r)
  | None => (Number i f None, t)
  end.
(** NUMBER (Grammar.py:5, 33) *)
Definition scan_number (t : text) : option (number * text) :=
  let (i, r) := span is_digit (skip t) in
  let whole := match i with [] => None | _ => Some (with_exponent i None r) end in
  match r with
  | c :: r1 =>
    if c =? 46 then
      let (j, r2) := span is_digit r1 in
      match i, j with [], [] => None | _, _ => Some (with_exponent i (Some j) r2) end
    else whole
  | [] => whole
  end.

(** ESCAPED_STRING: from a double quote to the first double quote that an even number of backslashes
    precedes, without a line feed.  [even]: the number of backslashes just before is even. [Grammar.py:2, 23] *)
Fixpoint quoted_rest (even : bool) (t : text) : option (text * text) :=
  match t with
  | [] => None
  | c :: t' =>
    if (c =? 34) && even then Some ([c], t')
    else if c =? 10 then None
    else match quoted_rest (if c =? 92 then negb even else true) t' with Some (q, r) => Some (c :: q, r) | None => None end
  end.
(** property_value : (ESCAPED_STRING | string_value) (23); the quotes stay in the value
    (Transformers.py:26-27) *)
Definition property_value (t : text) : option (text * text) :=
  match skip t with
  | 34 :: t' => match quoted_rest true t' with Some (q, r) => Some (34 :: q, r) | None => None end
  | _ => run is_value t
  end.

(** ** rules (Grammar.py:12-45) *)
Definition then_ {A B} (o : option A) (f : A -> option B) : option B := match o with Some a => f a | None => None end.
Notation "x <~ a ;; b" := (then_ a (fun x => b)) (at level 61, a at next level, right associativity).
Notation "' p <~ a ;; b" := (then_ a (fun p => b)) (at level 61, p pattern, a at next level, right associativity).

(** identifier (Grammar.py:21) *)
Definition identifier (t : text) : option (text * text) := run is_ident t.

(** x ("," x)* : variable_list (31), variable_value_list (32), probabilities_list (34).
    [fuel] bounds the number of elements by the length of the text. *)
Fixpoint comma_list {A} (p : text -> option (A * text)) (fuel : nat) (t : text) : option (list A * text) :=
  match fuel with
  | O => None
  | S fuel' =>
    '(x, t1) <~ p t ;;
    match lit (str ",") t1 with
    | Some t2 => '(xs, t3) <~ comma_list p fuel' t2 ;; Some (x :: xs, t3)
    | None => Some ([x], t1)
    end
  end.
(** Grammar.py:31-34 *)
Definition list_of {A} (p : text -> option (A * text)) (t : text) : option (list A * text) := comma_list p (length t) t.

(** property : "property" identifier property_value ";" (24); property_list : property* (25) *)
Fixpoint property_list (fuel : nat) (t : text) : option (list (text * text) * text) :=
  match lit (str "property") t with
  | None => Some ([], t)
  | Some t1 =>
    match fuel with
    | O => None
    | S fuel' =>
      '(k, t2) <~ identifier t1 ;; '(v, t3) <~ property_value t2 ;; t4 <~ lit (str ";") t3 ;;
      '(ps, t5) <~ property_list fuel' t4 ;; Some ((k, v) :: ps, t5)
    end
  end.
(** property_list "}" (25) *)
Definition rest_of_block (t : text) : option (list (text * text) * text) :=
  '(ps, t1) <~ property_list (length t) t ;; t2 <~ lit (str "}") t1 ;; Some (ps, t2).

(** the lines of a probability block: "table" and numbers (43), or lines with values in front (41, 44-45) *)
Inductive rows := Table (row : list number) | Lines (lines : list (list text * list number)).
(** variable_value_probabilities__cond_line (Grammar.py:45) *)
Definition cond_line (t : text) : option (list text * list number * text) :=
  '(vs, t1) <~ list_of identifier t ;; t2 <~ lit (str ")") t1 ;;
  '(ns, t3) <~ list_of scan_number t2 ;; t4 <~ lit (str ";") t3 ;; Some (vs, ns, t4).
(** variable_value_probabilities__cond (Grammar.py:44) *)
Fixpoint cond_lines (fuel : nat) (t : text) : option (list (list text * list number) * text) :=
  match lit (str "(") t with
  | None => Some ([], t)
  | Some t1 =>
    match fuel with
    | O => None
    | S fuel' => '(l, t2) <~ cond_line t1 ;; '(ls, t3) <~ cond_lines fuel' t2 ;; Some (l :: ls, t3)
    end
  end.
(** variable_value_probabilities (Grammar.py:42-45) *)
Definition probability_rows (t : text) : option (rows * text) :=
  match lit (str "table") t with
  | Some t1 => '(ns, t2) <~ list_of scan_number t1 ;; t3 <~ lit (str ";") t2 ;; Some (Table ns, t3)
  | None => '(ls, t1) <~ cond_lines (length t) t ;; match ls with [] => None | _ => Some (Lines ls, t1) end
  end.

(** the blocks of a file; [given] is empty if there is no "|" [Grammar.py:13-19] *)
Inductive block :=
| NetworkB (name : text) (props : list (text * text))
| VariableB (name count : text) (values : list text) (props : list (text * text))
| ProbabilityB (name : text) (given : list text) (table : rows) (props : list (text * text)).
(** network_block (17) *)
Definition network_block (t : text) : option (block * text) :=
  '(name, t1) <~ identifier t ;; t2 <~ lit (str "{") t1 ;; '(ps, t3) <~ rest_of_block t2 ;; Some (NetworkB name ps, t3).
(** variable_block (18) with variable_type_def (38) *)
Definition variable_block (t : text) : option (block * text) :=
  '(name, t1) <~ identifier t ;; t2 <~ lit (str "{") t1 ;;
  t3 <~ lit (str "type") t2 ;; t4 <~ lit (str "discrete") t3 ;;
  t5 <~ lit (str "[") t4 ;; '(count, t6) <~ run is_digit t5 ;; t7 <~ lit (str "]") t6 ;;
  t8 <~ lit (str "{") t7 ;; '(vs, t9) <~ list_of identifier t8 ;; t10 <~ lit (str "}") t9 ;; t11 <~ lit (str ";") t10 ;;
  '(ps, t12) <~ rest_of_block t11 ;; Some (VariableB name count vs ps, t12).
(** probability_block (19) *)
Definition probability_block (t : text) : option (block * text) :=
  t1 <~ lit (str "(") t ;; '(name, t2) <~ identifier t1 ;;
  '(given, t3) <~ match lit (str "|") t2 with Some t3 => list_of identifier t3 | None => Some ([], t2) end ;;
  t4 <~ lit (str ")") t3 ;; t5 <~ lit (str "{") t4 ;;
  '(table, t6) <~ probability_rows t5 ;; '(ps, t7) <~ rest_of_block t6 ;; Some (ProbabilityB name given table ps, t7).
(** block (13-15) *)
Definition one_block (t : text) : option (block * text) :=
  match lit (str "network") t with
  | Some t1 => network_block t1
  | None =>
    match lit (str "variable") t with
    | Some t1 => variable_block t1
    | None => t1 <~ lit (str "probability") t ;; probability_block t1
    end
  end.
(** network_definition : block* (12) *)
Fixpoint blocks (fuel : nat) (t : text) : option (list block) :=
  match skip t with
  | [] => Some []
  | _ =>
    match fuel with
    | O => None
    | S fuel' => '(b, t1) <~ one_block t ;; bs <~ blocks fuel' t1 ;; Some (b :: bs)
    end
  end.
(** network_definition (Grammar.py:12) *)
Definition parse_text (t : text) : option (list block) := blocks (length t) t.

(** ** Transformers.py *)
(** int() of digits (45-46) *)
Definition int_of (ds : text) : Z := fold_left (fun a c => (10 * a + (Z.of_nat c - 48))%Z) ds 0%Z.
(** float() of a literal (75-76) *)
Definition float_of (n : number) : R :=
  let f := match n_frac n with Some f => f | None => [] end in
  let e := match n_exp n with None => 0%Z | Some (_, sign, ds) => match sign with Some 45 => (- int_of ds)%Z | _ => int_of ds end end in
  (IZR (int_of (n_int n ++ f)) * powerRZ 10 (e - Z.of_nat (length f)))%R.
(** the blocks of Bif_Model.v; there names are naturals: [code] numbers them [Transformers.py:57-62, 103-110, 120-122] *)
Definition item_of (code : text -> nat) (b : block) : item :=
  match b with
  | NetworkB name _ => NetworkBlock (code name)
  | VariableB name count values _ => VariableBlock (code name) (Z.to_nat (int_of count)) (map code values)
  | ProbabilityB name given table _ =>
    ProbabilityBlock (code name) (map code given)
      match table with
      | Table row => [(None, map float_of row)]
      | Lines ls => map (fun l => (Some (map code (fst l)), map float_of (snd l))) ls
      end
  end.
(** parse_bif_file (777-785): None for lark's exception *)
Definition parse_bif_text (code : text -> nat) (t : text) : option (res (list raw_node)) :=
  bs <~ parse_text t ;; Some (network_definition (map (item_of code) bs)).

(** property_list (Transformers.py:34-35): dict(items) *)
Definition text_eqb (a b : text) : bool := if list_eq_dec Nat.eq_dec a b then true else false.
(** property_list (Transformers.py:34-35) *)
Definition properties_of (ps : list (text * text)) : list (text * text) :=
  fold_left (fun d kv => assoc_set text_eqb (fst kv) (snd kv) d) ps [].
(** name and properties of the network (128-131), at first '' and {} (BayesianNetwork.py:33-38) *)
Definition heading (bs : list block) : text * list (text * text) :=
  fold_left (fun h b => match b with NetworkB name ps => (name, properties_of ps) | _ => h end) bs ([], []).
(** the properties of a variable (57-62, 132-133) and of its distribution (103-110, 136-140) *)
Definition variable_properties (bs : list block) (v : text) : option (list (text * text)) :=
  fold_left (fun h b => match b with VariableB name _ _ ps => if text_eqb name v then Some (properties_of ps) else h | _ => h end) bs None.
(** Transformers.py:103-110, 136-140 *)
Definition distribution_properties (bs : list block) (v : text) : option (list (text * text)) :=
  fold_left (fun h b => match b with ProbabilityB name _ _ ps => if text_eqb name v then Some (properties_of ps) else h | _ => h end) bs None.
