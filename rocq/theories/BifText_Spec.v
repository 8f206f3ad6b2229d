(** What a BIF text is: a sequence of blocks, each block a sequence of tokens, with whitespace between
    the tokens.  Of the model only the data types [block], [rows] and [number] are used, and the
    character classes. *)
From Coq Require Import String.
From Verif Require Import Base Matrix_Model BifText_Model.
Open Scope nat_scope.

(** ** tokens *)
Inductive token :=
| Key (s : text)           (* a keyword or a punctuation mark *)
| Name (s : text)          (* an identifier *)
| Count (s : text)         (* an integer *)
| Value (s : text)         (* the value of a property *)
| Num (n : number).        (* a probability *)
Definition number_chars (n : number) : text :=
  n_int n ++ match n_frac n with Some f => 46 :: f | None => [] end
          ++ match n_exp n with Some (e, sign, ds) => e :: match sign with Some s => [s] | None => [] end ++ ds | None => [] end.
Definition chars (k : token) : text := match k with Key s | Name s | Count s | Value s => s | Num n => number_chars n end.

(** the tokens written in a text, with whitespace in front of them, and then a rest of which [R] holds;
    a name must not be followed at once by a character that would belong to it *)
Definition white (w : text) : Prop := forall c, In c w -> is_ws c = true.
Definition ends_name (t : text) : Prop := match t with c :: _ => is_ident c = false | [] => True end.
Inductive spelled_then (R : text -> Prop) : list token -> text -> Prop :=
| spelled_end r : R r -> spelled_then R [] r
| spelled_token w k ks t : white w -> (forall s, k = Name s -> ends_name t) -> spelled_then R ks t -> spelled_then R (k :: ks) (w ++ chars k ++ t).
(** the tokens, and nothing behind them but whitespace *)
Definition spelled : list token -> text -> Prop := spelled_then white.

(** ** blocks as tokens *)
Definition K (s : string) : token := Key (str s).
Fixpoint commas (ks : list token) : list token :=
  match ks with [] => [] | [k] => [k] | k :: ks' => k :: K "," :: commas ks' end.
Definition property_tokens (p : text * text) : list token := [K "property"; Name (fst p); Value (snd p); K ";"].
Definition line_tokens (l : list text * list number) : list token :=
  K "(" :: commas (map Name (fst l)) ++ K ")" :: commas (map Num (snd l)) ++ [K ";"].
Definition rows_tokens (r : rows) : list token :=
  match r with
  | Table row => K "table" :: commas (map Num row) ++ [K ";"]
  | Lines ls => flat_map line_tokens ls
  end.
Definition block_tokens (b : block) : list token :=
  match b with
  | NetworkB name ps => [K "network"; Name name; K "{"] ++ flat_map property_tokens ps ++ [K "}"]
  | VariableB name count values ps =>
    [K "variable"; Name name; K "{"; K "type"; K "discrete"; K "["; Count count; K "]"; K "{"] ++ commas (map Name values) ++ [K "}"; K ";"]
    ++ flat_map property_tokens ps ++ [K "}"]
  | ProbabilityB name given r ps =>
    [K "probability"; K "("; Name name] ++ match given with [] => [] | _ => K "|" :: commas (map Name given) end ++ [K ")"; K "{"]
    ++ rows_tokens r ++ flat_map property_tokens ps ++ [K "}"]
  end.

(** ** what may stand in a token *)
Definition good_name (s : text) : Prop := s <> [] /\ forall c, In c s -> is_ident c = true.
Definition digits (s : text) : Prop := forall c, In c s -> is_digit c = true.
Definition good_count (s : text) : Prop := s <> [] /\ digits s.
(** an unsigned decimal literal: digits before or behind the point, perhaps an exponent *)
Definition good_number (n : number) : Prop :=
  digits (n_int n) /\ (forall f, n_frac n = Some f -> digits f) /\
  (n_int n <> [] \/ exists f, n_frac n = Some f /\ f <> []) /\
  (forall e sign ds, n_exp n = Some (e, sign, ds) ->
     (e = 101 \/ e = 69) /\ (forall s, sign = Some s -> s = 43 \/ s = 45) /\ ds <> [] /\ digits ds).
(** between quotes: plain characters, and pairs of a backslash and a character; no line feed *)
Inductive escaped : text -> Prop :=
| escaped_nil : escaped []
| escaped_plain c q : c <> 34 -> c <> 92 -> c <> 10 -> escaped q -> escaped (c :: q)
| escaped_pair c q : c <> 10 -> escaped q -> escaped (92 :: c :: q).
Definition bare (v : text) : Prop := v <> [] /\ forall c, In c v -> is_value c = true.
Definition quoted (v : text) : Prop := exists q, escaped q /\ v = 34 :: q ++ [34].
Definition good_property (p : text * text) : Prop := good_name (fst p) /\ (bare (snd p) \/ quoted (snd p)).
Definition good_row (l : list number) : Prop := l <> [] /\ forall n, In n l -> good_number n.
Definition good_names (l : list text) : Prop := l <> [] /\ forall s, In s l -> good_name s.
Definition good_rows (r : rows) : Prop :=
  match r with
  | Table row => good_row row
  | Lines ls => ls <> [] /\ forall l, In l ls -> good_names (fst l) /\ good_row (snd l)
  end.
Definition good_block (b : block) : Prop :=
  match b with
  | NetworkB name ps => good_name name /\ forall p, In p ps -> good_property p
  | VariableB name count values ps => good_name name /\ good_count count /\ good_names values /\ forall p, In p ps -> good_property p
  | ProbabilityB name given r ps => good_name name /\ (forall s, In s given -> good_name s) /\ good_rows r /\ forall p, In p ps -> good_property p
  end.
(** [t] is a text of the blocks [bs] *)
Definition text_of (bs : list block) (t : text) : Prop :=
  (forall b, In b bs -> good_block b) /\ spelled (flat_map block_tokens bs) t.
