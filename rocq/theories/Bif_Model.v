(** Model of mbtk/utilities/bif/Transformers.py (from the blocks of a parsed BIF file to a
    BayesianNetwork) and of read_bif_file (mbtk/structures/BayesianNetwork.py:753-787) with its cache.

    Simplifications:
    - the text and the grammar (mbtk/utilities/bif/Grammar.py) are in BifText_Model.v; here a file is the
      list of its blocks (and lark wraps an exception raised in a transformer into a VisitError);
    - names and values are naturals and probabilities are exact reals, as in BN_Model.v;
    - the name and the properties of the network, of its variables and distributions are left out. *)
From Coq Require Import Reals.
From Verif Require Import Base Key_Model PMF_Model Graph_Model BN_Model.
Open Scope nat_scope.

(** The blocks of a file, in order.
    variable_block (Transformers.py:57-62): name, the declared number of values, the values;
    probability_block (103-110): the variable, the variables after '|', the lines: a table line has
    the key '<unconditioned>' (83-84), any other line the tuple of values in front of it (91-92). *)
Inductive item :=
| NetworkBlock (name : nat)
| VariableBlock (name count : nat) (values : list nat)
| ProbabilityBlock (name : nat) (given : list nat) (lines : list (key * list R)).

(** a VariableNode and its probdist, which is None at first (532-561): the keys of
    conditioning_variable_nodes, and the probabilities *)
Record raw_node := Raw { r_name : nat; r_values : list nat; r_dist : option (list nat * list (key * list R)) }.

(** dict(lines) (variable_value_probabilities, 99-100) *)
Definition dict_of_lines (lines : list (key * list R)) : list (key * list R) :=
  fold_left (fun d kr => assoc_set key_eqb (fst kr) (snd kr) d) lines [].
(** OrderedDict.fromkeys(names) (107-108) *)
Definition from_keys (l : list nat) : list nat := fold_left (fun ks k => if mem k ks then ks else ks ++ [k]) l [].

(** bn.variable_nodes[item.name] = item (132-133) *)
Fixpoint declare (ns : list raw_node) (n : raw_node) : list raw_node :=
  match ns with
  | [] => [n]
  | m :: ns' => if Nat.eqb (r_name n) (r_name m) then n :: ns' else m :: declare ns' n
  end.
(** the first loop (Transformers.py:125-133) *)
Definition first_pass (ns : list raw_node) (i : item) : list raw_node :=
  match i with VariableBlock name _ values => declare ns (Raw name values None) | _ => ns end.
(** the second loop (136-144) *)
Definition known (ns : list raw_node) (v : nat) : bool := existsb (fun m => Nat.eqb v (r_name m)) ns.
(** node.probdist = ... (Transformers.py:136-144) *)
Definition set_dist (ns : list raw_node) (v : nat) (d : list nat * list (key * list R)) : list raw_node :=
  map (fun m => if Nat.eqb v (r_name m) then Raw (r_name m) (r_values m) (Some d) else m) ns.
(** the second loop (Transformers.py:136-144) *)
Definition second_pass (ns : list raw_node) (i : item) : res (list raw_node) :=
  match i with
  | ProbabilityBlock name given lines =>
    if known ns name then
      if forallb (known ns) (from_keys given) then Ok (set_dist ns name (from_keys given, dict_of_lines lines))
      else Err KeyError
    else Err KeyError
  | _ => Ok ns
  end.
(** network_definition (125-146) *)
Definition network_definition (items : list item) : res (list raw_node) :=
  foldM second_pass items (fold_left first_pass items []).

(** the node of BN_Model.v [BayesianNetwork.py:532-561, 645-665] *)
Definition node_of (r : raw_node) : node :=
  {| nname := r_name r; nID := None; nvalues := r_values r;
     nparents := match r_dist r with Some d => fst d | None => [] end;
     nprobs := match r_dist r with Some d => snd d | None => [] end |}.
(** finalize (277-299) of the network that was read: `variable.probdist.finalize()` of a variable
    whose probdist is None raises AttributeError, after the variables in front of it *)
Definition finalize_read (fuel : nat) (rs : list raw_node) : res bn :=
  _ <- mapM (fun r => match r_dist r with None => Err AttributeError | Some _ => index_conditioning (map node_of rs) (node_of r) end) rs ;;
  finalize fuel (new_bn (map node_of rs)).

(** ** read_bif_file (753-775) *)
Section Cache.
  (** [parse] is parse_bif_file (779-787): from the text of the file to a network *)
  Context {T N : Type} (parse : T -> res N).
  (** The file at cachefile = sourcepath.with_suffix('.pickle'): absent, opened for writing but not
      complete, or a pickled network. [BayesianNetwork.py:753-773] *)
  Inductive cache := Absent | Torn | Pickled (n : N).
  (** the files: [d_text source] is the content of the BIF file number [source], if it exists; all
      sources considered differ in their suffix only, so that they have the same cachefile [BayesianNetwork.py:753-773] *)
  Record disk := { d_text : nat -> option T; d_cache : cache }.
  (** a write to the cache file (BayesianNetwork.py:753-773) *)
  Definition with_cache (d : disk) (c : cache) : disk := {| d_text := d_text d; d_cache := c |}.
  (** a call of read_bif_file in progress, between two steps that touch the disk [BayesianNetwork.py:753-773] *)
  Inductive reader :=
  | Start (source : nat) (use_cache : bool)   (* 759-761 *)
  | Load                                      (* 762-763 *)
  | Parse (source : nat)                      (* 768 *)
  | OpenCache (n : N)                         (* 769 *)
  | Dump (n : N)                              (* 770 *)
  | Done (r : res N).
  (** the next step of a call (BayesianNetwork.py:753-773) *)
  Definition read_step (d : disk) (p : reader) : disk * reader :=
    match p with
    | Start s use_cache =>
      (d, if use_cache then match d_cache d with Absent => Parse s | _ => Load end else Parse s)
    | Load => (d, Done (match d_cache d with Absent => Err OSErr | Torn => Err PickleErr | Pickled n => Ok n end))
    | Parse s => (d, match d_text d s with
                     | None => Done (Err OSErr)
                     | Some t => match parse t with Ok n => OpenCache n | Err e => Done (Err e) end
                     end)
    | OpenCache n => (with_cache d Torn, Dump n)
    | Dump n => (with_cache d (Pickled n), Done (Ok n))
    | Done r => (d, Done r)
    end.
  (** a call that runs alone to its end takes at most five steps [BayesianNetwork.py:753-773] *)
  Fixpoint read_steps (k : nat) (d : disk) (p : reader) : disk * reader :=
    match k with O => (d, p) | S k' => let (d', p') := read_step d p in read_steps k' d' p' end.
  (** read_bif_file (BayesianNetwork.py:753-773) *)
  Definition read_bif_file (d : disk) (source : nat) (use_cache : bool) : disk * reader := read_steps 5 d (Start source use_cache).

  (** any number of calls at a time; a call may be killed between two steps; the BIF file may be edited [BayesianNetwork.py:753-773] *)
  Inductive event := Begin (source : nat) (use_cache : bool) | Step (i : nat) | Kill (i : nat) | Edit (source : nat) (t : option T).
  (** l[i] = x, for the list of the calls in progress (BayesianNetwork.py:753-773) *)
  Definition set_nth {A} (i : nat) (x : A) (l : list A) : list A :=
    map (fun jy => if Nat.eqb i (fst jy) then x else snd jy) (combine (seq 0 (length l)) l).
  (** the disk, and the calls: None for one that was killed [BayesianNetwork.py:753-773] *)
  Definition happen (st : disk * list (option reader)) (e : event) : disk * list (option reader) :=
    let (d, ps) := st in
    match e with
    | Begin s uc => (d, ps ++ [Some (Start s uc)])
    | Step i => match nth_error ps i with
                | Some (Some p) => let (d', p') := read_step d p in (d', set_nth i (Some p') ps)
                | _ => (d, ps)
                end
    | Kill i => (d, set_nth i None ps)
    | Edit s t => ({| d_text := fun s' => if Nat.eqb s' s then t else d_text d s'; d_cache := d_cache d |}, ps)
    end.
  (** any sequence of such events (BayesianNetwork.py:753-773) *)
  Definition history (d : disk) (es : list event) : disk * list (option reader) := fold_left happen es (d, []).
End Cache.
Arguments Absent {N}. Arguments Torn {N}. Arguments Start {N}. Arguments Load {N}. Arguments Parse {N}. Arguments Begin {T}. Arguments Step {T}. Arguments Kill {T}. Arguments Edit {T}.
