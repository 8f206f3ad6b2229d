(** Model of the graph part of mbtk/structures/BayesianNetwork.py (lines 318-528).
    A Python dict {node: [neighbours]} is an association list; node IDs are naturals.
    [OutOfFuel] marks recursion that has not finished; see Base.evaluates. *)
From Verif Require Import Base.

(** the dicts made by BayesianNetwork.py:318-361 *)
Definition graph := list (nat * list nat).
(** graph[n] (BayesianNetwork.py:458-473) *)
Definition gget (g : graph) (n : nat) : option (list nat) := assoc Nat.eqb n g.

(** The part of the network that matters here: for each variable node, in the order of
    `self.variable_nodes`, its ID and the IDs of its conditioning nodes (parents), in the order of
    `probdist.conditioning_variable_nodes`. [BayesianNetwork.py:318-361] *)
Definition network := list (nat * list nat).

(** `graph[k].append(v)` with the KeyError branch `graph[k] = [v]` (BayesianNetwork.py:324-327) *)
Definition append_edge (k v : nat) (g : graph) : graph :=
  match gget g k with
  | Some l => assoc_set Nat.eqb k (l ++ [v]) g
  | None => assoc_set Nat.eqb k [v] g
  end.
(** the same guarded by `if v not in graph[k]` (BayesianNetwork.py:344-353, 380-389) *)
Definition append_edge_once (k v : nat) (g : graph) : graph :=
  match gget g k with
  | Some l => if mem v l then g else assoc_set Nat.eqb k (l ++ [v]) g
  | None => assoc_set Nat.eqb k [v] g
  end.
(** `for i in graph: graph[i] = sorted(graph[i])` (328-329, 354-355) *)
Definition sort_graph (g : graph) : graph := map (fun kv => (fst kv, sort_nat (snd kv))) g.
(** `if node.ID not in graph: graph[node.ID] = []` for every node (331-333, 357-359) *)
Definition add_missing (ns : list nat) (g : graph) : graph :=
  fold_left (fun g n => match gget g n with Some _ => g | None => assoc_set Nat.eqb n [] g end) ns g.

(** BayesianNetwork.as_directed_graph (318-335) *)
Definition as_directed_graph (net : network) : graph :=
  let g := fold_left (fun g node => fold_left (fun g c => append_edge c (fst node) g) (snd node) g) net [] in
  add_missing (map fst net) (sort_graph g).

(** BayesianNetwork.as_undirected_graph (338-361) *)
Definition as_undirected_graph (net : network) : graph :=
  let g := fold_left (fun g node =>
     fold_left (fun g c => append_edge_once (fst node) c (append_edge_once c (fst node) g)) (snd node) g) net [] in
  add_missing (map fst net) (sort_graph g).

(** BayesianNetwork.from_directed_graph (364-397).  [order] is the order in which Python iterates
    over the set `all_nodes`. *)
Definition all_nodes (g : graph) : list nat := flat_map (fun kv => fst kv :: snd kv) g.
(** the undirected edges in from_directed_graph (BayesianNetwork.py:364-397) *)
Definition undirected_edges (g : graph) : graph :=
  fold_left (fun gu node =>
     fold_left (fun gu d => append_edge_once d (fst node) (append_edge_once (fst node) d gu)) (snd node) gu) g [].
(** sorted neighbours, and an empty list for a node without any (BayesianNetwork.py:364-397) *)
Definition finish_node (n : nat) (g : graph) : graph :=
  match gget g n with
  | Some l => assoc_set Nat.eqb n (sort_nat l) g
  | None => assoc_set Nat.eqb n [] g
  end.
(** from_directed_graph (BayesianNetwork.py:364-397) *)
Definition from_directed_graph (order : list nat) (g : graph) : graph * graph (* graph_d, graph_u *) :=
  (fold_left (fun g n => finish_node n g) order g,
   fold_left (fun g n => finish_node n g) order (undirected_edges g)).

(** BayesianNetwork.find_all_paths_recursive (458-473) *)
Fixpoint find_all_paths_recursive (fuel : nat) (g : graph) (start stop : nat) (path : list nat)
  : res (list (list nat)) :=
  match fuel with
  | O => Err OutOfFuel
  | S fuel' =>
    let path := path ++ [start] in
    if start =? stop then Ok [path] else
    match gget g start with
    | None => Ok []
    | Some ns =>
      foldM (fun paths node =>
        if mem node path then Ok paths
        else newpaths <- find_all_paths_recursive fuel' g node stop path ;; Ok (paths ++ newpaths)) ns []
    end
  end.

(** find_all_directed_paths / find_all_paths (445-456) *)
Definition find_all_directed_paths (gd : graph) (start stop : nat) (fuel : nat) : res (list (list nat)) :=
  find_all_paths_recursive fuel gd start stop [].

(** ** The memoised search (476-492).
    `functools.cache` keeps one entry per argument tuple (self, start, end[, path]); the value is
    stored when the call returns.  The returned list object is shared with the cache; callers in
    mbtk do not mutate it, and mutation by a user is not modelled. *)
Definition pkey := (nat * nat * option (list nat))%type.
(** == of two argument tuples (the keys of functools.cache, BayesianNetwork.py:476) *)
Definition pkey_dec (a b : pkey) : {a = b} + {a <> b}.
Proof. repeat decide equality. Defined.
(** the dictionary of functools.cache (BayesianNetwork.py:476) *)
Definition pcache := list (pkey * list (list nat)).
(** lookup in that dictionary (BayesianNetwork.py:476) *)
Definition cache_get (k : pkey) (c : pcache) : option (list (list nat)) :=
  assoc (fun a b => if pkey_dec a b then true else false) k c.

(** find_all_paths_recursive_cached (BayesianNetwork.py:477-492) *)
Fixpoint find_all_paths_cached (fuel : nat) (g : graph) (start stop : nat) (path : option (list nat)) (c : pcache)
  : res (list (list nat) * pcache) :=
  match fuel with
  | O => Err OutOfFuel
  | S fuel' =>
    match cache_get (start, stop, path) c with
    | Some v => Ok (v, c)
    | None =>
      let path1 := (match path with None => [] | Some p => p end) ++ [start] in
      '(v, c1) <-
        (if start =? stop then Ok ([path1], c) else
         match gget g start with
         | None => Ok ([], c)
         | Some ns =>
           foldM (fun pc node =>
             if mem node path1 then Ok pc
             else '(newpaths, c') <- find_all_paths_cached fuel' g node stop (Some path1) (snd pc) ;;
                  Ok (fst pc ++ newpaths, c')) ns ([], c)
         end) ;;
      Ok (v, ((start, stop, path), v) :: c1)
    end
  end.

(** BayesianNetwork.is_node_collider (434-442) *)
Definition is_node_collider (gd : graph) (prev this next : nat) : res bool :=
  lp <- of_option KeyError (gget gd prev) ;;
  if mem this lp then ln <- of_option KeyError (gget gd next) ;; Ok (mem this ln) else Ok false.

(** BayesianNetwork.is_path_blocked_by_nodes (414-431): the loop over the inner nodes; [prev] is the
    node before the head of [l]. *)
Fixpoint blocked_loop (gd : graph) (S : list nat) (prev : nat) (l : list nat) : res bool :=
  match l with
  | this :: ((next :: _) as l') =>
    descendants <- of_option KeyError (gget gd this) ;;
    is_collider <- is_node_collider gd prev this next ;;
    let is_conditioned_on := mem this S in
    let has_descendants := existsb (fun d => mem d S) descendants in
    if (if is_collider then negb is_conditioned_on && negb has_descendants else is_conditioned_on)
    then Ok true
    else blocked_loop gd S this l'
  | _ => Ok false
  end.
(** is_path_blocked_by_nodes (BayesianNetwork.py:414-431) *)
Definition is_path_blocked_by_nodes (gd : graph) (path : list nat) (S : list nat) : res bool :=
  match path with [] => Ok false | n :: l => blocked_loop gd S n l end.

(** the loop of d_separated (408-411) *)
Fixpoint dsep_loop (gd : graph) (S : list nat) (paths : list (list nat)) : res bool :=
  match paths with
  | [] => Ok true
  | p :: ps => b <- is_path_blocked_by_nodes gd p S ;; if b then dsep_loop gd S ps else Ok false
  end.

(** The network object: its two graphs and the memo of the path search. [BayesianNetwork.py:32-42, 476] *)
Record bn := { graph_d : graph; graph_u : graph; memo : pcache }.

(** find_all_undirected_paths (449-451) *)
Definition find_all_undirected_paths (start stop : nat) (b : bn) (fuel : nat) : res (list (list nat) * bn) :=
  '(v, c) <- find_all_paths_cached fuel (graph_u b) start stop None (memo b) ;;
  Ok (v, {| graph_d := graph_d b; graph_u := graph_u b; memo := c |}).

(** BayesianNetwork.d_separated (404-411); conditionally_independent (400-401) swaps the arguments *)
Definition d_separated (x : nat) (S : list nat) (y : nat) (b : bn) (fuel : nat) : res (bool * bn) :=
  '(paths, b') <- find_all_undirected_paths x y b fuel ;;
  r <- dsep_loop (graph_d b) S paths ;;
  Ok (r, b').
(** conditionally_independent (BayesianNetwork.py:400-401) *)
Definition conditionally_independent (x y : nat) (S : list nat) (b : bn) (fuel : nat) : res (bool * bn) :=
  d_separated x S y b fuel.

(** `b.from_directed_graph(g)` on an existing object: replaces the graphs, not the memo [BayesianNetwork.py:364-397] *)
Definition set_directed_graph (order : list nat) (g : graph) (b : bn) : bn :=
  let '(d, u) := from_directed_graph order g in {| graph_d := d; graph_u := u; memo := memo b |}.
(** `BayesianNetwork(name)`: no memo entries for a new object [BayesianNetwork.py:32-42] *)
Definition new_bn (order : list nat) (g : graph) : bn :=
  let '(d, u) := from_directed_graph order g in {| graph_d := d; graph_u := u; memo := [] |}.

(** ** find_all_paths_nonrecursive (495-528) as a state machine.
    [visited] is a set; [nodestack] and [indexstack] are kept reversed (head = top). *)
Record nrstate := { visited : list nat; nodestack : list nat; indexstack : list nat; current : nat; idx : nat }.
(** one turn of the loop of BayesianNetwork.py:495-528 *)
Inductive nrstep := Stop | Go (s : nrstate) | Yield (p : list nat) (s : nrstate) | Fail (e : pyerr).
(** `while i < len(neighbors) and neighbors[i] in visited: i += 1` (511) *)
Fixpoint skip_visited (vis : list nat) (ns : list nat) (i : nat) : nat :=
  match ns with
  | [] => i
  | n :: ns' => if mem n vis then skip_visited vis ns' (S i) else i
  end.
(** one turn of the loop (BayesianNetwork.py:495-528) *)
Definition nr_step (g : graph) (stop : nat) (s : nrstate) : nrstep :=
  match gget g (current s) with
  | None => Fail KeyError
  | Some ns =>
    let i := skip_visited (visited s) (skipn (idx s) ns) (idx s) in
    match nth_error ns i with
    | None =>
      let vis := List.remove Nat.eq_dec (current s) (visited s) in
      match nodestack s, indexstack s with
      | [], _ => Stop
      | c :: ss, j :: js => Go {| visited := vis; nodestack := ss; indexstack := js; current := c; idx := j |}
      | _ :: _, [] => Fail IndexError
      end
    | Some n =>
      if n =? stop
      then Yield (rev (nodestack s) ++ [current s; stop])
             {| visited := visited s; nodestack := nodestack s; indexstack := indexstack s; current := current s; idx := S i |}
      else Go {| visited := n :: visited s; nodestack := current s :: nodestack s; indexstack := S i :: indexstack s;
                 current := n; idx := 0 |}
    end
  end.
(** the loop (BayesianNetwork.py:495-528) *)
Fixpoint nr_run (fuel : nat) (g : graph) (stop : nat) (s : nrstate) (acc : list (list nat)) : res (list (list nat)) :=
  match fuel with
  | O => Err OutOfFuel
  | S f => match nr_step g stop s with
           | Stop => Ok acc
           | Fail e => Err e
           | Go s' => nr_run f g stop s' acc
           | Yield p s' => nr_run f g stop s' (acc ++ [p])
           end
  end.
(** `list(find_all_paths_nonrecursive(graph, start, end))` [BayesianNetwork.py:495-528] *)
Definition find_all_paths_nonrecursive (g : graph) (start stop : nat) (fuel : nat) : res (list (list nat)) :=
  nr_run fuel g stop {| visited := [start]; nodestack := []; indexstack := []; current := start; idx := 0 |} [].
