(** Model of the network part of mbtk/structures/BayesianNetwork.py (lines 20-315, 532-742).

    Simplifications:
    - floating point numbers are exact reals;
    - names and values (strings) are naturals; Python's alphabetical order on the finitely many
      names of a network is the order of these naturals;
    - a VariableNode object is referred to by its name: `variable_nodes[name].name == name`, and the
      objects in `conditioning_variable_nodes` are those of the network (both as
      BIFTransformerNetwork.network_definition and get_subnetwork build them);
    - a random roll is an argument: sampling takes the list of future results of random.random();
    - results memoised by functools.cache are functions of what they are computed from; the one cache
      that can be stale, that of variable_node_names, is kept as a field;
    - `properties` and printing are left out. *)
From Coq Require Import Reals.
From Verif Require Import Base Key_Model PMF_Model Graph_Model.
Open Scope nat_scope.

(** A key of a probability table: None is the string '<unconditioned>', Some a tuple of values. [BayesianNetwork.py:652-665, 730-742] *)
Definition key := option (list nat).
(** == of tuples (dictionary keys of BayesianNetwork.py:652-665) *)
Fixpoint nats_eqb (a b : list nat) : bool :=
  match a, b with [], [] => true | x :: a', y :: b' => (Nat.eqb x y && nats_eqb a' b')%bool | _, _ => false end.
(** == of keys (dictionary keys of BayesianNetwork.py:652-665) *)
Definition key_eqb (a b : key) : bool :=
  match a, b with None, None => true | Some x, Some y => nats_eqb x y | _, _ => false end.

(** VariableNode (532-561) with its ProbabilityDistributionOfVariableNode (645-665).
    [nID]: None is -1.  [nparents]: the keys of conditioning_variable_nodes, in order. *)
Record node := { nname : nat; nID : option nat; nvalues : list nat; nparents : list nat; nprobs : list (key * list R) }.
(** node.ID = i (BayesianNetwork.py:287-292) *)
Definition with_ID (n : node) (i : nat) : node :=
  {| nname := nname n; nID := Some i; nvalues := nvalues n; nparents := nparents n; nprobs := nprobs n |}.

(** BayesianNetwork (30-43) *)
Record bn := {
  variable_nodes : list node;              (* dict by name, insertion order *)
  names_cache : option (list nat);         (* functools.cache of variable_node_names *)
  order_names : list nat;                  (* variable_node_names__sampling_order *)
  order_nodes : list nat;                  (* variable_nodes__sampling_order, objects by name *)
  by_ID : list (nat * nat);                (* variable_nodes_by_ID: ID -> object (by name) *)
  bn_IDs : list nat;                       (* variable_IDs *)
  graph_d : graph; graph_u : graph;
  joint_pmf_size : nat;
  finalized : bool }.
(** BayesianNetwork.__init__ (BayesianNetwork.py:32-42) *)
Definition new_bn (nodes : list node) : bn :=
  {| variable_nodes := nodes; names_cache := None; order_names := []; order_nodes := []; by_ID := []; bn_IDs := [];
     graph_d := []; graph_u := []; joint_pmf_size := 0; finalized := false |}.

(** variable_nodes[name] [BayesianNetwork.py:32-42] *)
Definition find_node (ns : list node) (v : nat) : option node := find (fun n => Nat.eqb v (nname n)) ns.
(** variable_nodes[name], KeyError if missing (BayesianNetwork.py:70-95, 303-315) *)
Definition get_node (ns : list node) (v : nat) : res node := of_option KeyError (find_node ns v).
(** variable_node_names (50-52) *)
Definition variable_node_names (b : bn) : list nat :=
  match names_cache b with Some l => l | None => sort_nat (map nname (variable_nodes b)) end.
(** `list.index` [BayesianNetwork.py:56-57, 699-709] *)
Fixpoint index_nat (x : nat) (l : list nat) : option nat :=
  match l with [] => None | y :: l' => if Nat.eqb x y then Some O else option_map S (index_nat x l') end.
(** variable_nodes_index (55-57) *)
Definition variable_nodes_index (b : bn) (v : nat) : res nat := of_option ValueError (index_nat v (variable_node_names b)).
(** finalization_required (20-28) *)
Definition guarded {A} (b : bn) (r : res A) : res A := if finalized b then r else Err RuntimeError.

(** ** finalize (277-315) *)
(** detect_optimal_variable_sampling_order (303-315): the inner `for`, then the `while` *)
Definition order_pass (ns : list node) (names ord : list nat) : res (list nat) :=
  foldM (fun ord v => n <- get_node ns v ;;
    Ok (if (Nat.eqb (length (nparents n)) 0 || forallb (fun p => mem p ord) (nparents n))%bool then ord ++ [v] else ord)) names ord.
(** the loop of detect_optimal_variable_sampling_order (BayesianNetwork.py:303-315) *)
Fixpoint order_loop (fuel : nat) (ns : list node) (names ord : list nat) : res (list nat) :=
  match names with
  | [] => Ok ord
  | _ => match fuel with
         | O => Err OutOfFuel
         | S fuel' =>
           ord' <- order_pass ns names ord ;;
           order_loop fuel' ns (filter (fun v => negb (mem v ord')) names) ord'
         end
  end.
(** detect_optimal_variable_sampling_order (BayesianNetwork.py:303-315) *)
Definition detect_order (fuel : nat) (b : bn) : res (list nat) := order_loop fuel (variable_nodes b) (variable_node_names b) [].

(** ProbabilityDistributionOfVariableNode.create_cummulative_probabilities (692-696): one row *)
Fixpoint accumulate (acc : R) (row : list R) : list R :=
  match row with [] => [] | p :: row' => (acc + p)%R :: accumulate (acc + p)%R row' end.
(** create_cummulative_probabilities (BayesianNetwork.py:692-696) *)
Definition cumulative (row : list R) : list R := accumulate 0 row.
(** create_probabilities_with_indexed_conditioning (699-709), called by probdist.finalize (686-689):
    only whether it fails matters; its result is used nowhere.  (A key of the dictionary that is the
    string '<unconditioned>' switches it off.) *)
Definition index_conditioning (ns : list node) (n : node) : res (list (list nat)) :=
  if existsb (fun kr => match fst kr with None => true | _ => false end) (nprobs n) then Ok []
  else mapM (fun kr => match fst kr with
    | None => Ok []
    | Some vals =>
      mapM (fun iv => p <- of_option IndexError (nth_error (nparents n) (fst iv)) ;;
                      pn <- get_node ns p ;; of_option ValueError (index_nat (snd iv) (nvalues pn)))
        (combine (seq 0 (length vals)) vals)
    end) (nprobs n).

(** the loop of finalize that gives out IDs (287-292) *)
Definition assign_ID (b : bn) (iv : nat * nat) : res bn :=
  n <- get_node (variable_nodes b) (snd iv) ;;
  let id := match nID n with None => fst iv | Some i => i end in
  Ok {| variable_nodes := map (fun m => if Nat.eqb (nname m) (snd iv) then with_ID m id else m) (variable_nodes b);
        names_cache := names_cache b; order_names := order_names b; order_nodes := order_nodes b;
        by_ID := assoc_set Nat.eqb id (snd iv) (by_ID b); bn_IDs := bn_IDs b ++ [id];
        graph_d := graph_d b; graph_u := graph_u b; joint_pmf_size := joint_pmf_size b; finalized := finalized b |}.
(** node IDs with the IDs of their parents, for as_directed_graph and as_undirected_graph [node.ID (BayesianNetwork.py:318-361)] *)
Definition id_of (ns : list node) (v : nat) : nat := match find_node ns v with Some n => match nID n with Some i => i | None => 0 end | None => 0 end.
(** BayesianNetwork.py:318-361 *)
Definition id_network (ns : list node) : network := map (fun n => (id_of ns (nname n), map (id_of ns) (nparents n))) ns.
(** calculate_joint_pmf_size (143-147), total_possible_values_count (270-274) *)
Definition calculate_joint_pmf_size (ns : list node) : nat := fold_left (fun s n => s * length (nvalues n)) ns 1.
(** finalize (277-299) *)
Definition finalize (fuel : nat) (b : bn) : res bn :=
  _ <- mapM (index_conditioning (variable_nodes b)) (variable_nodes b) ;;
  let names := variable_node_names b in
  ord <- (match order_names b with [] => detect_order fuel b | l => Ok l end) ;;
  _ <- mapM (get_node (variable_nodes b)) ord ;;
  b' <- foldM assign_ID (combine (seq 0 (length names)) names)
    {| variable_nodes := variable_nodes b; names_cache := Some names; order_names := ord; order_nodes := order_nodes b ++ ord;
       by_ID := by_ID b; bn_IDs := bn_IDs b; graph_d := []; graph_u := []; joint_pmf_size := 0; finalized := finalized b |} ;;
  Ok {| variable_nodes := variable_nodes b'; names_cache := names_cache b'; order_names := order_names b'; order_nodes := order_nodes b';
        by_ID := by_ID b'; bn_IDs := bn_IDs b';
        graph_d := as_directed_graph (id_network (variable_nodes b')); graph_u := as_undirected_graph (id_network (variable_nodes b'));
        joint_pmf_size := calculate_joint_pmf_size (variable_nodes b'); finalized := true |}.

(** ** Sampling *)
(** a sample: dict name -> value [BayesianNetwork.py:70-95] *)
Definition sample := list (nat * nat).
(** sample[name] (BayesianNetwork.py:633-637) *)
Definition sget (s : sample) (v : nat) : res nat := of_option KeyError (assoc Nat.eqb v s).
(** get_conditioning_values_from_partial_sample (633-637) *)
Definition conditioning_values (n : node) (s : sample) : res (list nat) := mapM (sget s) (nparents n).
(** sample_roll (737-742): None when no prefix reaches the roll *)
Fixpoint sample_roll (roll : R) (cum : list R) : option nat :=
  match cum with [] => None | c :: cum' => if Rle_dec roll c then Some O else option_map S (sample_roll roll cum') end.
(** ProbabilityDistributionOfVariableNode.sample (730-734) *)
Definition probdist_sample (n : node) (k : key) (roll : R) : res (option nat) :=
  row <- of_option KeyError (assoc key_eqb k (nprobs n)) ;; Ok (sample_roll roll (cumulative row)).
(** VariableNode.sample (564-607).  With recursive sampling the elements of
    get_unsampled_conditioning_variables (617-630) are names, which have no method `sample`. *)
Definition node_sample (n : node) (recursive : bool) (st : sample * list R) : res (sample * list R) :=
  let '(s, rolls) := st in
  if existsb (fun kv => Nat.eqb (nname n) (fst kv)) s then Ok (s, rolls)
  else
    k <- (match nparents n with
          | [] => Ok None
          | _ => if (recursive && negb (forallb (fun p => existsb (fun kv => Nat.eqb p (fst kv)) s) (nparents n)))%bool
                 then Err AttributeError
                 else vals <- conditioning_values n s ;; Ok (Some vals)
          end) ;;
    match rolls with
    | [] => Err OutOfFuel       (* the caller supplies enough rolls *)
    | roll :: rolls' =>
      i <- probdist_sample n k roll ;;
      match i with
      | None => Err TypeError   (* self.values[None] *)
      | Some i => v <- of_option IndexError (nth_error (nvalues n) i) ;; Ok (assoc_set Nat.eqb (nname n) v s, rolls')
      end
    end.
(** sample_values_to_indices (130-140) *)
Definition sample_values_to_indices (b : bn) (s : sample) : res sample :=
  mapM (fun kv => n <- get_node (variable_nodes b) (fst kv) ;; i <- of_option ValueError (index_nat (snd kv) (nvalues n)) ;; Ok (fst kv, i)) s.
(** sample_as_list (98-106) *)
Definition sample_as_list (b : bn) (s : sample) : res (list nat) := guarded b (mapM (sget s) (variable_node_names b)).
(** the `while` loop of sample for a network without sampling order (79-81) *)
Fixpoint sample_while (fuel : nat) (b : bn) (st : sample * list R) : res (sample * list R) :=
  if length (fst st) <? length (variable_nodes b) then
    match fuel with
    | O => Err OutOfFuel
    | S fuel' => st' <- foldM (fun st n => node_sample n true st) (variable_nodes b) st ;; sample_while fuel' b st'
    end
  else Ok st.
(** sample (69-95), without and with `as_list` *)
Definition bn_sample (b : bn) (as_indices : bool) (rolls : list R) : res (sample * list R) :=
  guarded b (
    st <- (match order_nodes b with
           | [] => sample_while (S (length (variable_nodes b))) b ([], rolls)
           | ord => foldM (fun st v => n <- get_node (variable_nodes b) v ;; node_sample n false st) ord ([], rolls)
           end) ;;
    if as_indices then s <- sample_values_to_indices b (fst st) ;; Ok (s, snd st) else Ok st).
(** sample_as_list (BayesianNetwork.py:99-106) *)
Definition bn_sample_list (b : bn) (as_indices : bool) (rolls : list R) : res (list nat * list R) :=
  st <- bn_sample b as_indices rolls ;; l <- sample_as_list b (fst st) ;; Ok (l, snd st).
(** samples with as_list and values_as_indices (109-115), the rows of sample_matrix (118-127) *)
Fixpoint sample_matrix (b : bn) (n : nat) (rolls : list R) : res (list (list nat) * list R) :=
  match n with
  | O => Ok ([], rolls)
  | S n' => '(row, rolls') <- bn_sample_list b true rolls ;; '(rows, rolls'') <- sample_matrix b n' rolls' ;; Ok (row :: rows, rolls'')
  end.

(** ** Joint probabilities *)
(** VariableNode.probability_of_value (610-614) *)
Definition probability_of_value (n : node) (v : nat) (k : key) : res R :=
  i <- of_option ValueError (index_nat v (nvalues n)) ;;
  row <- of_option KeyError (assoc key_eqb k (nprobs n)) ;;
  of_option IndexError (nth_error row i).
(** `del d[k]` [BayesianNetwork.py:162-187] *)
Definition sdel (v : nat) (s : sample) : res sample :=
  if existsb (fun kv => Nat.eqb v (fst kv)) s then Ok (filter (fun kv => negb (Nat.eqb v (fst kv))) s) else Err KeyError.
(** a tuple of value indices as a key (BayesianNetwork.py:153-187) *)
Definition tuple_key (l : list nat) : pyobj := PTup (map (fun x => PInt (Z.of_nat x)) l).
(** joint_values_and_probabilities (161-187); the dictionaries joint_vp and current_value, which the
    recursion updates in place, are passed on.  Fuel: depth of the recursion. *)
Fixpoint joint_values (fuel : nat) (b : bn) (as_indices : bool) (vp : list (pyobj * R)) (cur : sample) (p : R)
  : res (list (pyobj * R) * sample) :=
  match fuel with
  | O => Err OutOfFuel
  | S fuel' =>
    if length cur =? length (order_nodes b) then
      cur' <- (if as_indices then sample_values_to_indices b cur else Ok cur) ;;
      l <- sample_as_list b cur' ;;
      Ok (assoc_set pyobj_eqb (tuple_key l) p vp, cur)
    else
      v <- of_option IndexError (nth_error (order_nodes b) (length cur)) ;;
      n <- get_node (variable_nodes b) v ;;
      st <- foldM (fun st value =>
              cv <- conditioning_values n (snd st) ;;
              let k := match cv with [] => None | _ => Some cv end in
              q <- probability_of_value n value k ;;
              joint_values fuel' b as_indices (fst st) (assoc_set Nat.eqb (nname n) value (snd st)) (p * q)%R)
            (nvalues n) (vp, cur) ;;
      cur' <- sdel (nname n) (snd st) ;;
      Ok (fst st, cur')
  end.
(** create_joint_pmf (151-157) *)
Definition create_joint_pmf (fuel : nat) (b : bn) (as_indices : bool) : res pmf :=
  guarded b (
    st <- joint_values fuel b as_indices [] [] 1%R ;;
    Ok {| probabilities := fst st; variableIDs := map Z.of_nat (bn_IDs b); variable_IDs := None |}).

(** ** Subnetworks [set union (BayesianNetwork.py:233-248)] *)
Definition union (a b : list nat) : list nat := nodup Nat.eq_dec (a ++ b).
(** get_subnetwork_node_IDs (231-248); sets are duplicate-free lists.  Fuel: depth of the recursion. *)
Fixpoint get_subnetwork_node_IDs (fuel : nat) (b : bn) (ids : list nat) : res (list nat) :=
  match fuel with
  | O => Err OutOfFuel
  | S fuel' => guarded b (
    pss <- mapM (fun id => v <- of_option KeyError (assoc Nat.eqb id (by_ID b)) ;;
                           n <- get_node (variable_nodes b) v ;;
                           mapM (variable_nodes_index b) (nparents n)) ids ;;
    let parents := nodup Nat.eq_dec (concat pss) in
    parents <- (match parents with
                | [] => Ok []
                | _ => anc <- get_subnetwork_node_IDs fuel' b parents ;; Ok (union parents anc)
                end) ;;
    Ok (union ids parents))
  end.
(** get_nodes_by_ID (260-267): `nodes[node.ID] = node` *)
Definition get_nodes_by_ID (b : bn) (ids : list nat) : res (list nat) :=
  guarded b (
    vs <- mapM (fun id => of_option KeyError (assoc Nat.eqb id (by_ID b))) ids ;;
    Ok (nodup Nat.eq_dec (map (id_of (variable_nodes b)) vs))).
(** get_subnetwork, get_subnetwork_nodes (204-228): shallow copies of the nodes, which keep their IDs *)
Definition get_subnetwork (fuel : nat) (b : bn) (variables : list nat) : res bn :=
  ids <- get_nodes_by_ID b variables ;;
  ids <- get_subnetwork_node_IDs fuel b ids ;;
  ns <- mapM (fun id => v <- of_option KeyError (assoc Nat.eqb id (by_ID b)) ;; get_node (variable_nodes b) v) ids ;;
  finalize fuel (new_bn ns).
(** create_partial_joint_pmf (190-201).  [iterate]: the order in which Python iterates over the set
    `variables_to_sum_over`. *)
Definition create_partial_joint_pmf (iterate : list Z -> list Z) (fuel : nat) (b : bn) (variables : list nat) : res pmf :=
  guarded b (
    sub <- get_subnetwork fuel b variables ;;
    P <- create_joint_pmf fuel sub true ;;
    let over := filter (fun i => negb (existsb (Z.eqb i) (map Z.of_nat variables))) (variableIDs P) in
    foldM sum_over (iterate over) P).
