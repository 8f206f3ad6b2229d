(** Model of a finalised BayesianNetwork object over its lifetime (mbtk/structures/BayesianNetwork.py:
    151-228, 277-315, 564-614, 645-742): the results kept by functools.cache, the sampling tables made by
    probdist.finalize, and the assignments a user may make to `probdist.probabilities`.

    Simplifications:
    - those of BN_Model (names and values are naturals, a node is referred to by its name, rolls are
      arguments, fuel bounds the recursions);
    - the caches of functions that depend on the structure of the network only (variable_node_names,
      variable_nodes_index, get_subnetwork_node_IDs) are not kept: the structure does not change here;
    - arguments of cached functions are compared as given (`tuple` of IDs, call form); Python also
      identifies 1 with True;
    - should the probdist.finalize of a subnetwork fail, the nodes before the failing one have been
      given new sampling tables; the order of the nodes is that of the model's lists, in Python that of a set. *)
From Coq Require Import Reals.
From Verif Require Import Base Key_Model PMF_Model Graph_Model BN_Model.
Open Scope nat_scope.

(** functools.cache of VariableNode.probability_of_value, of every node: (node, value, conditioning
    values) -> result [BayesianNetwork.py:610-614] *)
Definition memo := list ((nat * nat * key) * R).
(** equality of cache keys [BayesianNetwork.py:610-614] *)
Definition memo_eqb (a b : nat * nat * key) : bool :=
  (Nat.eqb (fst (fst a)) (fst (fst b)) && Nat.eqb (snd (fst a)) (snd (fst b)) && key_eqb (snd a) (snd b))%bool.
(** probability_of_value through its cache: a hit answers the stored number; a failure is not stored
    (610-614) *)
Definition cached_probability (n : node) (v : nat) (k : key) (m : memo) : res R * memo :=
  match assoc memo_eqb (nname n, v, k) m with
  | Some r => (Ok r, m)
  | None => match probability_of_value n v k with
            | Ok r => (Ok r, m ++ [((nname n, v, k), r)])
            | Err e => (Err e, m)
            end
  end.
(** a `for` loop that may raise and changes the cache as it goes [BayesianNetwork.py:178-184] *)
Fixpoint fold_cached {A B} (f : B -> A -> memo -> res B * memo) (l : list A) (b : B) (m : memo) : res B * memo :=
  match l with
  | [] => (Ok b, m)
  | x :: l' => match f b x m with (Ok b', m') => fold_cached f l' b' m' | (Err e, m') => (Err e, m') end
  end.
(** `if len(conditioning_values) == 0: conditioning_values = '<unconditioned>'` (BayesianNetwork.py:180-181) *)
Definition cond_key (cv : list nat) : key := match cv with [] => None | _ => Some cv end.
(** joint_values_and_probabilities (161-187), asking the nodes through their caches *)
Fixpoint cached_joint_values (fuel : nat) (b : bn) (as_indices : bool) (vp : list (pyobj * R)) (cur : sample) (p : R) (m : memo)
  : res (list (pyobj * R) * sample) * memo :=
  match fuel with
  | O => (Err OutOfFuel, m)
  | S fuel' =>
    if length cur =? length (order_nodes b) then
      (cur' <- (if as_indices then sample_values_to_indices b cur else Ok cur) ;;
       l <- sample_as_list b cur' ;;
       Ok (assoc_set pyobj_eqb (tuple_key l) p vp, cur), m)
    else
      match (v <- of_option IndexError (nth_error (order_nodes b) (length cur)) ;; get_node (variable_nodes b) v) with
      | Err e => (Err e, m)
      | Ok n =>
        match fold_cached (fun st value m =>
                match conditioning_values n (snd st) with
                | Err e => (Err e, m)
                | Ok cv =>
                  match cached_probability n value (cond_key cv) m with
                  | (Err e, m') => (Err e, m')
                  | (Ok q, m') => cached_joint_values fuel' b as_indices (fst st) (assoc_set Nat.eqb (nname n) value (snd st)) (p * q)%R m'
                  end
                end) (nvalues n) (vp, cur) m with
        | (Err e, m') => (Err e, m')
        | (Ok st, m') => (cur' <- sdel (nname n) (snd st) ;; Ok (fst st, cur'), m')
        end
      end
  end.
(** create_joint_pmf when its own cache has no answer (151-157) *)
Definition cached_joint_pmf (fuel : nat) (b : bn) (as_indices : bool) (m : memo) : res pmf * memo :=
  if finalized b then
    match cached_joint_values fuel b as_indices [] [] 1%R m with
    | (Err e, m') => (Err e, m')
    | (Ok st, m') => (Ok {| probabilities := fst st; variableIDs := map Z.of_nat (bn_IDs b); variable_IDs := None |}, m')
    end
  else (Err RuntimeError, m).

(** node.probdist.probabilities = d [BayesianNetwork.py:645-665] *)
Definition with_probs (n : node) (d : list (key * list R)) : node :=
  {| nname := nname n; nID := nID n; nvalues := nvalues n; nparents := nparents n; nprobs := d |}.
(** the network with other node objects [BayesianNetwork.py:30-43] *)
Definition with_nodes (b : bn) (ns : list node) : bn :=
  {| variable_nodes := ns; names_cache := names_cache b; order_names := order_names b; order_nodes := order_nodes b;
     by_ID := by_ID b; bn_IDs := bn_IDs b; graph_d := graph_d b; graph_u := graph_u b;
     joint_pmf_size := joint_pmf_size b; finalized := finalized b |}.
(** the nodes [ns] with the tables which the nodes [src] of the same names have now: copy.copy of a node
    shares its probdist (216-228) *)
Definition overlay (src ns : list node) : list node :=
  map (fun n => match find_node src (nname n) with Some s => with_probs n (nprobs s) | None => n end) ns.

(** the ways to write a call of create_joint_pmf: no argument, positional, keyword; functools.cache
    keeps them apart [BayesianNetwork.py:151-153] *)
Inductive form := FDefault | FPositional (as_indices : bool) | FKeyword (as_indices : bool).
(** what values_as_indices is for each (BayesianNetwork.py:151-153) *)
Definition form_flag (f : form) : bool := match f with FDefault => true | FPositional i => i | FKeyword i => i end.
(** equality of call forms in the cache (BayesianNetwork.py:151-153) *)
Definition form_eqb (a b : form) : bool :=
  match a, b with
  | FDefault, FDefault => true
  | FPositional i, FPositional j => Bool.eqb i j
  | FKeyword i, FKeyword j => Bool.eqb i j
  | _, _ => false
  end.

(** a subnetwork kept by get_subnetwork's cache: its structure, the caches of its own nodes, and its
    joint PMF if create_joint_pmf() was called on it (190-213) *)
Record sub := { sub_net : bn; sub_memo : memo; sub_joint : option nat }.
(** A BayesianNetwork object and the PMF objects it has handed out.  [net]: structure and current
    tables; [frozen]: nodes with the tables from which the cumulative probabilities were last made;
    PMF objects are positions of [heap]. [BayesianNetwork.py:30-43, 151-213, 610-614, 686-696] *)
Record obj := { net : bn; frozen : list node; pov_memo : memo; joints : list (form * nat);
  subs : list (list nat * sub); partials : list (list nat * nat); heap : list pmf }.
(** the object just after its finalize (277-299) *)
Definition new_obj (b : bn) : obj :=
  {| net := b; frozen := variable_nodes b; pov_memo := []; joints := []; subs := []; partials := []; heap := [] |}.

(** What a user can do with the object.  [Edit v k row]: `bn.variable_nodes[v].probdist.probabilities[k] = row`;
    [Zeros r]: remove_zeros() on a PMF object that was handed out (PMF.py:69-75).
    [BayesianNetwork.py:69-95, 151-213, 610-614] *)
Inductive op :=
| Pov (v value : nat) (k : key)
| Joint (f : form)
| Subnetwork (ids : list nat)
| Partial (ids : list nat)
| Sample (as_indices : bool) (rolls : list R)
| Edit (v : nat) (k : key) (row : list R)
| Zeros (r : nat).
(** what is seen [BayesianNetwork.py:69-95, 151-213, 610-614] *)
Inductive answer :=
| Number (x : res R)
| Table (r : res nat)
| Network (b : res bn)
| Drawn (s : res (sample * list R))
| Done (u : res unit).

(** the nodes get_subnetwork puts into the new network (204-228) *)
Definition subnetwork_nodes (fuel : nat) (b : bn) (ids : list nat) : res (list node) :=
  ids <- get_nodes_by_ID b ids ;;
  ids <- get_subnetwork_node_IDs fuel b ids ;;
  mapM (fun id => v <- of_option KeyError (assoc Nat.eqb id (by_ID b)) ;; get_node (variable_nodes b) v) ids.
(** the names of the nodes whose cumulative tables are made anew by the first loop of finalize
    (278-279, 686-689): all, or those up to the first failure *)
Fixpoint refrozen (all ns : list node) : list nat :=
  match ns with
  | [] => []
  | n :: ns' => nname n :: match index_conditioning all n with Ok _ => refrozen all ns' | Err _ => [] end
  end.
(** new cumulative tables for the nodes named (BayesianNetwork.py:686-696) *)
Definition refreeze (names : list nat) (live old : list node) : list node :=
  map (fun n => if mem (nname n) names then match find_node live (nname n) with Some s => with_probs n (nprobs s) | None => n end else n) old.
(** equality of tuples of IDs [BayesianNetwork.py:190-206] *)
Definition ids_eqb := nats_eqb.

(** get_subnetwork (204-213) *)
Definition ask_subnetwork (fuel : nat) (o : obj) (ids : list nat) : res sub * obj :=
  match assoc ids_eqb ids (subs o) with
  | Some s => (Ok s, o)
  | None =>
    match subnetwork_nodes fuel (net o) ids with
    | Err e => (Err e, o)
    | Ok ns =>
      let fz := refreeze (refrozen ns ns) (variable_nodes (net o)) (frozen o) in
      match finalize fuel (new_bn ns) with
      | Err e => (Err e, {| net := net o; frozen := fz; pov_memo := pov_memo o; joints := joints o; subs := subs o; partials := partials o; heap := heap o |})
      | Ok b =>
        let s := {| sub_net := b; sub_memo := []; sub_joint := None |} in
        (Ok s, {| net := net o; frozen := fz; pov_memo := pov_memo o; joints := joints o;
                  subs := assoc_set ids_eqb ids s (subs o); partials := partials o; heap := heap o |})
      end
    end
  end.
(** the network a kept subnetwork is now: its nodes share the tables of the object's nodes (216-228) *)
Definition sub_now (o : obj) (s : sub) : bn := with_nodes (sub_net s) (overlay (variable_nodes (net o)) (variable_nodes (sub_net s))).
(** subnetwork.create_joint_pmf() (190-194, 151-157) *)
Definition ask_sub_joint (fuel : nat) (o : obj) (ids : list nat) (s : sub) : res nat * obj :=
  match sub_joint s with
  | Some r => (Ok r, o)
  | None =>
    match cached_joint_pmf fuel (sub_now o s) true (sub_memo s) with
    | (Err e, m) =>
      (Err e, {| net := net o; frozen := frozen o; pov_memo := pov_memo o; joints := joints o;
         subs := assoc_set ids_eqb ids {| sub_net := sub_net s; sub_memo := m; sub_joint := None |} (subs o); partials := partials o; heap := heap o |})
    | (Ok P, m) =>
      (Ok (length (heap o)), {| net := net o; frozen := frozen o; pov_memo := pov_memo o; joints := joints o;
         subs := assoc_set ids_eqb ids {| sub_net := sub_net s; sub_memo := m; sub_joint := Some (length (heap o)) |} (subs o);
         partials := partials o; heap := heap o ++ [P] |})
    end
  end.
(** the contents of a PMF object [PMF.py:17-29] *)
Definition content (o : obj) (r : nat) : pmf := nth r (heap o) empty_pmf.
(** create_partial_joint_pmf (190-201): without variables to sum over it hands out the subnetwork's PMF itself *)
Definition ask_partial (iterate : list Z -> list Z) (fuel : nat) (o : obj) (ids : list nat) : res nat * obj :=
  match assoc ids_eqb ids (partials o) with
  | Some r => (Ok r, o)
  | None =>
    if finalized (net o) then
      match ask_subnetwork fuel o ids with
      | (Err e, o1) => (Err e, o1)
      | (Ok s, o1) =>
        match ask_sub_joint fuel o1 ids s with
        | (Err e, o2) => (Err e, o2)
        | (Ok r, o2) =>
          let P := content o2 r in
          match iterate (filter (fun i => negb (existsb (Z.eqb i) (map Z.of_nat ids))) (variableIDs P)) with
          | [] => (Ok r, {| net := net o2; frozen := frozen o2; pov_memo := pov_memo o2; joints := joints o2; subs := subs o2;
                            partials := partials o2 ++ [(ids, r)]; heap := heap o2 |})
          | over =>
            match foldM sum_over over P with
            | Err e => (Err e, o2)
            | Ok Q => (Ok (length (heap o2)), {| net := net o2; frozen := frozen o2; pov_memo := pov_memo o2; joints := joints o2; subs := subs o2;
                            partials := partials o2 ++ [(ids, length (heap o2))]; heap := heap o2 ++ [Q] |})
            end
          end
        end
      end
    else (Err RuntimeError, o)
  end.
(** create_joint_pmf (151-157) *)
Definition ask_joint (fuel : nat) (o : obj) (f : form) : res nat * obj :=
  match assoc form_eqb f (joints o) with
  | Some r => (Ok r, o)
  | None =>
    match cached_joint_pmf fuel (net o) (form_flag f) (pov_memo o) with
    | (Err e, m) => (Err e, {| net := net o; frozen := frozen o; pov_memo := m; joints := joints o; subs := subs o; partials := partials o; heap := heap o |})
    | (Ok P, m) => (Ok (length (heap o)), {| net := net o; frozen := frozen o; pov_memo := m; joints := joints o ++ [(f, length (heap o))];
                      subs := subs o; partials := partials o; heap := heap o ++ [P] |})
    end
  end.
(** bn.variable_nodes[v].probability_of_value(value, k) (610-614) *)
Definition ask_probability (o : obj) (v value : nat) (k : key) : res R * obj :=
  match get_node (variable_nodes (net o)) v with
  | Err e => (Err e, o)
  | Ok n => let '(x, m) := cached_probability n value k (pov_memo o) in
            (x, {| net := net o; frozen := frozen o; pov_memo := m; joints := joints o; subs := subs o; partials := partials o; heap := heap o |})
  end.
(** probdist.probabilities[k] = row, seen by the network and by every subnetwork (645-665) *)
Definition edit_nodes (v : nat) (k : key) (row : list R) (ns : list node) : list node :=
  map (fun n => if Nat.eqb (nname n) v then with_probs n (assoc_set key_eqb k row (nprobs n)) else n) ns.
(** remove_zeros on an object of the heap (PMF.py:69-75) *)
Fixpoint set_nth {A} (i : nat) (x : A) (l : list A) : list A :=
  match l, i with [], _ => [] | _ :: l', O => x :: l' | y :: l', S i' => y :: set_nth i' x l' end.

(** one request [BayesianNetwork.py:69-95, 151-213, 610-614] *)
Definition step (iterate : list Z -> list Z) (fuel : nat) (o : obj) (a : op) : answer * obj :=
  match a with
  | Pov v value k => let '(x, o') := ask_probability o v value k in (Number x, o')
  | Joint f => let '(x, o') := ask_joint fuel o f in (Table x, o')
  | Subnetwork ids => let '(x, o') := ask_subnetwork fuel o ids in (Network (s <- x ;; Ok (sub_now o' s)), o')
  | Partial ids => let '(x, o') := ask_partial iterate fuel o ids in (Table x, o')
  | Sample ai rolls => (Drawn (bn_sample (with_nodes (net o) (frozen o)) ai rolls), o)
  | Edit v k row =>
    match find_node (variable_nodes (net o)) v with
    | None => (Done (Err KeyError), o)
    | Some _ => (Done (Ok tt), {| net := with_nodes (net o) (edit_nodes v k row (variable_nodes (net o))); frozen := frozen o; pov_memo := pov_memo o;
                    joints := joints o; subs := subs o; partials := partials o; heap := heap o |})
    end
  | Zeros r =>
    (Done (Ok tt), {| net := net o; frozen := frozen o; pov_memo := pov_memo o; joints := joints o; subs := subs o; partials := partials o;
                      heap := set_nth r (remove_zeros (content o r)) (heap o) |})
  end.
(** a sequence of requests: the answers, and the object afterwards [BayesianNetwork.py:30-315] *)
Fixpoint run (iterate : list Z -> list Z) (fuel : nat) (o : obj) (ops : list op) : list answer * obj :=
  match ops with
  | [] => ([], o)
  | a :: ops' => let '(x, o1) := step iterate fuel o a in let '(xs, o2) := run iterate fuel o1 ops' in (x :: xs, o2)
  end.
