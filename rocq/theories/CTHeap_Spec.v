(** Vocabulary: what a reference shows, which objects it is made of, and the counts of a tree by path. *)
From Verif Require Import Base AD_Model CTHeap_Model.
Open Scope Z_scope.

(** [reads h l t fp]: looking at the object [l] and following all references one sees the tree [t],
    made of the objects [fp] (one entry per place where an object is used) *)
Inductive reads (h : heap) : ref -> ctnode -> list ref -> Prop :=
| reads_leaf l k v n : nth_error h l = Some (CN k v n None) -> reads h l (CT k v n None) [l]
| reads_node l k v n d ds fps : nth_error h l = Some (CN k v n (Some d)) -> reads_all h d ds fps ->
    reads h l (CT k v n (Some ds)) (l :: fps)
with reads_all (h : heap) : list (Z * ref) -> list (Z * ctnode) -> list ref -> Prop :=
| reads_nil : reads_all h [] [] []
| reads_cons x c d t ds fp fps : reads h c t fp -> reads_all h d ds fps ->
    reads_all h ((x, c) :: d) ((x, t) :: ds) (fp ++ fps).

(** a tree no object of which is used twice *)
Definition owns (h : heap) (l : ref) (t : ctnode) (fp : list ref) : Prop := reads h l t fp /\ NoDup fp.
Definition disjoint (a b : list ref) : Prop := forall x, In x a -> ~ In x b.

(** the number of nodes on the longest path *)
Fixpoint height (t : ctnode) : nat :=
  match t with CT _ _ _ ch =>
    Datatypes.S (match ch with None => O | Some d => (fix go (l : list (Z * ctnode)) := match l with [] => O | (_, c) :: l' => Nat.max (height c) (go l') end) d end)
  end.

(** the node reached by following the given keys *)
Fixpoint at_path (t : ctnode) (p : list Z) : option ctnode :=
  match p with
  | [] => Some t
  | x :: p' => match ct_children t with
               | None => None
               | Some d => match assoc Z.eqb x d with None => None | Some c => at_path c p' end
               end
  end.
Definition keys (t : ctnode) : option (list Z) := option_map (map fst) (ct_children t).

(** every child is stored under its own value, once; a node with a dictionary has a child *)
Inductive well_keyed : ctnode -> Prop :=
| wk k v n ch : (forall d, ch = Some d -> d <> [] /\ NoDup (map fst d) /\ Forall (fun xc => fst xc = ct_value (snd xc) /\ well_keyed (snd xc)) d) ->
    well_keyed (CT k v n ch).

(** [r] is [a] with the counts of its leaves combined with the counts found at the same paths in
    [b]; what [b] does not have stays, what only [b] has is ignored *)
Definition combination (op : Z -> Z -> Z) (a b r : ctnode) : Prop :=
  forall p, match at_path a p with
  | None => at_path r p = None
  | Some na => exists nr, at_path r p = Some nr /\ ct_value nr = ct_value na /\ keys nr = keys na /\
      (ct_children na = None ->
         ct_count nr = match at_path b p with
                       | None => ct_count na
                       | Some nb => match ct_count na, ct_count nb with Some x, Some y => Some (op x y) | _, _ => None end
                       end)
  end.

(** wherever both trees have a node the counts, or the dictionaries, needed are there *)
Definition combinable (a b : ctnode) : Prop :=
  forall p na nb, at_path a p = Some na -> at_path b p = Some nb ->
    match ct_children na with None => ct_count na <> None /\ ct_count nb <> None | Some _ => ct_children nb <> None end.

(** the object reached by following the given keys *)
Fixpoint at_ref (h : heap) (l : ref) (p : list Z) : option ref :=
  match p with
  | [] => Some l
  | x :: p' => match nth_error h l with
               | Some (CN _ _ _ (Some d)) => match assoc Z.eqb x d with None => None | Some c => at_ref h c p' end
               | _ => None
               end
  end.
(** after [a.sum(b)] gave [r]: at the paths which [b] has too, [r] has a new object; at the other
    paths of [a] it has the very object of [a] *)
Definition shares (h : heap) (a b : ref) (h' : heap) (r : ref) : Prop :=
  forall p, match at_ref h a p with
  | None => at_ref h' r p = None
  | Some x => match at_ref h b p with
              | Some _ => exists y, at_ref h' r p = Some y /\ (length h <= y)%nat
              | None => at_ref h' r p = Some x
              end
  end.
