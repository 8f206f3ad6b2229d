(** Specification of what an AD-tree is for: counting rows of the dataset.
    Independent of the tree. *)
From Coq Require Import Reals.
From Verif Require Import Base AD_Model AD_Query_Model.
Open Scope Z_scope.

(** A row agrees with a query iff it holds the requested value in each requested column. *)
Definition row_agrees (q : list (nat * Z)) (row : list Z) : bool :=
  forallb (fun kv => match nth_error row (fst kv) with Some x => x =? snd kv | None => false end) q.

(** The number of rows of the dataset that agree with the query. *)
Definition count_matching (D : dataset) (q : list (nat * Z)) : Z :=
  Z.of_nat (length (filter (row_agrees q) (rows D))).

(** A dataset with a usable description of its columns: rectangular, and for each column a
    non-empty duplicate-free list of values that contains every value occurring in it.
    (DatasetMatrix.get_values_per_column provides numpy.unique of each column.) *)
Record wf_dataset (D : dataset) : Prop := {
  wf_rect : Forall (fun row => length row = ncols D) (rows D);
  wf_vals : forall c, (c < ncols D)%nat -> exists vs,
      colvals D c = Some vs /\ NoDup vs /\ vs <> [] /\
      forall row x, In row (rows D) -> nth_error row c = Some x -> In x vs
}.

(** A query over existing columns; as a Python dict it has distinct keys. *)
Definition wf_query (D : dataset) (q : list (nat * Z)) : Prop :=
  NoDup (map fst q) /\ forall c v, In (c, v) q -> (c < ncols D)%nat.

(** The leaf-list threshold does not turn the root into a leaf. *)
Definition threshold_ok (D : dataset) : Prop := threshold D <= Z.of_nat (length (rows D)).

(** The query that asks for value [vs_i] in column [cols_i] for each i. *)
Definition tuple_query (cols : list nat) (vs : list Z) : list (nat * Z) := combine cols vs.

(** No declared value equals -1. *)
Definition no_minus_one (D : dataset) : Prop :=
  forall c vs, (c < ncols D)%nat -> colvals D c = Some vs -> ~ In (-1) vs.

(** A dictionary of counts over the columns [cols] is exact: it has distinct keys, every stored
    count is the number of rows that show this tuple of values, and no row shows a tuple that is
    not stored. *)
Definition counts_exact (D : dataset) (cols : list nat) (d : list (list Z * option Z)) : Prop :=
  NoDup (map fst d) /\
  (forall key n, In (key, n) d -> length key = length cols /\ n = Some (count_matching D (tuple_query cols key))) /\
  (forall key, length key = length cols -> ~ In key (map fst d) -> count_matching D (tuple_query cols key) = 0).

(** ... for the requested variables in increasing order. *)
Definition counts_exact_for (D : dataset) (vars : list nat) (d : list (list Z * option Z)) : Prop :=
  exists cols, Permutation vars cols /\ StronglySorted lt cols /\ counts_exact D cols d.

(** A call on a tree object that is legal for the dataset, and its only correct answer. *)
Definition wf_call (D : dataset) (c : call) : Prop :=
  match c with
  | CCount q => wf_query D q
  | CCounts vars => vars <> [] /\ NoDup vars /\ forall c, In c vars -> (c < ncols D)%nat
  | CReload => True
  end.
Definition answer_exact (D : dataset) (c : call) (a : answer) : Prop :=
  match c, a with
  | CCount q, ACount n => n = count_matching D q
  | CCounts vars, ACounts d => counts_exact_for D vars d
  | CReload, ANone => True
  | _, _ => False
  end.

(** two queries never ask for different values of the same column *)
Definition consistent (q1 q2 : query) : Prop := forall c v w, In (c, v) q1 -> In (c, w) q2 -> v = w.

Fixpoint rsum (l : list R) : R := match l with [] => 0%R | x :: l' => (x + rsum l')%R end.

(** the empirical probability of a value tuple: the fraction of rows that show it *)
Definition empirical (D : dataset) (cols : list nat) (key : list Z) : R :=
  (IZR (count_matching D (tuple_query cols key)) / INR (length (rows D)))%R.

(** ** Contingency trees as finite maps from value tuples to counts *)
(** all leaves at depth [L], dictionaries keyed by the child's value, no repeated key *)
Inductive ct_ok : nat -> ctnode -> Prop :=
| CTleaf k v n : ct_ok 0 (CT k v (Some n) None)
| CTinner L k v n d : NoDup (map fst d) ->
    Forall (fun xc => ct_value (snd xc) = fst xc /\ ct_ok L (snd xc)) d ->
    ct_ok (S L) (CT k v n (Some d)).

Fixpoint look (t : ctnode) (ks : list Z) {struct ks} : option Z :=
  match ks with
  | [] => match ct_children t with None => ct_count t | Some _ => None end
  | x :: ks' => match ct_children t with
                | None => None
                | Some d => match assoc Z.eqb x d with Some c => look c ks' | None => None end
                end
  end.
Definition look0 t ks : Z := match look t ks with Some n => n | None => 0 end.

(** a contingency tree none of whose inner nodes is empty (every tree made by the code is) *)
Inductive ct_full : ctnode -> Prop :=
| CF k v n ch : (forall d, ch = Some d -> d <> []) ->
    (forall d x c, ch = Some d -> In (x, c) d -> ct_full c) -> ct_full (CT k v n ch).

