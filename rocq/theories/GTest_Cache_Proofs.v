(** CachedStructuralDoF: the pairwise tables, and the cache. *)
From Coq Require Import Reals Lra.
From Verif Require Import Base AD_Model AD_Query_Model AD_Spec Key_Model Key_Spec Key_Proofs PMF_Model PMF_Spec
  Prob_Spec Info_Spec Table_Spec Prob_Proofs PMF_Proofs PMF_Cond_Proofs Info_Proofs PMF_Data_Proofs Table_Proofs SameInfo_Proofs
  MB_Model MB_Cache_Proofs GTest_Model GTest_Spec GTest_Tables_Proofs GTest_DoF_Proofs.
Open Scope Z_scope.

(** ** grouping keys by their z part *)
Notation tup l := (PTup (map PInt l)).
Lemma tup_inj l m : tup l = tup m -> l = m.
Proof. intros H. apply (f_equal leaves) in H. rewrite !leaves_tup, !leaves_list_ints in H. assumption. Qed.
Lemma existsb_pyobj x s : existsb (pyobj_eqb x) s = true <-> In x s.
Proof. rewrite existsb_exists. split; [intros (y & H & E); apply pyobj_eqb_eq in E; subst; assumption|intros H; exists x; split; [assumption|apply pyobj_eqb_refl]]. Qed.
Lemma py_add_in x s y : In y (py_add x s) <-> y = x \/ In y s.
Proof.
  unfold py_add. destruct (existsb (pyobj_eqb x) s) eqn:E.
  - apply existsb_pyobj in E. split; [tauto|]. intros [-> | H]; assumption.
  - rewrite in_app_iff. simpl. intuition.
Qed.
Lemma py_add_nodup x s : NoDup s -> NoDup (py_add x s).
Proof.
  intros H. unfold py_add. destruct (existsb (pyobj_eqb x) s) eqn:E; [assumption|].
  assert (~ In x s) by (intros Hin; apply existsb_pyobj in Hin; congruence).
  apply (Permutation_NoDup (l := x :: s)); [apply Permutation_cons_append|]. constructor; assumption.
Qed.

Section Group.
  Variables fx fy : list Z -> Z.
  Variable fz : list Z -> list Z.
  Definition triple t := (PInt (fx t), PInt (fy t), tup (fz t)).
  Definition grouped_ok (K : list (list Z)) (d : list (pyobj * (list pyobj * list pyobj))) : Prop :=
    NoDup (map fst d) /\ (forall z, In z (map fst d) <-> exists t, In t K /\ z = tup (fz t)) /\
    (forall z xs ys, In (z, (xs, ys)) d -> NoDup xs /\ NoDup ys /\
      (forall x, In x xs <-> exists t, In t K /\ z = tup (fz t) /\ x = PInt (fx t)) /\
      (forall y, In y ys <-> exists t, In t K /\ z = tup (fz t) /\ y = PInt (fy t))).
  Lemma group_step_ok K d t : grouped_ok K d -> grouped_ok (K ++ [t]) (group_step d (triple t)).
  Proof.
    intros (HN & Hk & Hv). unfold group_step, triple.
    set (s := match assoc pyobj_eqb (tup (fz t)) d with Some s => s | None => ([], []) end).
    assert (Hs : NoDup (fst s) /\ NoDup (snd s) /\ (forall x, In x (fst s) <-> exists u, In u K /\ tup (fz t) = tup (fz u) /\ x = PInt (fx u)) /\
                 (forall y, In y (snd s) <-> exists u, In u K /\ tup (fz t) = tup (fz u) /\ y = PInt (fy u))).
    { unfold s. destruct (assoc pyobj_eqb (tup (fz t)) d) as [[xs ys]|] eqn:E.
      - apply kassoc_In in E. exact (Hv _ _ _ E).
      - apply kassoc_None in E. assert (Hno : forall u, In u K -> tup (fz t) = tup (fz u) -> False) by (intros u Hu Eu; apply E, Hk; exists u; split; assumption).
        cbn [fst snd]. repeat split; try constructor; try contradiction; intros (u & Hu & Eu & _); exfalso; eapply Hno; eassumption. }
    clearbody s. destruct s as [xs ys]. cbn [fst snd] in Hs. destruct Hs as (Nx & Ny & Sx & Sy). split; [|split].
    - apply kset_NoDup. assumption.
    - intros z. rewrite kset_keys, Hk. split.
      + intros [-> | (u & Hu & ->)]; [exists t|exists u]; rewrite in_app_iff; simpl; auto.
      + intros (u & Hu & ->). apply in_app_iff in Hu as [Hu|[<- | []]]; [right; eauto|left; reflexivity].
    - intros z xs' ys' Hin.
      pose proof (kset_NoDup (tup (fz t)) (py_add (PInt (fx t)) xs, py_add (PInt (fy t)) ys) d HN) as HN'.
      apply (kassoc_NoDup _ _ _ HN') in Hin. destruct (pyobj_eq_dec z (tup (fz t))) as [-> | Hne].
      + rewrite kset_same in Hin. injection Hin as <- <-. split; [apply py_add_nodup; assumption|]. split; [apply py_add_nodup; assumption|]. split.
        * intros x. rewrite py_add_in, Sx. split.
          -- intros [-> | (u & Hu & Eu & ->)]; [exists t|exists u]; rewrite in_app_iff; simpl; auto.
          -- intros (u & Hu & Eu & ->). apply in_app_iff in Hu as [Hu|[<- | []]]; [right; eauto|left; reflexivity].
        * intros x. rewrite py_add_in, Sy. split.
          -- intros [-> | (u & Hu & Eu & ->)]; [exists t|exists u]; rewrite in_app_iff; simpl; auto.
          -- intros (u & Hu & Eu & ->). apply in_app_iff in Hu as [Hu|[<- | []]]; [right; eauto|left; reflexivity].
      + rewrite kset_other in Hin by assumption. apply kassoc_In in Hin. destruct (Hv _ _ _ Hin) as (Nx' & Ny' & Sx' & Sy'). split; [assumption|]. split; [assumption|].
        split; intros x; [rewrite Sx'|rewrite Sy']; (split; [intros (u & Hu & Eu & ->); exists u; rewrite in_app_iff; auto|]);
          intros (u & Hu & Eu & ->); apply in_app_iff in Hu as [Hu|[<- | []]]; [eauto|congruence|eauto|congruence].
  Qed.
  Lemma group_ok K : grouped_ok K (fold_left group_step (map triple K) []).
  Proof.
    rewrite fold_left_map. assert (H : forall l m d, grouped_ok m d -> grouped_ok (m ++ l) (fold_left (fun d t => group_step d (triple t)) l d)).
    { induction l as [|t l IH]; intros m d Hd; [rewrite app_nil_r; assumption|]. cbn [fold_left]. replace (m ++ t :: l) with ((m ++ [t]) ++ l) by (rewrite <- app_assoc; reflexivity).
      apply IH, group_step_ok, Hd. }
    apply (H K [] []). split; [constructor|]. split; [|intros z xs ys []]. intros z. split; [intros []|intros (t & [] & _)].
  Qed.
  Lemma group_sum K : zsum (map (fun e : pyobj * (list pyobj * list pyobj) => (Z.of_nat (length (fst (snd e))) - 1) * (Z.of_nat (length (snd (snd e))) - 1)) (fold_left group_step (map triple K) []))
    = sdof K (fun t => [fx t]) (fun t => [fy t]) fz.
  Proof.
    destruct (group_ok K) as (HN & Hk & Hv). unfold sdof.
    set (F := fun z => let rs := filter (fun a => eqv (fz a) z) K in (count_distinct (fun t => [fx t]) rs - 1) * (count_distinct (fun t => [fy t]) rs - 1)).
    assert (Hlen : forall z (f : list Z -> Z) (s : list pyobj), NoDup s -> (forall x, In x s <-> exists t, In t K /\ tup z = tup (fz t) /\ x = PInt (f t)) ->
              Z.of_nat (length s) = count_distinct (fun t => [f t]) (filter (fun a => eqv (fz a) z) K)).
    { intros z f s Hn Hs. unfold count_distinct. f_equal. rewrite <- (map_length leaves). apply Permutation_length. apply NoDup_Permutation; [|apply NoDup_nodup|].
      - assert (Hint : forall x, In x s -> exists c, x = PInt c) by (intros x Hx; apply Hs in Hx as (t & _ & _ & ->); eauto).
        clear Hs. induction Hn as [|x s Hx Hn IH]; [constructor|]. simpl. constructor; [|apply IH; intros; apply Hint; right; assumption].
        intros Hin. apply in_map_iff in Hin as (y & E & Hy). destruct (Hint x) as (c & ->); [left; reflexivity|]. destruct (Hint y) as (c' & ->); [right; assumption|].
        simpl in E. injection E as ->. contradiction.
      - intros v. rewrite nodup_In, !in_map_iff. split.
        + intros (x & <- & Hx). apply Hs in Hx as (t & Ht & Ez & ->). exists t. split; [reflexivity|]. apply filter_In. split; [assumption|]. apply eqv_true. symmetry. apply tup_inj. assumption.
        + intros (t & <- & Ht). apply filter_In in Ht as (Ht & Ez). apply eqv_true in Ez. subst z. exists (PInt (f t)). split; [reflexivity|]. apply Hs. eauto. }
    transitivity (zsum (map F (map (fun e => leaves (fst e)) (fold_left group_step (map triple K) [])))).
    - rewrite map_map. apply zsum_ext. intros [z [xs ys]] Hin. cbn [fst snd]. destruct (Hv _ _ _ Hin) as (Nx & Ny & Sx & Sy).
      assert (Hz : exists t, In t K /\ z = tup (fz t)) by (apply Hk; apply (in_map fst) in Hin; exact Hin). destruct Hz as (t & _ & ->).
      unfold F. rewrite leaves_tup, leaves_list_ints. cbv zeta. rewrite (Hlen (fz t) fx xs Nx Sx), (Hlen (fz t) fy ys Ny Sy). reflexivity.
    - apply zsum_perm, Permutation_map. apply NoDup_Permutation; [|apply NoDup_nodup|].
      + assert (Htup : forall z, In z (map fst (fold_left group_step (map triple K) [])) -> exists l, z = tup l) by (intros z Hz; apply Hk in Hz as (t & _ & ->); eauto).
        revert HN Htup. rewrite <- map_map with (f := fst) (g := leaves). generalize (map fst (fold_left group_step (map triple K) [])). intros l HN Htup.
        induction HN as [|x s Hx Hn IH]; [constructor|]. simpl. constructor; [|apply IH; intros; apply Htup; right; assumption].
        intros Hin. apply in_map_iff in Hin as (y & E & Hy). destruct (Htup x) as (c & ->); [left; reflexivity|]. destruct (Htup y) as (c' & ->); [right; assumption|].
        rewrite !leaves_tup, !leaves_list_ints in E. subst. contradiction.
      + intros v. rewrite nodup_In. rewrite <- map_map with (f := fst) (g := leaves). rewrite !in_map_iff. split.
        * intros (z & <- & Hz). apply Hk in Hz as (t & Ht & ->). exists t. rewrite leaves_tup, leaves_list_ints. auto.
        * intros (t & <- & Ht). exists (tup (fz t)). rewrite leaves_tup, leaves_list_ints. split; [reflexivity|]. apply Hk. eauto.
  Qed.
End Group.

(** ** one pair of positions *)
Definition rest_at (n ix iy : nat) : list nat := filter (fun iz => negb (iz =? ix)%nat && negb (iz =? iy)%nat)%bool (seq 0 n).
Lemma rest_at_in n ix iy i : In i (rest_at n ix iy) <-> (i < n)%nat /\ i <> ix /\ i <> iy.
Proof. unfold rest_at. rewrite filter_In, in_seq, andb_true_iff, !negb_true_iff, !Nat.eqb_neq. intuition lia. Qed.
Lemma key_at_tup t i : (i < length t)%nat -> key_at (tup t) i = Ok (PInt (nth i t 0)).
Proof.
  intros H. unfold key_at. rewrite nth_error_map. rewrite (nth_error_nth' t 0 H). reflexivity.
Qed.
Lemma split_key_ok n ix iy t : length t = n -> (ix < n)%nat -> (iy < n)%nat ->
  split_key n ix iy (tup t) = Ok (triple (fun t => nth ix t 0) (fun t => nth iy t 0) (fun t => map (fun i => nth i t 0) (rest_at n ix iy)) t).
Proof.
  intros Hl Hx Hy. unfold split_key. rewrite !key_at_tup by lia. cbn [bind]. fold (rest_at n ix iy).
  rewrite (mapM_ok _ (fun i => PInt (nth i t 0))).
  - cbn [bind]. unfold triple. do 3 f_equal. rewrite map_map. reflexivity.
  - intros i Hi. apply rest_at_in in Hi. apply key_at_tup. lia.
Qed.
Lemma mapM_ext_map {A B C} (f : B -> res C) (g : A -> B) (h : A -> C) l : (forall a, In a l -> f (g a) = Ok (h a)) -> mapM f (map g l) = Ok (map h l).
Proof.
  induction l as [|a l IH]; intros H; [reflexivity|]. cbn [map mapM]. rewrite (H a) by (left; reflexivity). cbn [bind].
  rewrite IH by (intros; apply H; right; assumption). reflexivity.
Qed.

Definition pair_value (K : list (list Z)) (n ix iy : nat) : Z :=
  at_least_one (sdof K (fun t => [nth ix t 0]) (fun t => [nth iy t 0]) (fun t => map (fun i => nth i t 0) (rest_at n ix iy))).
Lemma rest_at_sym n ix iy : rest_at n ix iy = rest_at n iy ix.
Proof. apply filter_ext. intros. apply andb_comm. Qed.
Lemma pair_value_sym K n ix iy : pair_value K n ix iy = pair_value K n iy ix.
Proof. unfold pair_value. rewrite sdof_sym, rest_at_sym. reflexivity. Qed.

Definition keys_of (P : pmf) : list (list Z) := map (fun kv => leaves (fst kv)) (probabilities P).
Lemma pair_DoF_ok P n ix iy : plain_keys (probabilities P) -> (forall t, In t (keys_of P) -> length t = n) -> (2 <= n)%nat -> (ix < n)%nat -> (iy < n)%nat ->
  pair_DoF P n ix iy = Ok (pair_value (keys_of P) n ix iy).
Proof.
  intros Hp Hl Hn Hx Hy. unfold pair_DoF.
  rewrite (mapM_ext_map (split_key n ix iy) fst (fun kv : pyobj * R => triple (fun t => nth ix t 0) (fun t => nth iy t 0) (fun t => map (fun i => nth i t 0) (rest_at n ix iy)) (leaves (fst kv)))).
  - cbn [bind]. rewrite <- (map_map (fun kv : pyobj * R => leaves (fst kv))). fold (keys_of P). rewrite group_sum. reflexivity.
  - intros [k r] Hin. cbn [fst]. pose proof (Hp _ _ Hin) as Ek. assert (Hlk : length (leaves k) = n) by (apply Hl; apply (in_map (fun kv : pyobj * R => leaves (fst kv))) in Hin; exact Hin).
    rewrite (plain_tuple k n Ek Hlk Hn) at 1. apply split_key_ok; assumption.
Qed.

Lemma pair_eqb_eq a b : pair_eqb a b = true <-> a = b.
Proof.
  destruct a as [a1 a2], b as [b1 b2]. unfold pair_eqb. cbn [fst snd]. rewrite andb_true_iff, !Nat.eqb_eq. split; [intros (-> & ->); reflexivity|].
  intros H. injection H as -> ->. auto.
Qed.
Lemma pset_get {V} k k' (v : V) t : assoc pair_eqb k (assoc_set pair_eqb k' v t) = if pair_eqb k k' then Some v else assoc pair_eqb k t.
Proof.
  induction t as [|[k0 v0] t IH]; cbn [assoc assoc_set]; [reflexivity|].
  destruct (pair_eqb k' k0) eqn:E0.
  - apply pair_eqb_eq in E0. subst k0. cbn [assoc]. destruct (pair_eqb k k'); reflexivity.
  - cbn [assoc]. destruct (pair_eqb k k0) eqn:E1; [|assumption]. destruct (pair_eqb k k') eqn:E2; [|reflexivity].
    apply pair_eqb_eq in E1. apply pair_eqb_eq in E2. subst. rewrite (proj2 (pair_eqb_eq _ _) eq_refl) in E0. discriminate.
Qed.
Lemma index_pairs_in n i j : In (i, j) (index_pairs n) <-> (i < j < n)%nat.
Proof.
  unfold index_pairs. rewrite in_flat_map. split.
  - intros (x & Hx & Hin). apply in_map_iff in Hin as (y & E & Hy). injection E as -> ->. apply in_seq in Hx. apply in_seq in Hy. lia.
  - intros H. exists i. split; [apply in_seq; lia|]. apply in_map, in_seq. lia.
Qed.
Lemma pairwise_ok P n : plain_keys (probabilities P) -> (forall t, In t (keys_of P) -> length t = n) -> (2 <= n)%nat ->
  exists t, pairwise_DoFs P n = Ok t /\ forall i j, (i < n)%nat -> (j < n)%nat -> i <> j -> assoc pair_eqb (i, j) t = Some (pair_value (keys_of P) n i j).
Proof.
  intros Hp Hl Hn. unfold pairwise_DoFs.
  rewrite (foldM_fold _ (fun t ij => assoc_set pair_eqb ij (pair_value (keys_of P) n (fst ij) (snd ij)) (assoc_set pair_eqb (snd ij, fst ij) (pair_value (keys_of P) n (fst ij) (snd ij)) t))).
  2:{ intros t [i j] Hin. apply index_pairs_in in Hin. cbn [fst snd]. rewrite pair_DoF_ok by (auto; lia). reflexivity. }
  eexists. split; [reflexivity|].
  assert (H : forall l t, (forall i j, assoc pair_eqb (i, j) t = None \/ assoc pair_eqb (i, j) t = Some (pair_value (keys_of P) n i j)) ->
     let t' := fold_left (fun t ij => assoc_set pair_eqb ij (pair_value (keys_of P) n (fst ij) (snd ij)) (assoc_set pair_eqb (snd ij, fst ij) (pair_value (keys_of P) n (fst ij) (snd ij)) t)) l t in
     (forall i j, assoc pair_eqb (i, j) t = Some (pair_value (keys_of P) n i j) \/ In (i, j) l \/ In (j, i) l -> assoc pair_eqb (i, j) t' = Some (pair_value (keys_of P) n i j))).
  { induction l as [|[a b] l IH]; intros t Ht; cbn [fold_left]; cbv zeta.
    - intros i j [H|[[]|[]]]. assumption.
    - intros i j H. apply IH; clear IH; cbn [fst snd].
      + intros i' j'. rewrite !pset_get. destruct (pair_eqb (i', j') (a, b)) eqn:E1; [apply pair_eqb_eq in E1; injection E1 as -> ->; auto|].
        destruct (pair_eqb (i', j') (b, a)) eqn:E2; [apply pair_eqb_eq in E2; injection E2 as -> ->; right; f_equal; apply pair_value_sym|]. apply Ht.
      + destruct H as [H|[[E|H]|[E|H]]]; [left|left|right; auto|left|right; auto]; rewrite !pset_get.
        * destruct (pair_eqb (i, j) (a, b)) eqn:E1; [apply pair_eqb_eq in E1; injection E1 as -> ->; reflexivity|].
          destruct (pair_eqb (i, j) (b, a)) eqn:E2; [apply pair_eqb_eq in E2; injection E2 as -> ->; f_equal; apply pair_value_sym|]. assumption.
        * injection E as -> ->. rewrite (proj2 (pair_eqb_eq (i, j) (i, j)) eq_refl). reflexivity.
        * injection E as -> ->. destruct (pair_eqb (i, j) (j, i)) eqn:E1; [apply pair_eqb_eq in E1; injection E1 as E1 _; subst; reflexivity|].
          rewrite (proj2 (pair_eqb_eq (i, j) (i, j)) eq_refl). f_equal. apply pair_value_sym. }
  intros i j Hi Hj Hne. apply H; [left; reflexivity|]. right. rewrite !index_pairs_in. lia.
Qed.

Lemma nat_index_ok x l : In x l -> exists i, nat_index x l = Some i /\ nth_error l i = Some x.
Proof.
  induction l as [|y l IH]; [contradiction|]. intros H. cbn [nat_index]. destruct (Nat.eqb_spec x y) as [-> | Hne]; [exists O; auto|].
  destruct H as [-> | H]; [congruence|]. destruct (IH H) as (i & E & E'). rewrite E. exists (S i). auto.
Qed.
Lemma fset_get {V} (k k' : list nat) (v : V) t : assoc list_eqb k (assoc_set list_eqb k' v t) = if list_eqb k k' then Some v else assoc list_eqb k t.
Proof.
  induction t as [|[k0 v0] t IH]; cbn [assoc assoc_set]; [reflexivity|].
  destruct (list_eqb k' k0) eqn:E0.
  - apply list_eqb_eq in E0. subst k0. cbn [assoc]. destruct (list_eqb k k'); reflexivity.
  - cbn [assoc]. destruct (list_eqb k k0) eqn:E1; [|assumption]. destruct (list_eqb k k') eqn:E2; [|reflexivity].
    apply list_eqb_eq in E1. apply list_eqb_eq in E2. subst. rewrite list_eqb_refl in E0. discriminate.
Qed.

Section Cache.
  Variable D : dataset.
  Hypothesis HR : rows D <> [].
  Notation S := (data_space D).

  (** P is the probability table of the columns [cols], in this order *)
  Record pmf_of (cols : list nat) (P : pmf) : Prop := {
    po_dist : distribution S (proj cols) (probabilities P);
    po_plain : plain_keys (probabilities P);
    po_len : forall k r, In (k, r) (probabilities P) -> length (leaves k) = length cols }.
  Lemma pmf_of_rz cols P : pmf_of cols P -> pmf_of cols (remove_zeros P).
  Proof.
    intros [H1 H2 H3]. constructor; rewrite ?remove_zeros_prob; [apply rz_distribution; assumption|apply rz_plain; assumption|].
    intros k r Hin. apply filter_In in Hin. eapply H3. apply Hin.
  Qed.
  Lemma pmf_of_table cols P ids : is_table S ids (proj cols) P -> length ids = length cols -> pmf_of cols P.
  Proof. intros [H1 H2 H3 (H4 & H5)] Hl. constructor; [assumption|assumption|]. intros k r Hin. rewrite (H5 _ _ Hin). assumption. Qed.

  Definition dcache_ok (c : dcache) : Prop := forall X Y Z, NoDup (X :: Y :: Z) -> assoc list_eqb (frozenset (X :: Y :: Z)) c <> None ->
    cached_DoF c X Y Z = Ok (structural_dof D X Y Z).
  Lemma structural_dof_sdof X Y Z : structural_dof D X Y Z = at_least_one (sdof (rows D) (proj [X]) (proj [Y]) (proj Z)).
  Proof. reflexivity. Qed.

  (** the pairwise table of columns in the order [cols0], registered under [cols] *)
  Lemma pair_value_data cols P X Y Z i j : NoDup cols -> pmf_of cols P -> NoDup (X :: Y :: Z) -> (forall c, In c cols <-> In c (X :: Y :: Z)) ->
    nth_error cols i = Some X -> nth_error cols j = Some Y ->
    pair_value (keys_of (remove_zeros P)) (length cols) i j = structural_dof D X Y Z.
  Proof.
    intros HN HP HNX Hset Hi Hj. unfold pair_value. rewrite structural_dof_sdof. f_equal.
    rewrite (sdof_set (rows D) (proj cols)).
    2:{ unfold keys_of. rewrite remove_zeros_prob. apply (nz_values D HR (proj cols)). apply (po_dist _ _ HP). }
    assert (Hnth : forall c k row, nth_error cols k = Some c -> nth k (proj cols row) 0 = nth c row 0).
    { intros c k row Hk. apply nth_error_nth. unfold proj. rewrite nth_error_map, Hk. reflexivity. }
    apply sdof_same.
    - intros a b _ _. rewrite (Hnth X), (Hnth X) by assumption. reflexivity.
    - intros a b _ _. rewrite (Hnth Y), (Hnth Y) by assumption. reflexivity.
    - assert (E : forall row, map (fun k => nth k (proj cols row) 0) (rest_at (length cols) i j) = proj (map (fun k => nth k cols O) (rest_at (length cols) i j)) row).
      { intros row. unfold proj at 2. rewrite map_map. apply map_ext_in. intros k Hk. apply rest_at_in in Hk. apply Hnth. apply nth_error_nth'. lia. }
      intros a b Ha Hb. rewrite !E. apply (proj_same _ _ (rows D)); [|assumption..]. intros c. rewrite in_map_iff. split.
      + intros (k & <- & Hk). apply rest_at_in in Hk as (Hk & Hki & Hkj).
        assert (Hin : In (nth k cols O) (X :: Y :: Z)) by (apply Hset, nth_In; assumption).
        assert (Hke : nth_error cols k = Some (nth k cols O)) by (apply nth_error_nth'; assumption).
        destruct Hin as [E'|[E'|H]]; [| |assumption]; exfalso; rewrite <- E' in Hke;
          [apply Hki|apply Hkj]; apply (proj1 (NoDup_nth_error cols) HN); try assumption; congruence.
      + intros Hc. assert (Hin : In c cols) by (apply Hset; right; right; assumption). apply In_nth_error in Hin as (k & Hk).
        exists k. split; [apply nth_error_nth; assumption|]. apply rest_at_in. split; [apply nth_error_Some; congruence|].
        inversion HNX as [|? ? HX HNX']; subst. inversion HNX' as [|? ? HY HNZ]; subst. split; intros ->.
        * rewrite Hi in Hk. injection Hk as ->. apply HX. right; assumption.
        * rewrite Hj in Hk. injection Hk as ->. apply HY. assumption.
  Qed.

  Lemma NoDup_same_length (l m : list nat) : NoDup l -> NoDup m -> (forall c, In c l <-> In c m) -> length l = length m.
  Proof. intros H1 H2 H. apply Permutation_length, NoDup_Permutation; assumption. Qed.

  Lemma cached_lookup (c : dcache) cols (t : pair_table) X Y Z : NoDup cols -> NoDup (X :: Y :: Z) -> (forall c, In c cols <-> In c (X :: Y :: Z)) ->
    assoc list_eqb (frozenset (X :: Y :: Z)) c = Some (cols, t) ->
    (forall i j, nth_error cols i = Some X -> nth_error cols j = Some Y -> assoc pair_eqb (i, j) t = Some (structural_dof D X Y Z)) ->
    cached_DoF c X Y Z = Ok (structural_dof D X Y Z).
  Proof.
    intros HN HNX Hset E Ht. unfold cached_DoF. rewrite E. cbn [of_option bind].
    destruct (nat_index_ok X cols) as (i & Ei & Hi); [apply Hset; left; reflexivity|]. destruct (nat_index_ok Y cols) as (j & Ej & Hj); [apply Hset; right; left; reflexivity|].
    rewrite Ei, Ej. cbn [of_option bind]. rewrite (Ht i j Hi Hj). reflexivity.
  Qed.

  Lemma cache_DoFs_ok c P cols cols0 : dcache_ok c -> pmf_of cols0 P -> NoDup cols0 ->
    (cols = cols0 \/ exists a b, cols = [a; b] /\ cols0 = [b; a]) ->
    (variable_IDs P = Some (map Z.of_nat cols) \/ variable_IDs P = None) ->
    exists c' P', cache_DoFs c P = Ok (c', P') /\ dcache_ok c' /\ pmf_of cols0 P' /\ (forall k, assoc list_eqb k c <> None -> assoc list_eqb k c' <> None) /\
      (variable_IDs P <> None -> (2 <= length cols)%nat -> assoc list_eqb (frozenset cols) c' <> None) /\ (P' = P \/ P' = remove_zeros P).
  Proof.
    intros Hc HP HN Hrel Hv. unfold cache_DoFs. destruct (variable_IDs P) as [ids|] eqn:Ev.
    2:{ exists c, P. repeat split; auto; try apply HP. }
    destruct Hv as [Hv|Hv]; [|congruence]. injection Hv as ->. rewrite map_length, to_of_nat.
    assert (Hl : length cols0 = length cols) by (destruct Hrel as [-> | (a & b & -> & ->)]; reflexivity).
    destruct (Nat.leb_spec (length cols) 1) as [Hle|Hgt].
    { exists c, P. split; [reflexivity|]. repeat split; auto; try apply HP. intros; lia. }
    destruct (assoc list_eqb (frozenset cols) c) eqn:Ea.
    { exists c, P. split; [reflexivity|]. repeat split; auto; try apply HP. intros; congruence. }
    pose proof (pmf_of_rz _ _ HP) as HP'.
    destruct (pairwise_ok (remove_zeros P) (length cols)) as (t & Et & Ht).
    { apply (po_plain _ _ HP'). }
    { intros tt Hin. apply in_map_iff in Hin as ([k r] & <- & Hin). cbn [fst]. rewrite (po_len _ _ HP' _ _ Hin). assumption. }
    { lia. }
    rewrite Et. cbn [bind]. eexists _, _. split; [reflexivity|]. split; [|split; [assumption|split; [|split; [|right; reflexivity]]]].
    - intros X Y Z HNX Hpres. destruct (list_eqb (frozenset (X :: Y :: Z)) (frozenset cols)) eqn:Ek.
      + apply list_eqb_eq in Ek. pose proof (proj1 (frozenset_eq _ _) Ek) as Hset.
        assert (HNc : NoDup cols). { destruct Hrel as [-> | (a & b & -> & ->)]; [assumption|]. apply (Permutation_NoDup (l := [b; a])); [constructor|assumption]. }
        assert (Hset' : forall c, In c cols <-> In c (X :: Y :: Z)) by (intros; symmetry; apply Hset).
        eapply (cached_lookup _ cols t); [assumption|assumption|assumption| |].
        * rewrite fset_get, Ek, list_eqb_refl. reflexivity.
        * intros i j Hi Hj. assert (Hij : i <> j). { intros ->. rewrite Hi in Hj. injection Hj as ->. inversion HNX as [|? ? Hnx _]. apply Hnx. left; reflexivity. }
          assert (Hib : (i < length cols)%nat) by (apply nth_error_Some; congruence). assert (Hjb : (j < length cols)%nat) by (apply nth_error_Some; congruence).
          rewrite Ht by assumption. f_equal. destruct Hrel as [-> | (a & b & -> & ->)].
          -- apply (pair_value_data cols0 P); auto.
          -- rewrite pair_value_sym. change (length [a; b]) with (length [b; a]). simpl in Hib, Hjb.
             apply (pair_value_data [b; a] P); auto.
             ++ intros x. rewrite <- Hset'. simpl. tauto.
             ++ destruct i as [|[|i]], j as [|[|j]]; try lia; simpl in *; congruence.
             ++ destruct i as [|[|i]], j as [|[|j]]; try lia; simpl in *; congruence.
      + unfold cached_DoF. rewrite fset_get, Ek. rewrite fset_get, Ek in Hpres. exact (Hc X Y Z HNX Hpres).
    - intros k Hk. rewrite fset_get. destruct (list_eqb k (frozenset cols)); [discriminate|assumption].
    - intros _ _. rewrite fset_get, list_eqb_refl. discriminate.
  Qed.
End Cache.
