(** C87: grouping the keys of a contingency table by some of its columns. *)
From Verif Require Import Base CTable_Model CTable_Properties CTGroup_Model GtestEnum_Report_Proofs.
Open Scope nat_scope.

(** ** Specification (proper, faithful_index, at_column: the specification of C08) *)
(** what the row [l] gives for the columns [ds] is [sub] *)
Definition row_gives (t : ctable) (l : list Z) (ds : list nat) (sub : list Z) : Prop :=
  map Some sub = map (at_column (columns t) l) ds.
(** the other columns, as they stand in the table *)
Definition others (t : ctable) (cs ds : list nat) : Prop :=
  ds = filter (fun c => if in_dec Nat.eq_dec c cs then false else true) (columns t).
(** grouped_keys[sub][comp] is [k] *)
Definition holds (g : list (list Z * list (list Z * ckey))) (sub comp : list Z) (k : ckey) : Prop :=
  exists d, In (sub, d) g /\ In (comp, k) d.

(** ** Lemmas *)
Definition wf (g : list (list Z * list (list Z * ckey))) : Prop :=
  NoDup (map fst g) /\ forall s d, In (s, d) g -> NoDup (map fst d) /\ d <> [].
Lemma put_wf g s c k : wf g -> wf (put_key g s c k) /\
  forall s' c' k', holds (put_key g s c k) s' c' k' <-> if zs_eqb s' s && zs_eqb c' c then k' = k else holds g s' c' k'.
Proof.
  intros (N & W). unfold put_key.
  assert (A : forall (g0 : list (list Z * list (list Z * ckey))) s0 d0, NoDup (map fst g0) -> (In (s0, d0) g0 <-> assoc zs_eqb s0 g0 = Some d0)).
  { intros g0 s0 d0 N0. symmetry. apply (assoc_entry zs_eqb zs_eqb_eq). assumption. }
  destruct (assoc zs_eqb s g) as [d|] eqn:E.
  - assert (Id : In (s, d) g) by (apply A; assumption). destruct (W _ _ Id) as (Nd & _).
    destruct (keys_put zs_eqb zs_eqb_eq c k d Nd) as (Nd' & Kd').
    set (d' := assoc_set zs_eqb c k d) in *.
    destruct (keys_put zs_eqb zs_eqb_eq s d' g N) as (N' & K').
    assert (In' : forall s' e, In (s', e) (assoc_set zs_eqb s d' g) <-> if zs_eqb s' s then e = d' else In (s', e) g).
    { intros s' e. rewrite (A _ _ _ N'), (assoc_put zs_eqb zs_eqb_eq). destruct (zs_eqb s' s); [split; congruence|symmetry; apply A; assumption]. }
    split.
    + split; [assumption|]. intros s' e I. apply In' in I. destruct (zs_eqb s' s); [|apply (W _ _ I)]. subst e.
      split; [assumption|]. intros Z. assert (In c (map fst d')) as H by (apply Kd'; left; reflexivity). rewrite Z in H. destruct H.
    + intros s' c' k'. unfold holds. destruct (zs_eqb s' s) eqn:Es; cbn [andb].
      * apply zs_eqb_eq in Es. subst s'.
        assert (H1 : (exists e, In (s, e) (assoc_set zs_eqb s d' g) /\ In (c', k') e) <-> In (c', k') d').
        { split.
          - intros (e & I & J). apply In' in I. rewrite (proj2 (zs_eqb_eq s s) eq_refl) in I. subst e. exact J.
          - intros J. exists d'. split; [apply In'; rewrite (proj2 (zs_eqb_eq s s) eq_refl); reflexivity|exact J]. }
        assert (H2 : (exists e, In (s, e) g /\ In (c', k') e) <-> In (c', k') d).
        { split.
          - intros (e & I & J). apply (A _ _ _ N) in I. assert (e = d) by congruence. subst e. exact J.
          - intros J. exists d. split; assumption. }
        rewrite H1. rewrite <- (assoc_entry zs_eqb zs_eqb_eq _ _ _ Nd').
        unfold d'. rewrite (assoc_put zs_eqb zs_eqb_eq). destruct (zs_eqb c' c); [split; congruence|].
        rewrite H2. apply (assoc_entry zs_eqb zs_eqb_eq _ _ _ Nd).
      * split; intros (e & I & J); exists e; (split; [|assumption]); [apply In' in I; rewrite Es in I; exact I|apply In'; rewrite Es; exact I].
  - destruct (keys_put zs_eqb zs_eqb_eq s [(c, k)] g N) as (N' & K').
    assert (In' : forall s' e, In (s', e) (assoc_set zs_eqb s [(c, k)] g) <-> if zs_eqb s' s then e = [(c, k)] else In (s', e) g).
    { intros s' e. rewrite (A _ _ _ N'), (assoc_put zs_eqb zs_eqb_eq). destruct (zs_eqb s' s); [split; congruence|symmetry; apply A; assumption]. }
    split.
    + split; [assumption|]. intros s' e I. apply In' in I. destruct (zs_eqb s' s); [|apply (W _ _ I)]. subst e.
      split; [repeat constructor; intros []|discriminate].
    + intros s' c' k'. unfold holds. destruct (zs_eqb s' s) eqn:Es; cbn [andb].
      * apply zs_eqb_eq in Es. subst s'. split.
        -- intros (e & I & J). apply In' in I. rewrite (proj2 (zs_eqb_eq s s) eq_refl) in I. subst e.
           destruct J as [J | []]. assert (c = c') by congruence. subst c'. rewrite (proj2 (zs_eqb_eq c c) eq_refl). congruence.
        -- intros H. exists [(c, k)]. split; [apply In'; rewrite (proj2 (zs_eqb_eq s s) eq_refl); reflexivity|].
           destruct (zs_eqb c' c) eqn:Ec; [apply zs_eqb_eq in Ec; subst; left; reflexivity|].
           exfalso. destruct H as (e & I & _). apply (A _ _ _ N) in I. congruence.
      * split; intros (e & I & J); exists e; (split; [|assumption]); [apply In' in I; rewrite Es in I; exact I|apply In'; rewrite Es; exact I].
Qed.

Lemma put_all (sub comp : ckey -> list Z) ks : 
  (forall a b, In a ks -> In b ks -> sub a = sub b -> comp a = comp b -> a = b) ->
  let g := fold_left (fun g k => put_key g (sub k) (comp k) k) ks [] in
  wf g /\ forall s c k, holds g s c k <-> In k ks /\ s = sub k /\ c = comp k.
Proof.
  induction ks as [|k ks IH] using rev_ind; intros I; cbn zeta.
  - split; [split; [constructor|intros s d []]|]. intros s c k. split; [intros (d & [] & _)|intros ([] & _)].
  - rewrite fold_left_app. cbn [fold_left].
    destruct IH as (W & H); [intros a b Ia Ib; apply I; apply in_app_iff; left; assumption|].
    destruct (put_wf _ (sub k) (comp k) k W) as (W' & H'). split; [exact W'|]. intros s c x. rewrite H', in_app_iff. cbn [In].
    destruct (zs_eqb s (sub k) && zs_eqb c (comp k)) eqn:E.
    + apply andb_true_iff in E. destruct E as (E1 & E2). apply zs_eqb_eq in E1. apply zs_eqb_eq in E2. subst s c. split.
      * intros ->. auto.
      * intros (J & E1 & E2). symmetry. apply I; [apply in_app_iff; right; left; reflexivity| |assumption|assumption].
        apply in_app_iff. cbn [In]. exact J.
    + rewrite H. split; [tauto|]. intros ([J|[<-|[]]] & -> & ->); [tauto|].
      rewrite (proj2 (zs_eqb_eq _ _) eq_refl), (proj2 (zs_eqb_eq _ _) eq_refl) in E. discriminate E.
Qed.

Lemma foldM_all {A B} (f : B -> A -> res B) g l : (forall b x, In x l -> f b x = Ok (g b x)) -> forall b, foldM f l b = Ok (fold_left g l b).
Proof.
  induction l as [|x l IH]; intros H b; cbn [foldM fold_left]; [reflexivity|]. rewrite H by (left; reflexivity). cbn [bind].
  apply IH. intros. apply H. right. assumption.
Qed.
Lemma fold_fst {A B C} (f : C -> A -> C) (l : list (A * B)) : forall c, fold_left (fun c ab => f c (fst ab)) l c = fold_left f (map fst l) c.
Proof. induction l as [|x l IH]; intros c; cbn [fold_left map]; [reflexivity|]. apply IH. Qed.
Lemma mapM_err {A B} (f : A -> res B) e l : (forall x e', In x l -> f x = Err e' -> e' = e) -> (exists x, In x l /\ f x = Err e) -> mapM f l = Err e.
Proof.
  induction l as [|a l IH]; intros H (x & I & E); [destruct I|]. cbn [mapM]. destruct (f a) as [y|e'] eqn:Fa; cbn [bind].
  - rewrite IH; [reflexivity|intros; eapply H; [right|]; eassumption|]. exists x. destruct I as [->|I]; [congruence|]. split; assumption.
  - f_equal. apply (H a); [left; reflexivity|assumption].
Qed.
Lemma gives_at0 t l ds sub : length l = length (columns t) -> incl ds (columns t) -> (row_gives t l ds sub <-> sub = map (at0 (columns t) l) ds).
Proof.
  intros L I. unfold row_gives.
  assert (E : map (at_column (columns t) l) ds = map Some (map (at0 (columns t) l) ds)).
  { rewrite map_map. apply map_ext_in. intros d Hd. destruct (at_some _ l d L (I d Hd)) as (x & Hx). unfold at0. rewrite Hx. reflexivity. }
  rewrite E. split; [|congruence]. revert sub. generalize (map (at0 (columns t) l) ds). intros m. induction m as [|a m IH]; intros sub H; destruct sub as [|b sub]; try discriminate H; [reflexivity|].
  cbn [map] in H. assert (H1 : Some b = Some a) by congruence. assert (H2 : map Some sub = map Some m) by congruence.
  rewrite (IH _ H2). congruence.
Qed.
Lemma mem_in c cs : negb (mem c cs) = if in_dec Nat.eq_dec c cs then false else true.
Proof.
  unfold mem. destruct (in_dec Nat.eq_dec c cs) as [I|N].
  - assert (existsb (Nat.eqb c) cs = true) as ->; [|reflexivity]. apply existsb_exists. exists c. split; [assumption|apply Nat.eqb_refl].
  - destruct (existsb (Nat.eqb c) cs) eqn:E; [|reflexivity]. apply existsb_exists in E. destruct E as (x & I & E). apply Nat.eqb_eq in E. subst. contradiction.
Qed.
Definition idx (t : ctable) (c : nat) : nat := match assoc Nat.eqb c (column_index t) with Some i => i | None => 0 end.
Lemma idx_ok t ds : faithful_index t -> incl ds (columns t) -> mapM (index_of_column t) ds = Ok (map (idx t) ds).
Proof.
  intros Fi I. apply mapM_ok. intros c Hc. destruct (In_nth_error _ _ (I c Hc)) as (i & Hi). apply Fi in Hi.
  unfold index_of_column, idx. rewrite Hi. reflexivity.
Qed.
Lemma items_ok t ds l : proper t -> faithful_index t -> incl ds (columns t) -> length l = length (columns t) ->
  mapM (key_item (Tup l)) (map (idx t) ds) = Ok (map (at0 (columns t) l) ds).
Proof.
  intros (Nc & _) Fi I L. induction ds as [|d ds IH]; [reflexivity|]. cbn [map mapM].
  assert (Hd : In d (columns t)) by (apply I; left; reflexivity). destruct (In_nth_error _ _ Hd) as (i & Hi).
  assert (Ei : idx t d = i) by (unfold idx; rewrite (Fi _ _ Hi); reflexivity). rewrite Ei.
  unfold key_item at 1. rewrite (at_nth _ l d i Nc Hi). destruct (at_some _ l d L Hd) as (x & Hx). rewrite Hx. cbn [of_option bind].
  rewrite IH by (intros z Hz; apply I; right; exact Hz). cbn [bind]. assert (Ex : at0 (columns t) l d = x) by (unfold at0; rewrite Hx; reflexivity). rewrite Ex. reflexivity.
Qed.

(** ** The theorems *)
(** With a faithful index every key of the table is in the group of its values for the listed columns, under its values
    for the others, and nothing else is in a group. *)
Theorem C87_groups t cs : proper t -> faithful_index t -> incl cs (columns t) ->
  exists g, group_keys_by_columns t cs = Ok g /\ NoDup (map fst g) /\
    (forall sub d, In (sub, d) g -> NoDup (map fst d) /\ d <> []) /\
    forall ds sub comp k, others t cs ds ->
      (holds g sub comp k <-> exists l n, k = Tup l /\ In (k, n) (ct t) /\ row_gives t l cs sub /\ row_gives t l ds comp).
Proof.
  intros Pt Fi I. set (ds := filter (fun c => negb (mem c cs)) (columns t)).
  assert (Ids : incl ds (columns t)) by (intros c Hc; apply filter_In in Hc; apply Hc).
  pose proof Pt as (Nc & Nk & Hk).
  set (row := fun k => match k with Tup l => l | One _ => [] end).
  set (sub := fun k => map (at0 (columns t) (row k)) cs). set (comp := fun k => map (at0 (columns t) (row k)) ds).
  destruct (put_all sub comp (map fst (ct t))) as ((Ng & Wg) & H).
  { intros a b Ia Ib E1 E2. apply in_map_iff in Ia. destruct Ia as ((a', n) & <- & Ia). apply in_map_iff in Ib. destruct Ib as ((b', n') & <- & Ib).
    cbn [fst] in *. destruct (Hk _ _ Ia) as (l & -> & Ll). destruct (Hk _ _ Ib) as (m & -> & Lm). unfold sub, comp in E1, E2. cbn [row] in E1, E2.
    assert (G : forall es d, map (at0 (columns t) l) es = map (at0 (columns t) m) es -> In d es -> at0 (columns t) l d = at0 (columns t) m d).
    { induction es as [|e es IH]; intros d E Hd; [destruct Hd|]. cbn [map] in E.
      assert (Ea : at0 (columns t) l e = at0 (columns t) m e) by congruence. destruct Hd as [<-|Hd]; [exact Ea|]. apply IH; [congruence|assumption]. }
    assert (Eq : forall d, In d (columns t) -> at0 (columns t) l d = at0 (columns t) m d).
    { intros d Hd. destruct (in_dec Nat.eq_dec d cs) as [J|J]; [apply (G cs); assumption|]. apply (G ds); [assumption|].
      apply filter_In. split; [assumption|]. rewrite mem_in. destruct (in_dec Nat.eq_dec d cs); [contradiction|reflexivity]. }
    assert (R : forall r, length r = length (columns t) -> r = map (at0 (columns t) r) (columns t)).
    { intros r Lr. apply (key_at _ _ _ Nc Lr). intros d Hd. destruct (at_some _ r d Lr Hd) as (x & Hx). unfold at0. rewrite Hx. reflexivity. }
    f_equal. rewrite (R l Ll), (R m Lm). apply map_ext_in. exact Eq. }
  eexists. split; [|split; [exact Ng|split; [exact Wg|]]].
  - unfold group_keys_by_columns. rewrite (idx_ok t cs Fi I). cbn [bind]. fold ds. rewrite (idx_ok t ds Fi Ids). cbn [bind].
    rewrite (foldM_all _ (fun g kn => put_key g (sub (fst kn)) (comp (fst kn)) (fst kn))).
    + f_equal. apply (fold_fst (fun g k => put_key g (sub k) (comp k) k)).
    + intros b (k, n) Ikn. cbn [fst]. destruct (Hk _ _ Ikn) as (l & -> & Ll).
      rewrite (items_ok t cs l Pt Fi I Ll). cbn [bind]. rewrite (items_ok t ds l Pt Fi Ids Ll). reflexivity.
  - intros ds' s c k O. assert (ds' = ds) as ->.
    { rewrite O. apply filter_ext. intros x. symmetry. apply mem_in. }
    rewrite H, in_map_iff. split.
    + intros (((k', n) & E & Ikn) & -> & ->). cbn [fst] in E. subst k'. destruct (Hk _ _ Ikn) as (l & -> & Ll).
      exists l, n. split; [reflexivity|]. split; [assumption|].
      split; [apply (gives_at0 t l cs _ Ll I); reflexivity|apply (gives_at0 t l ds _ Ll Ids); reflexivity].
    + intros (l & n & -> & Ikn & R1 & R2). destruct (Hk _ _ Ikn) as (l' & E & Ll). assert (l' = l) as -> by congruence.
      split; [exists (Tup l, n); split; [reflexivity|assumption]|].
      split; [apply (gives_at0 t l cs _ Ll I); assumption|apply (gives_at0 t l ds _ Ll Ids); assumption].
Qed.

(** So each key is in exactly one place, and two keys are in one group exactly if they agree on the listed columns. *)
Theorem C87_partition t cs g : proper t -> faithful_index t -> incl cs (columns t) -> group_keys_by_columns t cs = Ok g ->
  (forall k n, In (k, n) (ct t) -> exists sub comp, holds g sub comp k /\ forall sub' comp', holds g sub' comp' k -> sub' = sub /\ comp' = comp) /\
  (forall sub comp k, holds g sub comp k -> exists n, In (k, n) (ct t)) /\
  (forall l m nl nm, In (Tup l, nl) (ct t) -> In (Tup m, nm) (ct t) ->
    ((exists sub c c', holds g sub c (Tup l) /\ holds g sub c' (Tup m)) <-> forall c, In c cs -> at_column (columns t) l c = at_column (columns t) m c)).
Proof.
  intros Pt Fi I E. destruct (C87_groups t cs Pt Fi I) as (g' & E' & _ & _ & H). assert (g' = g) as -> by congruence.
  set (ds := filter (fun c => if in_dec Nat.eq_dec c cs then false else true) (columns t)). specialize (H ds).
  assert (Ids : incl ds (columns t)) by (intros c Hc; apply filter_In in Hc; apply Hc).
  pose proof Pt as (Nc & Nk & Hk). split; [|split].
  - intros k n Ikn. destruct (Hk _ _ Ikn) as (l & -> & Ll). exists (map (at0 (columns t) l) cs), (map (at0 (columns t) l) ds). split.
    + apply H; [reflexivity|]. exists l, n. split; [reflexivity|]. split; [assumption|].
      split; [apply (gives_at0 t l cs _ Ll I); reflexivity|apply (gives_at0 t l ds _ Ll Ids); reflexivity].
    + intros s c Hs. apply H in Hs; [|reflexivity]. destruct Hs as (m & n' & Em & _ & R1 & R2). assert (m = l) as -> by congruence.
      split; [apply (gives_at0 t l cs _ Ll I); assumption|apply (gives_at0 t l ds _ Ll Ids); assumption].
  - intros s c k Hs. apply H in Hs; [|reflexivity]. destruct Hs as (l & n & _ & J & _). exists n. assumption.
  - intros l m nl nm Il Im. destruct (Hk _ _ Il) as (l' & El & Ll). assert (l' = l) as -> by congruence.
    destruct (Hk _ _ Im) as (m' & Em & Lm). assert (m' = m) as -> by congruence. split.
    + intros (s & c & c' & H1 & H2). apply H in H1; [|reflexivity]. apply H in H2; [|reflexivity].
      destruct H1 as (l1 & n1 & E1 & _ & R1 & _), H2 as (m1 & n2 & E2 & _ & R2 & _). assert (l1 = l) as -> by congruence. assert (m1 = m) as -> by congruence.
      unfold row_gives in R1, R2. rewrite R1 in R2. clear -R2. induction cs as [|a cs IH]; intros c Hc; [destruct Hc|]. cbn [map] in R2.
      assert (Ea : at_column (columns t) l a = at_column (columns t) m a) by congruence. destruct Hc as [<-|Hc]; [exact Ea|]. apply IH; [congruence|assumption].
    + intros A. exists (map (at0 (columns t) l) cs), (map (at0 (columns t) l) ds), (map (at0 (columns t) m) ds). split; (apply H; [reflexivity|]).
      * exists l, nl. split; [reflexivity|]. split; [assumption|].
        split; [apply (gives_at0 t l cs _ Ll I); reflexivity|apply (gives_at0 t l ds _ Ll Ids); reflexivity].
      * exists m, nm. split; [reflexivity|]. split; [assumption|].
        split; [apply (gives_at0 t m cs _ Lm I); apply map_ext_in; intros c Hc; unfold at0; rewrite (A c Hc); reflexivity|apply (gives_at0 t m ds _ Lm Ids); reflexivity].
Qed.

(** A column that the table does not have: KeyError, whatever else is listed. *)
Theorem C87_unknown_column t cs c b : In c cs -> ~ In c (columns t) -> group_keys_by_columns (update_columns b t) cs = Err KeyError.
Proof.
  intros I N. unfold group_keys_by_columns. rewrite (mapM_err _ KeyError); [reflexivity| |].
  - intros x e _ E. unfold index_of_column in E. destruct (assoc _ x _); cbn [of_option] in E; congruence.
  - exists c. split; [assumption|]. unfold index_of_column.
    assert (E : assoc Nat.eqb c (column_index (update_columns b t)) = None); [|rewrite E; reflexivity].
    unfold update_columns. cbn [column_index]. apply index_none; [|intros []]. destruct b; [rewrite sort_in|]; assumption.
Qed.

(** With columns out of order the index is not faithful, and the groups are those of another column. *)
Theorem C87_unsorted_refuted : exists g sub comp l, proper two_columns /\ columns two_columns = [2; 1] /\
  group_keys_by_columns two_columns [2] = Ok g /\ holds g sub comp (Tup l) /\ ~ row_gives two_columns l [2] sub /\ row_gives two_columns l [1] sub.
Proof.
  eexists. exists [7]%Z, [5]%Z, [5; 7]%Z. destruct C08_unsorted_refuted as (_ & P & _). split; [exact P|]. split; [reflexivity|].
  split; [vm_compute; reflexivity|]. split.
  - eexists. split; [left; reflexivity|]. left. reflexivity.
  - split; [unfold row_gives; vm_compute; congruence|reflexivity].
Qed.

(** After finalize() leaves one column the keys are no tuples, and no grouping is possible. *)
Theorem C87_single_column_refuted : exists t, proper t /\ faithful_index t /\ columns t = [1; 2] /\
  snd (remove_leftmost_column t) = Ok tt /\ columns (fst (remove_leftmost_column t)) = [2] /\
  group_keys_by_columns (fst (remove_leftmost_column t)) [2] = Err TypeError.
Proof.
  exists (set_columns (CTable [(Tup [5; 7], 10)]%Z [] []) [1; 2]). split; [|split; [|vm_compute; repeat split]].
  - split; [repeat constructor; cbn; lia|]. split; [repeat constructor; intros []|].
    intros k n [E | []]. exists [5; 7]%Z. split; [congruence|reflexivity].
  - apply C08_sorted_columns_are_faithful. repeat constructor.
Qed.

(** Three columns, grouped by the last and the first: three groups for four keys. *)
Theorem C87_example : proper three_columns /\ faithful_index three_columns /\ incl [3; 1] (columns three_columns) /\
  group_keys_by_columns three_columns [3; 1] =
    Ok [([0; 0], [([0], Tup [0; 0; 0]); ([1], Tup [0; 1; 0])]); ([1; 0], [([0], Tup [0; 0; 1])]); ([0; 1], [([0], Tup [1; 0; 0])])]%Z.
Proof.
  split; [|split; [|split; [|vm_compute; reflexivity]]].
  - split; [repeat constructor; cbn; lia|]. split; [repeat constructor; cbn; intuition congruence|].
    intros k n H. cbn in H. destruct H as [H|[H|[H|[H|[]]]]]; assert (Hk := f_equal fst H); cbn [fst] in Hk; subst k; eexists; (split; reflexivity).
  - apply C08_sorted_columns_are_faithful. repeat constructor.
  - intros c Hc. cbn in *. lia.
Qed.
