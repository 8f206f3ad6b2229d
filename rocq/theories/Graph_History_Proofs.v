From Verif Require Import Base Graph_Model Graph_Spec Graph_History_Model Graph_Paths_Proofs Graph_Search_Proofs Graph_Build_Proofs Graph_Dsep_Proofs.

Lemma path_last_in E x p y : path_from E x p y -> In y p.
Proof. induction 1; simpl; auto. Qed.
Lemma order_all order g : dict_ok g -> order_ok order g -> forall n, In n order <-> In n (all_nodes g).
Proof.
  intros HD (_ & H) n. rewrite H, all_nodes_in. split; (intros [?|(u & Hu)]; [left; assumption|right; exists u]);
    [apply graph_edges_in; assumption|apply graph_edges_in in Hu; assumption].
Qed.
Lemma new_bn_good g order : dict_ok g -> order_ok order g -> good_bn (edge_of g) (all_nodes g) (new_bn order g).
Proof. intros HD HO. apply from_directed_represents; [exact HD|apply HO|apply order_all; assumption]. Qed.
Lemma net_good net : network_ok net -> good_bn (net_edge net) (map fst net) (bn_of_network net).
Proof. intros (H1 & H2 & H3). apply net_represents; assumption. Qed.

Lemma call_ok E N b c : good_bn E N b -> is_question c ->
  exists a b', (exists K, forall n, (K <= n)%nat -> do_bn_call c b n = Ok (a, b')) /\ good_bn E N b' /\ answer_ok E c a.
Proof.
  intros Hb Hq. destruct c as [s e|x Z y|order g]; [| |contradiction].
  - destruct (undirected_paths_ok E N b s e Hb) as (ps & b' & Ep & Hb' & _ & _ & HN & Hps & _).
    exists (Paths ps), b'. split; [eexists; intros n Hn; simpl; rewrite (Ep n Hn); reflexivity|]. split; [assumption|]. split; assumption.
  - destruct (d_separated_ok E N b x Z y Hb) as (r & b' & Ep & Hb' & _ & _ & Hr).
    exists (Verdict r), b'. split; [eexists; intros n Hn; simpl; rewrite (Ep n Hn); reflexivity|]. split; assumption.
Qed.
Lemma calls_ok E N : forall cs b, good_bn E N b -> Forall is_question cs ->
  exists l b', (exists K, forall n, (K <= n)%nat -> do_bn_calls cs b n = Ok (l, b')) /\ good_bn E N b' /\ Forall2 (answer_ok E) cs l.
Proof.
  induction cs as [|c cs IH]; intros b Hb Hq.
  - exists [], b. split; [exists 0%nat; reflexivity|]. split; [assumption|constructor].
  - inversion Hq; subst. destruct (call_ok E N b c Hb H1) as (a & b1 & (K1 & E1) & Hb1 & Ha).
    destruct (IH b1 Hb1 H2) as (l & b2 & (K2 & E2) & Hb2 & Hl).
    exists (a :: l), b2. split; [exists (Nat.max K1 K2); intros n Hn; simpl; rewrite E1 by lia; simpl; rewrite E2 by lia; reflexivity|].
    split; [assumption|constructor; assumption].
Qed.
Lemma history_eval E N b cs : good_bn E N b -> Forall is_question cs ->
  exists l b', evaluates (do_bn_calls cs b) (Ok (l, b')) /\ Forall2 (answer_ok E) cs l.
Proof.
  intros Hb Hq. destruct (calls_ok E N cs b Hb Hq) as (l & b' & HK & _ & Hl). exists l, b'. split; [split; [discriminate|exact HK]|assumption].
Qed.

(** the memo only grows: a question asked before gets the answer of that time *)
Lemma call_keeps c b n a b' : do_bn_call c b n = Ok (a, b') -> cache_keeps (memo b) (memo b').
Proof.
  destruct c as [s e|x Z y|order g]; simpl; intros E.
  - apply bind_ok in E as ((ps & b1) & E & E'). inversion E'; subst. unfold find_all_undirected_paths in E.
    apply bind_ok in E as ((v & c1) & E & E1). inversion E1; subst. simpl. eapply fapc_keeps; eauto.
  - apply bind_ok in E as ((ps & b1) & E & E'). inversion E'; subst. unfold d_separated in E.
    apply bind_ok in E as ((v & c1) & E & E1). apply bind_ok in E1 as (r & _ & E1). inversion E1; subst.
    unfold find_all_undirected_paths in E. apply bind_ok in E as ((v' & c1') & E & E2). inversion E2; subst. simpl. eapply fapc_keeps; eauto.
  - inversion E; subst. unfold set_directed_graph. destruct (from_directed_graph order g). simpl. apply keeps_refl.
Qed.
Lemma calls_keep cs n : forall b l b', do_bn_calls cs b n = Ok (l, b') -> cache_keeps (memo b) (memo b').
Proof.
  induction cs as [|c cs IH]; simpl; intros b l b' E; [inversion E; subst; apply keeps_refl|].
  apply bind_ok in E as ((a & b1) & E1 & E). apply bind_ok in E as ((l2 & b2) & E2 & E). inversion E; subst.
  eapply keeps_trans; [eapply call_keeps; eauto|eapply IH; eauto].
Qed.
Lemma stale_answer s e cs n b ps b1 l b2 :
  do_bn_call (AskPaths s e) b n = Ok (Paths ps, b1) -> do_bn_calls cs b1 n = Ok (l, b2) ->
  do_bn_call (AskPaths s e) b2 n = Ok (Paths ps, b2).
Proof.
  simpl. intros E1 E2. apply bind_ok in E1 as ((v & b0) & E1 & E). inversion E; subst. unfold find_all_undirected_paths in *.
  apply bind_ok in E1 as ((v & c1) & E1 & E'). inversion E'; subst.
  pose proof (calls_keep _ _ _ _ _ E2) as Hk. apply fapc_keeps in E1 as H. destruct H as (_ & Hg). simpl in Hk. apply Hk in Hg.
  destruct n as [|n]; [discriminate|]. cbn [find_all_paths_cached]. rewrite Hg. destruct b2; reflexivity.
Qed.

(** non-recursive search from a node to itself yields nothing *)
Lemma nonrec_same g s : (forall u l v, gget g u = Some l -> In v l -> gget g v <> None) -> gget g s <> None ->
  evaluates (find_all_paths_nonrecursive g s s) (Ok []).
Proof.
  intros Hcl Hs. destruct (gget g s) as [l|] eqn:El; [|congruence].
  destruct (foldM_concat (fun n => find_all_paths_recursive (fuel_for g s) g n s [s]) (fun n => mem n [s]) (fun _ ps => ps = []) l []) as (rs & Ers & HF).
  { intros n Hn Hm. apply mem_false in Hm. destruct (fapr_ok g s (vertices g s) (vertices_closed g s) (fuel_for g s) [s] n) as (ps & E & H & _).
    - simpl. constructor; [intros [<-|[]]; apply Hm; left; reflexivity|]. constructor; [intros []|constructor].
    - intros x [<-|[<-|[]]]; [apply nodup_In; left; reflexivity|]. eapply vertices_closed; eauto.
    - unfold fuel_for. simpl. lia.
    - exists ps. split; [assumption|]. destruct ps as [|p ps]; [reflexivity|]. exfalso.
      destruct (proj1 (H p) (or_introl eq_refl)) as (q & -> & Hq & HNq).
      assert (Hin : In s q) by (eapply path_last_in; eauto).
      simpl in HNq. inversion HNq; subst. contradiction. }
  assert (Hout : concat rs = []).
  { clear - HF. induction HF; simpl; [reflexivity|]. subst. assumption. }
  rewrite Hout in Ers. simpl in Ers.
  split; [discriminate|].
  destruct (nr_explore g s Hcl (fuel_for g s) l [] [s] [] [] s []) as (m & Hm); [assumption|simpl; tauto|exact Ers|].
  exists (m + 1)%nat. intros n0 Hn. unfold find_all_paths_nonrecursive. fold (st [s] [] [] s 0).
  replace n0 with (m + S (n0 - m - 1))%nat by lia. simpl length in Hm. simpl app in Hm. rewrite Hm. simpl.
  unfold nr_step. simpl. rewrite El.
  replace (skip_visited _ (skipn (length l) l) (length l)) with (length l) by (rewrite skipn_all; reflexivity).
  rewrite (proj2 (nth_error_None l (length l))) by lia. reflexivity.
Qed.

(** the verdict as a function *)
Definition verdict_of (b : bn) x S y : bool :=
  match d_separated x S y b (fuel_for (graph_u b) x) with Ok (r, _) => r | Err _ => false end.
Lemma verdict_ok E N b : good_bn E N b -> forall x S y, verdict_of b x S y = true <-> d_sep1 E x (fun z => In z S) y.
Proof.
  intros Hb x S y. unfold verdict_of. destruct (d_separated_ok E N b x S y Hb) as (r & b' & Ep & _ & _ & _ & Hr). rewrite Ep by lia. exact Hr.
Qed.

Definition verdict_matches (verdict : nat -> list nat -> nat -> bool) c a :=
  match c, a with AskSep x Z y, Verdict r => r = verdict x Z y | AskPaths _ _, Paths _ => True | _, _ => False end.

Lemma verdict_history E N b : good_bn E N b -> exists verdict : nat -> list nat -> nat -> bool,
  (forall cs, Forall is_question cs -> exists l b', evaluates (do_bn_calls cs b) (Ok (l, b')) /\ Forall2 (verdict_matches verdict) cs l) /\
  (forall x S y, verdict x S y = true <-> d_sep1 E x (fun z => In z S) y) /\
  (forall x S y, verdict x S y = verdict y S x) /\
  (forall x S S' y, (forall z, In z S <-> In z S') -> verdict x S y = verdict x S' y) /\
  (forall x S y, adjacent E x y -> verdict x S y = false) /\
  (forall x S, verdict x S x = false) /\
  (forall x S y, verdict x S y = false -> ~ d_sep E x (fun z => In z S) y).
Proof.
  intros Hb. exists (verdict_of b). pose proof (verdict_ok E N b Hb) as HV.
  assert (Hff : forall x S y, verdict_of b x S y = false <-> ~ d_sep1 E x (fun z => In z S) y).
  { intros. rewrite <- HV. destruct (verdict_of b x S y); intuition congruence. }
  split; [|split; [exact HV|split; [|split; [|split; [|split]]]]].
  - intros cs Hq. destruct (history_eval E N b cs Hb Hq) as (l & b' & He & HF). exists l, b'. split; [assumption|].
    clear He. induction HF as [|c a cs l Ha HF IH]; [constructor|]. inversion Hq; subst. constructor; [|auto].
    destruct c, a; simpl in *; try tauto. apply eq_true_iff_eq. rewrite HV. assumption.
  - intros x S y. apply eq_true_iff_eq. rewrite !HV. split; apply d_sep1_sym.
  - intros x S S' y H. apply eq_true_iff_eq. rewrite !HV. split; apply d_sep1_ext; [assumption|]. intros z; symmetry; apply H.
  - intros x S y Ha. apply Hff. destruct (Nat.eq_dec x y) as [->|Hne]; [apply self_not_sep1|apply adjacent_not_sep1; assumption].
  - intros x S. apply Hff, self_not_sep1.
  - intros x S y Hf H. apply Hff in Hf. apply Hf, d_sep_d_sep1. assumption.
Qed.

(** strictly sorted lists with the same elements are equal *)
Lemma strict_eq l : forall l', StronglySorted lt l -> StronglySorted lt l' -> (forall v, In v l <-> In v l') -> l = l'.
Proof.
  induction l as [|x l IH]; intros l' H1 H2 H.
  - destruct l' as [|y l']; [reflexivity|]. exfalso. apply (proj2 (H y)). left; reflexivity.
  - destruct l' as [|y l']; [exfalso; apply (proj1 (H x)); left; reflexivity|].
    inversion H1 as [|? ? S1 F1]; inversion H2 as [|? ? S2 F2]; subst. rewrite Forall_forall in F1, F2.
    assert (x = y).
    { destruct (proj1 (H x) (or_introl eq_refl)) as [E|Hx]; [congruence|]. destruct (proj2 (H y) (or_introl eq_refl)) as [E|Hy]; [congruence|].
      specialize (F1 _ Hy). specialize (F2 _ Hx). lia. }
    subst y. f_equal. apply IH; [assumption|assumption|]. intros v. split; intros Hv.
    + destruct (proj1 (H v) (or_intror Hv)) as [<-|]; [|assumption]. specialize (F1 _ Hv). lia.
    + destruct (proj2 (H v) (or_intror Hv)) as [<-|]; [|assumption]. specialize (F2 _ Hv). lia.
Qed.
Lemma strict_le l : StronglySorted le l -> NoDup l -> StronglySorted lt l.
Proof.
  intros Hs HN. induction Hs as [|x l' Hs IH Hf]; [constructor|]. inversion HN; subst. constructor; [auto|].
  rewrite Forall_forall in *. intros y Hy. specialize (Hf y Hy). assert (x <> y) by (intros ->; contradiction). lia.
Qed.
Lemma fold_set_keys {A} (f : graph -> A -> graph) l : (forall g a, dict_ok g -> dict_ok (f g a)) -> forall g, dict_ok g -> dict_ok (fold_left f l g).
Proof. intros H. induction l; simpl; auto. Qed.
Lemma assoc_set_keys k (v : list nat) (g : graph) : dict_ok g -> dict_ok (assoc_set Nat.eqb k v g).
Proof.
  unfold dict_ok. assert (H : forall g : graph, forall u, In u (map fst (assoc_set Nat.eqb k v g)) -> u = k \/ In u (map fst g)).
  { clear. induction g as [|[k' v'] g IH]; simpl; intros u Hu; [intuition|]. destruct (Nat.eqb_spec k k'); simpl in *; intuition. apply IH in H. tauto. }
  induction g as [|[k' v'] g IH]; simpl; intros HN; [constructor; [intros []|constructor]|]. inversion HN; subst.
  destruct (Nat.eqb_spec k k'); simpl; [assumption|]. constructor; [|auto]. intros Hin. apply H in Hin as [?|?]; [congruence|contradiction].
Qed.
Lemma as_directed_dict net : dict_ok (as_directed_graph net).
Proof.
  rewrite as_directed_unfold. unfold add_missing. apply fold_set_keys.
  - intros g a Hg. destruct (gget g a); [assumption|]. apply assoc_set_keys; assumption.
  - unfold dict_ok, sort_graph. rewrite map_map. simpl. fold (dict_ok (fold_left (fun g e => append_edge (fst e) (snd e) g) (net_edges net) [])).
    apply fold_set_keys; [|constructor]. intros g e Hg. unfold append_edge. destruct (gget g (fst e)); apply assoc_set_keys; assumption.
Qed.
Lemma as_directed_edge net : network_ok net -> forall u v, edge_of (as_directed_graph net) u v <-> net_edge net u v.
Proof.
  intros (H1 & H2 & H3) u v. destruct (as_directed_ok net H1 H2 H3 u) as (Hin & Hout). unfold edge_of. fold (gget (as_directed_graph net) u).
  destruct (in_dec Nat.eq_dec u (map fst net)) as [Hu|Hu].
  - destruct (Hin Hu) as (l & El & _ & Hl). rewrite El. rewrite <- Hl. split; [intros (l' & E & H); congruence|eauto].
  - rewrite (Hout Hu). split; [intros (l & E & _); discriminate|]. intros H. apply H3 in H. contradiction.
Qed.
Lemma graphs_agree net order : network_ok net -> order_ok order (as_directed_graph net) -> forall u,
  gget (graph_d (new_bn order (as_directed_graph net))) u = gget (as_directed_graph net) u /\
  gget (graph_u (new_bn order (as_directed_graph net))) u = gget (as_undirected_graph net) u.
Proof.
  intros HN HO u. pose proof (as_directed_dict net) as HD. pose proof (as_directed_edge net HN) as HE.
  unfold new_bn. destruct (from_directed_graph order (as_directed_graph net)) as (gd & gu) eqn:Ef. cbn [graph_d graph_u].
  pose proof (from_directed_ok _ order gd gu HD (proj1 HO) (order_all order _ HD HO) Ef u) as (Hin & Hout).
  destruct HN as (H1 & H2 & H3). pose proof (as_directed_ok net H1 H2 H3 u) as (D1 & D2). pose proof (as_undirected_ok net H3 u) as (U1 & U2).
  assert (Hnodes : In u (all_nodes (as_directed_graph net)) <-> In u (map fst net)).
  { rewrite all_nodes_in. rewrite <- gget_key. split.
    - intros [Hk|(v & Hv)].
      + destruct (in_dec Nat.eq_dec u (map fst net)) as [|Hu]; [assumption|]. rewrite (D2 Hu) in Hk. congruence.
      + apply graph_edges_in in Hv; [|assumption]. apply HE in Hv as (ps & Hv & _). apply in_map_iff. exists (u, ps). auto.
    - intros Hu. left. destruct (D1 Hu) as (l & El & _). congruence. }
  destruct (in_dec Nat.eq_dec u (map fst net)) as [Hu|Hu].
  - destruct (D1 Hu) as (l & El & Sl & _). destruct (U1 Hu) as (lu & Elu & Slu & Hlu).
    destruct (Hin (proj2 Hnodes Hu)) as ((l' & El' & Sl' & Pl') & (lu' & Elu' & Slu' & Hlu')).
    rewrite El in Pl'. rewrite El, El', Elu, Elu'. split; f_equal.
    + apply strict_eq; [|assumption|].
      * apply strict_le; [assumption|]. apply (Permutation_NoDup (Permutation_sym Pl')). apply strict_nodup; assumption.
      * intros v. split; apply Permutation_in; [assumption|apply Permutation_sym; assumption].
    + apply strict_eq; [assumption|assumption|]. intros v. rewrite Hlu, Hlu'. unfold adjacent. rewrite !HE. reflexivity.
  - rewrite (D2 Hu), (U2 Hu). apply Hout. rewrite Hnodes. assumption.
Qed.
