(** as_directed_graph, as_undirected_graph, from_directed_graph. *)
From Verif Require Import Base Graph_Model Graph_Spec.

Lemma fold_left_flat_map {A B C} (f : C -> B -> C) (h : A -> list B) l c :
  fold_left (fun c a => fold_left f (h a) c) l c = fold_left f (flat_map h l) c.
Proof. revert c. induction l as [|a l IH]; simpl; intros c; [reflexivity|]. rewrite fold_left_app. apply IH. Qed.
Lemma fold_left_map {A B C} (f : C -> B -> C) (h : A -> B) l c :
  fold_left (fun c a => f c (h a)) l c = fold_left f (map h l) c.
Proof. revert c. induction l as [|a l IH]; simpl; intros c; [reflexivity|]. apply IH. Qed.
Lemma fold_left_ext {A C} (f f' : C -> A -> C) l c : (forall c a, f c a = f' c a) -> fold_left f l c = fold_left f' l c.
Proof. intros H. revert c. induction l; simpl; intros; [reflexivity|]. rewrite H. auto. Qed.

Lemma gget_set g k v u : gget (assoc_set Nat.eqb k v g) u = if Nat.eqb u k then Some v else gget g u.
Proof.
  unfold gget. destruct (Nat.eqb_spec u k) as [->|H]; [apply assoc_set_same|apply assoc_set_other; assumption].
Qed.

Lemma gget_sort g u : gget (sort_graph g) u = option_map sort_nat (gget g u).
Proof. unfold gget. induction g as [|[k l] g IH]; simpl; [reflexivity|]. destruct (u =? k); [reflexivity|assumption]. Qed.

Lemma gget_add_missing ns : forall g u, gget (add_missing ns g) u =
  match gget g u with Some l => Some l | None => if mem u ns then Some [] else None end.
Proof.
  induction ns as [|n ns IH]; intros g u; simpl; [destruct (gget g u); reflexivity|].
  unfold add_missing in *. simpl. rewrite IH. destruct (gget g n) as [ln|] eqn:En.
  - destruct (gget g u) as [lu|] eqn:Eu; [reflexivity|].
    destruct (Nat.eqb_spec u n) as [->|Hne]; [congruence|reflexivity].
  - rewrite gget_set. destruct (Nat.eqb_spec u n) as [->|Hne]; [rewrite En; reflexivity|].
    destruct (gget g u); reflexivity.
Qed.

Lemma gget_finish order : forall g u, NoDup order -> gget (fold_left (fun g n => finish_node n g) order g) u =
  if mem u order then Some (match gget g u with Some l => sort_nat l | None => [] end) else gget g u.
Proof.
  induction order as [|n order IH]; intros g u HN; simpl; [reflexivity|]. inversion HN; subst.
  rewrite IH by assumption.
  assert (Hf : gget (finish_node n g) u = if u =? n then Some (match gget g u with Some l => sort_nat l | None => [] end) else gget g u).
  { unfold finish_node. destruct (gget g n) eqn:En; rewrite gget_set; destruct (Nat.eqb_spec u n); subst; try rewrite En; reflexivity. }
  rewrite Hf. destruct (Nat.eqb_spec u n) as [->|Hne]; simpl; [|reflexivity].
  destruct (mem n order) eqn:Em; [|reflexivity]. apply mem_In in Em. contradiction.
Qed.

(** ** edges appended with repetitions *)
Definition succs (es : list (nat * nat)) (u : nat) : list nat := map snd (filter (fun e => fst e =? u) es).
Lemma succs_app a b u : succs (a ++ b) u = succs a u ++ succs b u.
Proof. unfold succs. rewrite filter_app, map_app. reflexivity. Qed.
Lemma append_edges es : forall u, gget (fold_left (fun g e => append_edge (fst e) (snd e) g) es []) u =
  match succs es u with [] => None | l => Some l end.
Proof.
  induction es as [|[k v] es IH] using rev_ind; intros u; [reflexivity|].
  rewrite fold_left_app. cbn [fold_left]. rewrite succs_app. cbn [fst snd].
  pose proof (IH k) as IHk. pose proof (IH u) as IHu. clear IH. revert IHk IHu.
  generalize (fold_left (fun g e => append_edge (fst e) (snd e) g) es ([] : graph)). intros g IHk IHu.
  assert (Hu : succs [(k, v)] u = if u =? k then [v] else []).
  { unfold succs. simpl. rewrite Nat.eqb_sym. destruct (u =? k); reflexivity. }
  rewrite Hu. unfold append_edge. rewrite IHk. destruct (Nat.eqb_spec u k) as [->|Hne].
  - destruct (succs es k) as [|a l]; rewrite gget_set, Nat.eqb_refl; reflexivity.
  - rewrite app_nil_r, <- IHu. destruct (succs es k) as [|a l]; rewrite gget_set;
      (destruct (Nat.eqb_spec u k); [contradiction|reflexivity]).
Qed.
Lemma succs_in es u v : In v (succs es u) <-> In (u, v) es.
Proof.
  unfold succs. rewrite in_map_iff. split.
  - intros ([a b] & E & H). apply filter_In in H as (H & Ha). simpl in *. apply Nat.eqb_eq in Ha. subst; assumption.
  - intros H. exists (u, v). split; [reflexivity|]. apply filter_In. simpl. rewrite Nat.eqb_refl. auto.
Qed.
Lemma succs_nodup es u : NoDup es -> NoDup (succs es u).
Proof.
  unfold succs. induction 1 as [|[a b] es H HN IH]; simpl; [constructor|].
  destruct (Nat.eqb_spec a u) as [->|]; [|assumption]. simpl. constructor; [|assumption].
  intros Hin. apply H. fold (succs es u) in Hin. apply succs_in. assumption.
Qed.

(** ** edges appended once, in both directions *)
Definition sym_step (g : graph) (e : nat * nat) : graph :=
  append_edge_once (snd e) (fst e) (append_edge_once (fst e) (snd e) g).
Definition sym_ok (es : list (nat * nat)) (g : graph) :=
  forall u, match gget g u with
            | Some l => NoDup l /\ (forall v, In v l <-> In (u, v) es \/ In (v, u) es) /\ l <> []
            | None => forall v, ~ (In (u, v) es \/ In (v, u) es)
            end.
Lemma once_spec k v g u : gget (append_edge_once k v g) u =
  if u =? k then Some (match gget g k with None => [v] | Some l => if mem v l then l else l ++ [v] end) else gget g u.
Proof.
  unfold append_edge_once. destruct (gget g k) as [l|] eqn:Ek.
  - destruct (mem v l) eqn:Em.
    + destruct (Nat.eqb_spec u k); subst; [assumption|reflexivity].
    + rewrite gget_set. destruct (Nat.eqb_spec u k); subst; reflexivity.
  - rewrite gget_set. destruct (Nat.eqb_spec u k); subst; reflexivity.
Qed.
(** one-directional version *)
Definition half_ok (P : nat -> nat -> Prop) (g : graph) :=
  forall u, match gget g u with
            | Some l => NoDup l /\ (forall v, In v l <-> P u v) /\ l <> []
            | None => forall v, ~ P u v
            end.
Lemma half_step (P Q : nat -> nat -> Prop) g k v : half_ok P g -> (forall a b, Q a b <-> P a b \/ (a = k /\ b = v)) ->
  half_ok Q (append_edge_once k v g).
Proof.
  intros H HQ u. rewrite once_spec. destruct (Nat.eqb_spec u k) as [->|Hne].
  - specialize (H k). destruct (gget g k) as [l|].
    + destruct H as (HN & Hl & Hne). destruct (mem v l) eqn:Em.
      * apply mem_In in Em. split; [assumption|]. split; [|assumption]. intros w. rewrite HQ, Hl. split; [auto|].
        intros [Hp|(_ & ->)]; [assumption|]. apply Hl; assumption.
      * apply mem_false in Em. split; [apply (Permutation_NoDup (Permutation_cons_append l v)); constructor; assumption|].
        split; [|destruct l; discriminate].
        intros w. rewrite HQ, in_app_iff, Hl. simpl. split; [intros [?|[<-|[]]]; auto|intros [?|(_ & ->)]; auto].
    + split; [constructor; [intros []|constructor]|]. split; [|discriminate].
      intros w. rewrite HQ. simpl. split; [intros [<-|[]]; auto|intros [Hp|(_ & ->)]; auto]. exfalso; eapply H; eauto.
  - specialize (H u). destruct (gget g u) as [l|].
    + destruct H as (HN & Hl & Hne'). split; [assumption|]. split; [|assumption]. intros w. rewrite HQ, Hl. split; [auto|intros [?|(-> & _)]; [assumption|contradiction]].
    + intros w Hw. apply HQ in Hw as [?|(-> & _)]; [eapply H; eauto|contradiction].
Qed.
Lemma sym_edges es : sym_ok es (fold_left sym_step es []).
Proof.
  induction es as [|[a b] es IH] using rev_ind; [intros u; simpl; intuition|].
  rewrite fold_left_app. simpl. unfold sym_step. simpl.
  apply (half_step (fun u v => In (u, v) es \/ In (v, u) es \/ (u = a /\ v = b))).
  - apply (half_step (fun u v => In (u, v) es \/ In (v, u) es)); [exact IH|]. intros; tauto.
  - intros u v. rewrite !in_app_iff. simpl. split.
    + intros [[H|[E|[]]]|[H|[E|[]]]]; try (inversion E; subst); tauto.
    + intros [[H|[H|(-> & ->)]]|(-> & ->)]; tauto.
Qed.

(** ** the three functions *)
Definition net_edges (net : network) : list (nat * nat) := flat_map (fun node => map (fun c => (c, fst node)) (snd node)) net.
Lemma net_edges_in net u v : In (u, v) (net_edges net) <-> net_edge net u v.
Proof.
  unfold net_edges, net_edge. rewrite in_flat_map. split.
  - intros ([w ps] & H & Hin). apply in_map_iff in Hin as (c & E & Hc). inversion E; subst. eauto.
  - intros (ps & H & Hu). exists (v, ps). split; [assumption|]. apply in_map_iff. exists u. auto.
Qed.

Lemma as_directed_unfold net : as_directed_graph net =
  add_missing (map fst net) (sort_graph (fold_left (fun g e => append_edge (fst e) (snd e) g) (net_edges net) [])).
Proof.
  unfold as_directed_graph, net_edges. rewrite <- fold_left_flat_map. do 2 f_equal.
  apply fold_left_ext. intros g [v ps]. simpl. clear. revert g.
  induction ps as [|p ps IH]; simpl; intros g; [reflexivity|apply IH].
Qed.
Lemma as_undirected_unfold net : as_undirected_graph net =
  add_missing (map fst net) (sort_graph (fold_left sym_step (net_edges net) [])).
Proof.
  unfold as_undirected_graph, net_edges. rewrite <- fold_left_flat_map. do 2 f_equal.
  apply fold_left_ext. intros g [v ps]. simpl. clear. revert g.
  induction ps as [|p ps IH]; simpl; intros g; [reflexivity|apply IH].
Qed.

Lemma net_edges_nodup net : NoDup (map fst net) -> Forall (fun node => NoDup (snd node)) net -> NoDup (net_edges net).
Proof.
  unfold net_edges. induction net as [|[v ps] net IH]; simpl; intros HN HF; [constructor|].
  inversion HN; subst. inversion HF; subst. simpl in *.
  assert (Hin : forall c w, In (c, w) (flat_map (fun node => map (fun c => (c, fst node)) (snd node)) net) -> In w (map fst net)).
  { intros c w H. apply in_flat_map in H as ([w' ps'] & H & H'). apply in_map_iff in H' as (c' & E & _). inversion E; subst.
    apply in_map_iff. exists (w, ps'). auto. }
  specialize (IH H2 H4). clear HN HF H2 H4. induction ps as [|p ps IHp]; simpl; [assumption|]. inversion H3; subst. constructor; [|auto].
  rewrite in_app_iff. intros [H|H].
  - apply in_map_iff in H as (c & E & Hc). inversion E; subst. contradiction.
  - apply Hin in H. contradiction.
Qed.

Lemma strict_nodup l : StronglySorted lt l -> NoDup l.
Proof.
  induction 1 as [|x l Hs IH Hf]; [constructor|]. constructor; [|assumption]. intros H.
  rewrite Forall_forall in Hf. specialize (Hf x H). lia.
Qed.

Lemma as_directed_ok net : NoDup (map fst net) -> Forall (fun node => NoDup (snd node)) net ->
  (forall u v, net_edge net u v -> In u (map fst net)) -> forall u,
  (In u (map fst net) -> exists l, gget (as_directed_graph net) u = Some l /\ StronglySorted lt l /\ forall v, In v l <-> net_edge net u v) /\
  (~ In u (map fst net) -> gget (as_directed_graph net) u = None).
Proof.
  intros HN HF Hcl u. rewrite as_directed_unfold, gget_add_missing, gget_sort, append_edges.
  assert (Hin : forall v, In v (succs (net_edges net) u) <-> net_edge net u v) by (intros v; rewrite succs_in; apply net_edges_in).
  pose proof (succs_nodup (net_edges net) u (net_edges_nodup net HN HF)) as HNs.
  split; intros Hu.
  - apply mem_In in Hu. rewrite Hu. destruct (succs (net_edges net) u) as [|a l] eqn:Es.
    + exists []. simpl. split; [reflexivity|]. split; [constructor|]. exact Hin.
    + exists (sort_nat (a :: l)). split; [reflexivity|]. split; [apply sort_strict; assumption|]. intros v. rewrite sort_in. apply Hin.
  - destruct (succs (net_edges net) u) as [|a l] eqn:Es.
    + apply mem_false in Hu. rewrite Hu. reflexivity.
    + exfalso. apply Hu. apply (Hcl u a). apply Hin. left; reflexivity.
Qed.

Lemma as_undirected_ok net : (forall u v, net_edge net u v -> In u (map fst net)) -> forall u,
  (In u (map fst net) -> exists l, gget (as_undirected_graph net) u = Some l /\ StronglySorted lt l /\ forall v, In v l <-> adjacent (net_edge net) u v) /\
  (~ In u (map fst net) -> gget (as_undirected_graph net) u = None).
Proof.
  intros Hcl u. rewrite as_undirected_unfold, gget_add_missing, gget_sort.
  pose proof (sym_edges (net_edges net) u) as H. unfold adjacent.
  split; intros Hu.
  - apply mem_In in Hu. rewrite Hu. destruct (gget (fold_left sym_step (net_edges net) []) u) as [l|]; simpl.
    + destruct H as (Hn & Hl & _). exists (sort_nat l). split; [reflexivity|]. split; [apply sort_strict; assumption|].
      intros v. rewrite sort_in, Hl, !net_edges_in. reflexivity.
    + exists []. split; [reflexivity|]. split; [constructor|]. intros v. split; [intros []|]. rewrite <- !net_edges_in. apply H.
  - destruct (gget (fold_left sym_step (net_edges net) []) u) as [l|] eqn:El; simpl.
    + exfalso. apply Hu. destruct H as (_ & Hl & Hne). destruct l as [|v l]; [congruence|].
      destruct (proj1 (Hl v) (or_introl eq_refl)) as [E|E]; apply net_edges_in in E.
      * apply (Hcl u v E).
      * destruct E as (ps & E & _). apply in_map_iff. exists (u, ps). auto.
    + apply mem_false in Hu. rewrite Hu. reflexivity.
Qed.

Definition graph_edges (g : graph) : list (nat * nat) := flat_map (fun kv => map (fun d => (fst kv, d)) (snd kv)) g.
Lemma undirected_unfold g : undirected_edges g = fold_left sym_step (graph_edges g) [].
Proof.
  unfold undirected_edges, graph_edges. rewrite <- fold_left_flat_map. apply fold_left_ext. intros gu [k l]. simpl. clear. revert gu.
  induction l as [|d l IH]; simpl; intros gu; [reflexivity|apply IH].
Qed.
Lemma graph_edges_in g u v : NoDup (map fst g) -> In (u, v) (graph_edges g) <-> edge_of g u v.
Proof.
  intros HN. unfold graph_edges, edge_of. rewrite in_flat_map. split.
  - intros ([k l] & H & Hin). apply in_map_iff in Hin as (d & E & Hd). inversion E; subst. simpl in *. exists l. split; [|assumption].
    clear - HN H. induction g as [|[k l'] g IH]; simpl in *; [contradiction|]. inversion HN; subst.
    destruct H as [E|H]; [inversion E; subst; rewrite Nat.eqb_refl; reflexivity|].
    destruct (Nat.eqb_spec u k) as [->|]; [|auto]. exfalso. apply H2. apply in_map_iff. exists (k, l); auto.
  - intros (l & El & Hv). clear HN. exists (u, l). split; [|apply in_map_iff; eauto].
    induction g as [|[k l'] g IH]; simpl in *; [discriminate|]. destruct (Nat.eqb_spec u k) as [->|]; [left; congruence|auto].
Qed.
Lemma all_nodes_in g u : In u (all_nodes g) <-> In u (map fst g) \/ exists v, In (v, u) (graph_edges g).
Proof.
  unfold all_nodes, graph_edges. rewrite in_flat_map, in_map_iff. split.
  - intros ([k l] & H & [E|Hin]); simpl in *; [left; exists (k, l); auto|]. right. exists k. apply in_flat_map. exists (k, l).
    split; [assumption|]. apply in_map_iff. eauto.
  - intros [([k l] & E & H)|(v & H)]; simpl in *.
    + exists (k, l). simpl. auto.
    + apply in_flat_map in H as ([k l] & H & Hin). apply in_map_iff in Hin as (d & E & Hd). inversion E; subst. exists (v, l). simpl. auto.
Qed.
Lemma gget_key (g : graph) u : gget g u <> None <-> In u (map fst g).
Proof.
  unfold gget. induction g as [|[k l] g IH]; simpl; [intuition|].
  destruct (Nat.eqb_spec u k) as [->|Hne]; [split; [auto|discriminate]|]. rewrite IH. split; [auto|intros [E|H]; [congruence|assumption]].
Qed.

Lemma from_directed_ok g order gd gu : NoDup (map fst g) -> NoDup order -> (forall n, In n order <-> In n (all_nodes g)) ->
  from_directed_graph order g = (gd, gu) -> forall u,
  (In u (all_nodes g) ->
    (exists l, gget gd u = Some l /\ StronglySorted le l /\ Permutation l (match gget g u with Some l0 => l0 | None => [] end)) /\
    (exists l, gget gu u = Some l /\ StronglySorted lt l /\ forall v, In v l <-> adjacent (edge_of g) u v)) /\
  (~ In u (all_nodes g) -> gget gd u = None /\ gget gu u = None).
Proof.
  intros HNk HNo Ho E u. unfold from_directed_graph in E. injection E as <- <-. rewrite !gget_finish by assumption.
  pose proof (sym_edges (graph_edges g) u) as H. rewrite <- undirected_unfold in H.
  split; intros Hu.
  - assert (Hm : mem u order = true) by (apply mem_In, Ho; assumption). rewrite Hm. split.
    + eexists. split; [reflexivity|]. destruct (gget g u) as [l|]; [|split; constructor].
      split; [apply sort_sorted|apply Permutation_sym, sort_perm].
    + eexists. split; [reflexivity|]. unfold adjacent. destruct (gget (undirected_edges g) u) as [l|].
      * destruct H as (Hn & Hl & _). split; [apply sort_strict; assumption|]. intros v.
        rewrite sort_in, Hl, !graph_edges_in by assumption. reflexivity.
      * split; [constructor|]. intros v. split; [intros []|]. rewrite <- !graph_edges_in by assumption. apply H.
  - assert (Hm : mem u order = false) by (apply mem_false; rewrite Ho; assumption). rewrite Hm.
    assert (Hk : ~ In u (map fst g)) by (intros Hk; apply Hu, all_nodes_in; auto).
    split.
    + destruct (gget g u) eqn:Eg; [|reflexivity]. exfalso. apply Hk, gget_key. congruence.
    + destruct (gget (undirected_edges g) u) as [l|]; [|reflexivity]. exfalso. destruct H as (_ & Hl & Hne).
      destruct l as [|v l]; [congruence|]. destruct (proj1 (Hl v) (or_introl eq_refl)) as [Ed|Ed].
      * apply graph_edges_in in Ed as (l' & El & _); [|assumption]. apply Hk, gget_key. unfold gget. congruence.
      * apply Hu, all_nodes_in. eauto.
Qed.
