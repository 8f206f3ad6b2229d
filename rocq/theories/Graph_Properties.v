(** C22-C26: path search, memoisation, d-separation, graph views.  Statements only. *)
From Verif Require Import Base Graph_Model Graph_Spec Graph_History_Model Graph_Paths_Proofs Graph_Search_Proofs Graph_Build_Proofs Graph_Dsep_Proofs Graph_History_Proofs.

(** the graph 0 -> 2 <- 1, 2 -> 3 -> 4 *)
Definition gW : graph := [(0, [2]); (1, [2]); (2, [3]); (3, [4])].
Definition oW : list nat := [0; 1; 2; 3; 4].
Lemma gW_edge u v : edge_of gW u v <-> In (u, v) [(0,2); (1,2); (2,3); (3,4)].
Proof. rewrite <- graph_edges_in; [reflexivity|]. simpl. repeat (constructor; [simpl; intuition lia|]). constructor. Qed.
Lemma gW_dict : dict_ok gW.
Proof. unfold dict_ok. simpl. repeat (constructor; [simpl; intuition lia|]). constructor. Qed.
Lemma gW_order : order_ok oW gW.
Proof.
  split; [unfold oW; repeat (constructor; [simpl; intuition lia|]); constructor|].
  intros n. split.
  - intros H. simpl in H. destruct H as [<-|[<-|[<-|[<-|[<-|[]]]]]]; try (left; simpl; tauto). right. exists 3. apply gW_edge. simpl. tauto.
  - intros [H|(u & H)]; [|apply gW_edge in H]; simpl in *; [tauto|].
    destruct H as [E|[E|[E|[E|[]]]]]; inversion E; subst; tauto.
Qed.
Lemma gW_acyclic : acyclic (edge_of gW).
Proof.
  assert (H : forall u v, clos_trans _ (edge_of gW) u v -> u < v).
  { induction 1 as [u v H|]; [|lia]. apply gW_edge in H. simpl in H. destruct H as [E|[E|[E|[E|[]]]]]; inversion E; subst; lia. }
  intros u Hu. apply H in Hu. lia.
Qed.

(** ** C22 *)
Theorem C22_directed_paths_are_the_simple_paths : forall g s e,
  exists ps, evaluates (find_all_directed_paths g s e) (Ok ps) /\
    (forall p, In p ps <-> simple_path (edge_of g) s p e) /\
    ((forall u l, In (u, l) g -> NoDup l) -> NoDup ps).
Proof.
  intros g s e. destruct (fapr_top g s e) as (ps & E & H & HN). exists ps. split; [split; [discriminate|eauto]|].
  split; [assumption|]. intros Hg. apply HN. intros u l El. apply (Hg u l). clear - El. unfold gget in El.
  induction g as [|[k l'] g IH]; simpl in *; [discriminate|]. destruct (Nat.eqb_spec u k) as [->|]; [left; congruence|auto].
Qed.
Print Assumptions C22_directed_paths_are_the_simple_paths.
Theorem C22_undirected_paths_are_the_simple_paths : forall g order, dict_ok g -> order_ok order g -> forall s e,
  exists ps b, evaluates (find_all_undirected_paths s e (new_bn order g)) (Ok (ps, b)) /\
    NoDup ps /\ forall p, In p ps <-> simple_path (adjacent (edge_of g)) s p e.
Proof.
  intros g order HD HO s e. destruct (undirected_paths_ok _ _ _ s e (new_bn_good g order HD HO)) as (ps & b & Ep & _ & _ & _ & HN & Hps & _).
  exists ps, b. split; [split; [discriminate|eauto]|]. split; assumption.
Qed.
Print Assumptions C22_undirected_paths_are_the_simple_paths.
Theorem C22_nonrecursive_search_agrees : forall g s e,
  (forall u v, edge_of g u v -> In v (map fst g)) -> In s (map fst g) -> s <> e ->
  exists ps, evaluates (find_all_directed_paths g s e) (Ok ps) /\ evaluates (find_all_paths_nonrecursive g s e) (Ok ps).
Proof.
  intros g s e Hcl Hs Hne. apply (nonrec_ok g s e); [|apply gget_key; assumption|assumption].
  intros u l v El Hv. apply gget_key. apply (Hcl u v). exists l. auto.
Qed.
Print Assumptions C22_nonrecursive_search_agrees.
(** ... and from a node to itself the recursive search lists the one-node path, the other nothing *)
Theorem C22_nonrecursive_search_same_end_refuted : forall g s,
  (forall u v, edge_of g u v -> In v (map fst g)) -> In s (map fst g) ->
  evaluates (find_all_directed_paths g s s) (Ok [[s]]) /\ evaluates (find_all_paths_nonrecursive g s s) (Ok []).
Proof.
  intros g s Hcl Hs. split.
  - split; [discriminate|]. exists 1%nat. intros n Hn. destruct n; [lia|]. unfold find_all_directed_paths. simpl. rewrite Nat.eqb_refl. reflexivity.
  - apply nonrec_same; [|apply gget_key; assumption]. intros u l v El Hv. apply gget_key. apply (Hcl u v). exists l. auto.
Qed.
Print Assumptions C22_nonrecursive_search_same_end_refuted.
Example C22_nonvacuous : simple_path (adjacent (edge_of gW)) 0 [0;2;1] 1 /\
  find_all_undirected_paths 0 1 (new_bn oW gW) 9 <> Err OutOfFuel /\
  (exists b, find_all_undirected_paths 0 1 (new_bn oW gW) 9 = Ok ([[0;2;1]], b)).
Proof.
  split.
  - split; [|repeat (constructor; [simpl; intuition lia|]); constructor].
    apply path_step with 2; [left; apply gW_edge; simpl; tauto|]. apply path_step with 1; [right; apply gW_edge; simpl; tauto|]. constructor.
  - split; [vm_compute; discriminate|]. eexists. vm_compute. reflexivity.
Qed.

(** ** C23: any history of questions to one object with a fixed graph is answered exactly *)
Theorem C23_memoised_history_exact : forall g order, dict_ok g -> order_ok order g -> forall calls, Forall is_question calls ->
  exists answers b, evaluates (do_bn_calls calls (new_bn order g)) (Ok (answers, b)) /\ Forall2 (answer_ok (edge_of g)) calls answers.
Proof. intros g order HD HO calls Hq. exact (history_eval _ _ _ calls (new_bn_good g order HD HO) Hq). Qed.
Print Assumptions C23_memoised_history_exact.
Theorem C23_memoised_history_exact_for_networks : forall net, network_ok net -> forall calls, Forall is_question calls ->
  exists answers b, evaluates (do_bn_calls calls (bn_of_network net)) (Ok (answers, b)) /\ Forall2 (answer_ok (net_edge net)) calls answers.
Proof. intros net HN calls Hq. exact (history_eval _ _ _ calls (net_good net HN) Hq). Qed.
Print Assumptions C23_memoised_history_exact_for_networks.
(** ... but whatever graphs are installed later, a path question asked once keeps its first answer *)
Theorem C23_first_answer_is_kept_forever : forall s e b n ps b1 calls l b2,
  do_bn_call (AskPaths s e) b n = Ok (Paths ps, b1) -> do_bn_calls calls b1 n = Ok (l, b2) ->
  do_bn_call (AskPaths s e) b2 n = Ok (Paths ps, b2).
Proof. intros s e b n ps b1 calls l b2. exact (stale_answer s e calls n b ps b1 l b2). Qed.
Print Assumptions C23_first_answer_is_kept_forever.
Theorem C23_replaced_graph_refuted :
  exists g g' order order' s e b', dict_ok g /\ dict_ok g' /\ order_ok order g /\ order_ok order' g' /\
    evaluates (do_bn_calls [AskPaths s e; ReplaceGraph order' g'; AskPaths s e] (new_bn order g))
              (Ok ([Paths [[s; e]]; Done; Paths [[s; e]]], b')) /\
    ~ simple_path (adjacent (edge_of g')) s [s; e] e.
Proof.
  exists [(0, [1])], [(0, []); (1, [])], [0; 1], [0; 1], 0, 1. eexists.
  assert (H01 : forall n, In n [0; 1] <-> (n = 0 \/ n = 1)) by (intros n; simpl; intuition).
  assert (E1 : forall u v, edge_of [(0, [1])] u v <-> u = 0 /\ v = 1).
  { intros u v. rewrite <- graph_edges_in by (repeat constructor; intros []). simpl. split; [intros [E|[]]; inversion E; auto|intros (-> & ->); auto]. }
  assert (E2 : forall u v, ~ edge_of [(0, []); (1, [])] u v).
  { intros u v. rewrite <- graph_edges_in; [simpl; tauto|]. simpl. repeat (constructor; [simpl; intuition lia|]). constructor. }
  split; [repeat constructor; intros []|]. split; [unfold dict_ok; simpl; repeat (constructor; [simpl; intuition lia|]); constructor|].
  split; [split; [repeat (constructor; [simpl; intuition lia|]); constructor|]|].
  { intros n. rewrite H01. simpl. split; [intros [-> | ->]; [auto|right; exists 0; apply E1; auto]|intros [[<-|[]]|(u & H)]; [auto|apply E1 in H; tauto]]. }
  split; [split; [repeat (constructor; [simpl; intuition lia|]); constructor|]|].
  { intros n. rewrite H01. simpl. split; [intros [-> | ->]; auto|intros [H|(u & H)]; [intuition|apply E2 in H; tauto]]. }
  split.
  - split; [discriminate|]. exists 3. intros n Hn. destruct n as [|[|[|n]]]; try lia. vm_compute. reflexivity.
  - intros (Hp & _). inversion Hp as [|? z ? ? Ha]; subst. destruct Ha as [Hx|Hx]; apply E2 in Hx; assumption.
Qed.
Print Assumptions C23_replaced_graph_refuted.
Example C23_nonvacuous : dict_ok gW /\ order_ok oW gW /\ Forall is_question [AskPaths 0 1; AskSep 0 [4] 1; AskPaths 0 1].
Proof. split; [apply gW_dict|]. split; [apply gW_order|]. repeat constructor. Qed.

(** ** C24 *)
Theorem C24_d_separated_verdicts : forall g order, dict_ok g -> order_ok order g ->
  exists verdict : nat -> list nat -> nat -> bool,
  (forall calls, Forall is_question calls ->
     exists answers b, evaluates (do_bn_calls calls (new_bn order g)) (Ok (answers, b)) /\ Forall2 (verdict_matches verdict) calls answers) /\
  (forall x Z y, verdict x Z y = true <-> d_sep1 (edge_of g) x (fun z => In z Z) y) /\
  (forall x Z y, verdict x Z y = verdict y Z x) /\
  (forall x Z Z' y, (forall z, In z Z <-> In z Z') -> verdict x Z y = verdict x Z' y) /\
  (forall x Z y, adjacent (edge_of g) x y -> verdict x Z y = false) /\
  (forall x Z, verdict x Z x = false) /\
  (forall x Z y, verdict x Z y = false -> ~ d_sep (edge_of g) x (fun z => In z Z) y).
Proof. intros g order HD HO. exact (verdict_history _ _ _ (new_bn_good g order HD HO)). Qed.
Print Assumptions C24_d_separated_verdicts.
Theorem C24_d_separated_verdicts_for_networks : forall net, network_ok net ->
  exists verdict : nat -> list nat -> nat -> bool,
  (forall calls, Forall is_question calls ->
     exists answers b, evaluates (do_bn_calls calls (bn_of_network net)) (Ok (answers, b)) /\ Forall2 (verdict_matches verdict) calls answers) /\
  (forall x Z y, verdict x Z y = true <-> d_sep1 (net_edge net) x (fun z => In z Z) y) /\
  (forall x Z y, verdict x Z y = verdict y Z x) /\
  (forall x Z Z' y, (forall z, In z Z <-> In z Z') -> verdict x Z y = verdict x Z' y) /\
  (forall x Z y, adjacent (net_edge net) x y -> verdict x Z y = false) /\
  (forall x Z, verdict x Z x = false) /\
  (forall x Z y, verdict x Z y = false -> ~ d_sep (net_edge net) x (fun z => In z Z) y).
Proof. intros net HN. exact (verdict_history _ _ _ (net_good net HN)). Qed.
Print Assumptions C24_d_separated_verdicts_for_networks.
Example C24_nonvacuous : network_ok [(5, []); (7, [5]); (6, [5; 7])].
Proof.
  split; [simpl; repeat (constructor; [simpl; intuition lia|]); constructor|].
  split; [repeat constructor; simpl; intuition lia|].
  intros u v (ps & H & Hu). simpl in *. destruct H as [E|[E|[E|[]]]]; inversion E; subst; simpl in Hu; intuition.
Qed.

(** ** C25 *)
Theorem C25_d_separated_is_pearl_when_children_suffice : forall g order, dict_ok g -> order_ok order g ->
  forall x Z y,
  (forall b d, (exists a c, collider (edge_of g) a b c) -> descendant (edge_of g) b d -> In d Z -> In b Z \/ exists c, edge_of g b c /\ In c Z) ->
  exists r b, evaluates (d_separated x Z y (new_bn order g)) (Ok (r, b)) /\ (r = true <-> d_sep (edge_of g) x (fun z => In z Z) y).
Proof.
  intros g order HD HO x Z y Hc. destruct (d_separated_ok _ _ _ x Z y (new_bn_good g order HD HO)) as (r & b & Ep & _ & _ & _ & Hr).
  exists r, b. split; [split; [discriminate|eauto]|]. rewrite Hr. split; [apply agree_when_children_suffice; assumption|apply d_sep_d_sep1].
Qed.
Print Assumptions C25_d_separated_is_pearl_when_children_suffice.
Theorem C25_d_separated_vs_pearl_refuted :
  exists g order x Z y b, dict_ok g /\ order_ok order g /\ acyclic (edge_of g) /\
    evaluates (d_separated x Z y (new_bn order g)) (Ok (true, b)) /\ ~ d_sep (edge_of g) x (fun z => In z Z) y.
Proof.
  exists gW, oW, 0, [4], 1. 
  destruct (d_separated_ok _ _ _ 0 [4] 1 (new_bn_good gW oW gW_dict gW_order)) as (r & b & Ep & _ & _ & _ & Hr).
  exists b. split; [apply gW_dict|]. split; [apply gW_order|]. split; [apply gW_acyclic|].
  assert (r = true) as ->.
  { specialize (Ep 20). assert (He : fuel_for (graph_u (new_bn oW gW)) 0 <= 20) by (vm_compute; lia). specialize (Ep He).
    vm_compute in Ep. injection Ep as <- _. reflexivity. }
  split; [split; [discriminate|eauto]|].
  intros H. destruct (H [0;2;1]) as (p1 & a & m & c & p2 & Eq & Hb); [apply C22_nonvacuous|].
  destruct p1 as [|? p1]; [|apply (f_equal (@length nat)) in Eq; simpl in Eq; rewrite app_length in Eq; simpl in Eq; lia].
  injection Eq as <- <- <- <-.
  assert (Hcol : collider (edge_of gW) 0 2 1) by (split; apply gW_edge; simpl; tauto).
  destruct Hb as [(_ & Hd)|(Hn & _)]; [|contradiction]. apply (Hd 4); [|left; reflexivity].
  apply rt_trans with 3; apply rt_step, gW_edge; simpl; tauto.
Qed.
Print Assumptions C25_d_separated_vs_pearl_refuted.
Example C25_nonvacuous : forall b d, (exists a c, collider (edge_of gW) a b c) -> descendant (edge_of gW) b d -> In d [2; 3; 4] ->
  In b [2; 3; 4] \/ exists c, edge_of gW b c /\ In c [2; 3; 4].
Proof.
  intros b d (a & c & Ha & _) _ _. left. apply gW_edge in Ha. simpl in *. destruct Ha as [E|[E|[E|[E|[]]]]]; inversion E; subst; tauto.
Qed.

(** ** C26 *)
Theorem C26_network_graphs : forall net, network_ok net -> forall u,
  (In u (map fst net) ->
     (exists l, gget (as_directed_graph net) u = Some l /\ StronglySorted lt l /\ forall v, In v l <-> net_edge net u v) /\
     (exists l, gget (as_undirected_graph net) u = Some l /\ StronglySorted lt l /\ forall v, In v l <-> adjacent (net_edge net) u v)) /\
  (~ In u (map fst net) -> gget (as_directed_graph net) u = None /\ gget (as_undirected_graph net) u = None).
Proof.
  intros net (H1 & H2 & H3) u. pose proof (as_directed_ok net H1 H2 H3 u). pose proof (as_undirected_ok net H3 u). tauto.
Qed.
Print Assumptions C26_network_graphs.
Theorem C26_from_directed_graph : forall g order, dict_ok g -> order_ok order g -> forall u,
  let b := new_bn order g in
  ((In u (map fst g) \/ exists v, edge_of g v u) ->
     (exists l, gget (graph_d b) u = Some l /\ StronglySorted le l /\
        Permutation l (match assoc Nat.eqb u g with Some l0 => l0 | None => [] end)) /\
     (exists l, gget (graph_u b) u = Some l /\ StronglySorted lt l /\ forall v, In v l <-> adjacent (edge_of g) u v)) /\
  (~ (In u (map fst g) \/ exists v, edge_of g v u) -> gget (graph_d b) u = None /\ gget (graph_u b) u = None).
Proof.
  intros g order HD HO u. unfold new_bn. destruct (from_directed_graph order g) as (gd & gu) eqn:Ef. cbv zeta. cbn [graph_d graph_u].
  pose proof (from_directed_ok g order gd gu HD (proj1 HO) (order_all order g HD HO) Ef u) as H.
  rewrite <- (order_all order g HD HO u) in H. rewrite (proj2 HO u) in H. exact H.
Qed.
Print Assumptions C26_from_directed_graph.
(** both routes give the same graphs *)
Theorem C26_graphs_agree : forall net order, network_ok net -> order_ok order (as_directed_graph net) -> forall u,
  gget (graph_d (new_bn order (as_directed_graph net))) u = gget (as_directed_graph net) u /\
  gget (graph_u (new_bn order (as_directed_graph net))) u = gget (as_undirected_graph net) u.
Proof. exact graphs_agree. Qed.
Print Assumptions C26_graphs_agree.
