(** What finalize does. *)
From Coq Require Import Reals Relations.
From Verif Require Import Base Graph_Model BN_Model Prob_Spec BN_Spec BN_Order_Proofs.
Open Scope nat_scope.

Lemma index_nat_nth x l i : index_nat x l = Some i -> nth_error l i = Some x.
Proof.
  revert i; induction l as [|y l IH]; intros i H; cbn [index_nat] in H; [discriminate|].
  destruct (Nat.eqb_spec x y) as [-> |E]; [injection H as <-; reflexivity|].
  destruct (index_nat x l) as [j|]; [|discriminate]. injection H as <-. cbn. apply IH. reflexivity.
Qed.
Lemma index_nat_In x l : In x l -> exists i, index_nat x l = Some i.
Proof.
  induction l as [|y l IH]; intros H; [destruct H|]. cbn [index_nat]. destruct (Nat.eqb_spec x y) as [E|E]; [eauto|].
  destruct H as [H|H]; [congruence|]. destruct (IH H) as (i & ->). eexists; reflexivity.
Qed.
Lemma index_nat_app x l m : ~ In x l -> index_nat x (l ++ x :: m) = Some (length l).
Proof.
  induction l as [|y l IH]; intros H; cbn [app index_nat length]; [rewrite Nat.eqb_refl; reflexivity|].
  destruct (Nat.eqb_spec x y) as [-> |E]; [exfalso; apply H; left; reflexivity|]. rewrite IH; [reflexivity|]. intros Hx. apply H. right; assumption.
Qed.
Lemma index_nat_of_nth l i d : NoDup l -> i < length l -> index_nat (nth i l d) l = Some i.
Proof.
  revert i; induction l as [|y l IH]; intros i HN Hi; [cbn in Hi; lia|]. inversion HN as [|? ? H1 H2]; subst. destruct i as [|i]; cbn [nth index_nat].
  - rewrite Nat.eqb_refl. reflexivity.
  - cbn in Hi. destruct (Nat.eqb_spec (nth i l d) y) as [E|E]; [exfalso; apply H1; rewrite <- E; apply nth_In; lia|]. rewrite IH by (assumption || lia). reflexivity.
Qed.

(** the ID that a node gets: its own, or its place in the alphabetical order *)
Definition position (x : nat) (l : list nat) : nat := match index_nat x l with Some i => i | None => 0 end.
Definition id_for (ns : list node) (v : nat) : nat :=
  match find_node ns v with Some n => match nID n with Some i => i | None => position v (names ns) end | None => 0 end.
Definition numbered (ns : list node) : list node := map (fun n => with_ID n (id_for ns (nname n))) ns.

Record final (ns : list node) (b : bn) : Prop := {
  fin_nodes : variable_nodes b = numbered ns;
  fin_names : names_cache b = Some (names ns);
  fin_order : topological ns (order_nodes b);
  fin_order_names : order_names b = order_nodes b;
  fin_by_ID : by_ID b = combine (map (id_for ns) (names ns)) (names ns);
  fin_IDs : bn_IDs b = map (id_for ns) (names ns);
  fin_d : graph_d b = as_directed_graph (id_network (numbered ns));
  fin_u : graph_u b = as_undirected_graph (id_network (numbered ns));
  fin_size : joint_pmf_size b = calculate_joint_pmf_size ns;
  fin_final : finalized b = true }.

Lemma values_of_find ns v n : find_node ns v = Some n -> values_of ns v = nvalues n.
Proof. unfold values_of. intros H. unfold find_node in H. rewrite H. reflexivity. Qed.

Lemma index_conditioning_ok ns n : complete_tables ns -> well_formed ns -> In n ns -> exists l, index_conditioning ns n = Ok l.
Proof.
  intros Hc Hwf Hn. unfold index_conditioning. destruct (existsb _ _) eqn:Ex; [eauto|].
  destruct (Hc n Hn) as (_ & _ & _ & _ & _ & Hk).
  assert (H : forall kr, In kr (nprobs n) -> exists vals, fst kr = Some vals /\ parents_take ns n vals).
  { intros [k row] Hin. destruct (Hk k row Hin) as (vals & Ht & ->). exists vals. split; [|assumption]. cbn [fst]. unfold row_key. destruct (nparents n) eqn:Ep; [|reflexivity].
    exfalso. rewrite <- Bool.not_true_iff_false in Ex. apply Ex. apply existsb_exists. eexists. split; [exact Hin|]. cbn [fst]. unfold row_key. rewrite Ep. reflexivity. }
  clear Hk Ex. destruct (mapM_exists (fun kr : key * list R => match fst kr with
    | None => Ok []
    | Some vals =>
      mapM (fun iv => p <- of_option IndexError (nth_error (nparents n) (fst iv)) ;;
                      pn <- get_node ns p ;; of_option ValueError (index_nat (snd iv) (nvalues pn)))
        (combine (seq 0 (length vals)) vals)
    end) (fun _ _ => True) (nprobs n)) as (l & El & _); [|eauto].
  intros kr Hin. destruct (H kr Hin) as (vals & -> & Ht).
  destruct (mapM_exists (fun iv : nat * nat => p <- of_option IndexError (nth_error (nparents n) (fst iv)) ;;
                      pn <- get_node ns p ;; of_option ValueError (index_nat (snd iv) (nvalues pn))) (fun _ _ => True) (combine (seq 0 (length vals)) vals)) as (l & El & _); [|eauto].
  intros [i v] Hiv. cbn [fst snd].
  assert (G : forall ps vs a, Forall2 (fun p v => In v (values_of ns p)) ps vs -> In (i, v) (combine (seq a (length vs)) vs) -> exists p, nth_error ps (i - a) = Some p /\ a <= i /\ In v (values_of ns p)).
  { clear. intros ps vs a HF. revert a. induction HF as [|p w ps vs Hp HF IH]; intros a Hin; [destruct Hin|]. cbn [length seq combine] in Hin. destruct Hin as [E|Hin].
    - injection E as -> ->. exists p. rewrite Nat.sub_diag. auto.
    - apply IH in Hin as (q & Hq & Ha & Hv). exists q. split; [|split; [lia|assumption]]. replace (i - a) with (S (i - S a)) by lia. exact Hq. }
  apply (G _ _ _ Ht) in Hiv as (p & Hp & _ & Hv). rewrite Nat.sub_0_r in Hp. rewrite Hp. cbn [of_option bind].
  assert (Hpn : In p (map nname ns)) by (apply (proj2 Hwf p (nname n)); exists n; split; [assumption|]; split; [reflexivity|]; eapply nth_error_In; eassumption).
  destruct (find_node_known ns p Hpn) as (pn & Ef). unfold get_node. rewrite Ef. cbn [of_option bind]. rewrite (values_of_find _ _ _ Ef) in Hv.
  destruct (index_nat_In _ _ Hv) as (j & ->). cbn [of_option]. eauto.
Qed.

Lemma find_node_map ns f v : (forall n, nname (f n) = nname n) -> find_node (map f ns) v = option_map f (find_node ns v).
Proof.
  intros Hf. unfold find_node. induction ns as [|n ns IH]; cbn [map find]; [reflexivity|]. rewrite Hf. destruct (Nat.eqb v (nname n)); [reflexivity|apply IH].
Qed.
Lemma names_map ns f : (forall n, nname (f n) = nname n) -> map nname (map f ns) = map nname ns.
Proof. intros Hf. rewrite map_map. apply map_ext. assumption. Qed.

Definition marked (ns : list node) (done : list nat) : list node :=
  map (fun n => if mem (nname n) done then with_ID n (id_for ns (nname n)) else n) ns.
Lemma marked_name ns done n : nname (if mem (nname n) done then with_ID n (id_for ns (nname n)) else n) = nname n.
Proof. destruct (mem _ _); reflexivity. Qed.

Lemma assoc_set_append {V} (k : nat) (v : V) d : ~ In k (map fst d) -> assoc_set Nat.eqb k v d = d ++ [(k, v)].
Proof.
  induction d as [|[k' v'] d IH]; intros H; cbn [assoc_set app]; [reflexivity|]. destruct (Nat.eqb_spec k k') as [-> |E]; [exfalso; apply H; left; reflexivity|].
  rewrite IH; [reflexivity|]. intros Hk. apply H. right; assumption.
Qed.
Lemma combine_app {A B} (l1 l2 : list A) (m1 m2 : list B) : length l1 = length m1 -> combine (l1 ++ l2) (m1 ++ m2) = combine l1 m1 ++ combine l2 m2.
Proof. revert m1; induction l1 as [|x l1 IH]; intros [|y m1] H; cbn in *; try discriminate; [reflexivity|]. rewrite IH by lia. reflexivity. Qed.
Lemma map_fst_combine {A B} (l : list A) (m : list B) : length l = length m -> map fst (combine l m) = l.
Proof. revert m; induction l as [|x l IH]; intros [|y m] H; cbn in *; try discriminate; [reflexivity|]. rewrite IH by lia. reflexivity. Qed.

Lemma assign_ok ns nm ord onodes : NoDup (map nname ns) -> NoDup (map (id_for ns) (names ns)) ->
  forall todo done, names ns = done ++ todo ->
  foldM assign_ID (combine (seq (length done) (length todo)) todo)
    {| variable_nodes := marked ns done; names_cache := nm; order_names := ord; order_nodes := onodes;
       by_ID := combine (map (id_for ns) done) done; bn_IDs := map (id_for ns) done; graph_d := []; graph_u := []; joint_pmf_size := 0; finalized := false |}
  = Ok {| variable_nodes := marked ns (done ++ todo); names_cache := nm; order_names := ord; order_nodes := onodes;
       by_ID := combine (map (id_for ns) (done ++ todo)) (done ++ todo); bn_IDs := map (id_for ns) (done ++ todo); graph_d := []; graph_u := []; joint_pmf_size := 0; finalized := false |}.
Proof.
  intros HN HI. induction todo as [|v todo IH]; intros done E.
  - rewrite app_nil_r. reflexivity.
  - cbn [length seq combine foldM]. unfold assign_ID at 1. cbn [variable_nodes names_cache order_names order_nodes by_ID bn_IDs graph_d graph_u joint_pmf_size finalized fst snd].
    assert (HNn : NoDup (names ns)) by (apply (Permutation_NoDup (sort_perm _)); assumption).
    assert (Hv : ~ In v done) by (rewrite E in HNn; apply NoDup_remove_2 in HNn; intros H; apply HNn; apply in_or_app; left; assumption).
    assert (Hk : In v (map nname ns)) by (apply sort_in; fold (names ns); rewrite E; apply in_or_app; right; left; reflexivity).
    destruct (find_node_known ns v Hk) as (n & Ef). destruct (find_node_In _ _ _ Ef) as (_ & En).
    assert (Eg : get_node (marked ns done) v = Ok n).
    { unfold get_node, marked. rewrite find_node_map by apply marked_name. rewrite Ef. cbn [option_map of_option]. rewrite En. rewrite (proj2 (mem_false v done) Hv). reflexivity. }
    rewrite Eg. cbn [bind].
    assert (Eid : match nID n with Some i => i | None => length done end = id_for ns v).
    { unfold id_for. rewrite Ef. destruct (nID n); [reflexivity|]. unfold position. rewrite E, index_nat_app by assumption. reflexivity. }
    rewrite Eid. specialize (IH (done ++ [v])). rewrite <- app_assoc in IH. specialize (IH E). rewrite app_length in IH. cbn [length] in IH. rewrite Nat.add_1_r in IH.
    cbn [app] in IH. rewrite <- IH. f_equal. f_equal.
    + unfold marked. rewrite map_map. apply map_ext. intros m. rewrite marked_name.
      assert (Em : mem (nname m) (done ++ [v]) = (mem (nname m) done || Nat.eqb (nname m) v)%bool) by (unfold mem; rewrite existsb_app; cbn [existsb]; rewrite orb_false_r; reflexivity).
      rewrite Em. destruct (Nat.eqb_spec (nname m) v) as [Ev|Ev]; [|rewrite orb_false_r; reflexivity]. rewrite Ev. rewrite orb_true_r. destruct (mem v done); reflexivity.
    + rewrite assoc_set_append.
      * rewrite map_app, combine_app by (rewrite map_length; reflexivity). reflexivity.
      * rewrite map_fst_combine by (rewrite map_length; reflexivity). rewrite E, map_app in HI. cbn [map] in HI. apply NoDup_remove_2 in HI. intros H. apply HI. apply in_or_app; left; assumption.
    + rewrite map_app. reflexivity.
Qed.

Lemma numbered_marked ns : marked ns (names ns) = numbered ns.
Proof.
  unfold marked, numbered. apply map_ext_in. intros n Hn. assert (H : mem (nname n) (names ns) = true) by (apply mem_In, sort_in, in_map; assumption). rewrite H. reflexivity.
Qed.
Lemma size_numbered ns : calculate_joint_pmf_size (numbered ns) = calculate_joint_pmf_size ns.
Proof.
  unfold calculate_joint_pmf_size, numbered. generalize 1. intros k. assert (H : forall g ms k, fold_left (fun s n => s * length (nvalues n)) (map (fun n => with_ID n (g n)) ms) k = fold_left (fun s n => s * length (nvalues n)) ms k).
  { intros g. induction ms as [|m ms IH]; intros j; cbn [map fold_left]; [reflexivity|]. apply IH. } apply H.
Qed.

Section Finalize.
  Context (ns : list node) (Hwf : well_formed ns) (Ht : complete_tables ns) (HI : NoDup (map (id_for ns) (names ns))).
  Definition final_bn (ord : list nat) : bn :=
    {| variable_nodes := numbered ns; names_cache := Some (names ns); order_names := ord; order_nodes := ord;
       by_ID := combine (map (id_for ns) (names ns)) (names ns); bn_IDs := map (id_for ns) (names ns);
       graph_d := as_directed_graph (id_network (numbered ns)); graph_u := as_undirected_graph (id_network (numbered ns));
       joint_pmf_size := calculate_joint_pmf_size ns; finalized := true |}.
  Lemma finalize_unfold fuel : finalize fuel (new_bn ns) =
    (ord <- order_loop fuel ns (names ns) [] ;; Ok (final_bn ord)).
  Proof.
    unfold finalize. cbn [new_bn variable_nodes order_names].
    destruct (mapM_exists (index_conditioning ns) (fun _ _ => True) ns) as (l & El & _).
    { intros n Hn. destruct (index_conditioning_ok ns n Ht Hwf Hn) as (l & E). eauto. }
    rewrite El. cbn [bind]. unfold detect_order. cbn [new_bn variable_nodes]. unfold variable_node_names. cbn [new_bn names_cache variable_nodes]. fold (names ns).
    destruct (order_loop fuel ns (names ns) []) as [ord|e] eqn:Eo; cbn [bind]; [|reflexivity].
    destruct (detect_sound ns Hwf fuel ord Eo) as (Htop & _).
    destruct (mapM_exists (get_node ns) (fun _ _ => True) ord) as (l2 & El2 & _).
    { intros v Hv. destruct (find_node_known ns v) as (n & Ef); [apply (Permutation_in _ (proj1 Htop)); assumption|]. exists n. unfold get_node. rewrite Ef. auto. }
    rewrite El2. cbn [bind new_bn order_nodes by_ID bn_IDs finalized app].
    pose proof (assign_ok ns (Some (names ns)) ord ord (proj1 Hwf) HI (names ns) [] eq_refl) as H. cbn [length app map combine] in H.
    assert (Em : marked ns [] = ns) by (unfold marked; cbn [mem existsb]; apply map_id). rewrite Em in H. rewrite H. cbn [bind variable_nodes names_cache order_names order_nodes by_ID bn_IDs].
    rewrite numbered_marked, size_numbered. reflexivity.
  Qed.
  Lemma finalize_final fuel b : finalize fuel (new_bn ns) = Ok b -> final ns b /\ acyclic ns.
  Proof.
    rewrite finalize_unfold. intros E. apply bind_ok in E as (ord & Eo & E). injection E as <-.
    destruct (detect_sound ns Hwf fuel ord Eo) as (Htop & Hac). split; [|assumption]. constructor; reflexivity || assumption.
  Qed.
  Lemma finalize_exists : acyclic ns -> exists b, final ns b /\ forall fuel, length ns <= fuel -> finalize fuel (new_bn ns) = Ok b.
  Proof.
    intros Hac. destruct (detect_ok ns Hwf Hac) as (ord & Eo & Htop). exists (final_bn ord). split.
    - constructor; reflexivity || assumption.
    - intros fuel Hf. rewrite finalize_unfold. unfold names. rewrite (Eo fuel Hf). reflexivity.
  Qed.
  Lemma finalize_cyclic : cyclic ns -> forall fuel, finalize fuel (new_bn ns) = Err OutOfFuel.
  Proof. intros Hc fuel. rewrite finalize_unfold. unfold names. rewrite (detect_cyclic ns Hwf Hc fuel). reflexivity. Qed.
End Finalize.
