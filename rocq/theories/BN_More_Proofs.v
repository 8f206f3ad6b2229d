(** IDs and graphs of a finalised network; a second finalize. *)
From Coq Require Import Reals Relations Lra.
From Verif Require Import Base Key_Model Key_Spec Key_Proofs PMF_Model PMF_Spec Prob_Spec Table_Spec Graph_Model Graph_Spec Graph_Build_Proofs BN_Model Prob_Proofs PMF_Proofs Table_Proofs BN_Spec BN_Order_Proofs BN_Final_Proofs BN_Sum_Proofs BN_Joint_Proofs BN_Table_Proofs BN_Sub_Proofs BN_Partial_Proofs BN_Sampling_Spec BN_Sampling_Proofs.
Open Scope nat_scope.

Lemma NoDup_map_in {A B} (f : A -> B) l : (forall x y, In x l -> In y l -> f x = f y -> x = y) -> NoDup l -> NoDup (map f l).
Proof.
  induction l as [|x l IH]; intros Hf HN; [constructor|]. inversion HN as [|? ? H1 H2]; subst. cbn [map]. constructor; [|apply IH; [|assumption]; intros; apply Hf; try right; assumption].
  intros H. apply in_map_iff in H as (y & E & Hy). apply Hf in E; [subst; contradiction|right; assumption|left; reflexivity].
Qed.
Lemma foldM_app {A B} (f : B -> A -> res B) l m : forall b, foldM f (l ++ m) b = (b' <- foldM f l b ;; foldM f m b').
Proof. induction l as [|x l IH]; intros b; [reflexivity|]. cbn [app foldM]. destruct (f b x); [apply IH|reflexivity]. Qed.
Lemma mapM_total {A B} (f : A -> res B) l : (forall x, In x l -> exists y, f x = Ok y) -> exists ys, mapM f l = Ok ys.
Proof.
  induction l as [|x l IH]; intros H; [eexists; reflexivity|]. destruct (H x (or_introl eq_refl)) as (y & Ey). destruct IH as (ys & Eys); [intros z Hz; apply H; right; assumption|]. exists (y :: ys). cbn [mapM]. rewrite Ey. cbn [bind]. rewrite Eys. reflexivity.
Qed.
Lemma fold_mult (l : list nat) : forall a, fold_left Nat.mul l a = a * fold_right Nat.mul 1 l.
Proof. induction l as [|x l IH]; intros a; cbn [fold_left fold_right]; [lia|]. rewrite IH. lia. Qed.
Lemma mult_perm l m : Permutation l m -> fold_right Nat.mul 1 l = fold_right Nat.mul 1 m.
Proof. induction 1; cbn [fold_right]; lia. Qed.
Lemma fold_left_map {A B C} (f : A -> B -> A) (g : C -> B) l : forall a, fold_left (fun a c => f a (g c)) l a = fold_left f (map g l) a.
Proof. induction l as [|x l IH]; intros a; cbn [fold_left map]; [reflexivity|apply IH]. Qed.
Lemma size_tuples ns : NoDup (map nname ns) -> calculate_joint_pmf_size ns = length (tuples ns).
Proof.
  intros HN. unfold calculate_joint_pmf_size, tuples. rewrite cartesian_length. rewrite (fold_left_map Nat.mul (fun n => length (nvalues n))). rewrite fold_mult, Nat.mul_1_l.
  assert (E : map (fun n => length (nvalues n)) ns = map (card ns) (map nname ns)).
  { rewrite map_map. apply map_ext_in. intros n Hn. symmetry. apply card_find. apply find_node_self; assumption. }
  rewrite E. apply mult_perm. apply Permutation_map. apply sort_perm.
Qed.
Lemma joint_entries_length ns (Hwf : well_formed ns) (Ht : complete_tables ns) b (Hb : final ns b) ai : length (joint_entries ns b ai) = length (tuples ns).
Proof.
  assert (E : Permutation (map fst (joint_entries ns b ai)) (map (fun t => tuple_key (shown_tuple ns ai t)) (tuples ns))).
  { apply NoDup_Permutation.
    - apply joint_entries_NoDup; assumption.
    - apply NoDup_map_in; [|apply cartesian_NoDup]. intros t t' H1 H2 E. destruct (tuple_env ns Hwf t H1) as (E1 & G1). destruct (tuple_env ns Hwf t' H2) as (E2 & G2).
      rewrite <- E1, <- E2. apply map_ext_in. intros v Hv. apply (keyof_inj ns Ht ai _ _ G1 G2); [exact E|]. apply (names_known ns). assumption.
    - intros k. split; intros H; apply in_map_iff in H.
      + destruct H as ([k' r] & <- & Hin). apply (joint_entries_In ns Hwf b Hb) in Hin as (t & Hin & -> & _). apply in_map_iff. exists t. auto.
      + destruct H as (t & <- & Hin). apply in_map_iff. exists (tuple_key (shown_tuple ns ai t), joint ns (assignment ns t)). split; [reflexivity|]. apply joint_entries_In; try assumption. exists t. auto. }
  apply Permutation_length in E. rewrite !map_length in E. exact E.
Qed.

Section IDs.
  Context (ns : list node) (Hwf : well_formed ns) (Ht : complete_tables ns) (Hun : unnumbered ns) (b : bn) (Hb : final ns b).
  Notation nm := (names ns).
  Lemma id_of_position v : In v (map nname ns) -> id_of (numbered ns) v = position v nm.
  Proof.
    intros Hv. unfold id_of. rewrite numbered_find. destruct (find_node_known ns v Hv) as (n & Ef). rewrite Ef. cbn [option_map with_ID nID]. destruct (find_node_In _ _ _ Ef) as (_ & ->). apply (un_id ns Hun). assumption.
  Qed.
  Lemma position_inj u v : In u (map nname ns) -> In v (map nname ns) -> position u nm = position v nm -> u = v.
  Proof.
    intros Hu Hv E. apply (names_known ns) in Hu, Hv. destruct (nth_position nm u 0 Hu) as (<- & _). destruct (nth_position nm v 0 Hv) as (<- & _). rewrite E. reflexivity.
  Qed.
  Lemma id_edge u v : net_edge (id_network (numbered ns)) u v <->
    u < length ns /\ v < length ns /\ parent_of ns (nth u nm 0) (nth v nm 0).
  Proof.
    assert (Hlen : length nm = length ns) by (unfold names; rewrite <- (Permutation_length (sort_perm _)); apply map_length).
    unfold net_edge, id_network. split.
    - intros (ps & Hin & Hu). apply in_map_iff in Hin as (m & E & Hm). injection E as <- <-. unfold numbered in Hm. apply in_map_iff in Hm as (n & <- & Hn). cbn [with_ID nname nparents] in *.
      apply in_map_iff in Hu as (p & <- & Hp). assert (Hpar : parent_of ns p (nname n)) by (exists n; auto). assert (Hk := proj2 Hwf p _ Hpar). assert (Hkn : In (nname n) (map nname ns)) by (apply in_map; assumption).
      rewrite !id_of_position by assumption. apply (names_known ns) in Hk, Hkn. destruct (nth_position nm p 0 Hk) as (E1 & L1). destruct (nth_position nm (nname n) 0 Hkn) as (E2 & L2). rewrite E1, E2, <- Hlen. auto.
    - intros (Hu & Hv & n & Hn & En & Hp). exists (map (id_of (numbered ns)) (nparents n)). rewrite <- Hlen in Hu, Hv. split.
      + apply in_map_iff. exists (with_ID n (id_for ns (nname n))). split; [|apply in_map_iff; eauto]. cbn [with_ID nname nparents]. f_equal. rewrite id_of_position by (apply in_map; assumption). rewrite En. apply position_nth; [apply names_nodup; assumption|assumption].
      + apply in_map_iff. exists (nth u nm 0). split; [|assumption]. rewrite id_of_position by (apply (names_known ns), nth_In; assumption). apply position_nth; [apply names_nodup; assumption|assumption].
  Qed.
  Lemma id_keys : map fst (id_network (numbered ns)) = map (fun v => position v nm) (map nname ns).
  Proof.
    unfold id_network, numbered. rewrite !map_map. cbn [fst with_ID nname]. apply map_ext_in. intros n Hn. apply (id_of_position (nname n)). apply in_map. assumption.
  Qed.
  Lemma id_keys_perm : Permutation (map fst (id_network (numbered ns))) (seq 0 (length ns)).
  Proof.
    rewrite id_keys. rewrite (Permutation_map _ (sort_perm (map nname ns))). fold (names ns). rewrite position_map by (apply names_nodup; assumption). unfold names. rewrite <- (Permutation_length (sort_perm _)), map_length. reflexivity.
  Qed.
  Lemma graphs_ok u : u < length ns ->
    (exists l, assoc Nat.eqb u (graph_d b) = Some l /\ StronglySorted lt l /\ forall v, In v l <-> v < length ns /\ parent_of ns (nth u nm 0) (nth v nm 0)) /\
    (exists l, assoc Nat.eqb u (graph_u b) = Some l /\ StronglySorted lt l /\ forall v, In v l <-> v < length ns /\ (parent_of ns (nth u nm 0) (nth v nm 0) \/ parent_of ns (nth v nm 0) (nth u nm 0))).
  Proof.
    intros Hu. rewrite (fin_d _ _ Hb), (fin_u _ _ Hb).
    assert (Hin : In u (map fst (id_network (numbered ns)))) by (apply (Permutation_in _ (Permutation_sym id_keys_perm)); apply in_seq; lia).
    assert (Hcl : forall u v, net_edge (id_network (numbered ns)) u v -> In u (map fst (id_network (numbered ns)))) by (intros a c H; apply id_edge in H as (Ha & _); apply (Permutation_in _ (Permutation_sym id_keys_perm)); apply in_seq; lia).
    split.
    - destruct (proj1 (as_directed_ok (id_network (numbered ns)) (Permutation_NoDup (Permutation_sym id_keys_perm) (seq_NoDup _ _))
        ltac:(apply Forall_forall; intros [i ps] Hm; unfold id_network in Hm; apply in_map_iff in Hm as (m & E & Hm); injection E as <- <-; unfold numbered in Hm; apply in_map_iff in Hm as (n & <- & Hn);
          cbn [snd with_ID nparents]; apply NoDup_map_in; [|apply (Ht n Hn)]; intros p q Hp Hq E;
          rewrite !id_of_position in E by (apply (proj2 Hwf _ (nname n)); exists n; auto); apply position_inj; [| |assumption]; apply (proj2 Hwf _ (nname n)); exists n; auto) Hcl u) Hin) as (l & E & Hs & Hl).
      exists l. split; [exact E|]. split; [assumption|]. intros v. rewrite Hl, id_edge. tauto.
    - destruct (proj1 (as_undirected_ok (id_network (numbered ns)) Hcl u) Hin) as (l & E & Hs & Hl). exists l. split; [exact E|]. split; [assumption|]. intros v. rewrite Hl. unfold adjacent. rewrite !id_edge. tauto.
  Qed.
End IDs.

(** ** A second finalize *)
Section Twice.
  Context (ns : list node) (Hwf : well_formed ns) (Ht : complete_tables ns) (Hun : unnumbered ns) (Hne : ns <> []) (b : bn) (Hb : final ns b).
  Definition twice : bn :=
    {| variable_nodes := numbered ns; names_cache := Some (names ns); order_names := order_nodes b; order_nodes := order_nodes b ++ order_nodes b;
       by_ID := by_ID b; bn_IDs := bn_IDs b ++ bn_IDs b; graph_d := graph_d b; graph_u := graph_u b; joint_pmf_size := joint_pmf_size b; finalized := true |}.
  Lemma ord_nonempty : order_nodes b <> [].
  Proof. intros E. pose proof (Permutation_length (proj1 (fin_order _ _ Hb))) as H. rewrite E, map_length in H. destruct ns; [congruence|discriminate]. Qed.
  Lemma set_same {V} (k : nat) (v : V) d : assoc Nat.eqb k d = Some v -> assoc_set Nat.eqb k v d = d.
  Proof.
    induction d as [|[k' v'] d IH]; cbn [assoc assoc_set]; [discriminate|]. destruct (Nat.eqb_spec k k') as [-> |E]; intros H; [injection H as ->; reflexivity|]. rewrite IH by assumption. reflexivity.
  Qed.
  Lemma set_ID_same v n : find_node (numbered ns) v = Some (with_ID n (id_for ns v)) -> In v (map nname ns) ->
    map (fun m => if Nat.eqb (nname m) v then with_ID m (id_for ns v) else m) (numbered ns) = numbered ns.
  Proof.
    intros _ _. unfold numbered. rewrite map_map. apply map_ext_in. intros m Hm. cbn [with_ID nname]. destruct (Nat.eqb_spec (nname m) v) as [<- |E]; reflexivity.
  Qed.
  Lemma assign_again gd gu js : forall todo k IDs, incl todo (names ns) ->
    foldM assign_ID (combine (seq k (length todo)) todo)
      {| variable_nodes := numbered ns; names_cache := Some (names ns); order_names := order_nodes b; order_nodes := order_nodes b ++ order_nodes b;
         by_ID := by_ID b; bn_IDs := IDs; graph_d := gd; graph_u := gu; joint_pmf_size := js; finalized := true |}
    = Ok {| variable_nodes := numbered ns; names_cache := Some (names ns); order_names := order_nodes b; order_nodes := order_nodes b ++ order_nodes b;
         by_ID := by_ID b; bn_IDs := IDs ++ map (id_for ns) todo; graph_d := gd; graph_u := gu; joint_pmf_size := js; finalized := true |}.
  Proof.
    induction todo as [|v todo IH]; intros k IDs Hi; cbn [length seq combine foldM map]; [rewrite app_nil_r; reflexivity|].
    assert (Hv : In v (map nname ns)) by (apply (names_known ns), Hi; left; reflexivity). destruct (find_node_known ns v Hv) as (n & Ef).
    assert (En : find_node (numbered ns) v = Some (with_ID n (id_for ns v))) by (rewrite numbered_find, Ef; cbn [option_map]; destruct (find_node_In _ _ _ Ef) as (_ & ->); reflexivity).
    unfold assign_ID at 1. cbn [variable_nodes names_cache order_names order_nodes by_ID bn_IDs graph_d graph_u joint_pmf_size finalized fst snd]. unfold get_node. rewrite En. cbn [of_option bind with_ID nID].
    rewrite (set_ID_same v n En Hv). rewrite set_same.
    - rewrite IH by (intros w Hw; apply Hi; right; assumption). rewrite <- app_assoc. reflexivity.
    - rewrite (un_id ns Hun v Hv). rewrite (un_lookup ns Hwf Hun b Hb). destruct (nth_position (names ns) v 0) as (E & L); [apply Hi; left; reflexivity|]. rewrite <- E at 2. apply nth_error_nth'. assumption.
  Qed.
  Lemma numbered_wf : well_formed (numbered ns).
  Proof.
    split; [rewrite numbered_names; apply Hwf|]. intros p c (m & Hm & En & Hp). unfold numbered in Hm. apply in_map_iff in Hm as (n & <- & Hn). rewrite numbered_names. apply (proj2 Hwf p c). exists n. auto.
  Qed.
  Lemma finalize_twice fuel : finalize fuel b = Ok twice.
  Proof.
    unfold finalize. rewrite (fin_nodes _ _ Hb).
    assert (Htn : complete_tables (numbered ns)).
    { apply (sub_tables ns Hwf (numbered ns)); [auto| |assumption]. intros m p Hm Hp. unfold numbered in Hm. apply in_map_iff in Hm as (n & <- & Hn). rewrite numbered_names. apply (proj2 Hwf p (nname n)). exists n. auto. }
    destruct (mapM_total (index_conditioning (numbered ns)) (numbered ns)) as (l & El); [intros n Hn; apply index_conditioning_ok; [assumption|apply numbered_wf|assumption]|]. rewrite El. cbn [bind].
    rewrite (fin_order_names _ _ Hb). pose proof ord_nonempty as Ho.
    assert (Eo : (match order_nodes b with [] => detect_order fuel b | _ :: _ => Ok (order_nodes b) end) = Ok (order_nodes b)) by (destruct (order_nodes b); [congruence|reflexivity]).
    match goal with |- bind ?x _ = _ => assert (Eo' : x = Ok (order_nodes b)) by (destruct (order_nodes b); [congruence|reflexivity]); rewrite Eo' end. cbn [bind].
    rewrite (mapM_ok _ (fun v => match find_node (numbered ns) v with Some n => n | None => {| nname := 0; nID := None; nvalues := []; nparents := []; nprobs := [] |} end)).
    2:{ intros v Hv. apply (ord_known ns b Hb) in Hv. unfold get_node. destruct (find_node_known (numbered ns) v) as (n & ->); [rewrite numbered_names; assumption|]. reflexivity. }
    cbn [bind]. rewrite (b_names ns b Hb), (fin_final _ _ Hb). rewrite (assign_again [] [] 0 (names ns) 0 (bn_IDs b)) by (intros v Hv; assumption). cbn [bind variable_nodes names_cache order_names order_nodes by_ID bn_IDs].
    unfold twice. rewrite <- (fin_IDs _ _ Hb), (fin_d _ _ Hb), (fin_u _ _ Hb), (fin_size _ _ Hb), size_numbered. reflexivity.
  Qed.
  (** sampling still works: a variable already sampled is skipped *)
  Lemma node_sample_skip n r s rolls : In (nname n) (map fst s) -> node_sample n r (s, rolls) = Ok (s, rolls).
  Proof.
    intros Hin. unfold node_sample. assert (E : existsb (fun kv => Nat.eqb (nname n) (fst kv)) s = true); [|rewrite E; reflexivity].
    apply existsb_exists. apply in_map_iff in Hin as (kv & E & Hin). exists kv. split; [assumption|]. rewrite E. apply Nat.eqb_refl.
  Qed.
  Lemma skip_all st : forall vs, incl vs (map nname ns) -> incl vs (map fst (fst st)) -> foldM (fun st v => n <- get_node (numbered ns) v ;; node_sample n false st) vs st = Ok st.
  Proof.
    induction vs as [|v vs IH]; intros H1 H2; [reflexivity|]. cbn [foldM]. unfold get_node at 1. rewrite numbered_find. destruct (find_node_known ns v) as (n & Ef); [apply H1; left; reflexivity|]. rewrite Ef. cbn [option_map of_option bind].
    destruct st as [s rolls]. rewrite node_sample_skip.
    - cbn [bind]. apply IH; intros w Hw; [apply H1|apply H2]; right; assumption.
    - cbn [with_ID nname]. destruct (find_node_In _ _ _ Ef) as (_ & ->). apply H2. left; reflexivity.
  Qed.
  Lemma twice_sample (Hst : stochastic ns) ai rolls : length ns <= length rolls -> (forall r, In r rolls -> (r <= 1)%R) -> bn_sample_list twice ai rolls = bn_sample_list b ai rolls.
  Proof.
    intros Hl Hr. unfold bn_sample_list. assert (Es : bn_sample twice ai rolls = bn_sample b ai rolls); [|rewrite Es; destruct (bn_sample b ai rolls) as [st|]; [|reflexivity]; cbn [bind]; unfold sample_as_list, guarded; rewrite (fin_final _ _ Hb), (b_names ns b Hb); reflexivity].
    unfold bn_sample, guarded. rewrite (fin_final _ _ Hb). cbn [finalized twice order_nodes variable_nodes].
    assert (Hlen : length (order_nodes b) = length ns) by (rewrite (Permutation_length (proj1 (fin_order _ _ Hb))); apply map_length).
    destruct (sample_run ns Hwf Ht b Hb Hst (order_nodes b) [] (fun _ => 0) rolls) as (e & E1 & _); [reflexivity|intros u []|lia|assumption|]. cbn [app] in E1.
    assert (Ec : forall s, sample_values_to_indices twice s = sample_values_to_indices b s) by (intros s; unfold sample_values_to_indices; rewrite (fin_nodes _ _ Hb); reflexivity).
    match goal with |- bind ?x _ = bind ?y _ => assert (Ex : x = Ok (cur ns e (order_nodes b), skipn (length (order_nodes b)) rolls)); [|assert (Ey : y = Ok (cur ns e (order_nodes b), skipn (length (order_nodes b)) rolls))] end.
    - match goal with |- match ?o with [] => _ | n :: l => foldM _ (n :: l) _ end = _ => assert (En : o <> []) by (pose proof ord_nonempty; destruct (order_nodes b); [congruence|discriminate]); destruct o as [|x o'] eqn:Eo; [congruence|rewrite <- Eo] end.
      clear x o' Eo En. rewrite foldM_app. change (cur ns (fun _ => 0) []) with ([] : sample) in E1. rewrite (fin_nodes _ _ Hb) in E1.
      match goal with |- bind ?x _ = ?r => assert (E2 : x = r) by exact E1; rewrite E2 end. cbn [bind].
      apply (skip_all (cur ns e (order_nodes b), skipn (length (order_nodes b)) rolls)); [intros v; apply (ord_known ns b Hb)|cbn [fst]; rewrite cur_fst; apply incl_refl].
    - pose proof ord_nonempty as Ho. destruct (order_nodes b) as [|x o] eqn:Eo; [congruence|]. exact E1.
    - rewrite Ex, Ey. cbn [bind fst snd]. rewrite Ec. reflexivity.
  Qed.
  (** the joint PMF recursion never reaches its end *)
  Lemma first_root v o : order_nodes b = v :: o -> exists n, find_node ns v = Some n /\ nparents n = [] /\ In v (map nname ns).
  Proof.
    intros E. destruct (split_facts ns Hwf b Hb [] v o E) as (n & Ef & _ & _ & _ & Hp & Hk). exists n. split; [assumption|]. split; [|assumption]. destruct (nparents n) as [|p ps]; [reflexivity|]. destruct (Hp p (or_introl eq_refl)).
  Qed.
  Lemma stuck ai : forall fuel vp s p, map fst s = order_nodes b -> joint_values fuel twice ai vp s p = Err OutOfFuel.
  Proof.
    pose proof ord_nonempty as Ho. destruct (order_nodes b) as [|v o] eqn:Eo; [congruence|]. destruct (first_root v o Eo) as (n & Ef & Hnp & Hk). destruct (find_node_In _ _ _ Ef) as (Hn & En).
    induction fuel as [|fuel IH]; intros vp s p Hs; [reflexivity|]. cbn [joint_values].
    assert (Hl : length s = S (length o)) by (rewrite <- (map_length fst), Hs; reflexivity).
    assert (E2 : order_nodes twice = (v :: o) ++ (v :: o)) by (cbn [twice order_nodes]; rewrite Eo; reflexivity). rewrite E2.
    assert (E1 : (length s =? length ((v :: o) ++ (v :: o))) = false) by (apply Nat.eqb_neq; rewrite app_length; cbn [length]; lia). rewrite E1.
    rewrite nth_error_app2 by (cbn [length]; lia). rewrite Hl. cbn [length]. rewrite Nat.sub_diag. cbn [nth_error of_option bind].
    unfold get_node at 1. cbn [twice variable_nodes]. rewrite numbered_find, Ef. cbn [option_map of_option bind]. cbn [with_ID nvalues nname]. rewrite En.
    destruct (Ht n Hn) as (Hv & HNv & _ & _ & Hrow & _). destruct (nvalues n) as [|x vals] eqn:Ev; [congruence|]. cbn [foldM fst snd].
    unfold conditioning_values at 1. cbn [with_ID nparents]. rewrite Hnp. cbn [mapM bind].
    destruct (Hrow []) as (row & Hin & Hlr); [unfold parents_take; rewrite Hnp; constructor|]. unfold row_key in Hin. rewrite Hnp in Hin.
    unfold probability_of_value at 1. cbn [with_ID nvalues nprobs]. rewrite Ev. cbn [index_nat]. rewrite Nat.eqb_refl. cbn [of_option bind].
    match goal with |- context [of_option KeyError ?a] => assert (Ea : a = Some row) by (apply assoc_key; [apply (Ht n Hn)|assumption]); rewrite Ea end. cbn [of_option bind].
    destruct row as [|r row]; [discriminate|]. cbn [nth_error of_option bind]. rewrite IH; [reflexivity|].
    destruct s as [|[u y] s]; [discriminate|]. cbn [map fst] in Hs. injection Hs as -> Hs. cbn [assoc_set]. rewrite Nat.eqb_refl. cbn [map fst]. rewrite Hs. reflexivity.
  Qed.
  Lemma joint_stuck ai : forall todo done e vp p fuel, order_nodes b = done ++ todo -> bounded ns done e -> joint_values fuel twice ai vp (cur ns e done) p = Err OutOfFuel.
  Proof.
    induction todo as [|v todo IH]; intros done e vp p fuel E Hbd; [apply stuck; rewrite cur_fst, E; apply eq_sym, app_nil_r|]. destruct fuel as [|fuel]; [reflexivity|]. cbn [joint_values].
    destruct (split_facts ns Hwf b Hb done v todo E) as (n & Ef & _ & Hv & HNd & Hp & Hk). destruct (find_node_In _ _ _ Ef) as (Hn & En).
    assert (E2 : order_nodes twice = (done ++ v :: todo) ++ (done ++ v :: todo)) by (cbn [twice order_nodes]; rewrite E; reflexivity). rewrite E2.
    assert (Hl : length (cur ns e done) = length done) by (unfold cur; apply map_length). rewrite Hl.
    assert (E1 : (length done =? length ((done ++ v :: todo) ++ done ++ v :: todo)) = false) by (apply Nat.eqb_neq; rewrite !app_length; cbn [length]; lia). rewrite E1.
    rewrite nth_error_app1 by (rewrite app_length; cbn [length]; lia). rewrite nth_error_app2 by lia. rewrite Nat.sub_diag. cbn [nth_error of_option bind].
    unfold get_node at 1. cbn [twice variable_nodes]. rewrite numbered_find, Ef. cbn [option_map of_option bind]. rewrite En.
    destruct (Ht n Hn) as (Hne' & HNv & _). change (nvalues (with_ID n (id_for ns v))) with (nvalues n). rewrite (nvalues_seq ns v n Ef).
    assert (Hc : 0 < card ns v) by (rewrite (card_find ns v n Ef); destruct (nvalues n); [congruence|cbn; lia]). destruct (card ns v) as [|c] eqn:Ec; [lia|]. cbn [seq map foldM fst snd].
    pose proof (conditioning_ok ns v n e done [] Ef HNd Hp) as Hcv. rewrite app_nil_r in Hcv.
    match goal with |- context [bind ?x (fun cv => _)] => match x with conditioning_values _ _ => assert (Hcv' : x = Ok (map (fun p => value_at_index ns p (e p)) (nparents n))) by exact Hcv; rewrite Hcv' end end. cbn [bind].
    match goal with |- context [probability_of_value _ _ ?k] => rewrite (probability_ok ns Hwf Ht b Hb v n e 0 k Ef) by (try lia; try (intros q Hq; apply Hbd, Hp; assumption); unfold row_key; destruct (nparents n); reflexivity) end. cbn [bind].
    cbn [with_ID nname]. rewrite En. rewrite assoc_set_append by (rewrite cur_fst; assumption). rewrite <- (cur_snoc ns e done v 0 Hv). rewrite IH; [reflexivity| |].
    - rewrite <- app_assoc. exact E.
    - intros u Hu. apply in_app_or in Hu as [Hu|[<- |[]]]; [rewrite upd_other; [auto|intros ->; contradiction]|rewrite upd_same; lia].
  Qed.
  Lemma twice_joint fuel ai : create_joint_pmf fuel twice ai = Err OutOfFuel.
  Proof. unfold create_joint_pmf, guarded. cbn [finalized twice]. pose proof (joint_stuck ai (order_nodes b) [] (fun _ => 0) [] 1%R fuel eq_refl) as H. change (cur ns (fun _ => 0) []) with ([] : sample) in H. rewrite H; [reflexivity|intros u []]. Qed.
End Twice.
