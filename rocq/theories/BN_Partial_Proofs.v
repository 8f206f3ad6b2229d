(** get_subnetwork and create_partial_joint_pmf. *)
From Coq Require Import Reals Relations Lra.
From Verif Require Import Base Key_Model Key_Spec Key_Proofs PMF_Model PMF_Spec Prob_Spec Table_Spec BN_Model Prob_Proofs PMF_Proofs Table_Proofs BN_Spec BN_Order_Proofs BN_Final_Proofs BN_Sum_Proofs BN_Joint_Proofs BN_Table_Proofs BN_Sub_Proofs.
Open Scope nat_scope.

Definition unnumbered (ns : list node) : Prop := forall n, In n ns -> nID n = None.

(** ** positions *)
Lemma position_nth l i d : NoDup l -> i < length l -> position (nth i l d) l = i.
Proof. intros HN Hi. unfold position. rewrite index_nat_of_nth by assumption. reflexivity. Qed.
Lemma nth_position l v d : In v l -> nth (position v l) l d = v /\ position v l < length l.
Proof.
  intros H. unfold position. destruct (index_nat_In v l H) as (i & E). rewrite E. apply index_nat_nth in E. split; [apply nth_error_nth; assumption|]. apply nth_error_Some. congruence.
Qed.
Lemma position_map l : NoDup l -> map (fun v => position v l) l = seq 0 (length l).
Proof.
  intros HN. apply (nth_ext _ _ 0 0); [rewrite map_length, seq_length; reflexivity|]. rewrite map_length. intros i Hi.
  rewrite (nth_indep (map (fun v => position v l) l) 0 ((fun v => position v l) 0)) by (rewrite map_length; assumption). rewrite (map_nth (fun v => position v l)). rewrite position_nth by assumption. rewrite seq_nth by assumption. reflexivity.
Qed.
Lemma position_sorted l : StronglySorted lt l -> forall u v, In u l -> In v l -> u < v -> position u l < position v l.
Proof.
  intros Hs u v Hu Hv Huv. destruct (nth_position l u 0 Hu) as (Eu & Lu). destruct (nth_position l v 0 Hv) as (Ev & Lv).
  destruct (Nat.lt_trichotomy (position u l) (position v l)) as [H|[H|H]]; [assumption|rewrite H in Eu; lia|]. exfalso.
  assert (G : forall m, StronglySorted lt m -> forall i j, i < j -> j < length m -> nth i m 0 < nth j m 0).
  { clear. induction 1 as [|x m Hs IH Hf]; intros i j Hij Hj; [cbn in Hj; lia|]. destruct j as [|j]; [lia|]. cbn in Hj. destruct i as [|i]; cbn [nth].
    - rewrite Forall_forall in Hf. apply Hf. apply nth_In. lia.
    - apply IH; lia. }
  specialize (G l Hs _ _ H Lu). rewrite Eu, Ev in G. lia.
Qed.
Lemma sorted_unique (l m : list nat) : StronglySorted lt l -> StronglySorted lt m -> (forall x, In x l <-> In x m) -> l = m.
Proof.
  intros Hl. revert m. induction Hl as [|x l Hs IH Hf]; intros m Hm H.
  - destruct m as [|y m]; [reflexivity|]. exfalso. apply (proj2 (H y)). left; reflexivity.
  - destruct Hm as [|y m Hs' Hf']; [exfalso; apply (proj1 (H x)); left; reflexivity|]. rewrite Forall_forall in Hf, Hf'.
    assert (x = y).
    { destruct (proj1 (H x) (or_introl eq_refl)) as [E|E]; [auto|]. destruct (proj2 (H y) (or_introl eq_refl)) as [E'|E']; [auto|]. apply Hf' in E. apply Hf in E'. lia. }
    subst y. f_equal. apply IH; [assumption|]. intros z. split; intros Hz.
    + destruct (proj1 (H z) (or_intror Hz)) as [<- |?]; [|assumption]. apply Hf in Hz. lia.
    + destruct (proj2 (H z) (or_intror Hz)) as [<- |?]; [|assumption]. apply Hf' in Hz. lia.
Qed.
Lemma assoc_seq (l : list nat) i : forall a, assoc Nat.eqb (a + i) (combine (seq a (length l)) l) = nth_error l i.
Proof.
  revert i. induction l as [|x l IH]; intros i a; cbn [length seq combine assoc]; [destruct i; reflexivity|]. destruct i as [|i]; cbn [nth_error].
  - rewrite Nat.add_0_r, Nat.eqb_refl. reflexivity.
  - destruct (Nat.eqb_spec (a + S i) a); [lia|]. specialize (IH i (S a)). rewrite <- IH. f_equal. lia.
Qed.

Section Partial.
  Context (ns : list node) (Hwf : well_formed ns) (Ht : complete_tables ns) (Hun : unnumbered ns) (b : bn) (Hb : final ns b).
  Let Hac : acyclic ns := topological_acyclic ns Hwf _ (fin_order _ _ Hb).
  Notation nm := (names ns).
  Definition name_at (i : nat) : nat := nth i nm 0.
  Let N := length nm.
  Lemma len_names : N = length ns.
  Proof. unfold N, names. rewrite <- (Permutation_length (sort_perm _)). apply map_length. Qed.
  Lemma un_id v : In v (map nname ns) -> id_for ns v = position v nm.
  Proof. intros Hv. destruct (find_node_known ns v Hv) as (n & Ef). unfold id_for. rewrite Ef. apply find_node_In in Ef as (Hn & _). rewrite (Hun n Hn). reflexivity. Qed.
  Lemma un_ids : map (id_for ns) nm = seq 0 N.
  Proof.
    unfold N. rewrite <- position_map by (apply nm_nodup; assumption). apply map_ext_in. intros v Hv. apply un_id. apply nm_known. assumption.
  Qed.
  Lemma un_lookup i : assoc Nat.eqb i (by_ID b) = nth_error nm i.
  Proof. rewrite (fin_by_ID _ _ Hb), un_ids. apply (assoc_seq nm i 0). Qed.
  Lemma name_known i : i < N -> In (name_at i) (map nname ns).
  Proof. intros H. apply nm_known. apply nth_In. assumption. Qed.
  Lemma name_position v : In v (map nname ns) -> name_at (position v nm) = v /\ position v nm < N.
  Proof. intros H. apply nth_position. apply nm_known. assumption. Qed.
  Lemma position_name i : i < N -> position (name_at i) nm = i.
  Proof. intros H. apply position_nth; [apply nm_nodup; assumption|assumption]. Qed.
  Lemma lookup_ok i : i < N -> assoc Nat.eqb i (by_ID b) = Some (name_at i).
  Proof. intros H. rewrite un_lookup. apply nth_error_nth'. assumption. Qed.

  (** ** get_subnetwork_node_IDs *)
  Definition ancestral (ids : list nat) (i : nat) : Prop :=
    exists j, In j ids /\ (i = j \/ i < N /\ clos_trans nat (parent_of ns) (name_at i) (name_at j)).
  Definition rank (v : nat) : nat := position v (order_nodes b).
  Lemma rank_parent p v : parent_of ns p v -> rank p < rank v.
  Proof.
    intros Hp. assert (Hv : In v (order_nodes b)) by (apply (ord_known ns b Hb); destruct Hp as (n & Hn & <- & _); apply in_map; assumption).
    apply in_split in Hv as (l1 & l2 & E). pose proof (fin_order ns b Hb) as Htop. pose proof (proj2 Htop l1 v l2 E p Hp) as Hin.
    pose proof (ord_nodup ns Hwf b Hb) as HNo. unfold rank, position. rewrite E in HNo |- *.
    destruct (NoDup_app_parts _ _ HNo) as (_ & _ & Hd). assert (Hvl : ~ In v l1) by (intros H; apply (Hd v H); left; reflexivity).
    rewrite (index_nat_app v l1 l2 Hvl). apply in_split in Hin as (a & c & ->). rewrite <- app_assoc. cbn [app].
    rewrite index_nat_app; [rewrite app_length; cbn [length]; lia|]. intros Hpa. rewrite <- app_assoc in HNo. cbn [app] in HNo. destruct (NoDup_app_parts _ _ HNo) as (_ & _ & Hd'). apply (Hd' p Hpa). left; reflexivity.
  Qed.
  Lemma index_ok p : In p (map nname ns) -> variable_nodes_index b p = Ok (position p nm).
  Proof.
    intros Hp. unfold variable_nodes_index. rewrite (b_names ns b Hb). unfold position. destruct (index_nat_In p nm) as (i & ->); [apply nm_known; assumption|]. reflexivity.
  Qed.
  Lemma parents_step i : i < N -> exists n, find_node ns (name_at i) = Some n /\
    (v <- of_option KeyError (assoc Nat.eqb i (by_ID b)) ;; n <- get_node (variable_nodes b) v ;; mapM (variable_nodes_index b) (nparents n)) = Ok (map (fun p => position p nm) (nparents n)).
  Proof.
    intros Hi. rewrite (lookup_ok i Hi). cbn [of_option bind]. destruct (get_node_ok ns b Hb (name_at i) (name_known i Hi)) as (n & Ef & Eg). exists n. split; [assumption|]. rewrite Eg. cbn [bind with_ID nparents].
    apply mapM_ok. intros p Hp. apply index_ok. apply (proj2 Hwf p (name_at i)). apply (parent_iff ns _ n (proj1 Hwf) Ef). assumption.
  Qed.
  Lemma sub_ids_ok : forall fuel ids k, (forall i, In i ids -> i < N /\ rank (name_at i) < k) -> k < fuel ->
    exists l, get_subnetwork_node_IDs fuel b ids = Ok l /\ NoDup l /\ forall i, In i l <-> ancestral ids i.
  Proof.
    induction fuel as [|fuel IH]; intros ids k Hids Hk; [lia|]. cbn [get_subnetwork_node_IDs]. unfold guarded. rewrite (fin_final _ _ Hb).
    rewrite (mapM_ok _ (fun i => map (fun p => position p nm) (parents ns (name_at i)))).
    2:{ intros i Hi. destruct (parents_step i (proj1 (Hids i Hi))) as (n & Ef & E). rewrite E. unfold parents. rewrite Ef. reflexivity. }
    cbn [bind]. set (ps := nodup Nat.eq_dec _).
    assert (Hps : forall q, In q ps <-> exists j, In j ids /\ q < N /\ parent_of ns (name_at q) (name_at j)).
    { intros q. unfold ps. rewrite nodup_In, <- flat_map_concat_map, in_flat_map. split.
      - intros (j & Hj & Hq). apply in_map_iff in Hq as (p & <- & Hp). apply (parents_parent ns Hwf) in Hp. destruct (name_position p) as (E & L); [apply (proj2 Hwf p _ Hp)|]. exists j. split; [assumption|]. rewrite E. auto.
      - intros (j & Hj & Hq & Hp). exists j. split; [assumption|]. apply in_map_iff. exists (name_at q). split; [apply position_name; assumption|]. apply (parents_parent ns Hwf). assumption. }
    assert (Hanc : forall anc, (forall i, In i anc <-> ancestral ps i) -> forall i, In i ps \/ In i anc <-> exists j, In j ids /\ i < N /\ clos_trans nat (parent_of ns) (name_at i) (name_at j)).
    { intros anc Hanc i. rewrite Hanc. split.
      - intros [H|(q & Hq & H)].
        + apply Hps in H as (j & Hj & Hi & Hp). exists j. split; [assumption|]. split; [assumption|apply t_step; assumption].
        + apply Hps in Hq as (j & Hj & Hqn & Hp). exists j. split; [assumption|]. destruct H as [-> |(Hi & H)]; [split; [assumption|apply t_step; assumption]|]. split; [assumption|]. eapply t_trans; [eassumption|apply t_step; assumption].
      - intros (j & Hj & Hi & H). apply clos_trans_tn1_iff in H. inversion H as [? Hp|y ? Hpy Hiy]; subst.
        + left. apply Hps. eauto.
        + right. destruct (name_position y) as (E & L); [apply (proj2 Hwf y _ Hpy)|]. exists (position y nm). split; [apply Hps; exists j; rewrite E; auto|]. right. split; [assumption|]. rewrite E. apply clos_trans_tn1_iff. assumption. }
    assert (Hfin : forall par, (forall i, In i par <-> exists j, In j ids /\ i < N /\ clos_trans nat (parent_of ns) (name_at i) (name_at j)) -> NoDup (union ids par) /\ forall i, In i (union ids par) <-> ancestral ids i).
    { intros par Hpar. split; [apply NoDup_nodup|]. intros i. unfold union. rewrite nodup_In, in_app_iff, Hpar. split.
      - intros [H|(j & Hj & Hi & H)]; [exists i; auto|exists j; auto].
      - intros (j & Hj & [-> |(Hi & H)]); [left; assumption|right; eauto]. }
    destruct ps as [|q ps'] eqn:Eps.
    - exists (union ids []). cbn [bind]. split; [reflexivity|]. apply Hfin. intros i. rewrite <- (Hanc []); [simpl; tauto|]. intros x. split; [intros []|intros (j & [] & _)].
    - destruct (IH (q :: ps') (k - 1)) as (anc & Ea & HNa & Ha).
      + intros i Hi. apply Hps in Hi as (j & Hj & Hin & Hp). split; [assumption|]. apply rank_parent in Hp. destruct (Hids j Hj) as (_ & Hr). lia.
      + destruct (proj1 (Hps q) (or_introl eq_refl)) as (j & Hj & _). destruct (Hids j Hj) as (_ & Hr). lia.
      + rewrite Ea. cbn [bind]. exists (union ids (union (q :: ps') anc)). split; [reflexivity|]. apply Hfin. intros i. rewrite <- (Hanc anc Ha). unfold union. rewrite nodup_In, in_app_iff. reflexivity.
  Qed.
  Lemma rank_bound v : In v (map nname ns) -> rank v < N.
  Proof. intros Hv. unfold rank. rewrite len_names. rewrite <- (map_length nname), <- (Permutation_length (proj1 (fin_order _ _ Hb))). apply (nth_position (order_nodes b) v 0). apply (ord_known ns b Hb). assumption. Qed.

  (** ** get_subnetwork *)
  Lemma get_nodes_ok ids : (forall i, In i ids -> i < N) -> exists l, get_nodes_by_ID b ids = Ok l /\ forall i, In i l <-> In i ids.
  Proof.
    intros Hids. unfold get_nodes_by_ID, guarded. rewrite (fin_final _ _ Hb). rewrite (mapM_ok _ name_at) by (intros i Hi; rewrite (lookup_ok i (Hids i Hi)); reflexivity). cbn [bind].
    eexists. split; [reflexivity|]. intros i. rewrite nodup_In, map_map.
    assert (E : forall j, In j ids -> id_of (variable_nodes b) (name_at j) = j).
    { intros j Hj. pose proof (name_known j (Hids j Hj)) as Hk. unfold id_of. rewrite (fin_nodes _ _ Hb), numbered_find. destruct (find_node_known ns (name_at j) Hk) as (n & Ef). rewrite Ef. cbn [option_map with_ID nID].
      destruct (find_node_In _ _ _ Ef) as (_ & ->). rewrite un_id by assumption. apply position_name. auto. }
    rewrite in_map_iff. split; [intros (j & <- & Hj); rewrite E; assumption|intros H; exists i; auto].
  Qed.
  Definition node_at (i : nat) : node := match find_node ns (name_at i) with Some n => with_ID n (id_for ns (name_at i)) | None => {| nname := 0; nID := None; nvalues := []; nparents := []; nprobs := [] |} end.
  Lemma node_at_ok i : i < N -> nname (node_at i) = name_at i /\ In (node_at i) (numbered ns) /\ (v <- of_option KeyError (assoc Nat.eqb i (by_ID b)) ;; get_node (variable_nodes b) v) = Ok (node_at i).
  Proof.
    intros Hi. rewrite (lookup_ok i Hi). cbn [of_option bind]. destruct (get_node_ok ns b Hb (name_at i) (name_known i Hi)) as (n & Ef & Eg). unfold node_at. rewrite Ef. destruct (find_node_In _ _ _ Ef) as (Hn & En).
    split; [exact En|]. split; [|assumption]. unfold numbered. apply in_map_iff. exists n. rewrite En. auto.
  Qed.
  Lemma subnetwork_ok ids fuel : (forall i, In i ids -> i < N) -> N < fuel ->
    exists l sub, get_subnetwork fuel b ids = Ok sub /\ NoDup l /\ (forall i, In i l <-> ancestral ids i) /\
      let ms := map node_at l in
      final ms sub /\ map nname ms = map name_at l /\ NoDup (map nname ms) /\ (forall m, In m ms -> In m (numbered ns)) /\
      (forall m p, In m ms -> In p (nparents m) -> In p (map nname ms)) /\ forall i, In i l -> i < N.
  Proof.
    intros Hids Hf. unfold get_subnetwork. destruct (get_nodes_ok ids Hids) as (ids' & E1 & H1). rewrite E1. cbn [bind].
    destruct (sub_ids_ok fuel ids' N) as (l & E2 & HNl & H2); [intros i Hi; apply H1 in Hi; split; [auto|apply rank_bound, name_known; auto]|assumption|]. rewrite E2. cbn [bind].
    assert (Hl : forall i, In i l <-> ancestral ids i).
    { intros i. rewrite H2. unfold ancestral. split; intros (j & Hj & H); exists j; (split; [apply H1; assumption|assumption]). }
    assert (HlN : forall i, In i l -> i < N) by (intros i Hi; apply Hl in Hi as (j & Hj & [-> |(H & _)]); auto).
    rewrite (mapM_ok _ node_at) by (intros i Hi; apply node_at_ok; auto). cbn [bind].
    set (ms := map node_at l).
    assert (Enames : map nname ms = map name_at l) by (unfold ms; rewrite map_map; apply map_ext_in; intros i Hi; apply node_at_ok; auto).
    assert (HNm : NoDup (map nname ms)).
    { rewrite Enames. clear -HNl HlN Hwf. induction l as [|i l IH]; cbn [map]; [constructor|]. inversion HNl as [|? ? G1 G2]; subst. constructor; [|apply IH; auto; intros j Hj; apply HlN; right; assumption].
      intros H. apply in_map_iff in H as (j & E & Hj). apply G1. rewrite <- (position_name i (HlN i (or_introl eq_refl))), <- E, position_name by (apply HlN; right; assumption). assumption. }
    assert (Hin : forall m, In m ms -> In m (numbered ns)) by (intros m Hm; apply in_map_iff in Hm as (i & <- & Hi); apply node_at_ok; auto).
    assert (Hcl : forall m p, In m ms -> In p (nparents m) -> In p (map nname ms)).
    { intros m p Hm Hp. apply in_map_iff in Hm as (i & <- & Hi). destruct (node_at_ok i (HlN i Hi)) as (En & Hnum & _). unfold numbered in Hnum. apply in_map_iff in Hnum as (n & E & Hn).
      assert (Hpar : parent_of ns p (name_at i)) by (exists n; rewrite <- E in En, Hp; auto).
      rewrite Enames. destruct (name_position p (proj2 Hwf p _ Hpar)) as (Ep & Lp). apply in_map_iff. exists (position p nm). split; [assumption|]. apply Hl. apply Hl in Hi as (j & Hj & H). exists j. split; [assumption|].
      right. split; [assumption|]. rewrite Ep. destruct H as [-> |(_ & H)]; [apply t_step; assumption|eapply t_trans; [apply t_step; eassumption|assumption]]. }
    pose proof (sub_wf ms HNm Hcl) as Hwfm. pose proof (sub_tables ns Hwf ms Hin Hcl Ht) as Htm. pose proof (sub_acyclic ns ms Hin Hac) as Hacm.
    assert (HIm : NoDup (map (id_for ms) (names ms))).
    { assert (Eid : map (id_for ms) (names ms) = map (fun v => position v nm) (names ms)).
      { apply map_ext_in. intros v Hv. apply nm_known in Hv. rewrite (sub_id ns Hwf ms Hin v Hv). apply un_id. apply (sub_incl ns Hwf ms Hin). assumption. }
      rewrite Eid. apply (NoDup_map_inv name_at). rewrite map_map. rewrite (map_ext_in _ (fun v => v)); [rewrite map_id; apply nm_nodup; assumption|].
      intros v Hv. apply nm_known in Hv. apply name_position. apply (sub_incl ns Hwf ms Hin). assumption. }
    destruct (finalize_exists ms Hwfm Htm HIm Hacm) as (sub & Hsub & Esub). exists l, sub. split.
    - apply Esub. unfold ms. rewrite map_length. assert (length l <= N); [|lia]. rewrite <- (seq_length N 0). apply NoDup_incl_length; [assumption|]. intros i Hi. apply in_seq. specialize (HlN i Hi). lia.
    - split; [assumption|]. split; [assumption|]. cbv zeta. fold ms. split; [assumption|]. split; [assumption|]. split; [assumption|]. split; [assumption|]. split; assumption.
  Qed.

  (** ** create_partial_joint_pmf *)
  Definition iterates_set (iterate : list Z -> list Z) : Prop := forall l, Permutation (iterate l) l.
  Definition all_ids : list Z := map Z.of_nat (seq 0 N).
  Lemma component_name (t : list nat) (v : nat) : length t = N -> In v nm -> component all_ids (map Z.of_nat t) (Z.of_nat (position v nm)) = Z.of_nat (entry_of nm t v).
  Proof.
    intros Hlen Hv. destruct (nth_position nm v 0 Hv) as (E & L).
    assert (G : forall (l : list nat) a (s : list nat) i, i < length l -> length s = length l -> component (map Z.of_nat (seq a (length l))) (map Z.of_nat s) (Z.of_nat (a + i)) = Z.of_nat (nth i s 0)).
    { clear. induction l as [|x l IH]; intros a s i Hi Hs; [cbn in Hi; lia|]. destruct s as [|y s]; [discriminate|]. cbn [length seq map component]. destruct i as [|i].
      - rewrite Nat.add_0_r, Z.eqb_refl. reflexivity.
      - destruct (Z.eqb_spec (Z.of_nat (a + S i)) (Z.of_nat a)); [lia|]. cbn in Hi, Hs. specialize (IH (S a) s i ltac:(lia) ltac:(lia)). replace (a + S i) with (S a + i) by lia. exact IH. }
    specialize (G nm 0 t (position v nm) L Hlen). cbn [Nat.add] in G. unfold all_ids, N. rewrite G. f_equal.
    assert (G2 : forall l s w, In w l -> length s = length l -> nth (position w l) s 0 = entry_of l s w).
    { clear. induction l as [|x l IH]; intros s w Hw Hs; [destruct Hw|]. destruct s as [|y s]; [discriminate|]. unfold position. cbn [index_nat entry_of]. destruct (Nat.eqb_spec w x) as [-> |E]; [reflexivity|].
      destruct Hw as [Hw|Hw]; [congruence|]. specialize (IH s w Hw). unfold position in IH. destruct (index_nat_In w l Hw) as (j & Ej). rewrite Ej in *. cbn [option_map nth]. apply IH. cbn in Hs. lia. }
    apply G2; assumption.
  Qed.
  Lemma partial_ok (Hst : stochastic ns) iterate ids fuel : iterates_set iterate -> (forall i, In i ids -> i < N) -> N + 1 < fuel -> ids <> [] ->
    (exists i j, In i ids /\ In j ids /\ i <> j) \/ (exists i p, In i ids /\ parent_of ns p (name_at i)) ->
    exists P, create_partial_joint_pmf iterate fuel b ids = Ok P /\
      let req := map Z.of_nat (sort_nat (nodup Nat.eq_dec ids)) in
      is_table (network_space ns) req (fun t => components all_ids req (map Z.of_nat t)) P.
  Proof.
    intros Hit Hids Hf Hne Htwo. unfold create_partial_joint_pmf, guarded. rewrite (fin_final _ _ Hb).
    destruct (subnetwork_ok ids fuel Hids ltac:(lia)) as (l & sub & Esub & HNl & Hl & Hrest). cbv zeta in Hrest. rewrite Esub. cbn [bind].
    set (ms := map node_at l) in *. destruct Hrest as (Hfin & Enames & HNm & Hin & Hcl & HlN).
    pose proof (sub_wf ms HNm Hcl) as Hwfm. pose proof (sub_tables ns Hwf ms Hin Hcl Ht) as Htm.
    assert (Hlen : length ms = length l) by apply map_length.
    assert (HlenN : length l <= N) by (rewrite <- (seq_length N 0); apply NoDup_incl_length; [assumption|]; intros i Hi; apply in_seq; specialize (HlN i Hi); lia).
    rewrite (create_joint_ok ms Hwfm Htm sub Hfin true fuel) by lia. cbn [bind variableIDs].
    set (P0 := {| probabilities := _; variableIDs := _; variable_IDs := _ |}).
    assert (H2 : 2 <= length l).
    { assert (G : exists i j, In i l /\ In j l /\ i <> j).
      { destruct Htwo as [(i & j & Hi & Hj & Hij)|(i & p & Hi & Hp)].
        - exists i, j. split; [apply Hl; exists i; auto|]. split; [apply Hl; exists j; auto|assumption].
        - destruct (name_position p (proj2 Hwf p _ Hp)) as (Ep & Lp). exists i, (position p nm). split; [apply Hl; exists i; auto|]. split.
          + apply Hl. exists i. split; [assumption|]. right. split; [assumption|]. rewrite Ep. apply t_step. assumption.
          + intros E. apply (Hac p). apply t_step. rewrite E, Ep in Hp. assumption. }
      destruct G as (i & j & Hi & Hj & Hij). destruct l as [|x [|y l]]; [destruct Hi| |cbn; lia]. destruct Hi as [<- |[]]. destruct Hj as [<- |[]]. congruence. }
    assert (HT0 : is_table (network_space ms) (map Z.of_nat (bn_IDs sub)) (map Z.of_nat) P0) by (apply (joint_table ms Hwfm Htm sub Hfin); [lia|reflexivity|reflexivity]).
    assert (Hln : length (names ms) = length ms) by (unfold names; rewrite <- (Permutation_length (sort_perm _)); apply map_length).
    (* as a table of the whole network *)
    assert (HT1 : is_table (network_space ns) (map Z.of_nat (bn_IDs sub)) (fun t => map Z.of_nat (restrict ns ms t)) P0).
    { apply (sub_table ns Hwf ms HNm Hin Hcl Ht Hst (fin_order _ _ Hb)); [|assumption]. intros s Hs. rewrite !map_length, (fin_IDs _ _ Hfin), map_length. assumption. }
    (* the IDs of the subnetwork: the ancestral IDs in increasing order *)
    assert (EIDs : bn_IDs sub = map (fun v => position v nm) (names ms)).
    { rewrite (fin_IDs _ _ Hfin). apply map_ext_in. intros v Hv. apply nm_known in Hv. rewrite (sub_id ns Hwf ms Hin v Hv). apply un_id. apply (sub_incl ns Hwf ms Hin). assumption. }
    assert (HmsN : forall v, In v (names ms) -> In v nm) by (intros v Hv; apply nm_known; apply nm_known in Hv; apply (sub_incl ns Hwf ms Hin); assumption).
    assert (Hsorted : StronglySorted lt (bn_IDs sub)).
    { rewrite EIDs. pose proof (sort_strict (map nname ms) HNm) as Hs. fold (names ms) in Hs. pose proof (sort_strict (map nname ns) (proj1 Hwf)) as Hs'. fold (names ns) in Hs'.
      clear -Hs Hs' HmsN. induction Hs as [|x m Hs IH Hf]; cbn [map]; constructor; [apply IH; intros v Hv; apply HmsN; right; assumption|]. apply Forall_forall. intros y Hy. apply in_map_iff in Hy as (v & <- & Hv). rewrite Forall_forall in Hf.
      apply position_sorted; [assumption|apply HmsN; left; reflexivity|apply HmsN; right; assumption|apply Hf; assumption]. }
    assert (HIDs : forall i, In i (bn_IDs sub) <-> In i l).
    { intros i. rewrite EIDs, in_map_iff. split.
      - intros (v & <- & Hv). apply nm_known in Hv. rewrite Enames in Hv. apply in_map_iff in Hv as (j & <- & Hj). rewrite position_name by auto. assumption.
      - intros Hi. exists (name_at i). split; [apply position_name; auto|]. apply nm_known. rewrite Enames. apply in_map. assumption. }
    assert (HNI : NoDup (bn_IDs sub)) by (clear -Hsorted; induction Hsorted as [|x m Hs IH Hf]; constructor; [|assumption]; intros Hx; rewrite Forall_forall in Hf; apply Hf in Hx; lia).
    assert (HNZ : NoDup (map Z.of_nat (bn_IDs sub))) by (apply FinFun.Injective_map_NoDup; [intros a c; lia|assumption]).
    set (over := iterate _). set (ov := filter (fun i => negb (existsb (Z.eqb i) (map Z.of_nat ids))) (map Z.of_nat (bn_IDs sub))) in over.
    assert (Hperm : Permutation over ov) by apply Hit.
    assert (Hover : forall i, In i over <-> exists j, i = Z.of_nat j /\ In j l /\ ~ In j ids).
    { intros i. assert (Hio : In i over <-> In i ov) by (split; apply Permutation_in; [|apply Permutation_sym]; assumption). rewrite Hio. unfold ov. rewrite filter_In, in_map_iff, negb_true_iff. split.
      - intros ((j & <- & Hj) & Hn). exists j. split; [reflexivity|]. split; [apply HIDs; assumption|]. intros Hji. rewrite <- Bool.not_true_iff_false in Hn. apply Hn. apply existsb_exists. exists (Z.of_nat j). split; [apply in_map; assumption|apply Z.eqb_refl].
      - intros (j & -> & Hj & Hn). split; [exists j; split; [reflexivity|apply HIDs; assumption]|]. apply Bool.not_true_iff_false. intros H. apply existsb_exists in H as (z & Hz & E). apply in_map_iff in Hz as (j' & <- & Hj'). apply Z.eqb_eq in E. assert (j = j') by lia. subst. contradiction. }
    assert (Ereq : others (map Z.of_nat (bn_IDs sub)) over = map Z.of_nat (sort_nat (nodup Nat.eq_dec ids))).
    { assert (Eo : others (map Z.of_nat (bn_IDs sub)) over = map Z.of_nat (filter (fun i => mem i ids) (bn_IDs sub))).
      { assert (G : forall m, (forall i, In i m -> In i l) -> others (map Z.of_nat m) over = map Z.of_nat (filter (fun i => mem i ids) m)).
        { induction m as [|x m IHm]; intros Hm; [reflexivity|]. cbn [map]. unfold others in *. cbn [filter]. destruct (in_dec Z.eq_dec (Z.of_nat x) over) as [Ho|Ho].
          - apply Hover in Ho as (j & Ej & _ & Hj). assert (x = j) by lia. subst j. rewrite (proj2 (mem_false x ids) Hj). apply IHm. intros i Hi. apply Hm. right; assumption.
          - assert (Hx : In x ids).
            { destruct (in_dec Nat.eq_dec x ids) as [H|H]; [assumption|]. exfalso. apply Ho. apply Hover. exists x. split; [reflexivity|]. split; [apply Hm; left; reflexivity|assumption]. }
            rewrite (proj2 (mem_In x ids) Hx). cbn [map]. f_equal. apply IHm. intros i Hi. apply Hm. right; assumption. }
        apply G. intros i. apply HIDs. }
      rewrite Eo. f_equal. apply sorted_unique.
      - clear -Hsorted. induction Hsorted as [|x m Hs IH Hf]; cbn [filter]; [constructor|]. destruct (mem x ids); [|assumption]. constructor; [assumption|]. apply Forall_forall. intros y Hy. apply filter_In in Hy as (Hy & _). rewrite Forall_forall in Hf. auto.
      - apply sort_strict. apply NoDup_nodup.
      - intros x. rewrite filter_In, mem_In, sort_in, nodup_In, HIDs. split; [tauto|]. intros Hx. split; [apply Hl; exists x; auto|assumption]. }
    destruct (table_fold_sum (network_space ns) (space_probability ns Hwf Ht Hst _ (fin_order _ _ Hb)) over (map Z.of_nat (bn_IDs sub)) _ P0 HT1 HNZ) as (P & EP & HTP).
    - apply (Permutation_NoDup (Permutation_sym Hperm)). apply NoDup_filter. assumption.
    - intros i Hi. apply Hover in Hi as (j & -> & Hj & _). apply in_map. apply HIDs. assumption.
    - rewrite Ereq. destruct ids as [|i ids']; [congruence|]. intros E. apply map_eq_nil in E. assert (Hx : In i (sort_nat (nodup Nat.eq_dec (i :: ids')))) by (apply sort_in, nodup_In; left; reflexivity). rewrite E in Hx. destruct Hx.
    - exists P. split; [exact EP|]. cbv zeta. rewrite Ereq in HTP. destruct HTP as [G1 G2 G3 G4]. split; [assumption|intros t _; apply map_length| |assumption].
      eapply distribution_ext; [|exact G3]. intros t Hint. cbv beta. cbn [network_space outcomes] in Hint. apply (tuple_length ns) in Hint.
      unfold components. apply map_ext_in. intros z Hz. apply in_map_iff in Hz as (i & <- & Hi). rewrite sort_in, nodup_In in Hi.
      assert (Hi' : In i l) by (apply Hl; exists i; auto).
      assert (Hnm' : In (name_at i) (names ms)) by (apply nm_known; rewrite Enames; apply in_map; assumption).
      transitivity (Z.of_nat (entry_of nm t (name_at i))).
      + unfold restrict. rewrite EIDs.
        assert (G : forall vs, (forall v, In v vs -> In v nm) -> In (name_at i) vs -> component (map Z.of_nat (map (fun v => position v nm) vs)) (map Z.of_nat (map (assignment ns t) vs)) (Z.of_nat i) = Z.of_nat (assignment ns t (name_at i))).
        { induction vs as [|v vs IHv]; intros Hvs Hv; [destruct Hv|]. cbn [map component]. destruct (Z.eqb_spec (Z.of_nat i) (Z.of_nat (position v nm))) as [E|E].
          - assert (Ei : i = position v nm) by lia. destruct (nth_position nm v 0 (Hvs v (or_introl eq_refl))) as (Ev & _). rewrite Ei. unfold name_at. rewrite Ev. reflexivity.
          - destruct Hv as [-> |Hv]; [exfalso; apply E; rewrite position_name by auto; reflexivity|]. apply IHv; [intros u Hu; apply Hvs; right; assumption|assumption]. }
        apply G; assumption.
      + rewrite <- (component_name t (name_at i)) by (assumption || (apply HmsN; assumption)). rewrite position_name by auto. reflexivity.
  Qed.
End Partial.
