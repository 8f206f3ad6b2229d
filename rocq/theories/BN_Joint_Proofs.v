(** create_joint_pmf. *)
From Coq Require Import Reals Relations Lra.
From Verif Require Import Base Key_Model Key_Spec Key_Proofs PMF_Model PMF_Spec Prob_Spec Table_Spec BN_Model Prob_Proofs PMF_Proofs BN_Spec BN_Order_Proofs BN_Final_Proofs BN_Sum_Proofs.
Open Scope nat_scope.

(** ** nodes with and without IDs *)
Lemma numbered_find ns v : find_node (numbered ns) v = option_map (fun n => with_ID n (id_for ns (nname n))) (find_node ns v).
Proof. unfold numbered. apply find_node_map. reflexivity. Qed.
Lemma sget_In (s : sample) v x : NoDup (map fst s) -> In (v, x) s -> sget s v = Ok x.
Proof.
  unfold sget. induction s as [|[u y] s IH]; intros HN Hin; [destruct Hin|]. inversion HN as [|? ? H1 H2]; subst. cbn [assoc].
  destruct (Nat.eqb_spec v u) as [-> |E].
  - destruct Hin as [Hin|Hin]; [injection Hin as ->; reflexivity|]. exfalso. apply H1. apply (in_map fst) in Hin. exact Hin.
  - destruct Hin as [Hin|Hin]; [injection Hin as -> ->; congruence|]. apply IH; assumption.
Qed.

Section Joint.
  Context (ns : list node) (Hwf : well_formed ns) (Ht : complete_tables ns) (b : bn) (Hb : final ns b).
  Notation card := (card ns).
  Notation ord := (order_nodes b).
  Let Hac : acyclic ns := topological_acyclic ns Hwf _ (fin_order _ _ Hb).

  Lemma ord_nodup : NoDup ord.
  Proof. apply (Permutation_NoDup (Permutation_sym (proj1 (fin_order _ _ Hb)))). apply Hwf. Qed.
  Lemma ord_known v : In v ord <-> In v (map nname ns).
  Proof. split; apply Permutation_in; [|apply Permutation_sym]; apply (fin_order _ _ Hb). Qed.
  Lemma names_known v : In v (names ns) <-> In v (map nname ns).
  Proof. apply sort_in. Qed.
  Lemma names_nodup : NoDup (names ns).
  Proof. apply (Permutation_NoDup (sort_perm _)). apply Hwf. Qed.
  Lemma get_node_ok v : In v (map nname ns) -> exists n, find_node ns v = Some n /\ get_node (variable_nodes b) v = Ok (with_ID n (id_for ns v)).
  Proof.
    intros Hv. destruct (find_node_known ns v Hv) as (n & Ef). exists n. split; [assumption|]. unfold get_node. rewrite (fin_nodes _ _ Hb), numbered_find, Ef. cbn [option_map of_option].
    destruct (find_node_In _ _ _ Ef) as (_ & ->). reflexivity.
  Qed.
  Lemma b_names : variable_node_names b = names ns.
  Proof. unfold variable_node_names. rewrite (fin_names _ _ Hb). reflexivity. Qed.

  (** the dictionary of the values chosen so far *)
  Definition cur (e : env) (done : list nat) : sample := map (fun v => (v, value_at_index ns v (e v))) done.
  Lemma cur_fst e done : map fst (cur e done) = done.
  Proof. unfold cur. rewrite map_map. apply map_id. Qed.
  Lemma cur_get e done v : NoDup done -> In v done -> sget (cur e done) v = Ok (value_at_index ns v (e v)).
  Proof. intros HN Hin. apply sget_In; [rewrite cur_fst; assumption|]. unfold cur. apply in_map_iff. exists v. auto. Qed.
  Lemma cur_ext e e' done : (forall u, In u done -> e u = e' u) -> cur e done = cur e' done.
  Proof. intros H. apply map_ext_in. intros v Hv. rewrite (H v Hv). reflexivity. Qed.
  Lemma cur_snoc e done v i : ~ In v done -> cur (upd e v i) (done ++ [v]) = cur e done ++ [(v, value_at_index ns v i)].
  Proof.
    intros Hv. unfold cur. rewrite map_app. cbn [map]. rewrite upd_same. f_equal. apply map_ext_in. intros u Hu. rewrite upd_other; [reflexivity|]. intros ->. contradiction.
  Qed.
  Lemma set_after (s : sample) v x y : ~ In v (map fst s) -> assoc_set Nat.eqb v y (s ++ [(v, x)]) = s ++ [(v, y)].
  Proof.
    induction s as [|[u z] s IH]; intros H; cbn [app assoc_set]; [rewrite Nat.eqb_refl; reflexivity|].
    destruct (Nat.eqb_spec v u) as [-> |E]; [exfalso; apply H; left; reflexivity|]. rewrite IH; [reflexivity|]. intros Hv. apply H. right; assumption.
  Qed.
  Lemma sdel_after (s : sample) v x : ~ In v (map fst s) -> sdel v (s ++ [(v, x)]) = Ok s.
  Proof.
    intros H. unfold sdel. rewrite existsb_app. cbn [existsb fst]. rewrite Nat.eqb_refl, !orb_true_r. f_equal. rewrite filter_app. cbn [filter fst]. rewrite Nat.eqb_refl. cbn [negb]. rewrite app_nil_r.
    induction s as [|[u z] s IH]; [reflexivity|]. cbn [filter fst]. destruct (Nat.eqb_spec v u) as [-> |E]; [exfalso; apply H; left; reflexivity|]. cbn [negb]. rewrite IH; [reflexivity|]. intros Hv. apply H. right; assumption.
  Qed.
  Lemma conditioning_ok v n e done extra : find_node ns v = Some n -> NoDup done -> incl (nparents n) done ->
    conditioning_values (with_ID n (id_for ns v)) (cur e done ++ extra) = Ok (map (fun p => value_at_index ns p (e p)) (nparents n)).
  Proof.
    intros Ef HN Hi. unfold conditioning_values. cbn [nparents with_ID]. apply mapM_ok. intros p Hp. unfold sget.
    assert (H := cur_get e done p HN (Hi p Hp)). unfold sget in H. destruct (assoc Nat.eqb p (cur e done)) as [x|] eqn:E; [|discriminate].
    assert (G : assoc Nat.eqb p (cur e done ++ extra) = Some x).
    { clear -E. induction (cur e done) as [|[u z] s IH]; [discriminate|]. cbn [app assoc] in *. destruct (Nat.eqb p u); auto. }
    rewrite G. exact H.
  Qed.

  (** the tuple that an assignment is stored under *)
  Definition shown (ai : bool) (e : env) (v : nat) : nat := if ai then e v else value_at_index ns v (e v).
  Definition keyof (ai : bool) (e : env) : pyobj := tuple_key (map (shown ai e) (names ns)).
  Definition good (e : env) : Prop := bounded ns (map nname ns) e.

  Lemma values_nodup v : NoDup (values_of ns v).
  Proof.
    unfold values_of. fold (find_node ns v). destruct (find_node ns v) as [n|] eqn:Ef; [|constructor]. apply find_node_In in Ef as (Hn & _). apply (Ht n Hn).
  Qed.
  Lemma value_inj v i j : i < card v -> j < card v -> value_at_index ns v i = value_at_index ns v j -> i = j.
  Proof. intros Hi Hj E. apply (proj1 (NoDup_nth (values_of ns v) 0) (values_nodup v)); assumption. Qed.
  Lemma tuple_key_inj l m : tuple_key l = tuple_key m -> l = m.
  Proof.
    unfold tuple_key. intros E. injection E as E. revert m E. induction l as [|x l IH]; intros [|y m] E; cbn [map] in E; try discriminate; [reflexivity|].
    injection E as E1 E2. f_equal; [lia|apply IH; assumption].
  Qed.
  Lemma map_inj_in {A B} (f g : A -> B) l : map f l = map g l -> forall x, In x l -> f x = g x.
  Proof. induction l as [|y l IH]; intros E x Hx; [destruct Hx|]. cbn [map] in E. injection E as E1 E2. destruct Hx as [<- |Hx]; auto. Qed.
  Lemma keyof_inj ai e e' : good e -> good e' -> keyof ai e = keyof ai e' -> forall v, In v (map nname ns) -> e v = e' v.
  Proof.
    intros He He' E v Hv. apply tuple_key_inj in E. assert (H := map_inj_in _ _ _ E v (proj2 (names_known v) Hv)). unfold shown in H. destruct ai; [assumption|].
    apply (value_inj v); [apply He|apply He'|]; assumption.
  Qed.
  Lemma keyof_ext ai e e' : (forall v, In v (map nname ns) -> e v = e' v) -> keyof ai e = keyof ai e'.
  Proof. intros H. unfold keyof. f_equal. apply map_ext_in. intros v Hv. apply names_known in Hv. unfold shown. rewrite (H v Hv). reflexivity. Qed.

  Lemma leaf_list (ai : bool) (e : env) : good e ->
    (cur' <- (if ai then sample_values_to_indices b (cur e ord) else Ok (cur e ord)) ;; sample_as_list b cur') = Ok (map (shown ai e) (names ns)).
  Proof.
    intros He. assert (HL : forall f : nat -> nat, sample_as_list b (map (fun v => (v, f v)) ord) = Ok (map f (names ns))).
    { intros f. unfold sample_as_list, guarded. rewrite (fin_final _ _ Hb), b_names. apply mapM_ok. intros v Hv. apply sget_In.
      - rewrite map_map. cbn [fst]. rewrite map_id. apply ord_nodup.
      - apply in_map_iff. exists v. split; [reflexivity|]. apply ord_known, names_known. assumption. }
    destruct ai; cbn [bind].
    - unfold sample_values_to_indices, cur. rewrite (mapM_ok _ (fun kv => (fst kv, e (fst kv)))).
      + cbn [bind]. rewrite map_map. cbn [fst]. apply (HL e).
      + intros [v x] Hin. apply in_map_iff in Hin as (v' & E & Hv). injection E as -> <-. cbn [fst snd].
        destruct (get_node_ok v (proj1 (ord_known v) Hv)) as (n & Ef & ->). cbn [bind with_ID nvalues]. unfold value_at_index. rewrite (values_of_find _ _ _ Ef).
        rewrite index_nat_of_nth; [reflexivity| |].
        * rewrite <- (values_of_find _ _ _ Ef). apply values_nodup.
        * rewrite <- (card_find ns v n Ef). apply He. apply ord_known. assumption.
    - apply HL.
  Qed.

  (** ** the recursion *)
  Definition entries (ai : bool) (todo : list nat) (e : env) (p : R) : list (pyobj * R) :=
    map (fun e' => (keyof ai e', (p * product ns todo e')%R)) (envs ns todo e).
  Definition fresh (ai : bool) (vp : list (pyobj * R)) (done : list nat) (e : env) : Prop :=
    forall e', good e' -> (forall u, In u done -> e' u = e u) -> ~ In (keyof ai e') (map fst vp).
  Lemma entries_keys ai todo e p k : NoDup todo -> In k (map fst (entries ai todo e p)) -> exists e', k = keyof ai e' /\ (forall u, ~ In u todo -> e' u = e u) /\ bounded ns todo e'.
  Proof.
    intros HN Hin. unfold entries in Hin. rewrite map_map in Hin. cbn [fst] in Hin. apply in_map_iff in Hin as (e' & <- & Hin). apply envs_spec in Hin as (H1 & H2); [eauto|assumption].
  Qed.
  Lemma set_fresh (ai : bool) (vp : list (pyobj * R)) k p : ~ In k (map fst vp) -> assoc_set pyobj_eqb k p vp = vp ++ [(k, p)].
  Proof.
    clear ai. induction vp as [|[k' p'] vp IH]; intros H; cbn [assoc_set app]; [reflexivity|]. destruct (pyobj_eqb k k') eqn:E.
    - apply pyobj_eqb_eq in E. subst. exfalso. apply H. left; reflexivity.
    - rewrite IH; [reflexivity|]. intros Hk. apply H. right; assumption.
  Qed.

  Lemma nvalues_seq v n : find_node ns v = Some n -> nvalues n = map (value_at_index ns v) (seq 0 (card v)).
  Proof.
    intros Ef. rewrite (card_find ns v n Ef). unfold value_at_index. rewrite (values_of_find _ _ _ Ef). clear. induction (nvalues n) as [|x l IH]; [reflexivity|].
    cbn [length seq map nth]. f_equal. rewrite <- seq_shift, map_map. exact IH.
  Qed.
  Lemma probability_ok v n e i k : find_node ns v = Some n -> i < card v -> (forall p, In p (nparents n) -> e p < card p) ->
    k = row_key n (map (fun p => value_at_index ns p (e p)) (nparents n)) ->
    probability_of_value (with_ID n (id_for ns v)) (value_at_index ns v i) k = Ok (cp ns v (upd e v i)).
  Proof.
    intros Ef Hi Hp Ek. unfold probability_of_value. cbn [nvalues nprobs with_ID].
    assert (Ei : index_nat (value_at_index ns v i) (nvalues n) = Some i).
    { unfold value_at_index. rewrite (values_of_find _ _ _ Ef). apply index_nat_of_nth; [rewrite <- (values_of_find _ _ _ Ef); apply values_nodup|rewrite <- (card_find ns v n Ef); assumption]. }
    rewrite Ei. cbn [of_option bind]. destruct (row_ok ns Ht v n e Ef Hp) as (row & Ea & Er & Hl & _).
    rewrite Ek, Ea. cbn [of_option bind].
    assert (Ecp : cp ns v (upd e v i) = nth i row 0%R).
    { unfold cp. rewrite Ef. unfold cond_prob. destruct (find_node_In _ _ _ Ef) as (_ & ->). rewrite upd_same. f_equal. rewrite <- Er. unfold row_of.
      assert (Em : map (fun p => value_at_index ns p (upd e v i p)) (nparents n) = map (fun p => value_at_index ns p (e p)) (nparents n)).
      { apply map_ext_in. intros p Hpp. rewrite upd_other; [reflexivity|]. intros ->. apply (not_own_parent ns Hwf v n Hac Ef Hpp). } rewrite Em. reflexivity. }
    rewrite Ecp. rewrite (card_find ns v n Ef), <- Hl in Hi. rewrite (nth_error_nth' row 0%R Hi). reflexivity.
  Qed.

  Lemma joint_values_ok ai : forall todo done e vp p fuel, ord = done ++ todo -> bounded ns done e -> length todo < fuel -> fresh ai vp done e ->
    joint_values fuel b ai vp (cur e done) p = Ok (vp ++ entries ai todo e p, cur e done).
  Proof.
    induction todo as [|v todo IH]; intros done e vp p fuel E Hbd Hf Hfr; (destruct fuel as [|fuel]; [lia|]); cbn [joint_values].
    - rewrite app_nil_r in E. assert (Ec : (length (cur e done) =? length ord) = true) by (apply Nat.eqb_eq; rewrite E; unfold cur; apply map_length). rewrite Ec.
      assert (He : good e) by (intros u Hu; apply Hbd; rewrite <- E; apply ord_known; assumption).
      pose proof (leaf_list ai e He) as HL. rewrite E in HL. destruct (if ai then _ else _) as [c|]; cbn [bind] in *; [|discriminate]. rewrite HL. cbn [bind].
      rewrite (set_fresh ai); [|apply (Hfr e He); auto]. unfold entries. cbn [envs map]. unfold product. cbn [map Prod]. rewrite Rmult_1_r. reflexivity.
    - cbn [length] in Hf. assert (HN : NoDup (done ++ v :: todo)) by (rewrite <- E; apply ord_nodup).
      assert (Hv : ~ In v done) by (apply NoDup_remove_2 in HN; intros H; apply HN; apply in_or_app; left; assumption).
      assert (HNd : NoDup done) by (clear -HN; induction done as [|x d IH]; [constructor|]; inversion HN as [|? ? H1 H2]; subst; constructor; [intros H; apply H1; apply in_or_app; left; assumption|auto]).
      assert (Hlen : (length (cur e done) =? length ord) = false) by (apply Nat.eqb_neq; rewrite E; unfold cur; rewrite map_length, app_length; cbn [length]; lia). rewrite Hlen.
      assert (Hnth : nth_error ord (length (cur e done)) = Some v) by (rewrite E; unfold cur; rewrite map_length, nth_error_app2 by lia; rewrite Nat.sub_diag; reflexivity).
      rewrite Hnth. cbn [of_option bind].
      assert (Hkv : In v (map nname ns)) by (apply ord_known; rewrite E; apply in_or_app; right; left; reflexivity).
      destruct (get_node_ok v Hkv) as (n & Ef & Eg). rewrite Eg. cbn [bind].
      destruct (find_node_In _ _ _ Ef) as (Hn & En).
      assert (Hpd : incl (nparents n) done).
      { intros q Hq. pose proof (fin_order ns b Hb) as Htop; apply proj2 in Htop. apply (Htop done v todo E). apply (parent_iff ns v n (proj1 Hwf) Ef). assumption. }
      assert (Hpb : forall q, In q (nparents n) -> e q < card q) by (intros q Hq; apply Hbd; apply Hpd; assumption).
      cbn [with_ID nvalues nname]. rewrite En. rewrite (nvalues_seq v n Ef).
      (* the loop over the values *)
      set (body := fun (st : list (pyobj * R) * sample) value => _).
      assert (Hstep : forall i vp' extra, i < card v -> extra = [] \/ (exists x, extra = [(v, x)]) -> fresh ai vp' (done ++ [v]) (upd e v i) ->
        body (vp', cur e done ++ extra) (value_at_index ns v i) = Ok (vp' ++ entries ai todo (upd e v i) (p * cp ns v (upd e v i))%R, cur e done ++ [(v, value_at_index ns v i)])).
      { intros i vp' extra Hi Hex Hfr'. unfold body. cbn [snd fst]. fold (with_ID n (id_for ns v)). rewrite (conditioning_ok v n e done extra Ef HNd Hpd). cbn [bind].
        match goal with |- context [probability_of_value _ _ ?k] => rewrite (probability_ok v n e i k Ef Hi Hpb) by (unfold row_key; destruct (nparents n); reflexivity) end. cbn [bind].
        assert (Eset : assoc_set Nat.eqb v (value_at_index ns v i) (cur e done ++ extra) = cur (upd e v i) (done ++ [v])).
        { rewrite cur_snoc by assumption. destruct Hex as [-> |(x & ->)]; [rewrite app_nil_r; apply assoc_set_append|apply set_after]; rewrite cur_fst; assumption. }
        rewrite Eset. rewrite (IH (done ++ [v]) (upd e v i)); [rewrite cur_snoc by assumption; reflexivity| | |lia|assumption].
        - rewrite E, <- app_assoc. reflexivity.
        - intros u Hu. apply in_app_or in Hu as [Hu|[<- |[]]]; [rewrite upd_other; [auto|intros ->; contradiction]|rewrite upd_same; assumption]. }
      assert (HNt : NoDup todo) by (apply NoDup_remove_1 in HN; clear -HN; induction done as [|x d IH]; [assumption|]; inversion HN; auto).
      assert (Hvt : ~ In v todo) by (apply NoDup_remove_2 in HN; intros H; apply HN; apply in_or_app; right; assumption).
      (* state before value i: all earlier values are done *)
      assert (Hloop : forall k i vp' extra, i + k = card v -> extra = [] \/ (exists x, extra = [(v, x)]) -> (k = 0 -> extra <> []) ->
        (forall j, i <= j -> j < card v -> fresh ai vp' (done ++ [v]) (upd e v j)) ->
        exists x, foldM body (map (value_at_index ns v) (seq i k)) (vp', cur e done ++ extra)
          = Ok (vp' ++ flat_map (fun j => entries ai todo (upd e v j) (p * cp ns v (upd e v j))%R) (seq i k), cur e done ++ [(v, x)])).
      { induction k as [|k IHk]; intros i vp' extra Hik Hex Hne Hfr'.
        - destruct Hex as [-> |(x & ->)]; [exfalso; apply Hne; reflexivity|]. exists x. cbn [seq map foldM flat_map]. rewrite app_nil_r. reflexivity.
        - cbn [seq map foldM flat_map]. rewrite Hstep; [|lia|assumption|apply Hfr'; lia]. cbn [bind].
          destruct (IHk (S i) (vp' ++ entries ai todo (upd e v i) (p * cp ns v (upd e v i))%R) [(v, value_at_index ns v i)]) as (x & Ex).
          + lia.
          + right; eauto.
          + intros _; discriminate.
          + intros j Hj Hjc e' He' Ha Hin. rewrite map_app in Hin. apply in_app_or in Hin as [Hin|Hin].
            * apply (Hfr' j ltac:(lia) Hjc e' He' Ha Hin).
            * apply entries_keys in Hin as (e2 & Ek & Hout & Hbt); [|assumption].
              assert (He2 : good e2).
              { intros u Hu. apply ord_known in Hu. rewrite E in Hu. apply in_app_or in Hu as [Hu|[<- |Hu]].
                - rewrite Hout; [rewrite upd_other; [auto|intros ->; contradiction]|]. intros Hut. apply (NoDup_remove_1) in HN. clear -HN Hu Hut. induction done as [|y d IH]; [destruct Hu|]. inversion HN as [|? ? H1 H2]; subst. destruct Hu as [-> |Hu]; [apply H1; apply in_or_app; right; assumption|auto].
                - rewrite Hout, upd_same by assumption. lia.
                - apply Hbt. assumption. }
              assert (Ev := keyof_inj ai e' e2 He' He2 Ek v Hkv). rewrite (Ha v) in Ev by (apply in_or_app; right; left; reflexivity). rewrite Hout, !upd_same in Ev by assumption. lia.
          + rewrite Ex. exists x. rewrite <- app_assoc. reflexivity. }
      destruct (Hloop (card v) 0 vp []) as (x & Ex).
      + reflexivity.
      + left; reflexivity.
      + intros Hc. exfalso. rewrite (card_find ns v n Ef) in Hc. destruct (Ht n Hn) as (Hne & _). destruct (nvalues n); [congruence|discriminate].
      + intros j _ _ e' He' Ha. apply (Hfr e' He'). intros u Hu. rewrite Ha by (apply in_or_app; left; assumption). apply upd_other. intros ->. contradiction.
      + rewrite app_nil_r in Ex. match type of Ex with _ = ?r => match goal with |- bind ?x _ = _ => assert (Ex' : x = r) by exact Ex; rewrite Ex' end end. cbn [bind fst snd]. rewrite sdel_after by (rewrite cur_fst; assumption). cbn [bind]. do 2 f_equal.
        unfold entries. cbn [envs]. f_equal. rewrite flat_map_concat_map, flat_map_concat_map, concat_map, map_map. f_equal. apply map_ext. intros j.
        apply map_ext_in. intros e' Hin. f_equal. apply envs_spec in Hin as (Hout & _); [|assumption]. unfold product. cbn [map Prod]. rewrite Rmult_assoc. f_equal. f_equal.
        apply cp_depends. intros u [<- |Hu]; symmetry; apply Hout; [assumption|]. unfold parents in Hu. rewrite Ef in Hu. intros Hut. apply Hpd in Hu.
        apply NoDup_remove_1 in HN. clear -HN Hu Hut. induction done as [|y d IH]; [destruct Hu|]. inversion HN as [|? ? H1 H2]; subst. destruct Hu as [-> |Hu]; [apply H1; apply in_or_app; right; assumption|auto].
  Qed.
End Joint.
