(** Sampling. *)
From Coq Require Import Reals Relations Lra.
From Verif Require Import Base Key_Model PMF_Model Prob_Spec BN_Model Prob_Proofs BN_Spec BN_Order_Proofs BN_Final_Proofs BN_Sum_Proofs BN_Joint_Proofs BN_Table_Proofs BN_Sampling_Spec.
Open Scope nat_scope.

Lemma firstn_sum_mono row : (forall p, In p row -> (0 <= p)%R) -> forall i j, i <= j -> (Sum (firstn i row) <= Sum (firstn j row))%R.
Proof.
  induction row as [|p row IH]; intros Hp i j Hij; [rewrite !firstn_nil; lra|]. assert (H0 : (0 <= p)%R) by (apply Hp; left; reflexivity).
  assert (Hr : forall q, In q row -> (0 <= q)%R) by (intros q Hq; apply Hp; right; assumption).
  destruct i as [|i], j as [|j]; cbn [firstn Sum]; [lra| |lia|].
  - specialize (IH Hr 0 j ltac:(lia)). cbn [firstn Sum] in IH. lra.
  - specialize (IH Hr i j ltac:(lia)). lra.
Qed.
Lemma selects_unique row r i j : (forall p, In p row -> (0 <= p)%R) -> selects row r i -> selects row r j -> i = j.
Proof.
  intros Hp (Hi & Ui & Li) (Hj & Uj & Lj). unfold upper, lower in *. destruct (Nat.lt_trichotomy i j) as [H|[H|H]]; [|assumption|]; exfalso.
  - destruct Lj as [-> |Lj]; [lia|]. assert (G := firstn_sum_mono row Hp (S i) j H). lra.
  - destruct Li as [-> |Li]; [lia|]. assert (G := firstn_sum_mono row Hp (S j) i H). lra.
Qed.
Lemma roll_selects row : forall a r, row <> [] -> (r <= a + Sum row)%R ->
  exists i, sample_roll r (accumulate a row) = Some i /\ i < length row /\ (r <= a + Sum (firstn (S i) row))%R /\ (i = 0 \/ (a + Sum (firstn i row) < r)%R).
Proof.
  induction row as [|p row IH]; intros a r Hne Hr; [congruence|]. cbn [accumulate sample_roll]. destruct (Rle_dec r (a + p)) as [H|H].
  - exists 0. split; [reflexivity|]. split; [cbn; lia|]. split; [cbn [firstn Sum]; lra|left; reflexivity].
  - destruct row as [|q row]; [cbn [Sum] in Hr; lra|]. destruct (IH (a + p)%R r) as (i & E & Hi & U & L); [discriminate|cbn [Sum] in *; lra|]. rewrite E. exists (S i). split; [reflexivity|].
    split; [cbn [length] in *; lia|]. split; [cbn [firstn Sum] in *; lra|]. right. destruct L as [-> |L]; cbn [firstn Sum] in *; lra.
Qed.
Lemma sample_roll_ok row r : row <> [] -> (r <= Sum row)%R -> exists i, sample_roll r (cumulative row) = Some i /\ selects row r i.
Proof.
  intros Hne Hr. destruct (roll_selects row 0 r Hne) as (i & E & Hi & U & L); [lra|]. exists i. split; [exact E|]. unfold selects, upper, lower. split; [assumption|]. rewrite Rplus_0_l in U. split; [assumption|]. rewrite Rplus_0_l in L. assumption.
Qed.
Lemma roll_none row : (forall p, In p row -> (0 <= p)%R) -> forall a r, (a + Sum row < r)%R -> sample_roll r (accumulate a row) = None.
Proof.
  intros Hp. induction row as [|p row IH]; intros a r Hr; [reflexivity|]. cbn [accumulate sample_roll]. cbn [Sum] in Hr.
  assert (Hn : (0 <= Sum row)%R). { assert (G := firstn_sum_mono row (fun q Hq => Hp q (or_intror Hq)) 0 (length row) ltac:(lia)). rewrite firstn_all in G. cbn in G. assumption. }
  destruct (Rle_dec r (a + p)); [lra|]. rewrite IH; [reflexivity|intros q Hq; apply Hp; right; assumption|lra].
Qed.
Lemma width_nth row i : i < length row -> (upper row i - lower row i)%R = nth i row 0%R.
Proof.
  unfold upper, lower. revert i. induction row as [|p row IH]; intros i Hi; [cbn in Hi; lia|]. destruct i as [|i]; [cbn [firstn Sum nth]; lra|].
  cbn [length] in Hi. specialize (IH i ltac:(lia)). change (firstn (S (S i)) (p :: row)) with (p :: firstn (S i) row). change (firstn (S i) (p :: row)) with (p :: firstn i row). cbn [Sum nth]. lra.
Qed.

Lemma skipn_skipn {A} (l : list A) : forall x y, skipn x (skipn y l) = skipn (x + y) l.
Proof.
  induction l as [|a l IH]; intros x y; [rewrite !skipn_nil; reflexivity|]. destruct y as [|y]; [rewrite Nat.add_0_r; reflexivity|]. rewrite Nat.add_succ_r. cbn [skipn]. apply IH.
Qed.

Section Sampling.
  Context (ns : list node) (Hwf : well_formed ns) (Ht : complete_tables ns) (b : bn) (Hb : final ns b).
  Notation ord := (order_nodes b).
  Notation card := (card ns).

  Lemma row_for_ext v e e' : (forall p, In p (parents ns v) -> e p = e' p) -> row_for ns v e = row_for ns v e'.
  Proof.
    intros H. unfold row_for, parents in *. destruct (find_node ns v) as [n|]; [|reflexivity]. unfold row_of.
    rewrite (map_ext_in (fun p => value_at_index ns p (e p)) (fun p => value_at_index ns p (e' p))); [reflexivity|]. intros p Hp. rewrite (H p Hp). reflexivity.
  Qed.
  Lemma split_facts done v todo : ord = done ++ v :: todo -> exists n, find_node ns v = Some n /\ get_node (variable_nodes b) v = Ok (with_ID n (id_for ns v)) /\
    ~ In v done /\ NoDup done /\ incl (nparents n) done /\ In v (map nname ns).
  Proof.
    intros E. assert (HN : NoDup (done ++ v :: todo)) by (rewrite <- E; apply (ord_nodup ns Hwf b Hb)).
    assert (Hk : In v (map nname ns)) by (apply (ord_known ns b Hb); rewrite E; apply in_or_app; right; left; reflexivity).
    destruct (get_node_ok ns b Hb v Hk) as (n & Ef & Eg). exists n. split; [assumption|]. split; [assumption|]. destruct (NoDup_app_parts _ _ HN) as (H1 & _ & H2).
    split; [intros H; apply (H2 v H); left; reflexivity|]. split; [assumption|]. split; [|assumption].
    intros q Hq. pose proof (fin_order ns b Hb) as Htop. apply (proj2 Htop done v todo E). apply (parent_iff ns v n (proj1 Hwf) Ef). assumption.
  Qed.
  Lemma cur_has e done v : existsb (fun kv => Nat.eqb v (fst kv)) (cur ns e done) = mem v done.
  Proof. unfold cur. induction done as [|u d IH]; [reflexivity|]. cbn [map existsb fst mem]. rewrite IH. reflexivity. Qed.
  (** one variable *)
  Lemma node_step done v todo e r rolls : ord = done ++ v :: todo -> bounded ns done e ->
    exists n row, find_node ns v = Some n /\ row_for ns v e = row /\ length row = card v /\ (exists k, In (k, row) (nprobs n)) /\
    (n <- get_node (variable_nodes b) v ;; node_sample n false (cur ns e done, r :: rolls)) =
      match sample_roll r (cumulative row) with
      | None => Err TypeError
      | Some i => v' <- of_option IndexError (nth_error (nvalues n) i) ;; Ok (cur ns e done ++ [(v, v')], rolls)
      end.
  Proof.
    intros E Hbd. destruct (split_facts done v todo E) as (n & Ef & Eg & Hv & HNd & Hp & Hk). destruct (find_node_In _ _ _ Ef) as (Hn & En).
    destruct (row_ok ns Ht v n e Ef) as (row & Ea & Er & Hl & Hin); [intros p Hpp; apply Hbd, Hp; assumption|].
    exists n, row. split; [assumption|]. split; [unfold row_for; rewrite Ef; assumption|]. split; [rewrite (card_find ns v n Ef); assumption|]. split; [eauto|].
    rewrite Eg. cbn [bind]. unfold node_sample. cbn [with_ID nname nparents nvalues nprobs]. rewrite En, cur_has.
    rewrite (proj2 (mem_false v done) Hv). cbn [negb orb andb].
    assert (Ek : (match nparents n with [] => Ok None | _ :: _ => vals <- conditioning_values (with_ID n (id_for ns v)) (cur ns e done) ;; Ok (Some vals) end)
                 = Ok (row_key n (map (fun p => value_at_index ns p (e p)) (nparents n)))).
    { pose proof (conditioning_ok ns v n e done [] Ef HNd Hp) as Hc. rewrite app_nil_r in Hc. rewrite Hc. unfold row_key. destruct (nparents n); reflexivity. }
    match goal with |- bind ?x _ = _ => assert (Ek' : x = Ok (row_key n (map (fun p => value_at_index ns p (e p)) (nparents n)))) by exact Ek end.
    rewrite Ek'. cbn [bind]. unfold probdist_sample. cbn [nprobs].
    match goal with |- context [of_option KeyError ?x] => assert (Ea' : x = Some row) by exact Ea; rewrite Ea' end. cbn [of_option bind].
    destruct (sample_roll r (cumulative row)) as [i|]; [|reflexivity]. destruct (nth_error (nvalues n) i) as [x|]; [|reflexivity]. cbn [of_option bind].
    rewrite assoc_set_append; [reflexivity|]. rewrite cur_fst. assumption.
  Qed.

  Context (Hst : stochastic ns).
  Notation step := (fun st v => n <- get_node (variable_nodes b) v ;; node_sample n false st).
  Lemma row_nonneg v n k row : find_node ns v = Some n -> In (k, row) (nprobs n) -> (forall p, In p row -> (0 <= p)%R) /\ Sum row = 1%R.
  Proof. intros Ef Hin. apply find_node_In in Ef as (Hn & _). apply (Hst n k row Hn Hin). Qed.
  Lemma sample_run : forall todo done e rolls, ord = done ++ todo -> bounded ns done e -> length todo <= length rolls -> (forall r, In r rolls -> (r <= 1)%R) ->
    exists e', foldM step todo (cur ns e done, rolls) = Ok (cur ns e' (done ++ todo), skipn (length todo) rolls) /\
      (forall u, ~ In u todo -> e' u = e u) /\ bounded ns (done ++ todo) e' /\ rolls_select ns todo (firstn (length todo) rolls) e'.
  Proof.
    induction todo as [|v todo IH]; intros done e rolls E Hbd Hl Hr.
    - exists e. cbn [foldM length skipn firstn]. rewrite app_nil_r. split; [reflexivity|]. split; [auto|]. split; [assumption|constructor].
    - destruct rolls as [|r rolls]; [cbn in Hl; lia|]. cbn [length] in Hl. cbn [foldM].
      destruct (node_step done v todo e r rolls E Hbd) as (n & row & Ef & Er & Hlr & (k & Hin) & Estep). rewrite Estep.
      destruct (row_nonneg v n k row Ef Hin) as (Hpos & Hsum). destruct (find_node_In _ _ _ Ef) as (Hn & _).
      destruct (sample_roll_ok row r) as (i & Ei & Hsel).
      { intros ->. cbn in Hsum. lra. }
      { rewrite Hsum. apply Hr. left; reflexivity. }
      rewrite Ei. destruct Hsel as (Hi & Hsel). rewrite Hlr in Hi.
      assert (Eval : nth_error (nvalues n) i = Some (value_at_index ns v i)).
      { unfold value_at_index. rewrite (values_of_find _ _ _ Ef). apply nth_error_nth'. rewrite <- (card_find ns v n Ef). assumption. }
      rewrite Eval. cbn [of_option bind]. destruct (split_facts done v todo E) as (n' & Ef' & _ & Hv & HNd & Hp & Hk). rewrite Ef in Ef'. injection Ef' as <-.
      rewrite <- (cur_snoc ns e done v i Hv).
      assert (Hbd' : bounded ns (done ++ [v]) (upd e v i)).
      { intros u Hu. apply in_app_or in Hu as [Hu|[<- |[]]]; [rewrite upd_other; [auto|intros ->; contradiction]|rewrite upd_same; assumption]. }
      destruct (IH (done ++ [v]) (upd e v i) rolls) as (e' & E1 & E2 & E3 & E4).
      + rewrite <- app_assoc. exact E.
      + assumption.
      + lia.
      + intros q Hq. apply Hr. right; assumption.
      + exists e'. assert (HN : NoDup (done ++ v :: todo)) by (rewrite <- E; apply (ord_nodup ns Hwf b Hb)).
        assert (Hvt : ~ In v todo) by (apply NoDup_remove_2 in HN; intros H; apply HN; apply in_or_app; right; assumption).
        destruct (NoDup_app_parts _ _ HN) as (_ & _ & Hdt).
        split; [etransitivity; [exact E1|]; rewrite <- app_assoc; reflexivity|]. split.
        * intros u Hu. rewrite E2 by (intros H; apply Hu; right; assumption). apply upd_other. intros ->. apply Hu. left; reflexivity.
        * split; [rewrite <- app_assoc in E3; exact E3|]. cbn [length firstn]. constructor; [|exact E4].
          assert (Ev : e' v = i) by (rewrite E2 by assumption; apply upd_same). rewrite Ev.
          assert (Erow : row_for ns v e' = row).
          { rewrite <- Er. apply row_for_ext. intros p Hpp. unfold parents in Hpp. rewrite Ef in Hpp. assert (Hd : In p done) by (apply Hp; assumption).
            rewrite E2; [apply upd_other; intros ->; contradiction|]. intros H. apply (Hdt p Hd). right; assumption. }
          rewrite Erow. split; [rewrite Hlr; assumption|assumption].
  Qed.
  (** at most one assignment is selected *)
  Lemma select_unique : forall todo done e e' rolls, ord = done ++ todo -> bounded ns done e -> (forall u, In u done -> e u = e' u) ->
    rolls_select ns todo rolls e -> rolls_select ns todo rolls e' -> forall u, In u (done ++ todo) -> e u = e' u.
  Proof.
    induction todo as [|v todo IH]; intros done e e' rolls E Hbd Hd H1 H2 u Hu; [rewrite app_nil_r in Hu; auto|].
    inversion H1 as [|? r ? rolls' G1 G1']; subst. inversion H2 as [|? ? ? ? G2 G2']; subst.
    destruct (split_facts done v todo E) as (n & Ef & _ & Hv & HNd & Hp & Hk).
    assert (Er : row_for ns v e = row_for ns v e') by (apply row_for_ext; intros p Hpp; apply Hd; unfold parents in Hpp; rewrite Ef in Hpp; apply Hp; assumption).
    destruct (row_ok ns Ht v n e Ef) as (row & _ & Er' & Hl & Hin); [intros p Hpp; apply Hbd, Hp; assumption|].
    assert (Erow : row_for ns v e = row) by (unfold row_for; rewrite Ef; assumption).
    destruct (row_nonneg v n _ row Ef Hin) as (Hpos & _).
    assert (Ev : e v = e' v). { rewrite <- Er in G2. rewrite Erow in G1, G2. apply (selects_unique row r); assumption. }
    apply (IH (done ++ [v]) e e' rolls').
    - rewrite <- app_assoc. exact E.
    - intros w Hw. apply in_app_or in Hw as [Hw|[<- |[]]]; [auto|]. destruct G1 as (G1 & _). rewrite Erow, Hl, <- (card_find ns v n Ef) in G1. assumption.
    - intros w Hw. apply in_app_or in Hw as [Hw|[<- |[]]]; auto.
    - assumption.
    - assumption.
    - rewrite <- app_assoc. exact Hu.
  Qed.
  Lemma sample_ok rolls : ns <> [] -> length ns <= length rolls -> (forall r, In r rolls -> (r <= 1)%R) ->
    exists t, In t (tuples ns) /\ rolls_select ns ord (firstn (length ns) rolls) (assignment ns t) /\
      forall ai, bn_sample_list b ai rolls = Ok (shown_tuple ns ai t, skipn (length ns) rolls).
  Proof.
    intros Hne Hl Hr. assert (Hlen : length ord = length ns) by (rewrite (Permutation_length (proj1 (fin_order _ _ Hb))); apply map_length).
    destruct (sample_run ord [] (fun _ => 0) rolls) as (e & E1 & _ & E3 & E4); [reflexivity|intros u []|lia|assumption|]. rewrite Hlen in E1, E4. cbn [app] in E3, E1.
    assert (He : good ns e) by (intros u Hu; apply E3; apply (ord_known ns b Hb); assumption).
    destruct (env_tuple ns e He) as (Hin & Ha). exists (map e (names ns)). split; [assumption|]. split.
    - assert (G : forall vs rs, incl vs (map nname ns) -> rolls_select ns vs rs e -> rolls_select ns vs rs (assignment ns (map e (names ns)))).
      { intros vs rs Hi HS. induction HS as [|v r vs rs Hs HS IH]; [constructor|]. constructor; [|apply IH; intros w Hw; apply Hi; right; assumption].
        assert (Hv : In v (map nname ns)) by (apply Hi; left; reflexivity). rewrite (Ha v Hv). rewrite (row_for_ext v _ e); [assumption|].
        intros p Hp. apply Ha. apply (proj2 Hwf p v). apply (parents_parent ns Hwf). assumption. }
      apply G; [intros v Hv; apply (ord_known ns b Hb); assumption|assumption].
    - intros ai. unfold bn_sample_list, bn_sample, guarded. rewrite (fin_final _ _ Hb).
      match goal with |- bind (bind ?x _) _ = _ => assert (Em : x = Ok (cur ns e ord, skipn (length ns) rolls)) end.
      { destruct ord as [|v o] eqn:Eo; [destruct ns; [congruence|discriminate]|]. exact E1. }
      rewrite Em. clear Em. cbn [bind fst snd].
      pose proof (leaf_list ns Hwf Ht b Hb ai e He) as HL. destruct ai; cbn [bind] in *.
      + destruct (sample_values_to_indices b (cur ns e ord)) as [s|]; cbn [bind fst snd] in *; [|discriminate]. rewrite HL. cbn [bind]. f_equal. f_equal. unfold shown_tuple. apply map_ext_in. intros v Hv.
        unfold shown. symmetry. apply Ha. apply (names_known ns). assumption.
      + cbn [fst snd]. rewrite HL. cbn [bind]. f_equal. f_equal. unfold shown_tuple. apply map_ext_in. intros v Hv. unfold shown. rewrite Ha by (apply (names_known ns); assumption). reflexivity.
  Qed.
  Lemma select_tuple_unique rolls t t' : In t (tuples ns) -> In t' (tuples ns) -> rolls_select ns ord rolls (assignment ns t) -> rolls_select ns ord rolls (assignment ns t') -> t = t'.
  Proof.
    intros H1 H2 S1 S2. destruct (tuple_env ns Hwf t H1) as (E1 & _). destruct (tuple_env ns Hwf t' H2) as (E2 & _). rewrite <- E1, <- E2. apply map_ext_in. intros v Hv.
    apply (select_unique ord [] _ _ rolls); [reflexivity|intros u []|intros u []|assumption|assumption|]. cbn [app]. apply (ord_known ns b Hb). apply (names_known ns). assumption.
  Qed.
  Lemma widths_joint t : In t (tuples ns) -> Prod (map (width ns (assignment ns t)) ord) = joint ns (assignment ns t).
  Proof.
    intros Hin. destruct (tuple_env ns Hwf t Hin) as (_ & He). rewrite (joint_product ns _ (proj1 Hwf)). rewrite <- (product_perm ns ord (map nname ns) _ (proj1 (fin_order _ _ Hb))).
    unfold product. f_equal. apply map_ext_in. intros v Hv. apply (ord_known ns b Hb) in Hv. unfold width, cp, row_for. destruct (find_node_known ns v Hv) as (n & Ef). rewrite Ef.
    destruct (row_ok ns Ht v n (assignment ns t) Ef) as (row & _ & Er & Hl & _).
    { intros p Hp. apply He. apply (proj2 Hwf p v). apply (parent_iff ns v n (proj1 Hwf) Ef). assumption. }
    unfold cond_prob. rewrite Er. destruct (find_node_In _ _ _ Ef) as (_ & ->). apply width_nth. rewrite Hl, <- (card_find ns v n Ef). apply He. assumption.
  Qed.
  (** sample_matrix takes the rolls in consecutive blocks, one for each row *)
  Lemma matrix_ok k : forall rolls, ns <> [] -> k * length ns <= length rolls -> (forall r, In r rolls -> (r <= 1)%R) ->
    exists rows, sample_matrix b k rolls = Ok (rows, skipn (k * length ns) rolls) /\ length rows = k /\
      forall j, j < k -> bn_sample_list b true (skipn (j * length ns) rolls) = Ok (nth j rows [], skipn (S j * length ns) rolls).
  Proof.
    induction k as [|k IH]; intros rolls Hne Hl Hr; [exists []; split; [reflexivity|]; split; [reflexivity|lia]|].
    destruct (sample_ok rolls Hne) as (t & Hin & _ & Es); [cbn in Hl; lia|assumption|]. cbn [sample_matrix]. rewrite (Es true). cbn [bind].
    destruct (IH (skipn (length ns) rolls) Hne) as (rows & E & Hlr & Hrow).
    - rewrite skipn_length. cbn in Hl. lia.
    - intros r Hin'. apply Hr. rewrite <- (firstn_skipn (length ns) rolls). apply in_or_app. right; assumption.
    - rewrite E. cbn [bind]. exists (shown_tuple ns true t :: rows). split; [|split; [cbn; lia|]].
      + f_equal. f_equal. cbn [Nat.mul]. rewrite skipn_skipn. f_equal. lia.
      + intros [|j] Hj.
        * cbn [Nat.mul skipn nth]. rewrite Nat.add_0_r. apply Es.
        * specialize (Hrow j ltac:(lia)). cbn [nth]. rewrite !skipn_skipn in Hrow. replace (S j * length ns) with (j * length ns + length ns) by lia. rewrite Hrow. f_equal. f_equal. f_equal. lia.
  Qed.
End Sampling.
