(** C59: the debug variants of the G-tests and of the AD-tree. *)
From Coq Require Import Reals Lra.
From Verif Require Import Base AD_Model AD_Query_Model AD_Spec AD_Proofs AD_Examples GTest_Model GTest_Spec GTest_Proofs GTest_Properties Debug_Model.
Open Scope Z_scope.

(** ** Specification *)
(** the tree object was prepared for counting, if it is to count *)
Definition usable (t : tree_object) : Prop := forall d, t_debug t = Some d -> 1 <= d -> t_counts t <> None.
(** the number of tables that the tests so far have asked for: XY, X and Y; or Z, XYZ, XZ and YZ *)
Definition tables_asked (tests : list test) : Z := zsum (map (fun t : test => match snd t with [] => 3 | _ => 4 end) tests).

(** ** Lemmas *)
Lemma tables_asked_cons X Y Z tests : tables_asked ((X, Y, Z) :: tests) = Z.of_nat (tables_of Z) + tables_asked tests.
Proof. unfold tables_asked. cbn [map snd zsum]. destruct Z; reflexivity. Qed.
Lemma run_test_tree D p dyn kind st X Y Z r st' : run_test D p (WithADTree dyn) kind st X Y Z = Ok (r, st') -> ad_tree st' <> None.
Proof.
  unfold run_test. destruct (ad_tree st) as [t|]; [|discriminate]. cbn [of_option bind].
  destruct (ad_tables D dyn kind (dof_cache st) t X Y Z) as [[[[[[a b] c] d] e] f]|]; [|discriminate]. cbn [bind].
  destruct (calculate_DoF D kind e X Y Z b c d) as [[[x y] z]|]; [|discriminate]. cbn [bind].
  destruct (decide _ _ _ _ _ _ _ _) as [q|]; [|discriminate]. cbn [bind]. intro H. injection H as _ <-. cbn. discriminate.
Qed.

Lemma count_pmf_class t t' : count_pmf t = Ok t' -> t_class t' = t_class t /\ t_debug t' = t_debug t /\ t_nodes t' = t_nodes t.
Proof.
  unfold count_pmf. destruct (counting t); [|intro H; injection H as <-; auto]. destruct (t_counts t); [|discriminate]. intro H. injection H as <-. cbn. auto.
Qed.
Lemma count_pmfs_ok k : forall t, usable t -> exists t', count_pmfs k t = Ok t' /\ t_class t' = t_class t /\ t_debug t' = t_debug t /\ t_nodes t' = t_nodes t /\ usable t' /\
  (counting t = false -> t' = t) /\
  (counting t = true -> forall c, t_counts t = Some c -> (0 < k)%nat -> t_counts t' = Some {| n_queries := 0; n_queries_ll := 0; n_pmf := n_pmf c + Z.of_nat k; n_pmf_ll := 0 |}).
Proof.
  induction k as [|k IH]; intros t Hu.
  - exists t. repeat (split; [solve [auto]|]). intros _ c _ H. lia.
  - cbn [count_pmfs]. destruct (counting t) eqn:Hc.
    + assert (Hn : exists c, t_counts t = Some c).
      { unfold counting in Hc. destruct (t_class t); try discriminate. destruct (t_debug t) as [d|] eqn:Ed; [|discriminate].
        apply Z.leb_le in Hc. specialize (Hu d Ed Hc). destruct (t_counts t); [eauto|congruence]. }
      destruct Hn as [c Ec].
      set (t1 := with_counts t {| n_queries := 0; n_queries_ll := 0; n_pmf := n_pmf c + 1; n_pmf_ll := 0 |}).
      assert (E1 : count_pmf t = Ok t1) by (unfold count_pmf; rewrite Hc, Ec; reflexivity). rewrite E1. cbn [bind].
      assert (Hu1 : usable t1) by (intros d _ _; cbn; discriminate).
      assert (Hc1 : counting t1 = true) by exact Hc.
      destruct (IH t1 Hu1) as (t' & E & A & B & C & U & N & P). exists t'. split; [exact E|]. split; [exact A|]. split; [exact B|]. split; [exact C|]. split; [exact U|].
      split; [discriminate|]. intros _ c0 Hc0 _. rewrite Ec in Hc0. injection Hc0 as <-. destruct k as [|k].
      * cbn [count_pmfs] in E. injection E as <-. reflexivity.
      * rewrite (P Hc1 _ eq_refl (Nat.lt_0_succ k)). cbn [n_pmf]. do 2 f_equal. lia.
    + assert (E1 : count_pmf t = Ok t) by (unfold count_pmf; rewrite Hc; reflexivity). rewrite E1. cbn [bind].
      destruct (IH t Hu) as (t' & E & A & B & C & U & N & P). exists t'. repeat (split; [assumption|]). split; [intros _; apply N, Hc|discriminate].
Qed.

(** ** C59, AD-tree: whatever the debug level, the tests of a usable tree are answered and logged
    as without debugging; nothing but the tables is counted *)
Definition reports (t : tree_object) (before : Z) (done : list test) (e : option counts) : Prop :=
  e = if counting t then Some {| n_queries := 0; n_queries_ll := 0; n_pmf := before + tables_asked done; n_pmf_ll := 0 |} else None.
Lemma debug_tests_sim D p pi kind tests : forall g, usable (tree g) -> (forall d, t_class (tree g) <> DebugTree -> t_debug (tree g) = Some d -> d < 1) ->
  let D' := tree_data (t_class (tree g)) D in let im := WithADTree (is_dynamic (t_class (tree g))) in
  forall os st', run_tests D' p im kind (base g) tests = Ok (os, st') ->
  exists shown g', ad_debug_tests D p pi kind g tests = Ok (shown, g') /\ map s_outcome shown = os /\ base g' = st' /\ level g' = level g /\
    t_class (tree g') = t_class (tree g) /\ t_debug (tree g') = t_debug (tree g) /\ usable (tree g') /\
    (forall s, In s shown -> s_printed s = ((1 <=? level g) && pi)%bool) /\
    (forall i s, nth_error shown i = Some s -> forall c, (counting (tree g) = true -> t_counts (tree g) = Some c) ->
       reports (tree g) (n_pmf c) (firstn (Datatypes.S i) tests) (s_extra s)).
Proof.
  induction tests as [|[[X Y] Z] tests IH]; intros g Hu Hcl D' im os st' Hrun.
  - cbn [run_tests] in Hrun. injection Hrun as <- <-. exists [], g. cbn [ad_debug_tests map]. repeat (split; [solve [auto]|]). split; [intros s []|].
    intros i s Hs. destruct i; discriminate.
  - cbn [run_tests] in Hrun. destruct (conditionally_independent D' p im kind (base g) X Y Z) as [[o st1]|e] eqn:Ec; [|discriminate]. cbn [bind] in Hrun.
    destruct (run_tests D' p im kind st1 tests) as [[os1 st2]|e] eqn:Er; [|discriminate]. cbn [bind] in Hrun. injection Hrun as <- <-.
    destruct (count_pmfs_ok (tables_of Z) (tree g) Hu) as (t1 & E1 & A & B & C & U & N & P).
    assert (Hn : exists n, ad_tree st1 = Some n).
    { unfold conditionally_independent in Ec. destruct (run_test D' p im kind (base g) X Y Z) as [[r st3]|] eqn:Et; [|discriminate]. cbn [bind] in Ec. injection Ec as _ <-.
      apply run_test_tree in Et. destruct (ad_tree st3); [eauto|congruence]. }
    destruct Hn as [n En].
    assert (Hk : (0 < tables_of Z)%nat) by (destruct Z; cbn; lia).
    assert (HX : exists extra, match t_debug t1 with Some d => if 1 <=? d then c <- of_option KeyError (t_counts t1) ;; Ok (Some c) else Ok None | None => Ok None end = Ok extra /\
        forall c, (counting (tree g) = true -> t_counts (tree g) = Some c) -> reports (tree g) (n_pmf c) [(X, Y, Z)] extra).
    { rewrite B. unfold reports. destruct (counting (tree g)) eqn:Hc.
      - assert (Hc' := Hc). unfold counting in Hc. destruct (t_class (tree g)) eqn:Ecl; try discriminate. destruct (t_debug (tree g)) as [d|] eqn:Ed; [|discriminate]. rewrite Hc.
        assert (Hc0 : exists c, t_counts (tree g) = Some c) by (apply Z.leb_le in Hc; specialize (Hu d Ed Hc); destruct (t_counts (tree g)); [eauto|congruence]). destruct Hc0 as [c0 Hc0].
        rewrite (P eq_refl c0 Hc0 Hk). cbn [of_option bind]. eexists. split; [reflexivity|]. intros c Hcc. specialize (Hcc eq_refl). rewrite Hc0 in Hcc. injection Hcc as <-.
        rewrite tables_asked_cons. change (tables_asked []) with 0. rewrite Z.add_0_r. reflexivity.
      - exists None. split; [|reflexivity]. unfold counting in Hc. destruct (t_debug (tree g)) as [d|] eqn:Ed; [|reflexivity].
        destruct (t_class (tree g)) eqn:Ecl; [specialize (Hcl d ltac:(discriminate) eq_refl)|specialize (Hcl d ltac:(discriminate) eq_refl)|rewrite Hc; reflexivity];
          (destruct (Z.leb_spec 1 d); [lia|reflexivity]). }
    destruct HX as (extra & Ex & Rx).
    set (g1 := {| base := st1; tree := with_nodes t1 n; level := level g |}).
    assert (Hcount : counting (tree g1) = counting (tree g)) by (unfold counting, g1; cbn; rewrite A, B; reflexivity).
    assert (Etest : ad_debug_test D p pi kind g X Y Z = Ok ({| s_outcome := o; s_extra := extra; s_printed := print_result (level g) pi |}, g1)).
    { unfold ad_debug_test. rewrite E1. cbn [bind]. rewrite A. fold D' im. rewrite Ec. cbn [bind]. rewrite En. cbn [of_option bind]. rewrite Ex. reflexivity. }
    destruct (IH g1) with (os := os1) (st' := st2) as (shown & g' & Eg & Mo & Mb & Ml & Mc & Md & Mu & Mp & Mr).
    + exact U.
    + cbn. rewrite A, B. exact Hcl.
    + unfold g1. cbn [tree with_nodes t_class base]. rewrite A. exact Er.
    + exists ({| s_outcome := o; s_extra := extra; s_printed := print_result (level g) pi |} :: shown), g'.
      split; [cbn [ad_debug_tests]; rewrite Etest; cbn [bind]; rewrite Eg; reflexivity|].
      split; [cbn [map s_outcome]; congruence|]. split; [exact Mb|]. split; [exact Ml|]. split; [rewrite Mc; exact A|]. split; [rewrite Md; exact B|]. split; [exact Mu|].
      split.
      * intros s [<- | Hs]; [reflexivity|]. apply Mp, Hs.
      * intros [|i] s Hs c Hcc.
        -- injection Hs as <-. apply Rx, Hcc.
        -- cbn [nth_error] in Hs. unfold reports.
           change (firstn (Datatypes.S (Datatypes.S i)) ((X, Y, Z) :: tests)) with ((X, Y, Z) :: firstn (Datatypes.S i) tests). rewrite <- Hcount.
           pose (c1 := {| n_queries := 0; n_queries_ll := 0; n_pmf := n_pmf c + Z.of_nat (tables_of Z); n_pmf_ll := 0 |}).
           rewrite (Mr i s Hs c1).
           2: { intro H. rewrite Hcount in H. unfold g1, with_nodes. cbn [tree t_counts]. apply (P H c (Hcc H) Hk). }
           unfold c1. cbn [n_pmf]. destruct (counting (tree g1)); [|reflexivity]. do 2 f_equal.
           rewrite tables_asked_cons. lia.
Qed.

(** the dataset of a debug tree is the same dataset *)
Lemma wf_without D : wf_dataset D -> wf_dataset (without_leaf_lists D).
Proof. intros [A B]. constructor; assumption. Qed.

(** A new AD-tree with debugging (built by the test or preloaded, with any debug arguments) in a test
    with debugging: every answer and every logged result is that of the specification of the G-test,
    whatever the leaf-list threshold asked for, even one that a plain AD-tree does not survive. *)
Theorem C59_debug_tree_tests : forall D p kind tests level debug pi src,
  wf_dataset D -> rows D <> [] -> no_minus_one D -> order_ok p -> Forall (wf_test D) tests ->
  (src = Build DebugTree \/ exists t, new_tree DebugTree debug D = Ok t /\ src = Given t) ->
  exists g shown g', snd (ad_debug_start D kind level src no_files) = Ok g /\ ad_debug_tests D p pi kind g tests = Ok (shown, g') /\
    Forall2 (expected_outcome D p kind) tests (map s_outcome shown) /\ logged D p kind 0 tests (results (base g')) /\
    (forall s, In s shown -> s_printed s = ((1 <=? level) && pi)%bool) /\
    (forall i s, nth_error shown i = Some s ->
       s_extra s = if match src with Build _ => false | Given _ => (2 <=? level) || (1 <=? debug) end
                   then Some {| n_queries := 0; n_queries_ll := 0; n_pmf := tables_asked (firstn (Datatypes.S i) tests); n_pmf_ll := 0 |} else None).
Proof.
  intros D p kind tests level debug pi src Hwf Hr Hm HO Ht Hsrc.
  set (D' := without_leaf_lists D).
  assert (Hw : wf_for D' (WithADTree false)).
  { split; [apply wf_without, Hwf|]. split; [exact Hr|]. split; [exact Hm|]. unfold threshold_ok. cbn. lia. }
  assert (Ht' : Forall (wf_test D') tests) by exact Ht.
  destruct (start_fresh D' p (WithADTree false) kind HO Hw Logic.I) as (st & E & Hi & Hrs & Hn).
  destruct (build_tree D' false) as [t|e] eqn:Eb.
  2: { exfalso. unfold start in E. rewrite Eb in E. destruct kind; cbn in E; discriminate. }
  assert (E' : start D' (WithADTree false) kind (Some t) None no_files = Ok st).
  { unfold start in *. rewrite Eb in E. destruct kind; exact E. }
  destruct (run_tests_ok D' (proj1 Hw) (proj1 (proj2 Hw)) p HO _ kind tests Hw Logic.I Ht' st Hi) as (os & st' & rs & Er & _ & Ho & El & Hl & _).
  rewrite Hrs in El. rewrite Hn in Hl. cbn [app] in El. subst rs.
  (* the object *)
  assert (HG : exists g, snd (ad_debug_start D kind level src no_files) = Ok g /\ base g = st /\ Debug_Model.level g = level /\ t_class (tree g) = DebugTree /\ usable (tree g) /\
      counting (tree g) = match src with Build _ => false | Given _ => (2 <=? level) || (1 <=? debug) end /\
      (counting (tree g) = true -> exists c, t_counts (tree g) = Some c /\ n_pmf c = 0)).
  { assert (Enew : forall d, new_tree DebugTree d D = Ok {| t_class := DebugTree; t_nodes := t; t_debug := Some d; t_counts := if 1 <=? d then Some zero_counts else None |}).
    { intro d. unfold new_tree. cbn [tree_data is_dynamic]. fold D'. rewrite Eb. reflexivity. }
    assert (K : forall tr, t_class tr = DebugTree -> t_nodes tr = t -> (forall d, t_debug tr = Some d -> 1 <= d -> exists c, t_counts tr = Some c /\ n_pmf c = 0) ->
      exists g, (st <- start (tree_data (t_class tr) D) (WithADTree (is_dynamic (t_class tr))) kind (Some (t_nodes tr)) None no_files ;;
                 t' <- count_query tr ;; Ok {| base := st; tree := t'; Debug_Model.level := level |}) = Ok g /\ base g = st /\ Debug_Model.level g = level /\
        t_class (tree g) = DebugTree /\ usable (tree g) /\ counting (tree g) = counting tr /\ (counting (tree g) = true -> exists c, t_counts (tree g) = Some c /\ n_pmf c = 0)).
    { intros tr Hc Hnn Hd. rewrite Hc, Hnn. cbn [tree_data is_dynamic]. fold D'. rewrite E'. cbn [bind]. unfold count_query.
      destruct (counting tr) eqn:Hct.
      - assert (Hct' := Hct). unfold counting in Hct. rewrite Hc in Hct. destruct (t_debug tr) as [d|] eqn:Ed; [|discriminate]. apply Z.leb_le in Hct.
        destruct (Hd d eq_refl Hct) as (c & Ecc & Hc0). rewrite Ecc. cbn [of_option bind]. eexists. split; [reflexivity|]. cbn [base tree Debug_Model.level].
        repeat (split; [solve [reflexivity|exact Hc]|]). split; [intros d' _ _; cbn; discriminate|]. split; [exact Hct'|]. intros _. eexists. split; [reflexivity|]. exact Hc0.
      - cbn [bind]. eexists. split; [reflexivity|]. cbn [base tree Debug_Model.level]. repeat (split; [solve [reflexivity|exact Hc]|]).
        split; [intros d' H1 H2 H3; destruct (Hd d' H1 H2) as (c & K1 & _); congruence|]. split; [exact Hct|]. intro H. congruence. }
    unfold ad_debug_start. destruct Hsrc as [-> | (t0 & Et0 & ->)].
    - rewrite Enew. cbn [fst snd bind]. destruct (K {| t_class := DebugTree; t_nodes := t; t_debug := Some 0; t_counts := if 1 <=? 0 then Some zero_counts else None |} eq_refl eq_refl) as (g & Kg).
      { intros d Hd H1. injection Hd as <-. lia. }
      exists g. destruct Kg as (K1 & K2 & K3 & K4 & K5 & K6 & K7). repeat (split; [assumption|]). exact K7.
    - rewrite Enew in Et0. injection Et0 as <-. unfold prepare_tree. destruct (Z.leb_spec 2 level) as [Hlev|Hlev].
      + cbn [fst snd t_class t_counts t_nodes t_debug with_counts bind].
        match goal with |- context [count_query ?x] => destruct (K x eq_refl eq_refl) as (g & K1 & K2 & K3 & K4 & K5 & K6 & K7) end.
        { intros d _ _. eexists. split; reflexivity. }
        exists g. repeat (split; [assumption|]). split; [|exact K7]. rewrite K6. unfold counting. cbn. apply Z.leb_le. lia.
      + cbn [fst snd t_class t_counts t_nodes t_debug bind].
        match goal with |- context [count_query ?x] => destruct (K x eq_refl eq_refl) as (g & K1 & K2 & K3 & K4 & K5 & K6 & K7) end.
        { intros d Hd H1. cbn in Hd. injection Hd as <-. cbn. destruct (Z.leb_spec 1 debug); [|lia]. eexists. split; reflexivity. }
        exists g. repeat (split; [assumption|]). exact K7. }
  destruct HG as (g & Eg & Gb & Gl & Gc & Gu & Gn & Gz).
  destruct (debug_tests_sim D p pi kind tests g Gu) with (os := os) (st' := st') as (shown & g' & Es & Mo & Mb & _ & _ & _ & _ & Mp & Mr).
  - intros d Hd. congruence.
  - rewrite Gc, Gb. exact Er.
  - exists g, shown, g'. split; [exact Eg|]. split; [exact Es|]. rewrite Mo, Mb. split; [exact Ho|]. split; [exact Hl|]. split.
    + intros s Hs. rewrite (Mp s Hs), Gl. reflexivity.
    + intros i s Hs. rewrite <- Gn. destruct (counting (tree g)) eqn:Hct.
      * destruct (Gz eq_refl) as (c & Ec & Hc0). specialize (Mr i s Hs c (fun _ => Ec)). unfold reports in Mr. rewrite Hct, Hc0 in Mr. exact Mr.
      * specialize (Mr i s Hs zero_counts). unfold reports in Mr. rewrite Hct in Mr. apply Mr. discriminate.
Qed.

(** the nodes of a tree *)
Inductive node_of : adnode -> adnode -> Prop :=
| itself : forall n, node_of n n
| below : forall n v c m, In v (ad_varys n) -> In (Some c) (v_children v) -> node_of m c -> node_of m n.
(** an AD-tree with debugging has no leaf-list nodes, whatever threshold was asked for *)
Lemma build_varys_no_leaf D : threshold D <= 0 -> forall k sel vs, build_varys D k sel = Ok vs ->
  forall v c m, In v vs -> In (Some c) (v_children v) -> node_of m c -> ad_leaf m = false.
Proof.
  intros Hth. assert (NL : forall sel, is_leaf D sel = false).
  { intro sel. unfold is_leaf, node_count. destruct (Z.ltb_spec (match sel with None => Z.of_nat (nrows D) | Some l => Z.of_nat (length l) end) (threshold D)); [|reflexivity]. destruct sel; lia. }
  induction k as [|k IH]; intros sel vs E v c m Hv Hc Hm.
  - cbn [build_varys] in E. injection E as <-. destruct Hv.
  - cbn [build_varys] in E. destruct (make_vary D _ sel (ncols D - Datatypes.S k)) as [v0|] eqn:Ev; [|discriminate]. cbn [bind] in E.
    destruct (build_varys D k sel) as [vs0|] eqn:Evs; [|discriminate]. cbn [bind] in E. injection E as <-.
    destruct Hv as [<- | Hv]; [|eapply IH; eassumption].
    unfold make_vary in Ev. destruct (ncols D <=? ncols D - Datatypes.S k)%nat; [discriminate|]. destruct (colvals D _) as [vals|]; [|discriminate]. cbn [of_option bind] in Ev.
    destruct (py_max _ vals) as [mcv|]; [|discriminate]. cbn [bind] in Ev.
    match type of Ev with context [mapM ?f vals] => destruct (mapM f vals) as [ch|] eqn:Ech; [|discriminate] end. cbn [bind] in Ev. injection Ev as <-. cbn [v_children] in Hc.
    assert (Hin : exists value s, mk_ad D (Z.of_nat (ncols D - Datatypes.S k)) value (Some s) (build_varys D k) = Ok c).
    { clear -Ech Hc. revert ch Ech Hc. induction vals as [|x vals IHv]; intros ch Ech Hc.
      - cbn [mapM] in Ech. injection Ech as <-. destruct Hc.
      - cbn [mapM] in Ech. match type of Ech with bind ?a _ = _ => destruct a as [y|] eqn:Ey; [|discriminate] end. cbn [bind] in Ech.
        match type of Ech with bind ?a _ = _ => destruct a as [ys|] eqn:Eys; [|discriminate] end. cbn [bind] in Ech. injection Ech as <-.
        destruct Hc as [-> | Hc]; [|exact (IHv ys eq_refl Hc)].
        destruct (_ && _)%bool; [|discriminate]. match type of Ey with bind ?a _ = _ => destruct a as [z|] eqn:Ez; [|discriminate] end. cbn [bind] in Ey. injection Ey as <-.
        eexists _, _. exact Ez. }
    destruct Hin as (value & s & Emk). unfold mk_ad in Emk. rewrite NL in Emk. destruct (build_varys D k (Some s)) as [vs1|] eqn:E1; [|discriminate]. cbn [bind] in Emk. injection Emk as <-.
    inversion Hm as [n|n v1 c1 m1 I1 I2 I3]; subst; [reflexivity|]. cbn [ad_varys] in I1. eapply IH; eassumption.
Qed.
Theorem C59_no_leaf_lists : forall D debug t n, new_tree DebugTree debug D = Ok t -> node_of n (t_nodes t) -> ad_leaf n = false.
Proof.
  intros D debug t n E Hn. unfold new_tree in E. cbn [tree_data is_dynamic] in E. destruct (build_tree (without_leaf_lists D) false) as [r|] eqn:Eb; [|discriminate]. cbn [bind] in E. injection E as <-.
  cbn [t_nodes] in Hn. unfold build_tree, mk_ad in Eb.
  assert (NL : is_leaf (without_leaf_lists D) None = false) by (unfold is_leaf, node_count; cbn [threshold without_leaf_lists]; destruct (Z.ltb_spec (Z.of_nat (nrows (without_leaf_lists D))) 0); [lia|reflexivity]).
  rewrite NL in Eb. unfold create_varys in Eb. destruct (build_varys (without_leaf_lists D) (ncols (without_leaf_lists D)) None) as [vs|] eqn:Ev; [|discriminate]. cbn [bind] in Eb. injection Eb as <-.
  inversion Hn as [m|m v c m1 I1 I2 I3]; subst; [reflexivity|]. cbn [ad_varys] in I1. eapply build_varys_no_leaf; [|exact Ev|eassumption|eassumption|eassumption]. cbn. lia.
Qed.

(** ** A tree of another class, preloaded or loaded from a file, in a test with debug >= 2: the
    constructor fails, but has already marked the tree; from then on every test with debugging
    that uses this tree fails with KeyError, even at level 0, where it would have worked before *)
Theorem C59_marked_tree : forall D p kind debug debug' t, t_class t <> DebugTree -> t_debug t = None -> t_counts t = None -> 2 <= debug -> debug' <= 1 ->
  exists t', ad_debug_start D kind debug (Given t) no_files = (Some t', Err AttributeError) /\
    t_class t' = t_class t /\ t_nodes t' = t_nodes t /\
    (forall g, snd (ad_debug_start D kind debug' (Given t) no_files) = Ok g ->
       forall pi X Y Z r st', conditionally_independent D p (WithADTree (is_dynamic (t_class t))) kind (base g) X Y Z = Ok (r, st') ->
       exists s g', ad_debug_test D p pi kind g X Y Z = Ok (s, g') /\ s_outcome s = r) /\
    (forall g, snd (ad_debug_start D kind debug' (Given t') no_files) = Ok g ->
       forall pi X Y Z r st', conditionally_independent D p (WithADTree (is_dynamic (t_class t))) kind (base g) X Y Z = Ok (r, st') ->
       ad_debug_test D p pi kind g X Y Z = Err KeyError) /\
    ((exists g, snd (ad_debug_start D kind debug' (Given t) no_files) = Ok g) <-> (exists g, snd (ad_debug_start D kind debug' (Given t') no_files) = Ok g)).
Proof.
  intros D p kind debug debug' t Hc Hd Hn Hl Hl'.
  set (t' := {| t_class := t_class t; t_nodes := t_nodes t; t_debug := Some (debug - 1); t_counts := t_counts t |}).
  assert (TD : forall c, c <> DebugTree -> tree_data c D = D) by (intros [] H; solve [reflexivity | congruence]).
  assert (NC : forall t0, t_class t0 <> DebugTree -> counting t0 = false) by (intros [[] ? ? ?] H; cbn in *; solve [reflexivity | congruence]).
  assert (ST : forall t0, t_class t0 = t_class t -> t_nodes t0 = t_nodes t ->
     ad_debug_start D kind debug' (Given t0) no_files = (Some t0, st <- start D (WithADTree (is_dynamic (t_class t))) kind (Some (t_nodes t)) None no_files ;; Ok {| base := st; tree := t0; level := debug' |})).
  { intros t0 C0 N0. unfold ad_debug_start, prepare_tree. destruct (Z.leb_spec 2 debug'); [lia|]. cbn [fst snd bind]. rewrite C0, N0, (TD _ Hc).
    destruct (start D _ kind _ None no_files) as [st|]; [|reflexivity]. cbn [bind]. unfold count_query. rewrite NC by congruence. reflexivity. }
  assert (CP : forall k t0, counting t0 = false -> count_pmfs k t0 = Ok t0).
  { induction k as [|k IH]; intros t0 H0; [reflexivity|]. cbn [count_pmfs]. unfold count_pmf. rewrite H0. cbn [bind]. apply IH, H0. }
  assert (TR : forall g X Y Z r st', conditionally_independent D p (WithADTree (is_dynamic (t_class t))) kind (base g) X Y Z = Ok (r, st') -> exists n, ad_tree st' = Some n).
  { intros g X Y Z r st' H. unfold conditionally_independent in H. destruct (run_test D p _ kind (base g) X Y Z) as [[r0 st3]|] eqn:Et; [|discriminate]. cbn [bind] in H. injection H as _ <-.
    apply run_test_tree in Et. destruct (ad_tree st3); [eauto|congruence]. }
  exists t'. split; [|split; [reflexivity|split; [reflexivity|split; [|split]]]].
  - unfold ad_debug_start, prepare_tree. destruct (Z.leb_spec 2 debug); [|lia]. fold t'. destruct (t_class t) eqn:Ec; [reflexivity|reflexivity|congruence].
  - intros g Hg pi X Y Z r st' Hr. rewrite ST in Hg by reflexivity. cbn [snd] in Hg. destruct (start D _ kind _ None no_files) as [st|]; [|discriminate]. cbn [bind] in Hg. injection Hg as <-.
    destruct (TR _ _ _ _ _ _ Hr) as [n En]. unfold ad_debug_test. cbn [tree]. rewrite CP by (apply NC; exact Hc). cbn [bind]. rewrite (TD _ Hc), Hr. cbn [bind]. rewrite En, Hd. cbn [of_option bind]. eexists _, _. split; reflexivity.
  - intros g Hg pi X Y Z r st' Hr. rewrite ST in Hg by reflexivity. cbn [snd] in Hg. destruct (start D _ kind _ None no_files) as [st|]; [|discriminate]. cbn [bind] in Hg. injection Hg as <-.
    destruct (TR _ _ _ _ _ _ Hr) as [n En]. unfold ad_debug_test. cbn [tree]. rewrite CP by (apply NC; exact Hc). cbn [bind]. change (t_class t') with (t_class t). rewrite (TD _ Hc), Hr. cbn [bind]. rewrite En. cbn [of_option bind].
    cbn [t_debug t']. destruct (Z.leb_spec 1 (debug - 1)); [|lia]. cbn [t_counts t']. rewrite Hn. reflexivity.
  - rewrite !ST by reflexivity. cbn [snd]. destruct (start D _ kind _ None no_files); cbn [bind]; split; intros [g Hg]; eauto; discriminate.
Qed.

(** ** C59, without optimization: the results are computed and logged as always, but at debug >= 1 the
    caller gets an AttributeError instead of every verdict *)
Theorem C59_plain : forall D p kind debug tests, wf_for D Plain -> order_ok p -> Forall (wf_test D) tests ->
  exists st os st', start D Plain kind None None no_files = Ok st /\ Forall2 (expected_outcome D p kind) tests os /\ logged D p kind 0 tests (results st') /\
    plain_debug_tests D p kind debug st tests =
      Ok (st', map (fun o => match o with Verdict b => if 1 <=? debug then Err AttributeError else Ok (Verdict b) | RaisesInsufficientSamples => Ok RaisesInsufficientSamples end) os).
Proof.
  intros D p kind debug tests Hw HO Ht. destruct (C13_reports_the_G_statistic D p Plain kind tests Hw Logic.I HO Ht) as (st & os & st' & Es & Er & Ho & Hl).
  exists st, os, st'. repeat (split; [assumption|]). clear - Er. revert st os st' Er. induction tests as [|[[X Y] Z] tests IH]; intros st os st' Er.
  - cbn [run_tests] in Er. injection Er as <- <-. reflexivity.
  - cbn [run_tests] in Er. cbn [plain_debug_tests]. unfold plain_debug_test. destruct (conditionally_independent D p Plain kind st X Y Z) as [[o st1]|]; [|discriminate]. cbn [bind] in *.
    destruct (run_tests D p Plain kind st1 tests) as [[os1 st2]|] eqn:E; [|discriminate]. cbn [bind] in Er. injection Er as <- <-. rewrite (IH _ _ _ E). reflexivity.
Qed.

(** ** C59, with dcMI: no such test object can ever be made *)
Theorem C59_dcMI_cannot_start : forall D kind debug preloaded dk,
  (forall x, dcMI_debug_start D kind debug preloaded dk <> Ok x) /\
  (forall st, start D WithDcMI kind None preloaded dk = Ok st -> dcMI_debug_start D kind debug preloaded dk = Err AttributeError) /\
  (forall e, start D WithDcMI kind None preloaded dk = Err e -> dcMI_debug_start D kind debug preloaded dk = Err e).
Proof.
  intros D kind debug preloaded dk. unfold dcMI_debug_start, prepare_JHT_debug. destruct (start D WithDcMI kind None preloaded dk) as [st|e]; cbn [bind of_option].
  - split; [discriminate|]. split; [reflexivity|discriminate].
  - split; [discriminate|]. split; [discriminate|]. intros e' H. injection H as <-. reflexivity.
Qed.

(** the hypotheses hold for a concrete dataset, with a threshold that a plain AD-tree does not survive *)
Theorem C59_nonvacuous : exists D t, wf_dataset D /\ rows D <> [] /\ no_minus_one D /\ ~ threshold_ok D /\ Forall (wf_test D) [(0%nat, 1%nat, []); (1%nat, 0%nat, [])] /\
  new_tree DebugTree 1 D = Ok t /\ (exists n, new_tree StaticTree 0 D = Ok n /\ ad_leaf (t_nodes n) = true) /\ ad_leaf (t_nodes t) = false /\
  tables_asked [(0%nat, 1%nat, []); (1%nat, 0%nat, [2%nat])] = 7.
Proof.
  exists {| rows := [[0; 1]; [1; 1]; [1; 0]]; ncols := 2; colvals := fun _ => Some [0; 1]; threshold := 9 |}. eexists. split; [|split; [discriminate|split; [|split; [|split; [|split; [vm_compute; reflexivity|]]]]]].
  - constructor; [repeat constructor|]. intros c Hc. exists [0; 1]. split; [reflexivity|]. split; [repeat constructor; cbn; intuition discriminate|]. split; [discriminate|].
    intros row x Hr Hx. destruct c as [|[|c]]; [| |cbn in Hc; lia]; cbn in Hr; destruct Hr as [<-|[<-|[<-|[]]]]; cbn in Hx; injection Hx as <-; cbn; auto; tauto.
  - intros c vs _. cbn. intros E. injection E as <-. cbn. intuition discriminate.
  - unfold threshold_ok. cbn. lia.
  - constructor; [|constructor; [|constructor]]; (split; [repeat constructor; cbn; intuition discriminate | cbn; intros c H; intuition lia]).
  - split; [eexists; split; [vm_compute; reflexivity|reflexivity]|]. split; reflexivity.
Qed.
