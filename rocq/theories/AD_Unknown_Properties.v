(** C01, C02: asking an AD-tree for a column that the dataset does not have. *)
From Coq Require Import Permutation.
From Verif Require Import Base AD_Model AD_Query_Model AD_Spec AD_Proofs AD_CT_Proofs AD_PMF_Proofs AD_More_Proofs AD_Examples.
Open Scope Z_scope.

(** the part of a query that is about columns of the dataset *)
Definition known_part (D : dataset) (q : query) : query := filter (fun kv => (fst kv <? ncols D)%nat) q.

Section U.
Variable D : dataset.
Hypothesis WF : wf_dataset D.
Variable dyn : bool.

Definition asks_unknown (q : query) : Prop := exists c v, In (c, v) q /\ (ncols D <= c)%nat.
Definition refused (e : pyerr) : Prop := e = AttributeError \/ e = IndexError.
(** the possible outcomes *)
Definition outcome (S : list nat) (c : nat) (q : query) (node : adnode) (r : res (Z * adnode)) : Prop :=
  (exists e, r = Err e /\ refused e) \/
  (exists node', r = Ok (0, node') /\ ok_ad D dyn S c node' /\ ad_value node' = ad_value node /\ ad_col node' = ad_col node /\ nmatch D S (known_part D q) = 0).

Lemma cell_unknown r c : (ncols D <= c)%nat -> cell D r c = Err IndexError.
Proof.
  intros Hc. unfold cell. destruct (nth_error (rows D) r) as [row|] eqn:E; [|reflexivity].
  assert (Hl : length row = ncols D). { pose proof (wf_rect D WF) as HF. rewrite Forall_forall in HF. apply HF. eapply nth_error_In; eauto. }
  rewrite (proj2 (nth_error_None row c)) by lia. reflexivity.
Qed.
Lemma cell_err r c e : cell D r c = Err e -> e = IndexError.
Proof. unfold cell. destruct (nth_error (rows D) r) as [row|]; [destruct (nth_error row c)|]; cbn; congruence. Qed.
Lemma row_matches_unknown r q : asks_unknown q -> row_matches D r q = Err IndexError.
Proof.
  intros (c & v & Hin & Hc). unfold row_matches. generalize true. induction q as [|[k w] q IH]; [destruct Hin|]. intros b. cbn [foldM fst snd].
  destruct (cell D r k) as [x|e] eqn:E; cbn [bind]; [|rewrite (cell_err _ _ _ E); reflexivity].
  destruct Hin as [Hin|Hin]; [injection Hin as -> ->; rewrite (cell_unknown r c Hc) in E; discriminate|]. apply IH, Hin.
Qed.
Lemma count_leaf_unknown S q : S <> [] -> asks_unknown q -> count_leaf D q (Some S) = Err IndexError.
Proof. intros HS Hq. destruct S as [|r S]; [contradiction|]. unfold count_leaf. cbn [foldM]. rewrite (row_matches_unknown r q Hq). reflexivity. Qed.

Lemma nmatch_subsel_le S c v q : nmatch D (subsel D S c v) q <= nmatch D S q.
Proof.
  unfold nmatch, subsel. apply inj_le. induction S as [|r S IH]; [reflexivity|]. cbn [filter]. destruct (has_value D c v r); cbn [filter]; destruct (rmatch D q r); cbn [length]; lia.
Qed.
Lemma nmatch_pos S q : 0 <= nmatch D S q. Proof. unfold nmatch. lia. Qed.

Lemma visit_unknown S k mcv vals ch next : Forall2 (ok_child D dyn S k mcv) vals ch ->
  (forall n S0, ok_ad D dyn S0 (Datatypes.S k) n -> inrange D S0 -> S0 <> [] -> outcome S0 (Datatypes.S k) next n (qc D dyn (length next) next n)) ->
  forall f, (forall n, f n = qc D dyn (length next) next n) -> inrange D S ->
  (exists e, visit_sum f ch = Err e /\ refused e) \/ (exists ch', visit_sum f ch = Ok (0, ch') /\ Forall2 (ok_child D dyn S k mcv) vals ch').
Proof.
  intros HF IH f Hf HS. induction HF as [|v o vals ch Ho HF IHF]; [right; exists []; split; [reflexivity|constructor]|]. cbn [visit_sum]. destruct o as [n|].
  - inversion Ho as [|? ? ? ? ? Hne Hnn Hv Hcol Hok]; subst. rewrite Hf.
    destruct (IH n _ Hok (subsel_inrange D S k _ HS) Hnn) as [(e & -> & He)|(n' & -> & Hok' & Hv' & Hc' & _)]; [left; exists e; split; [reflexivity|exact He]|]. cbn [bind].
    destruct IHF as [(e & -> & He)|(ch' & -> & HF')]; [left; exists e; split; [reflexivity|exact He]|]. right. cbn [bind]. eexists. split; [reflexivity|].
    constructor; [|exact HF']. constructor; auto; congruence.
  - destruct IHF as [(e & -> & He)|(ch' & -> & HF')]; [left; exists e; split; [reflexivity|exact He]|]. right. cbn [bind]. eexists. split; [reflexivity|]. constructor; assumption.
Qed.

Lemma known_remove q k : qremove k (known_part D q) = known_part D (qremove k q).
Proof.
  unfold qremove, known_part. induction q as [|[c v] q IH]; [reflexivity|]. cbn [filter fst]. destruct (c <? ncols D)%nat eqn:E1, (c =? k)%nat eqn:E2; cbn [negb filter fst]; rewrite ?E1, ?E2; cbn [negb]; rewrite ?IH; reflexivity.
Qed.
Lemma known_nodup q : NoDup (map fst q) -> NoDup (map fst (known_part D q)).
Proof.
  unfold known_part. induction q as [|[c v] q IH]; [intros; constructor|]. intros H. inversion H as [|? ? H1 H2]; subst. cbn [filter fst]. destruct (c <? ncols D)%nat; [|exact (IH H2)]. cbn [map fst]. constructor; [|exact (IH H2)].
  intros C. apply H1. apply in_map_iff in C as ([a b] & E & C). apply filter_In in C as [C _]. cbn in E. subst. apply in_map_iff. exists (c, b). auto.
Qed.
Lemma find_vary_unknown S c node c' : ok_ad D dyn S c node -> (ncols D <= c')%nat -> find_vary c' (ad_varys node) = None.
Proof.
  intros Hok Hc. inversion Hok as [? ? cnt col v leaf sel vs H1 H2 H3 H4 H5 H6 H7]; subst. cbn [ad_varys]. destruct (find_vary c' vs) as [vy|] eqn:E; [|reflexivity]. specialize (H7 _ _ E). lia.
Qed.

Lemma qc_unknown fuel : forall q S c node, length q = fuel -> ok_ad D dyn S c node -> inrange D S -> (ad_leaf node = true -> S <> []) ->
  NoDup (map fst q) -> (forall k v, In (k, v) q -> (c <= k)%nat) -> asks_unknown q -> outcome S c q node (qc D dyn fuel q node).
Proof.
  induction fuel as [fuel IH] using lt_wf_ind. intros q S c node Hfuel Hok HS Hleaf HN Hq Hu.
  destruct q as [|[c0 v0] q0]; [destruct Hu as (? & ? & [] & _)|]. destruct fuel as [|fuel]; [discriminate|].
  remember ((c0, v0) :: q0) as q eqn:Eq.
  assert (Hqe : qc D dyn (Datatypes.S fuel) q node =
      if ad_leaf node then n <- count_leaf D q (ad_sel node) ;; Ok (n, node) else
        let c := min_key q c0 in
        match assoc Nat.eqb c q with
        | None => Err KeyError
        | Some v =>
          let next := qremove c q in
          '(vary, node1) <- get_vary D dyn c node ;;
          match find_child v (v_children vary) with
          | Some child =>
              '(n, child') <- qc D dyn fuel next child ;;
              Ok (n, set_varys node1 (put_vary (set_children vary (put_child v child' (v_children vary))) (ad_varys node1)))
          | None =>
              if negb (v_mcv vary =? v) then Ok (0, node1) else
              match next with
              | [] => Ok (ad_count node1 - children_count (v_children vary), node1)
              | _ =>
                '(s, ch') <- visit_sum (qc D dyn fuel next) (v_children vary) ;;
                let node2 := set_varys node1 (put_vary (set_children vary ch') (ad_varys node1)) in
                '(p, node3) <- qc D dyn fuel next node2 ;;
                Ok (p - s, node3)
              end
          end
        end) by (subst q; reflexivity).
  rewrite Hqe; clear Hqe. destruct (ad_leaf node) eqn:Eleaf.
  { assert (Hsel : ad_sel node = Some S) by (inversion Hok; subst; simpl in *; auto). left. exists IndexError.
    rewrite Hsel, count_leaf_unknown; [split; [reflexivity|right; reflexivity]|auto|exact Hu]. }
  cbv zeta. set (k := min_key q c0).
  assert (Hkin : In k (map fst q)) by (subst q; apply min_key_in).
  destruct (assoc_in k q Hkin) as (v & Hv & Hkv). rewrite Hv.
  assert (Hck : (c <= k)%nat) by (eapply Hq; eauto).
  destruct (le_lt_dec (ncols D) k) as [Hk|Hk].
  { left. unfold get_vary. rewrite (find_vary_unknown S c node k Hok Hk). destruct dyn; [|exists AttributeError; split; [reflexivity|left; reflexivity]].
    unfold make_vary. rewrite (proj2 (Nat.leb_le _ _) Hk). exists IndexError. split; [reflexivity|right; reflexivity]. }
  destruct (get_vary_ok D WF dyn S c node k Hok Eleaf (conj Hck Hk)) as (vy & node1 & Hgv & Hvcol & Hvok & Hok1 & Hfind & Hcnt1 & Hval1 & Hcol1 & Hleaf1).
  rewrite Hgv. cbn [bind].
  destruct (qremove_props k q Hkin HN) as (Hlen & HN' & Hrem). 
  assert (Hlen1 : length (qremove k q) = fuel).
  { assert (G : forall l : query, NoDup (map fst l) -> In k (map fst l) -> Datatypes.S (length (qremove k l)) = length l).
    { clear. induction l as [|[a b] l IH]; [intros _ []|]. intros N H. inversion N as [|? ? N1 N2]; subst. unfold qremove. cbn [filter fst]. destruct (Nat.eqb_spec a k) as [->|Hne]; cbn [negb length].
      - f_equal. assert (E : filter (fun kv : nat * Z => negb (fst kv =? k)%nat) l = l); [|rewrite E; reflexivity]. clear - N1. induction l as [|[a b] l IH]; [reflexivity|]. cbn [filter fst]. destruct (Nat.eqb_spec a k) as [->|]; [exfalso; apply N1; left; reflexivity|]. cbn [negb]. f_equal. apply IH. intros C. apply N1. right. exact C.
      - f_equal. apply IH; [exact N2|]. destruct H as [H|H]; [cbn in H; contradiction|exact H]. }
    specialize (G q HN Hkin). lia. }
  assert (Hkn : known_part D (qremove k q) = qremove k (known_part D q)) by (symmetry; apply known_remove).
  assert (Hkk : In (k, v) (known_part D q)) by (apply filter_In; split; [exact Hkv|apply Nat.ltb_lt; exact Hk]).
  set (next := qremove k q) in *.
  assert (Hnext : forall k' v', In (k', v') next -> (Datatypes.S k <= k')%nat).
  { intros k' v' Hin. apply Hrem in Hin as (Hin & Hne). assert (k <= k')%nat by (eapply min_key_le; eauto). lia. }
  assert (Hun : asks_unknown next).
  { destruct Hu as (uc & uv & Hin & Huc). exists uc, uv. split; [|exact Huc]. apply Hrem. split; [exact Hin|lia]. }
  assert (Hnm : nmatch D S (known_part D q) = nmatch D (subsel D S k v) (known_part D next)) by (rewrite Hkn; apply nmatch_remove; [apply known_nodup, HN|exact Hkk]).
  inversion Hvok as [? ? vals mcv ch Hkc Hvals Hmcv HF]; subst. simpl in Hvcol; subst c1.
  destruct (wf_vals D WF k Hkc) as (vals' & Hvals' & HNv & _ & _). rewrite Hvals in Hvals'; inversion Hvals'; subst vals'; clear Hvals'.
  cbn [v_children v_mcv set_children v_col].
  pose proof (ok_find_child D dyn S k mcv vals ch v HF HNv) as Hfc.
  assert (REC : forall n S0, ok_ad D dyn S0 (Datatypes.S k) n -> inrange D S0 -> S0 <> [] -> outcome S0 (Datatypes.S k) next n (qc D dyn (length next) next n)).
  { intros n S0 H1 H2 H3. apply (IH (length next)); auto. }
  destruct (find_child v ch) as [child|] eqn:Efc.
  - destruct Hfc as (Hvin & Hchild). inversion Hchild as [|? ? ? ? ? Hne Hnn Hcv Hcc Hcok]; subst.
    destruct (REC child _ Hcok (subsel_inrange D S k _ HS) Hnn) as [(e & E & He)|(child' & E & Hok' & Hv' & Hc' & Hz)].
    + rewrite E. left. exists e. auto.
    + rewrite E. cbn [bind]. right. eexists. split; [reflexivity|]. split; [|destruct node1; cbn in *; repeat split; auto; congruence].
      apply (ok_put_vary D dyn S c node1 _ k); [assumption|reflexivity|lia|eauto|]. constructor; auto. eapply ok_put_child; eauto. constructor; auto; try congruence.
  - destruct (Z.eqb_spec mcv v) as [Em|Hm]; cbn [negb].
    + subst v. destruct next as [|nx next0] eqn:En; [destruct Hun as (? & ? & [] & _)|]. rewrite <- En in *. clear nx next0 En.
      destruct (visit_unknown S k mcv vals ch next HF REC (qc D dyn (length next) next) (fun n => eq_refl) HS) as [(e & E & He)|(ch' & E & HF')].
      * rewrite E. left. exists e. auto.
      * rewrite E. cbn [bind].
        assert (Hok2 : ok_ad D dyn S c (set_varys node1 (put_vary (Vary k vals mcv ch') (ad_varys node1)))).
        { apply (ok_put_vary D dyn S c node1 _ k); [assumption|reflexivity|lia|eauto|]. constructor; auto. }
        destruct (IH (length next) ltac:(lia) next S c _ eq_refl Hok2 HS) as [(e & E3 & He)|(node3 & E3 & Hok3 & Hv3 & Hc3 & Hz)]; auto.
        { intros L. destruct node1; cbn in L, Hleaf1. congruence. }
        { intros k' v' Hin. specialize (Hnext _ _ Hin). lia. }
        -- cbn [set_children v_children] in *. rewrite E3. left. exists e. auto.
        -- rewrite E3. cbn [bind]. right. exists node3. split; [reflexivity|]. split; [exact Hok3|].
           assert (Z0 : nmatch D S (known_part D ((c0, v0) :: q0)) = 0) by (rewrite Hnm; pose proof (nmatch_subsel_le S k mcv (known_part D next)); pose proof (nmatch_pos (subsel D S k mcv) (known_part D next)); lia).
           clear - Hv3 Hc3 Hval1 Hcol1 Z0. split; [destruct node1; cbn in *; congruence|]. split; [destruct node1; cbn in *; congruence|exact Z0].
    + right. exists node1. split; [reflexivity|]. split; [exact Hok1|]. split; [exact Hval1|]. split; [exact Hcol1|]. rewrite Hnm.
      assert (Hemp : subsel D S k v = []).
      { destruct (in_dec Z.eq_dec v vals) as [Hin|Hnin].
        - destruct (Hfc Hin) as [E|E]; [congruence|assumption].
        - unfold subsel. unfold inrange in HS. rewrite Forall_forall in HS. clear -Hnin HS WF Hkc Hvals.
          induction S as [|r S IHS]; simpl; [reflexivity|].
          destruct (cell_ok D WF r k (HS r (or_introl eq_refl)) Hkc) as (x & Hx).
          unfold has_value at 1. rewrite Hx. destruct (Z.eqb_spec x v).
          + subst. exfalso. apply Hnin. eapply cell_in_vals; eauto.
          + apply IHS. intros; apply HS; right; assumption. }
      rewrite Hemp. reflexivity.
Qed.
End U.

(** A query that mentions a column the dataset does not have never gets a count above 0, after any history of calls: it is
    refused, or answered by 0 when no row agrees with the rest of it *)
Theorem C01_unknown_column : forall D dyn, wf_dataset D -> no_minus_one D -> threshold_ok D ->
  exists t, build_tree D dyn = Ok t /\
    forall calls answers t', Forall (wf_call D) calls -> do_calls D dyn calls t = Ok (answers, t') ->
    forall q, NoDup (map fst q) -> (exists c v, In (c, v) q /\ (ncols D <= c)%nat) ->
    (exists e, query_count D dyn q t' = Err e /\ (e = AttributeError \/ e = IndexError)) \/
    (exists t'', query_count D dyn q t' = Ok (0, t'') /\ count_matching D (filter (fun kv => (fst kv <? ncols D)%nat) q) = 0).
Proof.
  intros D dyn WF NM Hthr. destruct (build_tree_ok D WF dyn Hthr) as (t & Et & Hroot). exists t. split; [exact Et|].
  intros calls answers t' Hc Hd q HN Hu. destruct (do_calls_ok D dyn calls WF NM Hthr Hc t Hroot) as (l & t2 & E2 & _ & (Hok & _)).
  rewrite E2 in Hd. injection Hd as _ <-.
  destruct (qc_unknown D WF dyn (length q) q _ 0%nat t2 eq_refl Hok (inrange_all D)) as [(e & E & He)|(node' & E & _ & _ & _ & Hz)]; auto.
  - intros L C. inversion Hok as [? ? cnt col v leaf sel vs H1 H2]; subst. cbn [ad_leaf] in L. rewrite C in L. apply Z.ltb_lt in L. unfold threshold_ok in Hthr.
    assert (length (rows D) = 0)%nat by (change (length (rows D)) with (nrows D); rewrite <- (seq_length (nrows D) 0), C; reflexivity). cbn in L. lia.
  - intros; lia.
  - left. exists e. auto.
  - right. exists node'. split; [exact E|]. rewrite <- nmatch_all. exact Hz.
Qed.
Print Assumptions C01_unknown_column.
(** a positive count of the rest is enough for the refusal *)
Theorem C01_unknown_column_refused : forall D dyn, wf_dataset D -> no_minus_one D -> threshold_ok D ->
  exists t, build_tree D dyn = Ok t /\
    forall q, NoDup (map fst q) -> (exists c v, In (c, v) q /\ (ncols D <= c)%nat) ->
    count_matching D (filter (fun kv => (fst kv <? ncols D)%nat) q) <> 0 ->
    exists e, query_count D dyn q t = Err e /\ (e = AttributeError \/ e = IndexError).
Proof.
  intros D dyn WF NM Hthr. destruct (C01_unknown_column D dyn WF NM Hthr) as (t & Et & H). exists t. split; [exact Et|]. intros q HN Hu Hz.
  destruct (H [] [] t (Forall_nil _) eq_refl q HN Hu) as [G|(t'' & _ & C)]; [exact G|contradiction].
Qed.
(** both happen *)
Example C01_unknown_nonvacuous : exists t, build_tree (Dex 3) false = Ok t /\ query_count (Dex 3) false [(7%nat, 0)] t = Err AttributeError /\
  exists v t', query_count (Dex 3) false [(0%nat, v); (7%nat, 0)] t = Ok (0, t').
Proof. eexists. split; [vm_compute; reflexivity|]. split; [vm_compute; reflexivity|]. exists 77. eexists. vm_compute. reflexivity. Qed.
