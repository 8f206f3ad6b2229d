(** make_pmf is a probability distribution; contingency-tree arithmetic out of place. *)
From Coq Require Import Reals Lra.
From Verif Require Import Base AD_Model AD_Query_Model AD_Spec AD_Proofs AD_CT_Proofs AD_PMF_Proofs AD_More_Proofs.
Open Scope Z_scope.

Lemma zsum_pick_gen {A} (f : A -> bool) (g : A -> Z) keys k0 : NoDup keys -> In k0 keys ->
  (forall k, In k keys -> (f k = true <-> k = k0)) ->
  zsum (map (fun k => (if f k then 1 else 0) + g k) keys) = 1 + zsum (map g keys).
Proof.
  induction keys as [|k keys IH]; intros HN Hin Hf; [contradiction|]. inversion HN as [|? ? Hni HN']; subst. cbn [map zsum].
  destruct Hin as [->|Hin].
  - assert (E : f k0 = true) by (apply Hf; [left; reflexivity|reflexivity]). rewrite E.
    enough (zsum (map (fun k => (if f k then 1 else 0) + g k) keys) = zsum (map g keys)) by lia.
    f_equal. apply map_ext_in. intros k Hk. destruct (f k) eqn:Ek; [|lia].
    apply Hf in Ek; [|right; assumption]. subst. contradiction.
  - destruct (f k) eqn:Ek.
    + apply Hf in Ek; [|left; reflexivity]. subst. contradiction.
    + rewrite IH; [lia|assumption|assumption|]. intros k' Hk'. apply Hf; right; assumption.
Qed.

Definition row_key (cols : list nat) (row : list Z) : list Z := map (fun c => nth c row 0) cols.

Lemma row_agrees_key cols key row : length key = length cols -> (forall c, In c cols -> (c < length row)%nat) ->
  row_agrees (combine cols key) row = true <-> key = row_key cols row.
Proof.
  revert key; induction cols as [|c cols IH]; intros [|x key] Hl Hc; try discriminate.
  - unfold row_agrees, row_key; simpl. tauto.
  - unfold row_agrees, row_key in *. cbn [combine forallb fst snd map].
    rewrite andb_true_iff. rewrite IH; [|simpl in Hl; lia|intros c' Hc'; apply Hc; right; assumption].
    assert (Hn : nth_error row c = Some (nth c row 0)) by (apply nth_error_nth'; apply Hc; left; reflexivity).
    rewrite Hn. rewrite Z.eqb_eq. split; [intros (-> & ->); reflexivity|intros E; inversion E; auto].
Qed.

Lemma counts_total D cols d : wf_dataset D -> (forall c, In c cols -> (c < ncols D)%nat) -> counts_exact D cols d ->
  zsum (map (fun kn => match snd kn with Some n => n | None => 0 end) d) = Z.of_nat (length (rows D)).
Proof.
  intros WF Hc (HN & Hex & Hz).
  assert (E : map (fun kn => match snd kn with Some n => n | None => 0 end) d =
              map (fun key => count_matching D (tuple_query cols key)) (map fst d)).
  { rewrite map_map. apply map_ext_in. intros [key n] Hin. destruct (Hex key n Hin) as (_ & ->). reflexivity. }
  rewrite E. clear E. unfold count_matching, tuple_query.
  assert (Hlen : forall key, In key (map fst d) -> length key = length cols).
  { intros key Hin. apply in_map_iff in Hin as ([k n] & <- & Hin). apply (Hex k n Hin). }
  assert (Hin : forall row, In row (rows D) -> In (row_key cols row) (map fst d)).
  { intros row Hrow. destruct (in_dec (list_eq_dec Z.eq_dec) (row_key cols row) (map fst d)) as [i|n]; [assumption|].
    exfalso. assert (Hl : length (row_key cols row) = length cols) by apply map_length.
    specialize (Hz _ Hl n). unfold count_matching, tuple_query in Hz.
    assert (Hf : In row (filter (row_agrees (combine cols (row_key cols row))) (rows D))).
    { apply filter_In. split; [assumption|]. apply row_agrees_key; [assumption| |reflexivity].
      intros c Hcc. pose proof (wf_rect D WF) as HF. rewrite Forall_forall in HF. rewrite (HF row Hrow). apply Hc; assumption. }
    destruct (filter _ (rows D)); [contradiction|]. simpl in Hz. lia. }
  pose proof (wf_rect D WF) as HF. clear Hz Hex.
  induction (rows D) as [|row l IH]; simpl.
  - apply zsum_zero. reflexivity.
  - inversion HF as [|? ? Hrow HF']; subst.
    rewrite (map_ext _ (fun key => (if row_agrees (combine cols key) row then 1 else 0) +
              Z.of_nat (length (filter (row_agrees (combine cols key)) l)))).
    2:{ intros key. destruct (row_agrees _ row); simpl length; lia. }
    rewrite (zsum_pick_gen _ _ _ (row_key cols row) HN).
    + rewrite IH; [lia| |assumption]. intros r Hr. apply Hin; right; assumption.
    + apply Hin; left; reflexivity.
    + intros key Hk. apply row_agrees_key; [apply Hlen; assumption|].
      intros c Hcc. rewrite Hrow. apply Hc; assumption.
Qed.

Lemma make_pmf_ok D dyn vars t : wf_dataset D -> no_minus_one D -> threshold_ok D -> rows D <> [] ->
  ok_root D dyn t -> vars <> [] -> NoDup vars -> (forall c, In c vars -> (c < ncols D)%nat) ->
  exists pmf t', make_pmf D dyn vars t = Ok (pmf, t') /\ ok_root D dyn t' /\
    NoDup (map fst pmf) /\
    (forall key p, In (key, p) pmf -> length key = length vars /\ p = empirical D (sort_nat vars) key) /\
    (forall key, length key = length vars -> ~ In key (map fst pmf) -> empirical D (sort_nat vars) key = 0%R) /\
    rsum (map snd pmf) = 1%R.
Proof.
  intros WF NM Hthr Hrows Hok Hne HN Hin.
  destruct (make_counts_ok D dyn vars t WF NM Hthr Hok Hne HN Hin) as (d & t' & E & Hok' & Hex).
  unfold make_pmf. rewrite E. cbn [bind].
  assert (Hcols : forall c, In c (sort_nat vars) -> (c < ncols D)%nat).
  { intros c Hc. apply Hin. eapply Permutation_in; [apply Permutation_sym, sort_perm|assumption]. }
  pose proof (counts_total D (sort_nat vars) d WF Hcols Hex) as Htot.
  destruct Hex as (HNd & Hex & Hz).
  assert (Hcnt : ad_count t = Z.of_nat (length (rows D))).
  { destruct Hok as (Hok & _). rewrite (ok_count _ _ _ _ _ Hok), seq_length. reflexivity. }
  assert (Hpos : (0 < length (rows D))%nat) by (destruct (rows D); [congruence|simpl; lia]).
  rewrite Hcnt. destruct (Z.eqb_spec (Z.of_nat (length (rows D))) 0) as [E0|E0]; [lia|].
  set (g := fun kv : list Z * option Z => (fst kv, (IZR (match snd kv with Some n => n | None => 0%Z end) / IZR (Z.of_nat (length (rows D))))%R)).
  rewrite (mapM_ok _ g).
  2:{ intros [key n] Hkn. destruct (Hex key n Hkn) as (_ & ->). reflexivity. }
  cbn [bind]. exists (map g d), t'. split; [reflexivity|]. split; [assumption|].
  assert (Hkeys : map fst (map g d) = map fst d) by (rewrite map_map; apply map_ext; reflexivity).
  assert (Hlen : length (sort_nat vars) = length vars) by (symmetry; apply Permutation_length, sort_perm).
  split; [rewrite Hkeys; assumption|]. split; [|split].
  - intros key p Hkp. apply in_map_iff in Hkp as ([k n] & Eg & Hkn). unfold g in Eg. simpl in Eg. inversion Eg; subst.
    destruct (Hex key n Hkn) as (Hl & ->). split; [congruence|]. unfold empirical. rewrite INR_IZR_INZ. reflexivity.
  - intros key Hl Hni. rewrite Hkeys in Hni. unfold empirical. rewrite Hz by (congruence || assumption).
    unfold Rdiv. apply Rmult_0_l.
  - rewrite map_map. unfold g. cbn [snd].
    assert (Hs : forall l : list (list Z * option Z), rsum (map (fun x => (IZR (match snd x with Some n => n | None => 0%Z end) / IZR (Z.of_nat (length (rows D))))%R) l)
        = (IZR (zsum (map (fun kn => match snd kn with Some n => n | None => 0%Z end) l)) / IZR (Z.of_nat (length (rows D))))%R).
    { clear. induction l as [|x l IH]; simpl; [unfold Rdiv; rewrite Rmult_0_l; reflexivity|].
      rewrite IH, plus_IZR. unfold Rdiv. ring. }
    rewrite Hs, Htot. apply Rinv_r. apply not_0_IZR. assumption.
Qed.

(** ** out-of-place sum and subtract *)
Lemma combine_new_unfold op k v n d o :
  combine_new op (CT k v n (Some d)) o =
  foldM (fun acc (xc : Z * ctnode) =>
       c' <- match ct_children o with
             | None => Err TypeError
             | Some od => match assoc Z.eqb (fst xc) od with
                          | None => Ok (snd xc)
                          | Some oc => combine_new op (snd xc) oc end
             end ;; Ok (append_child acc c')) d (CT k v None None).
Proof.
  cbn [combine_new]. generalize (CT k v None None).
  induction d as [|[x c] d IH]; intros acc; [reflexivity|]. cbn [foldM fst snd].
  destruct (match ct_children o with
     | Some od => match assoc Z.eqb x od with Some oc => combine_new op c oc | None => Ok c end
     | None => Err TypeError end) as [c'|e]; cbn [bind]; [|reflexivity].
  apply IH.
Qed.

Lemma combine_new_ok op L : forall t o, ct_ok L t -> ct_ok L o -> ct_full t ->
  exists t', combine_new op t o = Ok t' /\ ct_ok L t' /\ ct_value t' = ct_value t /\ ct_full t' /\
    (forall ks, length ks = L ->
        look t' ks = match look t ks with
                     | None => None
                     | Some a => Some (match look o ks with Some b => op a b | None => a end) end).
Proof.
  induction L as [|L IH]; intros t o Ht Ho Hf.
  - inversion Ht; subst. inversion Ho; subst. simpl.
    eexists; split; [reflexivity|]. split; [constructor|]. split; [reflexivity|]. split; [constructor; discriminate|].
    intros [|x ks] Hks; [reflexivity|discriminate].
  - inversion Ht as [|? k v n d HN HF]; subst. inversion Ho as [|? k' v' n' od HN' HF']; subst.
    inversion Hf as [? ? ? ? Hne Hfc]; subst. specialize (Hne d eq_refl).
    rewrite combine_new_unfold. cbn [ct_children].
    assert (Hchild : forall x c, In (x, c) d -> exists c',
       match assoc Z.eqb x od with None => Ok c | Some oc => combine_new op c oc end = Ok c' /\
       ct_value c' = x /\ ct_ok L c' /\ ct_full c' /\
       forall ks, length ks = L -> look c' ks = match look c ks with None => None | Some a =>
               Some (match assoc Z.eqb x od with
                     | Some oc => match look oc ks with Some b => op a b | None => a end
                     | None => a end) end).
    { intros x c Hin. rewrite Forall_forall in HF. destruct (HF _ Hin) as (Hv & Hc). cbn [fst snd] in *.
      assert (Hcf : ct_full c) by (eapply Hfc; eauto).
      destruct (assoc Z.eqb x od) as [oc|] eqn:E.
      - apply assoc_In in E. rewrite Forall_forall in HF'. destruct (HF' _ E) as (_ & Hoc). cbn [snd] in Hoc.
        destruct (IH c oc Hc Hoc Hcf) as (c' & Hc' & Hok' & Hv' & Hf' & Hl').
        exists c'. split; [assumption|]. split; [congruence|]. repeat (split; [assumption|]). assumption.
      - exists c. repeat split; auto. intros ks Hks. destruct (look c ks); reflexivity. }
    set (F := fun acc (xc : Z * ctnode) => c' <- match assoc Z.eqb (fst xc) od with
             | None => Ok (snd xc) | Some oc => combine_new op (snd xc) oc end ;; Ok (append_child acc c')).
    set (P := fun (dd : list (Z * ctnode)) (acc : ctnode) =>
        ct_value acc = v /\ NoDup (map fst (dict_of acc)) /\
        (forall x c', In (x, c') (dict_of acc) -> ct_value c' = x /\ ct_ok L c' /\ ct_full c') /\
        (forall x ks, length ks = L -> In x (map fst dd) ->
             match assoc Z.eqb x (dict_of acc) with Some c' => look c' ks | None => None end =
             match (match assoc Z.eqb x dd with Some c => look c ks | None => None end) with None => None | Some a =>
               Some (match assoc Z.eqb x od with
                     | Some oc => match look oc ks with Some b => op a b | None => a end
                     | None => a end) end) /\
        (forall x, ~ In x (map fst dd) -> assoc Z.eqb x (dict_of acc) = None)).
    assert (HG : forall rest done acc, d = done ++ rest -> P done acc -> (done <> [] -> ct_children acc <> None) ->
       exists acc', foldM F rest acc = Ok acc' /\ P d acc' /\ (d <> [] -> ct_children acc' <> None)).
    { induction rest as [|[x c] rest IHr]; intros done acc Ed HP Hnn.
      - rewrite app_nil_r in Ed. subst done. exists acc. split; [reflexivity|]. split; assumption.
      - cbn [foldM]. unfold F at 1. cbn [fst snd].
        destruct (Hchild x c) as (c' & E1 & E2 & E3 & E4 & E5); [rewrite Ed; apply in_or_app; right; left; reflexivity|].
        rewrite E1. cbn [bind]. destruct HP as (P1 & P2 & P3 & P4 & P5).
        destruct (append_child_dict acc c' P2) as (A1 & A2). rewrite E2 in A2.
        assert (Hnd : ~ In x (map fst done)).
        { rewrite Ed, map_app in HN. simpl in HN. apply NoDup_remove_2 in HN. intros H; apply HN; apply in_or_app; auto. }
        apply (IHr (done ++ [(x, c)])).
        + rewrite <- app_assoc. assumption.
        + split; [destruct acc; assumption|]. split; [assumption|]. split; [|split].
          * intros y cy Hy. apply In_assoc in Hy; [|assumption]. rewrite A2 in Hy. destruct (Z.eqb_spec y x).
            -- inversion Hy; subst. auto.
            -- apply assoc_In in Hy. auto.
          * intros y ks Hks Hy. rewrite A2. destruct (Z.eqb_spec y x) as [->|Hyx].
            -- assert (Ha : assoc Z.eqb x (done ++ [(x, c)]) = Some c).
               { apply assoc_None in Hnd. clear -Hnd. induction done as [|[z w] done IHd]; simpl in *; [rewrite Z.eqb_refl; reflexivity|].
                 destruct (x =? z); [discriminate|auto]. }
               rewrite Ha, E5 by assumption. reflexivity.
            -- rewrite map_app in Hy. apply in_app_or in Hy as [Hy|[E|[]]]; [|simpl in E; congruence].
               rewrite P4 by assumption.
               assert (Ha : assoc Z.eqb y (done ++ [(x, c)]) = assoc Z.eqb y done).
               { clear -Hyx. induction done as [|[z w] done IHd]; simpl; [destruct (Z.eqb_spec y x); [contradiction|reflexivity]|].
                 destruct (y =? z); auto. }
               rewrite Ha. reflexivity.
          * intros y Hy. rewrite A2. rewrite map_app in Hy. destruct (Z.eqb_spec y x) as [->|Hyx].
            -- exfalso. apply Hy. apply in_or_app. right. left. reflexivity.
            -- apply P5. intros H. apply Hy. apply in_or_app; left; assumption.
        + intros _. destruct acc; discriminate. }
    destruct (HG d [] (CT k v None None) eq_refl) as (t' & Et & HP & Hnn).
    { split; [reflexivity|]. split; [apply NoDup_nil|]. split; [intros ? ? []|]. split; [intros ? ? ? []|]. reflexivity. }
    { congruence. }
    exists t'. split; [exact Et|]. destruct HP as (P1 & P2 & P3 & P4 & P5). specialize (Hnn Hne).
    destruct t' as [k2 v2 n2 [d2|]]; [|cbn [ct_children] in Hnn; congruence]. unfold dict_of in *. cbn [ct_children ct_value] in *.
    split; [|split; [assumption|split]].
    + constructor; [assumption|]. apply Forall_forall. intros [x c] Hin. cbn [fst snd]. destruct (P3 x c Hin) as (? & ? & _). auto.
    + constructor.
      * intros d0 E. inversion E; subst. intros ->. destruct d as [|[x c] d]; [congruence|].
        destruct (Hchild x c (or_introl eq_refl)) as (c' & _ & _ & Hc'ok & _ & Hc'l).
        pose proof (P4 x) as P4x. simpl in P4x.
        (* some leaf exists below c *)
        assert (Hleaf : forall L c, ct_ok L c -> ct_full c -> exists ks, length ks = L /\ look c ks <> None).
        { clear. induction L as [|L IHL]; intros c Hc Hf; inversion Hc as [|? k v n d HN HF]; subst.
          - exists []. split; [reflexivity|discriminate].
          - inversion Hf as [? ? ? ? G1 G2]; subst. destruct d as [|[x c] d]; [exfalso; apply (G1 [] eq_refl); reflexivity|].
            inversion HF as [|? ? (_ & Hc1) _]; subst. destruct (IHL c Hc1) as (ks & K1 & K2); [eapply G2; [reflexivity|left; reflexivity]|].
            exists (x :: ks). split; [simpl; congruence|]. simpl. rewrite Z.eqb_refl. assumption. }
        rewrite Forall_forall in HF. destruct (HF (x, c) (or_introl eq_refl)) as (_ & Hcok).
        destruct (Hleaf L c Hcok) as (ks & K1 & K2); [eapply Hfc; [reflexivity|left; reflexivity]|].
        specialize (P4x ks K1 (or_introl eq_refl)). rewrite Z.eqb_refl in P4x. destruct (look c ks); [discriminate|congruence].
      * intros d0 x c E Hin. inversion E; subst. apply (P3 x c Hin).
    + intros [|x ks] Hks; [discriminate|]. simpl in Hks. injection Hks as Hks. cbn [look ct_children].
      destruct (in_dec Z.eq_dec x (map fst d)) as [i|ni].
      * rewrite (P4 x ks Hks i). destruct (assoc Z.eqb x d) as [c|]; [|reflexivity].
        destruct (look c ks); [|reflexivity]. f_equal. destruct (assoc Z.eqb x od); reflexivity.
      * rewrite (P5 x ni). apply assoc_None in ni. rewrite ni. reflexivity.
Qed.
