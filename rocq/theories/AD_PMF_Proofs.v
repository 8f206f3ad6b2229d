(** make_contingency_tree and make_pmf count exactly. *)
From Verif Require Import Base AD_Model AD_Spec AD_Proofs AD_CT_Proofs.
Open Scope Z_scope.

Lemma zsum_app l1 l2 : zsum (l1 ++ l2) = zsum l1 + zsum l2.
Proof. induction l1; simpl; lia. Qed.

Lemma zsum_zero {A} (f : A -> Z) l : (forall x, In x l -> f x = 0) -> zsum (map f l) = 0.
Proof. induction l as [|x l IH]; simpl; intros H; [reflexivity|]. rewrite H by auto. rewrite IH by auto. lia. Qed.

(** sums over two duplicate-free lists agree if the longer one only adds zeros *)
Lemma zsum_incl {A} (f : A -> Z) (l1 : list A) : forall l2, NoDup l1 -> NoDup l2 -> incl l1 l2 ->
  (forall x, In x l2 -> ~ In x l1 -> f x = 0) -> zsum (map f l1) = zsum (map f l2).
Proof.
  induction l1 as [|x l1 IH]; intros l2 H1 H2 Hi Hz.
  - simpl. symmetry. apply zsum_zero. intros y Hy; apply Hz; auto.
  - inversion H1 as [|? ? Hni HN]; subst.
    destruct (in_split x l2) as (a & b & ->); [apply Hi; left; reflexivity|].
    rewrite map_app. simpl. rewrite zsum_app. simpl.
    rewrite (IH (a ++ b)).
    + rewrite map_app, zsum_app. lia.
    + assumption.
    + eapply NoDup_remove_1; eauto.
    + intros y Hy. assert (Hin := Hi y (or_intror Hy)). apply in_app_or in Hin as [Hin|[->|Hin]];
        [apply in_or_app; auto|contradiction|apply in_or_app; auto].
    + intros y Hy Hn. apply Hz.
      * apply in_app_or in Hy as [Hy|Hy]; apply in_or_app; [auto|right; right; assumption].
      * intros [->|Hin]; [|contradiction]. apply NoDup_remove_2 in H2. contradiction.
Qed.

Lemma no_m1_child k v n d x c : no_m1 (CT k v n (Some d)) -> In (x, c) d -> x <> -1 /\ no_m1 c.
Proof. intros H Hin. inversion H; subst. eauto. Qed.

Lemma combine_no_m1 op L : forall t o t', ct_ok L t -> no_m1 t -> combine_in_place op t o = Ok t' -> no_m1 t'.
Proof.
  induction L as [|L IH]; intros t o t' Ht Hm E; inversion Ht as [|? k v n d HN HF]; subst.
  - simpl in E. destruct (ct_count o); [|discriminate]. inversion E; subst. constructor. discriminate.
  - rewrite combine_unfold in E. apply bind_ok in E as (d' & E & E'). inversion E'; subst. clear E'.
    apply mapM_Forall2 in E. constructor. intros d0 x c Hd Hin. inversion Hd; subst d0; clear Hd.
    rewrite Forall_forall in HF.
    assert (HH : exists c0, In (x, c0) d /\ (c = c0 \/ exists oc, combine_in_place op c0 oc = Ok c)).
    { clear -E Hin. induction E as [|[x1 c1] [x2 c2] d d' E1 E IH]; [contradiction|].
      destruct Hin as [E2|Hin].
      - inversion E2; subst. cbn [fst snd] in E1. apply bind_ok in E1 as (c' & E1 & E3). inversion E3; subst.
        exists c1. split; [left; reflexivity|]. destruct (ct_children o) as [od|]; [|discriminate].
        destruct (assoc Z.eqb x od); [right; eauto|left; congruence].
      - destruct (IH Hin) as (c0 & H & H'). exists c0. split; [right; assumption|assumption]. }
    destruct HH as (c0 & Hc0 & Hcase). destruct (no_m1_child _ _ _ _ _ _ Hm Hc0) as (Hx & Hm0). split; [assumption|].
    destruct Hcase as [->|(oc & Hoc)]; [assumption|]. eapply IH; eauto. apply (HF _ Hc0).
Qed.

Lemma add_count_no_m1 cnt : forall vals cols t, (forall x, In x vals -> x <> -1) -> no_m1 t ->
  no_m1 (add_count_to_leaf cols vals cnt t).
Proof.
  induction vals as [|x vals IH]; intros cols t Hv Hm; destruct t as [k v n ch]; cbn [add_count_to_leaf].
  - inversion Hm; subst. constructor. assumption.
  - inversion Hm as [? ? ? ? Hd]; subst. constructor. intros d0 y c Hd0 Hin. inversion Hd0; subst d0; clear Hd0.
    set (child := match match ch with Some d => assoc Z.eqb x d | None => None end with
                  | Some c => c | None => CT (Z.of_nat (hd 0%nat cols)) x None None end) in *.
    assert (Hchild : no_m1 (add_count_to_leaf (tl cols) vals cnt child)).
    { apply IH; [intros; apply Hv; right; assumption|]. unfold child. destruct ch as [d|].
      - destruct (assoc Z.eqb x d) eqn:E; [apply assoc_In in E; eapply Hd; eauto|constructor; discriminate].
      - constructor; discriminate. }
    clearbody child. destruct ch as [d|].
    + assert (HF : Forall (fun xc => fst xc <> -1 /\ no_m1 (snd xc)) (assoc_set Z.eqb x (add_count_to_leaf (tl cols) vals cnt child) d)).
      { apply assoc_set_Forall; [split; [apply Hv; left; reflexivity|assumption]|].
        apply Forall_forall. intros [a b] Hab. apply (Hd d a b eq_refl Hab). }
      rewrite Forall_forall in HF. apply (HF _ Hin).
    + destruct Hin as [E|[]]. inversion E; subst. split; [apply Hv; left; reflexivity|assumption].
Qed.

Section P.
Variable D : dataset.
Hypothesis WF : wf_dataset D.
Variable dyn : bool.
(** no declared value equals -1 *)
Hypothesis NM1 : forall c vs, (c < ncols D)%nat -> colvals D c = Some vs -> ~ In (-1) vs.


Lemma combine_length_eq {A B} (l : list A) (l' : list B) : length l = length l' -> map fst (combine l l') = l.
Proof. revert l'; induction l as [|x l IH]; intros [|y l']; simpl; intros H; try discriminate; f_equal; auto. Qed.

(** rows reading of a key *)
Lemma rmatch_key r cols ks : (r < nrows D)%nat -> (forall c, In c cols -> (c < ncols D)%nat) -> length ks = length cols ->
  exists key, mapM (fun c => cell D r c) cols = Ok key /\ length key = length cols /\
    (forall x, In x key -> x <> -1) /\
    rmatch D (combine cols ks) r = (if list_eq_dec Z.eq_dec ks key then true else false).
Proof.
  revert ks; induction cols as [|c cols IH]; intros ks Hr Hc Hl; destruct ks as [|x ks]; try discriminate.
  - exists []. repeat split; auto; try contradiction. 
  - assert (Hcc : (c < ncols D)%nat) by (apply Hc; left; reflexivity).
    destruct (cell_ok D WF r c Hr Hcc) as (y & Hy).
    destruct (IH ks Hr (fun c' H => Hc c' (or_intror H)) ltac:(simpl in Hl; lia)) as (key & Hk & Hkl & Hkm & Hkr).
    exists (y :: key). cbn [mapM]. rewrite Hy. cbn [bind]. rewrite Hk. cbn [bind]. split; [reflexivity|]. split; [simpl; lia|].
    split.
    + intros z [<-|Hz]; [|auto]. destruct (wf_vals D WF c Hcc) as (vs & Hvs & _). intros E. subst y.
      apply (NM1 c vs Hcc Hvs). eapply cell_in_vals; eauto.
    + unfold rmatch in *. cbn [combine forallb fst snd]. rewrite Hkr. unfold has_value. rewrite Hy.
      destruct (Z.eqb_spec y x).
      * subst. destruct (list_eq_dec Z.eq_dec ks key), (list_eq_dec Z.eq_dec (x :: ks) (x :: key)); simpl; congruence.
      * destruct (list_eq_dec Z.eq_dec (x :: ks) (y :: key)); [congruence|]. destruct (list_eq_dec Z.eq_dec ks key); reflexivity.
Qed.

Lemma ct_from_leaf_ok S c node cols : ok_ad D dyn S c node -> ad_leaf node = true -> inrange D S -> S <> [] ->
  (forall c, In c cols -> (c < ncols D)%nat) ->
  exists t, ct_from_leaf D cols node = Ok t /\ ct_ok (length cols) t /\ ct_value t = ad_value node /\ no_m1 t /\
    forall ks, length ks = length cols -> look0 t ks = nmatch D S (combine cols ks).
Proof.
  intros Hok Hleaf HS Hne Hc. unfold ct_from_leaf.
  destruct (existsb (fun c => (ncols D <=? c)%nat) cols) eqn:E.
  { apply existsb_exists in E as (x & Hx & Hx'). apply Nat.leb_le in Hx'. specialize (Hc x Hx). lia. }
  assert (Hsel : ad_sel node = Some S) by (inversion Hok; subst; simpl in *; auto). rewrite Hsel.
  enough (HH : forall t, (fresh t \/ ct_ok (length cols) t) -> no_m1 t ->
    exists t', foldM (fun t r => key <- mapM (fun c => cell D r c) cols ;; Ok (add_count_to_leaf cols key 1 t)) S t = Ok t' /\
      (S <> [] \/ ct_ok (length cols) t -> ct_ok (length cols) t') /\ ct_value t' = ct_value t /\ no_m1 t' /\
      forall ks, length ks = length cols -> look0 t' ks = look0 t ks + nmatch D S (combine cols ks)).
  { destruct (HH (CT (ad_col node) (ad_value node) None None)) as (t & Ht & Hok' & Hv & Hm & Hl).
    - left; split; reflexivity.
    - constructor; discriminate.
    - exists t. split; [exact Ht|]. split; [auto|]. split; [exact Hv|]. split; [exact Hm|].
      intros ks Hks. rewrite Hl by assumption. unfold look0. destruct ks; simpl; reflexivity. }
  clear Hok Hsel Hleaf Hne. induction S as [|r S IH]; intros t Ht Hm.
  - exists t. split; [reflexivity|]. split; [intros [H|H]; [congruence|assumption]|]. split; [reflexivity|]. split; [assumption|].
    intros ks Hks. unfold nmatch. simpl. lia.
  - inversion HS as [|? ? Hr HS']; subst. cbn [foldM].
    destruct (rmatch_key r cols (map (fun _ => 0) cols) Hr Hc) as (key & Hk & Hkl & Hkm & _); [apply map_length|].
    rewrite Hk. cbn [bind]. destruct (add_count_ok 1 key cols t) as (Hok' & Hv' & Hl').
    { rewrite Hkl. assumption. }
    cbv zeta in *. rewrite Hkl in Hok'.
    destruct (IH HS' (add_count_to_leaf cols key 1 t) (or_intror Hok') (add_count_no_m1 1 key cols t Hkm Hm)) as (t' & Ht' & Hok2 & Hv2 & Hm2 & Hl2).
    exists t'. split; [exact Ht'|]. split; [intros _; apply Hok2; right; exact Hok'|]. split; [congruence|]. split; [assumption|].
    intros ks Hks. rewrite Hl2 by assumption. destruct (Hl' ks ltac:(congruence)) as (Hl3 & _). rewrite Hl3.
    destruct (rmatch_key r cols ks Hr Hc Hks) as (key' & Hk' & _ & _ & Hrm). rewrite Hk in Hk'; inversion Hk'; subst key'.
    unfold nmatch. cbn [filter]. rewrite Hrm. destruct (list_eq_dec Z.eq_dec ks key); cbn [length]; lia.
Qed.

Definition dict_of (t : ctnode) : list (Z * ctnode) := match ct_children t with None => [] | Some d => d end.

Definition good (S : list nat) (c : nat) (cols : list nat) (t : ctnode) (v : Z) : Prop :=
  ct_ok (length cols) t /\ ct_value t = v /\ no_m1 t /\ v <> -1 /\
  forall ks, length ks = length cols -> look0 t ks = nmatch D (subsel D S c v) (combine cols ks).

Lemma append_child_dict acc t : NoDup (map fst (dict_of acc)) ->
  NoDup (map fst (dict_of (append_child acc t))) /\
  (forall x, assoc Z.eqb x (dict_of (append_child acc t)) = if x =? ct_value t then Some t else assoc Z.eqb x (dict_of acc)).
Proof.
  destruct acc as [k v n [d|]]; unfold dict_of; cbn [append_child ct_children]; intros HN.
  - split; [apply assoc_set_NoDup; assumption|]. intros x. destruct (Z.eqb_spec x (ct_value t)).
    + subst. apply assoc_set_same.
    + apply assoc_set_other; assumption.
  - split; [simpl; constructor; [auto|constructor]|]. intros x. simpl. reflexivity.
Qed.

Lemma visit_values_ok S c mcv cols f vals0 :
  (forall v n, In v vals0 -> ok_child D dyn S c mcv v (Some n) -> exists t n', f n = Ok (t, n') /\ good S c cols t v /\ ok_child D dyn S c mcv v (Some n')) ->
  NoDup vals0 ->
  forall vals ch acc, NoDup vals -> incl vals vals0 -> Forall2 (ok_child D dyn S c mcv) vals0 ch ->
  NoDup (map fst (dict_of acc)) ->
  exists acc' ch', visit_values f mcv vals ch acc = Ok (acc', ch') /\
    Forall2 (ok_child D dyn S c mcv) vals0 ch' /\
    NoDup (map fst (dict_of acc')) /\
    ct_value acc' = ct_value acc /\ ct_count acc' = ct_count acc /\
    forall x, (In x vals /\ x <> mcv /\ subsel D S c x <> [] -> exists t, assoc Z.eqb x (dict_of acc') = Some t /\ good S c cols t x) /\
              (~ (In x vals /\ x <> mcv /\ subsel D S c x <> []) -> assoc Z.eqb x (dict_of acc') = assoc Z.eqb x (dict_of acc)).
Proof.
  intros Hf HN0. induction vals as [|v vals IH]; intros ch acc HN Hi HF Hacc; cbn [visit_values].
  - exists acc, ch. repeat split; auto. intros (H & _); contradiction.
  - inversion HN as [|? ? Hni HN']; subst.
    assert (Hi' : incl vals vals0) by (intros y Hy; apply Hi; right; assumption).
    destruct (Z.eqb_spec v mcv) as [Ev|Hv].
    { destruct (IH ch acc HN' Hi' HF Hacc) as (acc' & ch' & H1 & H2 & H3 & H4 & H5 & H6).
      exists acc', ch'. do 5 (split; [assumption|]). intros x. destruct (H6 x) as (H7 & H8). split.
      - intros ([->|Hx] & Hne & Hs); [congruence|]. apply H7; auto.
      - intros Hn. apply H8. intros (Hx & Hne & Hs). apply Hn. repeat split; auto. right; assumption. }
    pose proof (ok_find_child D dyn S c mcv vals0 ch v HF HN0) as Hfc.
    destruct (find_child v ch) as [n|] eqn:Efc.
    + destruct Hfc as (Hvin & Hchild). destruct (Hf v n Hvin Hchild) as (t & n' & Hft & Hg & Hok'). rewrite Hft. cbn [bind].
      assert (HF' : Forall2 (ok_child D dyn S c mcv) vals0 (put_child v n' ch)) by (eapply ok_put_child; eauto).
      destruct (append_child_dict acc t Hacc) as (Ha1 & Ha2).
      destruct (IH (put_child v n' ch) (append_child acc t) HN' Hi' HF' Ha1) as (acc' & ch' & H1 & H2 & H3 & H4 & H5 & H6).
      exists acc', ch'. split; [assumption|]. split; [assumption|]. split; [assumption|].
      split; [destruct acc; exact H4|]. split; [destruct acc; exact H5|].
      assert (Htv : ct_value t = v) by apply Hg.
      assert (Hsv : subsel D S c v <> []) by (inversion Hchild; subst; assumption).
      intros x. destruct (H6 x) as (H7 & H8). split.
      * intros ([<-|Hx] & Hne & Hs); [|apply H7; auto].
        rewrite H8 by (intros (? & _); contradiction). rewrite Ha2, Htv, Z.eqb_refl. eauto.
      * intros Hn. rewrite H8.
        -- rewrite Ha2. destruct (Z.eqb_spec x (ct_value t)); [|reflexivity].
           exfalso. apply Hn. subst x. rewrite Htv. repeat split; auto. left; reflexivity.
        -- intros (Hx & Hr). apply Hn. split; [right; assumption|assumption].
    + destruct (IH ch acc HN' Hi' HF Hacc) as (acc' & ch' & H1 & H2 & H3 & H4 & H5 & H6).
      exists acc', ch'. do 5 (split; [assumption|]). intros x. destruct (H6 x) as (H7 & H8). split.
      * intros ([<-|Hx] & Hne & Hs); [|apply H7; auto].
        exfalso. destruct (Hfc (Hi v (or_introl eq_refl))); contradiction.
      * intros Hn. apply H8. intros (Hx & Hr). apply Hn. split; [right; assumption|assumption].
Qed.

Lemma nmatch_subsel_le S c v q : 0 <= nmatch D (subsel D S c v) q <= nmatch D S q.
Proof.
  unfold nmatch, subsel. split; [lia|]. apply inj_le. induction S as [|r S IH]; simpl; [lia|].
  destruct (has_value D c v r); simpl; destruct (rmatch D q r); simpl; lia.
Qed.

Lemma fold_subtract_ok L (d : list (Z * ctnode)) : Forall (fun xc => ct_ok L (snd xc)) d ->
  forall t, ct_ok L t -> no_m1 t ->
  exists t', foldM (fun t (kv : Z * ctnode) => combine_in_place Z.sub t (snd kv)) d t = Ok t' /\ ct_ok L t' /\ no_m1 t' /\
    ct_value t' = ct_value t /\
    forall ks, length ks = L ->
      (look t ks = None -> look t' ks = None) /\
      (look t ks <> None -> look t' ks <> None /\ look0 t' ks = look0 t ks - zsum (map (fun xc => look0 (snd xc) ks) d)).
Proof.
  induction 1 as [|[x o] d Ho HF IH]; intros t Ht Hm; cbn [foldM].
  - exists t. split; [reflexivity|]. split; [assumption|]. split; [assumption|]. split; [reflexivity|]. intros ks Hks. split; auto.
    intros H; split; [assumption|]. simpl. lia.
  - cbn [snd] in *. destruct (combine_ok Z.sub L t o Ht Ho) as (t1 & E1 & Hok1 & Hv1 & Hl1). rewrite E1. cbn [bind].
    destruct (IH t1 Hok1 (combine_no_m1 _ _ _ _ _ Ht Hm E1)) as (t' & E' & Hok' & Hm' & Hv' & Hl'). 
    exists t'. split; [assumption|]. split; [assumption|]. split; [assumption|]. split; [congruence|].
    intros ks Hks. destruct (Hl' ks Hks) as (H1 & H2). specialize (Hl1 ks Hks). split.
    + intros E. apply H1. rewrite Hl1, E. reflexivity.
    + intros Hne. destruct (look t ks) as [a|] eqn:Ea; [|congruence].
      destruct H2 as (H2a & H2b); [rewrite Hl1; discriminate|]. split; [assumption|].
      assert (E0 : look0 t1 ks = look0 t ks - look0 o ks) by (unfold look0; rewrite Hl1, Ea; destruct (look o ks); lia).
      rewrite H2b. cbn [map zsum snd]. lia.
Qed.

Lemma mct_ok : forall cols S c node,
  ok_ad D dyn S c node -> inrange D S -> (ad_leaf node = true -> S <> []) ->
  StronglySorted lt cols -> (forall k, In k cols -> (c <= k < ncols D)%nat) ->
  exists t node', mct D dyn cols node = Ok (t, node') /\ ok_ad D dyn S c node' /\
    ad_value node' = ad_value node /\ ad_col node' = ad_col node /\ ad_leaf node' = ad_leaf node /\
    ct_ok (length cols) t /\ ct_value t = ad_value node /\ no_m1 t /\
    forall ks, length ks = length cols -> look0 t ks = nmatch D S (combine cols ks).
Proof.
  induction cols as [|k cols IH]; intros S c node Hok HS Hne Hsort Hc.
  - cbn [mct]. eexists _, node. split; [reflexivity|]. repeat (split; [assumption || reflexivity || (simpl; constructor; discriminate) || constructor|]).
    intros [|x ks] Hks; [|discriminate]. unfold look0. simpl. rewrite nmatch_nil. eapply ok_count; eauto.
  - cbn [mct]. destruct (ad_leaf node) eqn:Eleaf.
    { destruct (ct_from_leaf_ok S c node (k :: cols) Hok Eleaf HS (Hne eq_refl)) as (t & Ht & H1 & H2 & H3 & H4).
      { intros c' Hc'. apply Hc in Hc'. lia. }
      rewrite Ht. cbn [bind]. exists t, node. repeat (split; [assumption || reflexivity|]). assumption. }
    assert (Hk : (c <= k < ncols D)%nat) by (apply Hc; left; reflexivity).
    destruct (get_vary_ok D WF dyn S c node k Hok Eleaf Hk)
      as (vy & node1 & Hgv & Hvcol & Hvok & Hok1 & Hfind & Hcnt1 & Hval1 & Hcol1 & Hleaf1).
    rewrite Hgv. cbn [bind].
    destruct vy as [k' vals mcv ch]. cbn [v_col] in Hvcol. subst k'.
    inversion Hvok as [? ? ? ? ? Hkc Hvals Hmcv HF]; subst.
    destruct (wf_vals D WF k Hkc) as (vals' & Hvals' & HNv & _ & _).
    rewrite Hvals in Hvals'; inversion Hvals'; subst vals'; clear Hvals'.
    cbn [v_children v_mcv v_values set_children v_col].
    inversion Hsort as [|? ? Hsort' Hlt]; subst. rewrite Forall_forall in Hlt.
    assert (HvNM : forall v, In v vals -> v <> -1) by (intros v Hv ->; apply (NM1 k vals Hkc Hvals Hv)).
    assert (Hchild : forall v n, In v vals -> ok_child D dyn S k mcv v (Some n) ->
       exists t n', mct D dyn cols n = Ok (t, n') /\ good S k cols t v /\ ok_child D dyn S k mcv v (Some n')).
    { intros v n Hv Hch. inversion Hch as [|? ? ? ? ? Hne' Hnn Hcv Hcc Hcok]; subst.
      destruct (IH (subsel D S k (ad_value n)) (Datatypes.S k) n) as (t & n' & Ht & Hokn & Hvn & Hcn & Hln & Hct & Htv & Hm & Hl); auto.
      { apply subsel_inrange; assumption. }
      { intros k' Hk'. specialize (Hlt k' Hk'). assert (c <= k' < ncols D)%nat by (apply Hc; right; assumption). lia. }
      exists t, n'. split; [assumption|]. split; [repeat split; auto|]. constructor; auto; congruence. }
    destruct (visit_values_ok S k mcv cols (mct D dyn cols) vals Hchild HNv vals ch
               (CT (ad_col node) (ad_value node) None None) HNv (incl_refl _) HF)
      as (non_mcv & ch' & HV & HF' & HNd & Hvv & Hvc & Hdict).
    { constructor. }
    rewrite HV. cbn [bind]. cbv zeta.
    assert (Hok2 : ok_ad D dyn S c (set_varys node1 (put_vary (Vary k vals mcv ch') (ad_varys node1)))).
    { apply (ok_put_vary D dyn S c node1 _ k); [assumption|reflexivity|lia|eauto|]. constructor; auto. }
    destruct (IH S c _ Hok2 HS) as (own & node3 & Hown & Hok3 & Hv3 & Hc3 & Hl3 & Hct3 & Htv3 & Hm3 & Hlook3); auto.
    { destruct node1; simpl in *. congruence. }
    { intros k' Hk'. apply Hc; right; assumption. }
    rewrite Hown. cbn [bind].
    set (own' := match own with CT _ _ n ch0 => CT (Z.of_nat k) mcv n ch0 end).
    assert (Hown' : ct_ok (length cols) own' /\ no_m1 own' /\ ct_value own' = mcv /\ forall ks, look own' ks = look own ks).
    { destruct own as [a b n och]. unfold own'. split; [|split; [|split; [reflexivity|]]].
      - inversion Hct3; subst; constructor; assumption.
      - inversion Hm3; subst; constructor; assumption.
      - intros [|? ?]; reflexivity. }
    destruct Hown' as (Ho1 & Ho2 & Ho3 & Ho4). clearbody own'.
    set (d := dict_of non_mcv) in *.
    (* keys of d *)
    assert (Hkeys : forall x t, In (x, t) d -> In x vals /\ x <> mcv /\ subsel D S k x <> [] /\ good S k cols t x).
    { intros x t Hin. destruct (Hdict x) as (Hd1 & Hd2).
      assert (Ha : assoc Z.eqb x d = Some t) by (apply In_assoc; assumption).
      destruct (in_dec Z.eq_dec x vals) as [i|n].
      - destruct (Z.eq_dec x mcv) as [e|ne].
        + rewrite Hd2 in Ha by tauto. discriminate.
        + destruct (subsel D S k x) as [|r0 s0] eqn:Es.
          * rewrite Hd2 in Ha by tauto. discriminate.
          * destruct Hd1 as (t' & Ht' & Hg); [repeat split; auto; discriminate|].
            rewrite Ha in Ht'. injection Ht' as <-. split; [assumption|]. split; [assumption|]. split; [discriminate|assumption].
      - rewrite Hd2 in Ha by tauto. discriminate. }
    destruct (fold_subtract_ok (length cols) d) with (t := own') as (mct' & Hm1 & Hm2 & Hm3' & Hm4 & Hm5); auto.
    { apply Forall_forall. intros [x t] Hin. destruct (Hkeys x t Hin) as (_ & _ & _ & Hg). apply Hg. }
    assert (Hfold : match ct_children non_mcv with
                    | Some d0 => foldM (fun t (kv : Z * ctnode) => combine_in_place Z.sub t (snd kv)) d0 own'
                    | None => Ok own' end = Ok mct').
    { unfold d, dict_of in Hm1. destruct (ct_children non_mcv); [assumption|exact Hm1]. }
    rewrite Hfold. cbn [bind]. exists (append_child non_mcv mct'), node3. split; [reflexivity|].
    split; [assumption|]. split; [rewrite Hv3; destruct node1; simpl in *; congruence|].
    split; [rewrite Hc3; destruct node1; simpl in *; congruence|].
    split; [rewrite Hl3; destruct node1; simpl in *; congruence|].
    rewrite Ho3 in Hm4.
    destruct (append_child_dict non_mcv mct' HNd) as (Hd1 & Hd2). rewrite Hm4 in Hd2.
    assert (Hgood : forall ks, length ks = length cols -> look0 mct' ks = nmatch D (subsel D S k mcv) (combine cols ks)).
    { intros ks Hks. destruct (Hm5 ks Hks) as (HA & HB). set (q := combine cols ks).
      assert (Hsum : zsum (map (fun xc => look0 (snd xc) ks) d) = nmatch D S q - nmatch D (subsel D S k mcv) q).
      { rewrite (nmatch_partition D WF S q k vals HS Hkc Hvals).
        assert (E1 : zsum (map (fun v => nmatch D (subsel D S k v) q) vals) - nmatch D (subsel D S k mcv) q =
                     zsum (map (fun v => if v =? mcv then 0 else nmatch D (subsel D S k v) q) vals)).
        { clear -HNv Hmcv. induction vals as [|v vals IHv]; simpl in *; [contradiction|].
          inversion HNv as [|? ? Hni HN']; subst. destruct Hmcv as [->|Hmcv].
          - rewrite Z.eqb_refl. rewrite (map_ext_in (fun v => if v =? mcv then 0 else nmatch D (subsel D S k v) q) (fun v => nmatch D (subsel D S k v) q)); [lia|].
            intros v Hv. destruct (Z.eqb_spec v mcv); [subst; contradiction|reflexivity].
          - destruct (Z.eqb_spec v mcv); [subst; contradiction|]. rewrite <- IHv by assumption. lia. }
        rewrite E1.
        rewrite <- (zsum_incl _ (map fst d) vals); auto.
        - rewrite map_map. f_equal. apply map_ext_in. intros [x t] Hin. destruct (Hkeys x t Hin) as (_ & Hx & _ & Hg).
          cbn [fst snd]. destruct (Z.eqb_spec x mcv); [contradiction|]. apply Hg; assumption.
        - intros x Hx. apply in_map_iff in Hx as ([x' t] & <- & Hin). apply (Hkeys _ _ Hin).
        - intros x Hx Hn. destruct (Z.eqb_spec x mcv); [reflexivity|].
          destruct (subsel D S k x) as [|r0 s0] eqn:Es; [reflexivity|].
          exfalso. apply Hn. destruct (proj1 (Hdict x)) as (t & Ht & _); [repeat split; auto; rewrite Es; discriminate|].
          apply assoc_In in Ht. change x with (fst (x, t)). apply in_map. exact Ht. }
      assert (Hlo : look0 own ks = nmatch D S q) by (apply Hlook3; assumption).
      assert (Hlo' : look0 own' ks = nmatch D S q) by (unfold look0 in *; rewrite Ho4; assumption).
      destruct (look own' ks) as [a|] eqn:El.
      - destruct HB as (_ & HB); [discriminate|]. rewrite HB, Hsum, Hlo'. lia.
      - unfold look0 at 1. rewrite HA by reflexivity. unfold look0 in Hlo'. rewrite El in Hlo'.
        pose proof (nmatch_subsel_le S k mcv q). lia. }
    assert (Hmg : good S k cols mct' mcv) by (repeat split; auto).
    set (res := append_child non_mcv mct') in *.
    assert (Hres : exists kk nn, res = CT kk (ad_value node) nn (Some (dict_of res))).
    { unfold res. destruct non_mcv as [kk vv nn cc]. cbn [ct_value] in Hvv. subst vv. unfold dict_of. cbn [append_child ct_children]. eauto. }
    destruct Hres as (kk & nn & Hres).
    assert (Hall : forall x t, In (x, t) (dict_of res) -> good S k cols t x).
    { intros x t Hin. apply In_assoc in Hin; [|assumption]. rewrite Hd2 in Hin. destruct (Z.eqb_spec x mcv).
      - inversion Hin; subst. assumption.
      - apply assoc_In in Hin. apply (Hkeys x t Hin). }
    rewrite Hres. split; [|split; [|split]].
    + cbn [length]. constructor; [assumption|]. apply Forall_forall. intros [x t] Hin. cbn [fst snd].
      destruct (Hall x t Hin) as (G1 & G2 & _). split; assumption.
    + reflexivity.
    + constructor. intros d0 x t E Hin. inversion E; subst d0. destruct (Hall x t Hin) as (G1 & G2 & G3 & G4 & _). split; assumption.
    + intros [|x ks] Hks; [discriminate|]. simpl in Hks. injection Hks as Hks. unfold look0. cbn [look ct_children].
      assert (Hn : nmatch D S (combine (k :: cols) (x :: ks)) = nmatch D (subsel D S k x) (combine cols ks)).
      { unfold nmatch, subsel. rewrite filter_filter. reflexivity. }
      rewrite Hn. destruct (assoc Z.eqb x (dict_of res)) as [t|] eqn:E.
      * apply assoc_In in E. destruct (Hall x t E) as (_ & _ & _ & _ & G). specialize (G ks Hks). unfold look0 in G. assumption.
      * rewrite Hd2 in E. destruct (Z.eqb_spec x mcv); [discriminate|].
        assert (Hemp : subsel D S k x = []).
        { destruct (subsel D S k x) as [|r0 s0] eqn:Es; [reflexivity|]. exfalso.
          destruct (in_dec Z.eq_dec x vals) as [i|ni].
          - destruct (proj1 (Hdict x)) as (t & Ht & _); [repeat split; auto; rewrite Es; discriminate|]. fold d in E. congruence.
          - apply ni. assert (Hr : In r0 (subsel D S k x)) by (rewrite Es; left; reflexivity).
            unfold subsel in Hr. apply filter_In in Hr as (_ & Hr). unfold has_value in Hr.
            destruct (cell D r0 k) as [y|] eqn:Ey; [|discriminate]. apply Z.eqb_eq in Hr. subst y. eapply cell_in_vals; eauto. }
        rewrite Hemp. reflexivity.
Qed.
End P.
