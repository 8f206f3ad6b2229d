(** Proofs about contingency trees built from AD-trees. *)
From Verif Require Import Base AD_Model AD_Spec AD_Proofs.
Open Scope Z_scope.

(** ** Contingency trees as finite maps from keys to counts *)

Lemma assoc_In {V} x (d : list (Z * V)) c : assoc Z.eqb x d = Some c -> In (x, c) d.
Proof.
  induction d as [|[y w] d IH]; simpl; [discriminate|].
  destruct (Z.eqb_spec x y); [intros H; inversion H; subst; auto|auto].
Qed.
Lemma In_assoc {V} x (d : list (Z * V)) c : NoDup (map fst d) -> In (x, c) d -> assoc Z.eqb x d = Some c.
Proof.
  induction d as [|[y w] d IH]; simpl; [contradiction|]. intros HN [E|Hin].
  - inversion E; subst. rewrite Z.eqb_refl. reflexivity.
  - inversion HN as [|? ? Hni HN']; subst. destruct (Z.eqb_spec x y); [|auto].
    subst. exfalso; apply Hni. change y with (fst (y, c)). apply in_map; assumption.
Qed.
Lemma assoc_None {V} x (d : list (Z * V)) : assoc Z.eqb x d = None <-> ~ In x (map fst d).
Proof.
  induction d as [|[y w] d IH]; simpl; [intuition|].
  destruct (Z.eqb_spec x y).
  - subst. split; [discriminate|]. intros H; exfalso; apply H; auto.
  - rewrite IH. intuition.
Qed.
Lemma assoc_set_same {V} x (c : V) d : assoc Z.eqb x (assoc_set Z.eqb x c d) = Some c.
Proof.
  induction d as [|[y w] d IH]; simpl; [rewrite Z.eqb_refl; reflexivity|].
  destruct (Z.eqb_spec x y); simpl.
  - subst. rewrite Z.eqb_refl. reflexivity.
  - destruct (Z.eqb_spec x y); [contradiction|assumption].
Qed.
Lemma assoc_set_other {V} x y (c : V) d : y <> x -> assoc Z.eqb y (assoc_set Z.eqb x c d) = assoc Z.eqb y d.
Proof.
  intros Hne. induction d as [|[z w] d IH]; simpl.
  - destruct (Z.eqb_spec y x); [contradiction|reflexivity].
  - destruct (Z.eqb_spec x z); simpl.
    + subst. destruct (Z.eqb_spec y z); [contradiction|reflexivity].
    + destruct (y =? z); [reflexivity|assumption].
Qed.
Lemma assoc_set_keys {V} x (c : V) d : map fst (assoc_set Z.eqb x c d) =
  if in_dec Z.eq_dec x (map fst d) then map fst d else map fst d ++ [x].
Proof.
  induction d as [|[y w] d IH]; [reflexivity|].
  cbn [assoc_set map fst]. destruct (Z.eqb_spec x y) as [E|E].
  - subst. cbn [map fst]. destruct (in_dec Z.eq_dec y (y :: map fst d)) as [|n]; [reflexivity|exfalso; apply n; left; reflexivity].
  - cbn [map fst]. rewrite IH.
    destruct (in_dec Z.eq_dec x (map fst d)) as [i|n], (in_dec Z.eq_dec x (y :: map fst d)) as [i'|n']; auto.
    + exfalso; apply n'; right; assumption.
    + destruct i'; [congruence|contradiction].
Qed.
Lemma assoc_set_NoDup {V} x (c : V) d : NoDup (map fst d) -> NoDup (map fst (assoc_set Z.eqb x c d)).
Proof.
  intros H. rewrite assoc_set_keys. destruct (in_dec Z.eq_dec x (map fst d)); [assumption|].
  apply NoDup_rev in H. apply (NoDup_rev (_ ++ _)) || idtac.
  rewrite <- (rev_involutive (map fst d ++ [x])). apply NoDup_rev. rewrite rev_app_distr. simpl.
  constructor; [rewrite <- in_rev; assumption|assumption].
Qed.
Lemma assoc_set_Forall {V} (P : Z * V -> Prop) x c d : P (x, c) -> Forall P d -> Forall P (assoc_set Z.eqb x c d).
Proof.
  intros Hp HF. induction HF as [|[y w] d Hy HF IH]; simpl; [auto|].
  destruct (Z.eqb_spec x y); [subst; constructor; assumption|constructor; assumption].
Qed.

(** ** in-place combination *)
Lemma combine_unfold op k v n d o :
  combine_in_place op (CT k v n (Some d)) o =
  (d' <- mapM (fun xc : Z * ctnode =>
       c' <- match ct_children o with
             | None => Err TypeError
             | Some od => match assoc Z.eqb (fst xc) od with
                          | None => Ok (snd xc)
                          | Some oc => combine_in_place op (snd xc) oc end
             end ;; Ok (fst xc, c')) d ;;
   Ok (CT k v n (Some d'))).
Proof.
  cbn [combine_in_place].
  match goal with |- bind (?g d) _ = bind ?r _ => assert (E : g d = r); [|rewrite E; reflexivity] end.
  induction d as [|[x c] d IH]; [reflexivity|]. cbn [mapM fst snd].
  destruct (match ct_children o with
     | Some od => match assoc Z.eqb x od with Some oc => combine_in_place op c oc | None => Ok c end
     | None => Err TypeError end) as [c'|e]; cbn [bind]; [|reflexivity].
  rewrite IH. reflexivity.
Qed.

Lemma combine_ok op L : forall t o, ct_ok L t -> ct_ok L o ->
  exists t', combine_in_place op t o = Ok t' /\ ct_ok L t' /\ ct_value t' = ct_value t /\
    (forall ks, length ks = L ->
        look t' ks = match look t ks with
                     | None => None
                     | Some a => Some (match look o ks with Some b => op a b | None => a end) end).
Proof.
  induction L as [|L IH]; intros t o Ht Ho.
  - inversion Ht; subst. inversion Ho; subst. simpl.
    eexists; split; [reflexivity|]. split; [constructor|]. split; [reflexivity|].
    intros [|x ks] Hks; [reflexivity|discriminate].
  - inversion Ht as [|? k v n d HN HF]; subst. inversion Ho as [|? k' v' n' od HN' HF']; subst.
    rewrite combine_unfold. cbn [ct_children].
    assert (HM : exists d', mapM (fun xc : Z * ctnode =>
       c' <- match assoc Z.eqb (fst xc) od with
             | None => Ok (snd xc)
             | Some oc => combine_in_place op (snd xc) oc end ;; Ok (fst xc, c')) d = Ok d' /\
       Forall2 (fun xc yc => fst yc = fst xc /\ ct_value (snd yc) = fst yc /\ ct_ok L (snd yc) /\
          forall ks, length ks = L -> look (snd yc) ks =
             match look (snd xc) ks with None => None | Some a =>
               Some (match assoc Z.eqb (fst xc) od with
                     | Some oc => match look oc ks with Some b => op a b | None => a end
                     | None => a end) end) d d').
    { apply mapM_exists. intros [x c] Hin. rewrite Forall_forall in HF. destruct (HF _ Hin) as (Hv & Hc). cbn [fst snd] in *.
      destruct (assoc Z.eqb x od) as [oc|] eqn:E.
      - apply assoc_In in E. rewrite Forall_forall in HF'. destruct (HF' _ E) as (_ & Hoc). cbn [snd] in Hoc.
        destruct (IH c oc Hc Hoc) as (c' & Hc' & Hok' & Hv' & Hl'). rewrite Hc'. cbn [bind].
        eexists; split; [reflexivity|]. cbn [fst snd]. split; [reflexivity|]. split; [congruence|]. split; [assumption|].
        intros ks Hks. rewrite (Hl' ks Hks). reflexivity.
      - cbn [bind]. eexists; split; [reflexivity|]. cbn [fst snd]. repeat split; auto.
        intros ks Hks. destruct (look c ks); reflexivity. }
    destruct HM as (d' & Hd' & H2). rewrite Hd'. cbn [bind].
    assert (Hkeys : map fst d' = map fst d).
    { clear -H2. induction H2 as [|? ? ? ? (E & _) H2 IH]; simpl; [reflexivity|]. rewrite E, IH. reflexivity. }
    eexists; split; [reflexivity|]. split; [|split; [reflexivity|]].
    + constructor; [rewrite Hkeys; assumption|].
      clear -H2. induction H2 as [|? ? ? ? (E & Hv & Hok & _) H2 IH]; constructor; auto.
    + intros [|x ks] Hks; [discriminate|]. simpl in Hks. injection Hks as Hks. cbn [look ct_children].
      clear -H2 Hks. induction H2 as [|[x1 c1] [x2 c2] d d' (E & Hv & Hok & Hl) H2 IH]; [reflexivity|].
      cbn [fst snd] in *. subst x2. cbn [assoc]. destruct (Z.eqb_spec x x1).
      * subst x. rewrite Hl by assumption.
        destruct (look c1 ks); [|reflexivity]. f_equal. destruct (assoc Z.eqb x1 od); reflexivity.
      * exact IH.
Qed.

(** ** add_count_to_leaf *)
Definition fresh (t : ctnode) : Prop := ct_count t = None /\ ct_children t = None.

Lemma add_count_ok cnt : forall vals cols t,
  fresh t \/ ct_ok (length vals) t ->
  let t' := add_count_to_leaf cols vals cnt t in
  ct_ok (length vals) t' /\ ct_value t' = ct_value t /\
  forall ks, length ks = length vals ->
    look0 t' ks = look0 t ks + (if list_eq_dec Z.eq_dec ks vals then cnt else 0) /\
    (look t' ks = None <-> look t ks = None /\ ks <> vals).
Proof.
  induction vals as [|x vals IH]; intros cols t Ht; destruct t as [k v n ch]; cbn [add_count_to_leaf length].
  - destruct Ht as [(Hn & Hch)|Ht].
    + simpl in Hn, Hch; subst. split; [constructor|]. split; [reflexivity|].
      intros [|? ?] Hks; [|discriminate]. unfold look0. simpl.
      destruct (list_eq_dec Z.eq_dec [] []); [|congruence]. split; [lia|]. split; [discriminate|]. intros (_ & H); congruence.
    + inversion Ht; subst. split; [constructor|]. split; [reflexivity|].
      intros [|? ?] Hks; [|discriminate]. unfold look0; simpl.
      destruct (list_eq_dec Z.eq_dec [] []); [|congruence]. split; [lia|]. split; [discriminate|]. intros (H & _); congruence.
  - cbn [length] in Ht.
    set (old := match ch with Some d => assoc Z.eqb x d | None => None end).
    set (child := match old with Some c => c | None => CT (Z.of_nat (hd 0%nat cols)) x None None end).
    cbv zeta.
    assert (Hchild : (fresh child \/ ct_ok (length vals) child) /\ ct_value child = x).
    { unfold child, old. destruct Ht as [(Hn & Hch)|Ht].
      - simpl in Hch; subst. simpl. split; [left; split; reflexivity|reflexivity].
      - inversion Ht as [|? ? ? ? d HN HF]; subst. destruct (assoc Z.eqb x d) as [c|] eqn:E.
        + apply assoc_In in E. rewrite Forall_forall in HF. destruct (HF _ E). split; auto.
        + split; [left; split; reflexivity|reflexivity]. }
    destruct Hchild as (Hchild & Hcv).
    assert (Hlc : forall ks, look child ks = match match ch with Some d => assoc Z.eqb x d | None => None end with Some c => look c ks | None => None end).
    { intros ks. unfold child, old. destruct ch as [d|]; [destruct (assoc Z.eqb x d)|]; auto; destruct ks; reflexivity. }
    clearbody child. clear old.
    destruct (IH (tl cols) child Hchild) as (IHok & IHv & IHl). cbv zeta in *.
    set (child' := add_count_to_leaf (tl cols) vals cnt child) in *. clearbody child'.
    set (d' := match ch with None => [(x, child')] | Some d => assoc_set Z.eqb x child' d end).
    assert (Hd' : assoc Z.eqb x d' = Some child' /\ forall y, y <> x -> assoc Z.eqb y d' = match ch with Some d => assoc Z.eqb y d | None => None end).
    { unfold d'. destruct ch as [d|].
      - split; [apply assoc_set_same|]. intros; apply assoc_set_other; assumption.
      - simpl. rewrite Z.eqb_refl. split; [reflexivity|]. intros y Hy. destruct (Z.eqb_spec y x); [contradiction|reflexivity]. }
    split; [|split; [reflexivity|]].
    + unfold d'. clear Hd' d' Hlc. destruct Ht as [(Hn & Hch)|Ht].
      * simpl in Hch; subst ch. constructor; [simpl; constructor; [auto|constructor]|].
        constructor; [|constructor]. cbn [fst snd]. split; [congruence|assumption].
      * inversion Ht as [|? ? ? ? d HN HF]; subst. constructor; [apply assoc_set_NoDup; assumption|].
        apply assoc_set_Forall; [|assumption]. cbn [fst snd]. split; [congruence|assumption].
    + intros [|y ks] Hks; [discriminate|]. simpl in Hks. injection Hks as Hks.
      unfold look0. cbn [look ct_children]. fold d'. destruct Hd' as (Hs & Hoth).
      destruct (Z.eq_dec y x) as [->|Hne].
      * rewrite Hs. destruct (IHl ks Hks) as (IH1 & IH2). unfold look0 in IH1. rewrite IH1, IH2.
        rewrite Hlc. split.
        -- f_equal.
           ++ destruct ch; reflexivity.
           ++ destruct (list_eq_dec Z.eq_dec ks vals), (list_eq_dec Z.eq_dec (x :: ks) (x :: vals)); congruence.
        -- destruct ch as [d|]; split; intros (H1 & H2); split; auto; congruence.
      * rewrite (Hoth y Hne). destruct (list_eq_dec Z.eq_dec (y :: ks) (x :: vals)) as [E|E]; [congruence|].
        split; [destruct ch; lia|]. destruct ch; split; intros H; try split; try apply H; try reflexivity; congruence.
Qed.

(** ** from the tree to the dictionary *)
Fixpoint paths (t : ctnode) : list (list Z * option Z) :=
  match t with CT _ _ n ch =>
    match ch with
    | None => [([], n)]
    | Some d => flat_map (fun xc : Z * ctnode => map (fun p => (fst xc :: fst p, snd p)) (paths (snd xc))) d
    end
  end.

Definition keyeqb : list Z -> list Z -> bool := fun a b => if list_eq_dec Z.eq_dec a b then true else false.

Lemma assoc_set_fresh {V} k (v : V) d : ~ In k (map fst d) -> assoc_set keyeqb k v d = d ++ [(k, v)].
Proof.
  induction d as [|[k' v'] d IH]; simpl; intros H; [reflexivity|].
  unfold keyeqb at 1. destruct (list_eq_dec Z.eq_dec k k'); [subst; exfalso; apply H; auto|].
  f_equal. apply IH. intros Hin; apply H; auto.
Qed.

Lemma removelast_snoc {A} (l : list A) x : removelast (l ++ [x]) = l.
Proof. rewrite removelast_app by discriminate. simpl. apply app_nil_r. Qed.

Lemma convert_unfold k v n d key dict :
  convert (CT k v n (Some d)) key dict =
  (let key1 := if v =? -1 then key else key ++ [v] in
   kd <- foldM (fun kd xc => convert (snd xc) (fst kd) (snd kd)) d (key1, dict) ;;
   Ok (removelast (fst kd), snd kd)).
Proof.
  cbn [convert]. cbv zeta. set (key1 := if v =? -1 then key else key ++ [v]). clearbody key1.
  match goal with |- bind (?g d ?kd0) _ = _ => 
    assert (E : forall kd, g d kd = foldM (fun (kd : list Z * list (list Z * option Z)) (xc : Z * ctnode) => convert (snd xc) (fst kd) (snd kd)) d kd) end.
  { induction d as [|[x c] d IH]; intros kd; [reflexivity|]. cbn [foldM snd].
    destruct (convert c (fst kd) (snd kd)); cbn [bind]; [apply IH|reflexivity]. }
  rewrite E. destruct (foldM _ d (key1, dict)) as [[a b]|]; reflexivity.
Qed.

Lemma NoDup_app_inv {A} (l1 l2 : list A) : NoDup (l1 ++ l2) -> NoDup l1 /\ NoDup l2 /\ forall x, In x l1 -> ~ In x l2.
Proof.
  induction l1 as [|x l1 IH]; simpl; intros H; [repeat split; auto; constructor|].
  inversion H as [|? ? Hni HN]; subst. destruct (IH HN) as (A1 & A2 & A3). repeat split; auto.
  - constructor; auto. intros Hin; apply Hni; apply in_or_app; auto.
  - intros y [->|Hy]; [intros Hin; apply Hni; apply in_or_app; auto|auto].
Qed.
Lemma NoDup_app_intro {A} (l1 l2 : list A) : NoDup l1 -> NoDup l2 -> (forall x, In x l1 -> ~ In x l2) -> NoDup (l1 ++ l2).
Proof.
  induction l1 as [|x l1 IH]; simpl; intros H1 H2 H; [assumption|].
  inversion H1; subst. constructor; [|apply IH; auto]. intros Hin. apply in_app_or in Hin as [Hin|Hin]; [contradiction|].
  eapply H; eauto.
Qed.
Lemma NoDup_map_inj {A B} (f : A -> B) l : (forall x y, f x = f y -> x = y) -> NoDup l -> NoDup (map f l).
Proof.
  intros Hf. induction 1 as [|x l Hni HN IH]; simpl; constructor; auto.
  intros Hin. apply in_map_iff in Hin as (y & E & Hy). apply Hf in E; subst. contradiction.
Qed.

Lemma paths_spec L : forall t, ct_ok L t ->
  NoDup (map fst (paths t)) /\
  (forall p n, In (p, n) (paths t) <-> length p = L /\ look t p = n /\ n <> None).
Proof.
  induction L as [|L IH]; intros t Ht; inversion Ht as [|? k v n d HN HF]; subst.
  - simpl. split; [constructor; [auto|constructor]|]. intros p m. split.
    + intros [E|[]]; inversion E; subst. repeat split; discriminate.
    + intros (Hl & Hk & Hn). destruct p; [|discriminate]. simpl in Hk. subst. auto.
  - cbn [paths]. split.
    + rewrite Forall_forall in HF. clear Ht. induction d as [|[x c] d IHd]; [constructor|].
      simpl. rewrite map_app, map_map. simpl. inversion HN as [|? ? Hni HN']; subst.
      assert (HFd : forall xc, In xc d -> ct_value (snd xc) = fst xc /\ ct_ok L (snd xc)) by (intros; apply HF; right; assumption).
      specialize (IHd HN' HFd).
      apply NoDup_app_intro; [|assumption|].
      * rewrite <- (map_map fst (cons x)). apply NoDup_map_inj; [intros; congruence|].
        apply IH. apply (HF (x, c)). left; reflexivity.
      * intros p Hp Hp'. apply in_map_iff in Hp as (q & <- & Hq).
        apply in_map_iff in Hp' as ([p' n'] & E & Hp'). apply in_flat_map in Hp' as ([y cy] & Hy & Hp').
        apply in_map_iff in Hp' as ([p2 n2] & E2 & _). simpl in *. subst. inversion E2; subst.
        apply Hni. change x with (fst (x, cy)). apply in_map; assumption.
    + intros p m. rewrite in_flat_map. rewrite Forall_forall in HF. split.
      * intros ([x c] & Hin & Hp). apply in_map_iff in Hp as ([q m'] & E & Hq). simpl in E. inversion E; subst.
        destruct (HF _ Hin) as (_ & Hc). simpl in Hc, Hq. apply (IH c Hc) in Hq as (Hl & Hk & Hm).
        cbn [length look ct_children]. rewrite (In_assoc x d c) by assumption. repeat split; auto.
      * intros (Hl & Hk & Hm). destruct p as [|x q]; [discriminate|]. cbn [look ct_children] in Hk.
        destruct (assoc Z.eqb x d) as [c|] eqn:E; [|congruence]. apply assoc_In in E.
        exists (x, c). split; [assumption|]. apply in_map_iff. exists (q, m). split; [reflexivity|].
        cbn [snd]. destruct (HF _ E) as (_ & Hc). apply (IH c Hc). repeat split; auto.
Qed.

(** no node below the root has value -1 *)
Inductive no_m1 : ctnode -> Prop :=
| NM k v n ch : (forall d x c, ch = Some d -> In (x, c) d -> x <> -1 /\ no_m1 c) -> no_m1 (CT k v n ch).

Lemma convert_ok L : forall t key dict, ct_ok L t -> no_m1 t -> ct_value t <> -1 ->
  (forall p, In p (map fst (paths t)) -> ~ In ((key ++ [ct_value t]) ++ p) (map fst dict)) ->
  convert t key dict = Ok (key, dict ++ map (fun p => ((key ++ [ct_value t]) ++ fst p, snd p)) (paths t)).
Proof.
  induction L as [|L IH]; intros t key dict Ht Hm Hv Hdis; inversion Ht as [|? k v n d HN HF]; subst.
  - cbn [convert ct_value paths] in *. destruct (Z.eqb_spec v (-1)); [contradiction|].
    destruct (key ++ [v]) as [|a l] eqn:E; [destruct key; discriminate|]. rewrite <- E. cbn [bind].
    rewrite removelast_snoc. fold keyeqb. rewrite assoc_set_fresh.
    + simpl. rewrite app_nil_r. reflexivity.
    + specialize (Hdis [] (or_introl eq_refl)). rewrite <- E in Hdis. rewrite app_nil_r in Hdis. assumption.
  - rewrite convert_unfold. cbn [ct_value] in *. cbv zeta. destruct (Z.eqb_spec v (-1)); [contradiction|].
    set (key1 := key ++ [v]) in *.
    assert (HH : foldM (fun kd xc => convert (snd xc) (fst kd) (snd kd)) d (key1, dict) =
      Ok (key1, dict ++ map (fun p => (key1 ++ fst p, snd p)) (paths (CT k v n (Some d))))).
    { cbn [paths] in *. inversion Hm as [? ? ? ? Hd]; subst.
      assert (Hd' : forall x c, In (x, c) d -> x <> -1 /\ no_m1 c) by (intros; eapply Hd; eauto).
      clear Hd Hm Ht. revert dict Hdis. induction d as [|[x c] d IHd]; intros dict Hdis; [simpl; rewrite app_nil_r; reflexivity|].
      inversion HN as [|? ? Hni HN']; subst. inversion HF as [|? ? (Hcv & Hcok) HF']; subst. cbn [fst snd] in Hcv, Hcok.
      destruct (Hd' x c (or_introl eq_refl)) as (Hx & Hmc).
      cbn [foldM fst snd flat_map]. rewrite (IH c key1 dict Hcok Hmc).
      - cbn [bind]. rewrite IHd; auto.
        + f_equal. f_equal. rewrite <- app_assoc. f_equal. rewrite map_app. f_equal. rewrite map_map.
          apply map_ext. intros [p m]. cbn [fst snd]. rewrite Hcv. rewrite <- app_assoc. reflexivity.
        + intros; apply Hd'; right; assumption.
        + intros p Hp Hin. rewrite map_app in Hin. apply in_app_or in Hin as [Hin|Hin].
          * apply (Hdis p); [cbn [flat_map]; rewrite map_app; apply in_or_app; right; assumption|assumption].
          * rewrite map_map in Hin. apply in_map_iff in Hin as ([p2 m2] & E & _). cbn [fst] in E.
            rewrite <- app_assoc in E. apply app_inv_head in E. rewrite Hcv in E. simpl in E. subst p.
            apply in_map_iff in Hp as ([p3 m3] & E3 & Hp). apply in_flat_map in Hp as ([y cy] & Hy & Hp).
            apply in_map_iff in Hp as (p4 & E4 & _). cbn [fst snd] in *. assert (y = x) by congruence. subst y.
            apply Hni. change x with (fst (x, cy)). apply in_map; assumption.
      - congruence.
      - intros p Hp. rewrite Hcv, <- app_assoc. apply Hdis. cbn [flat_map]. rewrite map_app. apply in_or_app. left.
        rewrite map_map. apply in_map_iff in Hp as (pn & <- & Hp). apply in_map_iff. exists pn. split; [reflexivity|assumption]. }
    rewrite HH. cbn [bind fst snd]. unfold key1. rewrite removelast_snoc. reflexivity.
Qed.

Lemma convert_root L k n d : ct_ok (S L) (CT k (-1) n (Some d)) -> no_m1 (CT k (-1) n (Some d)) ->
  convert (CT k (-1) n (Some d)) [] [] = Ok ([], paths (CT k (-1) n (Some d))).
Proof.
  intros Ht Hm. rewrite convert_unfold. rewrite Z.eqb_refl. cbv zeta.
  inversion Ht as [|? ? ? ? ? HN HF]; subst.
  inversion Hm as [? ? ? ? Hd]; subst.
  assert (Hd' : forall x c, In (x, c) d -> x <> -1 /\ no_m1 c) by (intros; eapply Hd; eauto).
  clear Hd Hm Ht.
  enough (HH : forall dict, (forall p, In p (map fst (paths (CT k (-1) n (Some d)))) -> ~ In p (map fst dict)) ->
     foldM (fun kd xc => convert (snd xc) (fst kd) (snd kd)) d ([], dict) = Ok ([], dict ++ paths (CT k (-1) n (Some d)))).
  { rewrite HH; [reflexivity|]. simpl; auto. }
  cbn [paths]. induction d as [|[x c] d IHd]; intros dict Hdis; [simpl; rewrite app_nil_r; reflexivity|].
  inversion HN as [|? ? Hni HN']; subst. inversion HF as [|? ? (Hcv & Hcok) HF']; subst. cbn [fst snd] in Hcv, Hcok.
  destruct (Hd' x c (or_introl eq_refl)) as (Hx & Hmc).
  cbn [foldM fst snd flat_map]. rewrite (convert_ok L c [] dict Hcok Hmc).
  - cbn [bind]. rewrite IHd; auto.
    + f_equal. f_equal. rewrite <- app_assoc. f_equal. rewrite Hcv. reflexivity.
    + intros; apply Hd'; right; assumption.
    + intros p Hp Hin. rewrite map_app in Hin. apply in_app_or in Hin as [Hin|Hin].
      * apply (Hdis p); [cbn [flat_map]; rewrite map_app; apply in_or_app; right; assumption|assumption].
      * rewrite map_map in Hin. apply in_map_iff in Hin as ([p2 m2] & E & _). cbn [fst] in E. rewrite Hcv in E. simpl in E. subst p.
        apply in_map_iff in Hp as ([p3 m3] & E3 & Hp). apply in_flat_map in Hp as ([y cy] & Hy & Hp).
        apply in_map_iff in Hp as (p4 & E4 & _). cbn [fst snd] in *. assert (y = x) by congruence. subst y.
        apply Hni. change x with (fst (x, cy)). apply in_map; assumption.
  - congruence.
  - intros p Hp. rewrite Hcv. apply Hdis. cbn [flat_map]. rewrite map_app. apply in_or_app. left.
    rewrite map_map. apply in_map_iff in Hp as (pn & <- & Hp). apply in_map_iff. exists pn. split; [reflexivity|assumption].
Qed.
