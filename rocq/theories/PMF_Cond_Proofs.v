(** sum_over, condition_on, CPMF(variable, given). *)
From Coq Require Import Reals Lra.
From Verif Require Import Base Key_Model Key_Spec Key_Proofs PMF_Model Prob_Spec Prob_Proofs PMF_Proofs.
Open Scope R_scope.

(** ** accumulating into a dictionary *)
Definition grouped (l : list (pyobj * R)) (d : list (pyobj * R)) : Prop :=
  NoDup (map fst d) /\ (forall k r, In (k, r) d -> r = SumOf (fun kv => if pyobj_eqb k (fst kv) then snd kv else 0) l) /\
  (forall k, In k (map fst d) <-> In k (map fst l)).
Lemma add_to_ok l d k v : grouped l d -> grouped (l ++ [(k, v)]) (add_to d k v).
Proof.
  intros (HN & Hc & Hk). unfold add_to.
  assert (Hone : forall n, match assoc pyobj_eqb k d with Some m => n = m + v | None => n = v end -> grouped (l ++ [(k, v)]) (assoc_set pyobj_eqb k n d)).
  { intros n Hn. split; [apply kset_NoDup; assumption|]. split.
    - intros k' n' Hin. apply (kassoc_NoDup _ _ _ (kset_NoDup k n d HN)) in Hin. rewrite SumOf_app, SumOf_cons, SumOf_nil. cbn [fst snd].
      destruct (pyobj_eqb_spec k' k) as [->|Hne].
      + rewrite kset_same in Hin. injection Hin as <-.
        destruct (assoc pyobj_eqb k d) as [m|] eqn:E.
        * apply kassoc_In in E. rewrite <- (Hc k m E). lra.
        * apply kassoc_None in E. rewrite SumOf_zero; [lra|]. intros [k' v'] Hin'. cbn [fst snd]. destruct (pyobj_eqb_spec k k'); [|reflexivity]. subst k'.
          exfalso. apply E. apply Hk. apply (in_map fst) in Hin'. exact Hin'.
      + rewrite kset_other in Hin by assumption. apply kassoc_In in Hin. rewrite <- (Hc _ _ Hin). lra.
    - intros x. rewrite kset_keys, map_app, in_app_iff, Hk. simpl. intuition congruence. }
  destruct (assoc pyobj_eqb k d) eqn:E; apply Hone; reflexivity.
Qed.
Lemma add_to_fold l : forall m d, grouped m d -> grouped (m ++ l) (fold_left (fun d kv => add_to d (fst kv) (snd kv)) l d).
Proof.
  induction l as [|[k v] l IH]; intros m d H; simpl; [rewrite app_nil_r; assumption|].
  replace (m ++ (k, v) :: l) with ((m ++ [(k, v)]) ++ l) by (rewrite <- app_assoc; reflexivity). apply IH. apply add_to_ok; assumption.
Qed.
Lemma grouped_nil : grouped [] []. Proof. split; [constructor|]. split; [intros k r []|simpl; tauto]. Qed.

Lemma foldM_fold {A B} (f : B -> A -> res B) (g : B -> A -> B) l : (forall b x, In x l -> f b x = Ok (g b x)) -> forall b, foldM f l b = Ok (fold_left g l b).
Proof. induction l as [|x l IH]; intros H b; simpl; [reflexivity|]. rewrite H by (simpl; auto). simpl. apply IH. intros; apply H; simpl; auto. Qed.

Lemma fold_left_map {A B C} (f : C -> B -> C) (g : A -> B) l : forall c, fold_left f (map g l) c = fold_left (fun c a => f c (g a)) l c.
Proof. induction l as [|x l IH]; intros c; simpl; auto. Qed.
Lemma fold_left_ext_in {A B} (f g : B -> A -> B) l : (forall b x, In x l -> f b x = g b x) -> forall b, fold_left f l b = fold_left g l b.
Proof. induction l as [|x l IH]; intros H b; simpl; [reflexivity|]. rewrite H by (simpl; auto). apply IH. intros; apply H; simpl; auto. Qed.

Lemma remove_at_map {A B} (f : A -> B) l i : remove_at (map f l) i = map f (remove_at l i).
Proof. unfold remove_at. rewrite map_app, firstn_map, skipn_map. reflexivity. Qed.
Lemma remove_at_length {A} (l : list A) i : (i < length l)%nat -> length (remove_at l i) = (length l - 1)%nat.
Proof. intros H. unfold remove_at. rewrite app_length, firstn_length, skipn_length. lia. Qed.
Lemma index_of_lt x l i : index_of x l = Some i -> (i < length l)%nat.
Proof.
  revert i; induction l as [|y l IH]; intros i; simpl; [discriminate|]. destruct (Z.eqb_spec x y); [intros E; injection E as <-; lia|].
  destruct (index_of x l); simpl; [|discriminate]. intros E; injection E as <-. specialize (IH n0 eq_refl). lia.
Qed.
Lemma index_of_nth x l i : index_of x l = Some i -> nth_error l i = Some x.
Proof.
  revert i; induction l as [|y l IH]; intros i; simpl; [discriminate|]. destruct (Z.eqb_spec x y); [intros E; injection E as <-; subst; reflexivity|].
  destruct (index_of x l); simpl; [|discriminate]. intros E; injection E as <-. simpl. auto.
Qed.
Lemma index_of_In x l : In x l -> exists i, index_of x l = Some i.
Proof.
  induction l as [|y l IH]; simpl; [tauto|]. intros H. destruct (Z.eqb_spec x y); [eauto|]. destruct IH as (i & ->); [destruct H; [congruence|assumption]|]. simpl. eauto.
Qed.
Lemma index_of_NoDup l i x : NoDup l -> nth_error l i = Some x -> index_of x l = Some i.
Proof.
  intros HN Hx. assert (Hin : In x l) by (eapply nth_error_In; eauto). destruct (index_of_In x l Hin) as (j & Hj).
  assert (i = j); [|congruence]. apply (proj1 (NoDup_nth_error l) HN); [apply nth_error_Some; congruence|]. rewrite Hx. symmetry. apply index_of_nth; assumption.
Qed.

(** the table of a tuple of at least two variables has tuples as keys *)
Definition tuple_keys {V} (n : nat) (d : list (pyobj * V)) : Prop := forall k r, In (k, r) d -> length (leaves k) = n.
Lemma plain_tuple k n : k = as_key (leaves k) -> length (leaves k) = n -> (2 <= n)%nat -> k = PTup (map PInt (leaves k)).
Proof. intros Hk Hl Hn. rewrite Hk at 1. destruct (leaves k) as [|x [|y l]]; simpl in *; try lia. reflexivity. Qed.

Section SumOver.
  Context {A : Type} (S : space A).
  Hypothesis Hpos : forall a, In a (outcomes S) -> 0 <= weight S a.
  Lemma sum_over_ok T P ID i : distribution S T (probabilities P) -> plain_keys (probabilities P) ->
    tuple_keys (length (variableIDs P)) (probabilities P) -> (2 <= length (variableIDs P))%nat -> index_of ID (variableIDs P) = Some i ->
    exists P', sum_over P ID = Ok P' /\ distribution S (fun a => remove_at (T a) i) (probabilities P') /\ plain_keys (probabilities P') /\
      variableIDs P' = remove_at (variableIDs P) i /\ tuple_keys (length (variableIDs P')) (probabilities P').
  Proof.
    intros Hd Hp Hl H2 Hi. unfold sum_over. rewrite Hi. cbn [of_option bind].
    pose (g := fun kv : pyobj * R => (as_key (remove_at (leaves (fst kv)) i), snd kv)).
    assert (HF : foldM (fun d kv => nk <- remove_from_key (fst kv) i;; Ok (add_to d (process_pmf_key nk) (snd kv))) (probabilities P) [] =
                 Ok (fold_left (fun d kv => add_to d (fst kv) (snd kv)) (map g (probabilities P)) [])).
    { rewrite fold_left_map. apply foldM_fold. intros d [k r] Hin. cbn [fst snd].
      assert (Ek : k = PTup (map PInt (leaves k))) by (exact (plain_tuple k _ (Hp _ _ Hin) (Hl _ _ Hin) H2)).
      rewrite Ek at 1. cbn [remove_from_key bind]. rewrite process_key, remove_at_map, leaves_list_ints. reflexivity. }
    rewrite HF. cbn [bind]. eexists. split; [reflexivity|]. cbn [probabilities variableIDs].
    pose proof (add_to_fold (map g (probabilities P)) [] [] grouped_nil) as (HN & Hr & Hk). simpl app in Hr, Hk.
    set (d := fold_left _ _ _) in *.
    assert (Hkey : forall k r, In (k, r) d -> exists k' r', In (k', r') (probabilities P) /\ k = as_key (remove_at (leaves k') i)).
    { intros k r Hin. apply (in_map fst) in Hin. apply Hk in Hin. apply in_map_iff in Hin as (kv & E & Hin). apply in_map_iff in Hin as ([k' r'] & E' & Hin). subst kv. simpl in E. exists k', r'. auto. }
    assert (Hplain : plain_keys d) by (intros k r Hin; destruct (Hkey _ _ Hin) as (k' & r' & _ & ->); rewrite leaves_as_key; reflexivity).
    assert (Hlt : (i < length (variableIDs P))%nat) by (eapply index_of_lt; eauto).
    split; [|split; [assumption|split; [reflexivity|]]].
    - split; [apply plain_NoDup; assumption|]. split.
      + intros k r Hin. rewrite (Hr _ _ Hin). rewrite (Hplain _ _ Hin). rewrite leaves_as_key. rewrite SumOf_map. unfold g. cbn [fst snd].
        rewrite (SumOf_ext _ (fun kr => snd kr * (fun t => if eqv (remove_at t i) (leaves k) then 1 else 0) (leaves (fst kr)))).
        * rewrite (lotus S Hpos T _ (fun t => if eqv (remove_at t i) (leaves k) then 1 else 0) Hd). unfold pr1. rewrite pr_sum. apply SumOf_ext. intros a _. destruct (eqv (remove_at (T a) i) (leaves k)); ring.
        * intros [k' r'] Hin'. cbn [fst snd]. destruct (eqv (remove_at (leaves k') i) (leaves k)) eqn:E.
          -- apply eqv_true in E. rewrite E, pyobj_eqb_refl. ring.
          -- apply eqv_false in E. destruct (pyobj_eqb_spec (as_key (leaves k)) (as_key (remove_at (leaves k') i))) as [E'|E']; [apply as_key_inj in E'; congruence|ring].
      + intros v Hv. assert (Hpv : 0 < pr1 S (fun a => remove_at (T a) i) v) by (pose proof (pr1_nonneg S Hpos (fun a => remove_at (T a) i) v); lra).
        apply pr_witness in Hpv as (a & Ha & Hw & E); [|assumption]. apply eqv_true in E.
        destruct (proj2 (proj2 Hd) (T a)) as (k & r & Hin & Ek); [assert (0 < pr1 S T (T a)) by (apply pr1_at; assumption); lra|].
        assert (Hin' : In (as_key v) (map fst d)).
        { apply Hk. apply in_map_iff. exists (g (k, r)). split; [unfold g; cbn [fst]; rewrite Ek, E; reflexivity|apply in_map; assumption]. }
        apply in_map_iff in Hin' as ([k'' r''] & E'' & Hin''). simpl in E''. subst k''. exists (as_key v), r''. rewrite leaves_as_key. auto.
    - intros k r Hin. destruct (Hkey _ _ Hin) as (k' & r' & Hin' & ->). rewrite leaves_as_key, !remove_at_length; [rewrite (Hl _ _ Hin'); reflexivity|assumption|rewrite (Hl _ _ Hin'); assumption].
  Qed.
  (** a table of a single variable cannot be summed over *)
  Lemma sum_over_single P ID k r l x : variableIDs P = [x] -> probabilities P = (PInt k, r) :: l ->
    sum_over P ID = Err (if Z.eqb ID x then TypeError else ValueError).
  Proof. intros HI HP. unfold sum_over. rewrite HI, HP. simpl. destruct (Z.eqb ID x); reflexivity. Qed.
End SumOver.

(** ** conditional tables *)
(** the components of a tuple over [ids] that belong to the variables [cs] *)
Definition sel (ids cs : list Z) (t : list Z) : list Z := map (fun c => nth (match index_of c ids with Some i => i | None => O end) t 0%Z) cs.
Lemma sel_length ids cs t : length (sel ids cs t) = length cs. Proof. apply map_length. Qed.

Lemma kset_new {V} k (v : V) d : ~ In k (map fst d) -> assoc_set pyobj_eqb k v d = d ++ [(k, v)].
Proof.
  induction d as [|[k' v'] d IH]; simpl; intros H; [reflexivity|]. destruct (pyobj_eqb_spec k k'); [exfalso; apply H; left; congruence|].
  rewrite IH by tauto. reflexivity.
Qed.

(** items (zkey, varkey, joint_p) stored one by one *)
Definition store_all (q : pyobj -> R) (l : list (pyobj * pyobj * R)) : cpmf :=
  fold_left (fun C it => store_conditional C (fst (fst it)) (snd (fst it)) (snd it) (q (fst (fst it)))) l [].
Definition table_at (C : cpmf) (z : pyobj) : pmf := match assoc pyobj_eqb z C with Some P => P | None => empty_pmf end.
Lemma given_table C args : given C args = table_at C (as_key (leaves_list args)).
Proof. unfold given, table_at. rewrite process_key. reflexivity. Qed.
Definition rows_at (l : list (pyobj * pyobj * R)) (z : pyobj) := filter (fun it => pyobj_eqb z (fst (fst it))) l.
Lemma store_all_ok q l : NoDup (map fst l) -> forall z,
  probabilities (table_at (store_all q l) z) = if Req_EM_T (q z) 0 then [] else map (fun it => (snd (fst it), snd it / q z)) (rows_at l z).
Proof.
  induction l as [|it l IH] using rev_ind; intros HN z.
  - unfold store_all, table_at. simpl. destruct (Req_EM_T (q z) 0); reflexivity.
  - rewrite map_app in HN. assert (HN' : NoDup (map fst l)) by (apply NoDup_remove_1 in HN; rewrite app_nil_r in HN; exact HN).
    assert (Hni : ~ In (fst it) (map fst l)) by (apply NoDup_remove_2 in HN; rewrite app_nil_r in HN; exact HN).
    specialize (IH HN'). unfold store_all. rewrite fold_left_app. cbn [fold_left]. fold (store_all q l). set (C := store_all q l) in *.
    destruct it as [[z0 v0] r0]. cbn [fst snd] in *. unfold store_conditional. fold (table_at C z0).
    unfold rows_at. rewrite filter_app. cbn [filter fst snd]. unfold table_at at 1. destruct (pyobj_eqb_spec z z0) as [->|Hne].
    + rewrite kset_same. rewrite map_app. cbn [map fst snd]. specialize (IH z0). destruct (Req_EM_T (q z0) 0) as [E|E]; [assumption|].
      cbn [probabilities with_probabilities]. rewrite IH. apply kset_new. rewrite map_map. cbn [fst]. intros Hin. apply Hni.
      apply in_map_iff in Hin as ([[z1 v1] r1] & E1 & Hin). cbn [fst snd] in E1. subst v1. apply filter_In in Hin as (Hin & Ez). cbn [fst snd] in Ez. apply pyobj_eqb_eq in Ez. subst z1.
      apply in_map_iff. exists (z0, v0, r1). auto.
    + rewrite kset_other by assumption. fold (table_at C z). rewrite IH, app_nil_r. reflexivity.
Qed.

Lemma map_eq_in {A B} (f g : A -> B) l : map f l = map g l -> forall x, In x l -> f x = g x.
Proof. induction l as [|y l IH]; simpl; intros E x Hx; [contradiction|]. injection E as E1 E2. destruct Hx as [<-|Hx]; auto. Qed.

Section Condition.
  Context {A : Type} (S : space A).
  Hypothesis Hpos : forall a, In a (outcomes S) -> 0 <= weight S a.

  (** storing the entries of a joint table of T, split into a part X and a part Z that together
      determine the tuple *)
  Lemma split_table_ok T (d : list (pyobj * R)) (fx fz : list Z -> list Z) (vk : list Z -> pyobj) (q : pyobj -> R) :
    distribution S T d ->
    (forall t, leaves (vk t) = t) ->
    (forall k r k' r', In (k, r) d -> In (k', r') d -> fx (leaves k) = fx (leaves k') -> fz (leaves k) = fz (leaves k') -> leaves k = leaves k') ->
    (forall z, q (as_key z) = pr1 S (fun a => fz (T a)) z) ->
    forall C, C = store_all q (map (fun kr => (as_key (fz (leaves (fst kr))), vk (fx (leaves (fst kr))), snd kr)) d) ->
    forall z, let t := probabilities (table_at C (as_key z)) in
      (pr1 S (fun a => fz (T a)) z <> 0 -> conditional_distribution S (fun a => fx (T a)) (fun a => fz (T a)) z t) /\
      (pr1 S (fun a => fz (T a)) z = 0 -> t = []) /\
      (forall k r, In (k, r) t -> k = vk (leaves k)).
  Proof.
    intros Hd Hvk Hinj Hq C -> z. cbv zeta. destruct Hd as (HN & Hr & Hc).
    set (items := map _ d).
    assert (HNi : NoDup (map fst items)).
    { unfold items. rewrite map_map. cbn [fst]. assert (Hg : forall l, NoDup (map (fun kv : pyobj * R => leaves (fst kv)) l) -> (forall kr, In kr l -> In kr d) ->
        NoDup (map (fun kr : pyobj * R => (as_key (fz (leaves (fst kr))), vk (fx (leaves (fst kr))))) l)).
      { induction l as [|[k r] l IH]; intros HNl Hsub; simpl; [constructor|]. inversion HNl; subst. constructor; [|apply IH; [assumption|intros; apply Hsub; simpl; auto]].
        intros Hin. apply in_map_iff in Hin as ([k' r'] & E & Hin). cbn [fst] in *. injection E as E1 E2. apply as_key_inj in E1. apply (f_equal leaves) in E2. rewrite !Hvk in E2.
        apply H1. apply in_map_iff. exists (k', r'). split; [|assumption]. cbn [fst]. apply (Hinj k' r' k r); auto; apply Hsub; simpl; auto. }
      apply Hg; auto. }
    rewrite (store_all_ok q items HNi (as_key z)). rewrite Hq.
    assert (Hrows : forall it, In it (rows_at items (as_key z)) <-> exists k r, In (k, r) d /\ fz (leaves k) = z /\ it = (as_key z, vk (fx (leaves k)), r)).
    { intros it. unfold rows_at, items. rewrite filter_In, in_map_iff. split.
      - intros (([k r] & <- & Hin) & E). cbn [fst snd] in E. apply pyobj_eqb_eq in E. apply as_key_inj in E. exists k, r. rewrite E. auto.
      - intros (k & r & Hin & E & ->). split; [exists (k, r); cbn [fst snd]; rewrite E; auto|]. cbn [fst snd]. apply pyobj_eqb_refl. }
    destruct (Req_EM_T (pr1 S (fun a => fz (T a)) z) 0) as [Ez|Ez]; [split; [contradiction|split; [reflexivity|intros k r []]]|].
    split; [|split; [contradiction|]].
    2:{ intros k r Hin. apply in_map_iff in Hin as (it & E & Hin). apply Hrows in Hin as (k' & r' & Hin & E1 & ->). cbn [fst snd] in E. injection E as <- _. rewrite Hvk. reflexivity. }
    intros _.
    (* the probability of the entry of k is the joint probability of its parts *)
    assert (Hpr : forall k r, In (k, r) d -> fz (leaves k) = z -> r = pr2 S (fun a => fx (T a)) (fx (leaves k)) (fun a => fz (T a)) z).
    { intros k r Hin E. rewrite (Hr _ _ Hin). unfold pr1, pr2. rewrite !pr_sum. apply SumOf_ext. intros a Ha.
      destruct (Req_dec (weight S a) 0) as [E0|E0]; [rewrite E0; destruct (eqv (T a) (leaves k)), (_ && _)%bool; reflexivity|].
      destruct (eqv (T a) (leaves k)) eqn:E1.
      - apply eqv_true in E1. rewrite E1, E, !eqv_refl. reflexivity.
      - destruct (eqv (fx (T a)) (fx (leaves k))) eqn:E2; [|reflexivity]. destruct (eqv (fz (T a)) z) eqn:E3; [|reflexivity]. exfalso.
        apply eqv_true in E2, E3. apply eqv_false in E1. apply E1.
        destruct (Hc (T a)) as (k' & r' & Hin' & Ek'); [assert (0 < pr1 S T (T a)) by (apply pr1_at; [assumption|assumption|pose proof (Hpos a Ha); lra]); lra|].
        rewrite <- Ek' in *. apply (Hinj k' r' k r); congruence. }
    split; [|split].
    - rewrite map_map. cbn [fst].
      assert (Hg : forall l, NoDup (map fst l) -> (forall it, In it l -> exists k r, In (k, r) d /\ fz (leaves k) = z /\ it = (as_key z, vk (fx (leaves k)), r)) ->
         NoDup (map (fun it : pyobj * pyobj * R => leaves (snd (fst it))) l)).
      { induction l as [|it l IH]; intros HNl Hsub; simpl; [constructor|]. inversion HNl as [|? ? Hni HNl']; subst. constructor; [|apply IH; [assumption|intros; apply Hsub; simpl; auto]].
        intros Hin. apply in_map_iff in Hin as (it' & E & Hin). destruct (Hsub it) as (k & r & H1 & H2 & ->); [simpl; auto|]. destruct (Hsub it') as (k' & r' & H1' & H2' & ->); [simpl; auto|].
        cbn [fst snd] in E. rewrite !Hvk in E. apply Hni. apply in_map_iff. exists (as_key z, vk (fx (leaves k')), r'). split; [cbn [fst]; rewrite E; reflexivity|assumption]. }
      apply Hg; [|intros it Hin; apply Hrows; assumption].
      assert (Hs : forall (l : list (pyobj * pyobj * R)), NoDup (map fst l) -> NoDup (map fst (filter (fun it => pyobj_eqb (as_key z) (fst (fst it))) l))).
      { clear. induction l as [|it l IH]; simpl; intros HN; [constructor|]. inversion HN; subst. destruct (pyobj_eqb (as_key z) (fst (fst it))); simpl; auto.
        constructor; auto. intros Hin. apply H1. apply in_map_iff in Hin as (y & E & Hin). apply filter_In in Hin as (Hin & _). apply in_map_iff. eauto. }
      apply Hs. exact HNi.
    - intros k r Hin. apply in_map_iff in Hin as (it & E & Hin). apply Hrows in Hin as (k' & r' & Hin & E1 & ->). cbn [fst snd] in E. injection E as <- <-.
      rewrite Hvk, (Hpr _ _ Hin E1). reflexivity.
    - intros v Hv. assert (Hpv : 0 < pr2 S (fun a => fx (T a)) v (fun a => fz (T a)) z) by (pose proof (pr2_nonneg S Hpos (fun a => fx (T a)) v (fun a => fz (T a)) z); lra).
      apply pr_witness in Hpv as (a & Ha & Hw & E); [|assumption]. apply andb_true_iff in E as (E1 & E2). apply eqv_true in E1, E2.
      destruct (Hc (T a)) as (k & r & Hin & Ek); [assert (0 < pr1 S T (T a)) by (apply pr1_at; assumption); lra|].
      exists (vk (fx (leaves k))), (r / pr1 S (fun a => fz (T a)) z). split; [|rewrite Hvk, Ek; assumption].
      apply in_map_iff. exists (as_key z, vk (fx (leaves k)), r). split; [reflexivity|]. apply Hrows. exists k, r. rewrite Ek. auto.
  Qed.

  Lemma sel_determines ids cs ns t t' : NoDup ids -> (forall c, In c ids -> In c cs \/ In c ns) -> length t = length ids -> length t' = length ids ->
    sel ids cs t = sel ids cs t' -> sel ids ns t = sel ids ns t' -> t = t'.
  Proof.
    intros HN Hcov Hl Hl' E1 E2. apply nth_ext with (d := 0%Z) (d' := 0%Z); [congruence|]. intros i Hi. rewrite Hl in Hi.
    destruct (nth_error ids i) as [c|] eqn:Ec; [|apply nth_error_None in Ec; lia]. pose proof (index_of_NoDup _ _ _ HN Ec) as Hx.
    destruct (Hcov c) as [H|H]; [eapply nth_error_In; eauto| |].
    - apply (map_eq_in _ _ _ E1) in H. rewrite Hx in H. exact H.
    - apply (map_eq_in _ _ _ E2) in H. rewrite Hx in H. exact H.
  Qed.
  Lemma key_lookup ids cs t : incl cs ids -> length t = length ids ->
    mapM (fun v => i <- joint_index ids v;; key_at (PTup (map PInt t)) i) cs = Ok (map PInt (sel ids cs t)).
  Proof.
    intros Hs Hl. unfold sel. rewrite map_map. apply mapM_ok. intros c Hc. destruct (index_of_In c ids (Hs c Hc)) as (i & Hi).
    unfold joint_index. rewrite Hi. cbn [of_option bind key_at]. pose proof (index_of_lt _ _ _ Hi) as Hlt. rewrite <- Hl in Hlt.
    rewrite nth_error_map, (nth_error_nth' t 0%Z Hlt). reflexivity.
  Qed.
  Lemma unwrap_key l : unwrap (map PInt l) = as_key l.
  Proof. destruct l as [|x [|y l]]; reflexivity. Qed.

  Lemma condition_on_ok T P cond :
    let ids := variableIDs P in let cids := variableIDs cond in
    let nids := filter (fun v => negb (existsb (Z.eqb v) cids)) ids in
    NoDup ids -> cids <> [] -> incl cids ids -> (2 <= length ids)%nat ->
    distribution S T (probabilities P) -> plain_keys (probabilities P) -> tuple_keys (length ids) (probabilities P) ->
    distribution S (fun a => sel ids cids (T a)) (probabilities cond) -> plain_keys (probabilities cond) ->
    exists C, condition_on P cond = Ok C /\ forall z, let t := probabilities (given C [as_key z]) in
      (pr1 S (fun a => sel ids cids (T a)) z <> 0 -> conditional_distribution S (fun a => sel ids nids (T a)) (fun a => sel ids cids (T a)) z t) /\
      (pr1 S (fun a => sel ids cids (T a)) z = 0 -> t = []) /\
      (forall k r, In (k, r) t -> k = PTup (map PInt (leaves k))).
  Proof.
    cbv zeta. intros HN Hne Hincl H2 Hd Hp Hl Hdc Hpc. unfold condition_on.
    set (ids := variableIDs P) in *. set (nids := filter _ ids) in *.
    assert (Hsub : incl nids ids) by (intros c Hc; apply filter_In in Hc; tauto).
    pose (q := fun z => pmf_p cond [z]).
    exists (store_all q (map (fun kr => (as_key (sel ids (variableIDs cond) (leaves (fst kr))), PTup (map PInt (sel ids nids (leaves (fst kr)))), snd kr)) (probabilities P))).
    split.
    - destruct (variableIDs cond) as [|c0 cs] eqn:Ecs; [congruence|].
      unfold store_all. rewrite fold_left_map. cbn [fst snd]. apply foldM_fold. intros C [k r] Hin. cbn [fst snd].
      assert (Ek : k = PTup (map PInt (leaves k))) by (exact (plain_tuple k _ (Hp _ _ Hin) (Hl _ _ Hin) H2)).
      pose proof (Hl _ _ Hin) as Hlk. clear Hin. revert Ek Hlk. generalize (leaves k). intros t -> Hlk. rewrite key_lookup by auto. cbn [bind]. fold nids. rewrite key_lookup by auto. cbn [bind]. rewrite unwrap_key. reflexivity.
    - intros z. rewrite given_table. change (leaves_list [as_key z]) with (leaves (as_key z) ++ []). rewrite leaves_as_key, app_nil_r.
      refine (split_table_ok T (probabilities P) (sel ids nids) (sel ids (variableIDs cond)) (fun t => PTup (map PInt t)) q Hd _ _ _ _ eq_refl z).
      + intros t. rewrite leaves_tup. apply leaves_list_ints.
      + intros k r k' r' Hin Hin' E1 E2. apply (sel_determines ids nids (variableIDs cond)); auto; [|apply (Hl _ _ Hin)|apply (Hl _ _ Hin')].
        intros c Hc. destruct (existsb (Z.eqb c) (variableIDs cond)) eqn:E; [right; apply existsb_exists in E as (y & Hy & Ey); apply Z.eqb_eq in Ey; subst; assumption|].
        left. apply filter_In. split; [assumption|]. rewrite E. reflexivity.
      + intros v. unfold q. rewrite (pmf_p_ok S _ cond _ Hpos Hdc Hpc). unfold leaves_list. simpl flat_map. rewrite app_nil_r, leaves_as_key. reflexivity.
  Qed.
End Condition.
