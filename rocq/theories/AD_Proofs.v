(** Proofs about AD-tree counting. *)
From Verif Require Import Base AD_Model AD_Spec.
Open Scope Z_scope.

Section P.
Variable D : dataset.
Hypothesis WF : wf_dataset D.

Definition inrange (S : list nat) : Prop := Forall (fun r => (r < nrows D)%nat) S.

Lemma cell_ok r c : (r < nrows D)%nat -> (c < ncols D)%nat -> exists x, cell D r c = Ok x.
Proof.
  intros Hr Hc. unfold cell.
  destruct (nth_error (rows D) r) as [row|] eqn:E.
  - assert (Hl : length row = ncols D).
    { pose proof (wf_rect D WF) as HF. rewrite Forall_forall in HF. apply HF. eapply nth_error_In; eauto. }
    destruct (nth_error row c) as [x|] eqn:E2; [eexists; reflexivity|].
    apply nth_error_None in E2. lia.
  - apply nth_error_None in E. unfold nrows in Hr. lia.
Qed.

Lemma cell_in_vals r c x vs : (c < ncols D)%nat -> colvals D c = Some vs -> cell D r c = Ok x -> In x vs.
Proof.
  intros Hc Hvs Hx. destruct (wf_vals D WF c Hc) as (vs' & Hvs' & _ & _ & Hcov).
  rewrite Hvs in Hvs'; inversion Hvs'; subst vs'.
  unfold cell in Hx. destruct (nth_error (rows D) r) as [row|] eqn:E; [|discriminate].
  destruct (nth_error row c) as [y|] eqn:E2; simpl in Hx; [|discriminate]. inversion Hx; subst.
  eapply Hcov; eauto. eapply nth_error_In; eauto.
Qed.

(** row index r agrees with the query *)
Definition rmatch (q : query) (r : nat) : bool :=
  forallb (fun kv => has_value D (fst kv) (snd kv) r) q.
Definition nmatch (S : list nat) (q : query) : Z := Z.of_nat (length (filter (rmatch q) S)).

Lemma rmatch_row q r row : nth_error (rows D) r = Some row -> rmatch q r = row_agrees q row.
Proof.
  intros H. unfold rmatch, row_agrees. induction q as [|[c v] q IH]; simpl; [reflexivity|].
  rewrite IH. f_equal. unfold has_value, cell. rewrite H. destruct (nth_error row c); reflexivity.
Qed.

Lemma nmatch_all_gen q l pre : rows D = pre ++ l ->
  length (filter (rmatch q) (seq (length pre) (length l))) = length (filter (row_agrees q) l).
Proof.
  revert pre; induction l as [|row l IH]; intros pre H; simpl; [reflexivity|].
  assert (Hn : nth_error (rows D) (length pre) = Some row).
  { rewrite H, nth_error_app2, Nat.sub_diag by lia. reflexivity. }
  rewrite (rmatch_row q _ row Hn).
  specialize (IH (pre ++ [row])). rewrite app_length in IH; simpl in IH.
  rewrite Nat.add_1_r in IH. rewrite <- app_assoc in IH. specialize (IH H).
  destruct (row_agrees q row); simpl; rewrite IH; reflexivity.
Qed.

Lemma nmatch_all q : nmatch (seq 0 (nrows D)) q = count_matching D q.
Proof.
  unfold nmatch, count_matching. f_equal. apply (nmatch_all_gen q (rows D) []). reflexivity.
Qed.

Lemma nmatch_nil S : nmatch S [] = Z.of_nat (length S).
Proof. unfold nmatch. f_equal. induction S; simpl; auto. Qed.

Lemma filter_filter {A} (f g : A -> bool) l : filter f (filter g l) = filter (fun x => g x && f x) l.
Proof.
  induction l as [|x l IH]; simpl; [reflexivity|].
  destruct (g x) eqn:E; simpl; rewrite ?IH; destruct (f x); reflexivity.
Qed.

Lemma filter_ext_in' {A} (f g : A -> bool) l : (forall x, In x l -> f x = g x) -> filter f l = filter g l.
Proof.
  induction l as [|x l IH]; simpl; intros H; [reflexivity|].
  rewrite (H x) by auto. rewrite IH by auto. reflexivity.
Qed.

Lemma rmatch_remove q c v r : NoDup (map fst q) -> In (c, v) q ->
  rmatch q r = (has_value D c v r && rmatch (qremove c q) r)%bool.
Proof.
  unfold rmatch, qremove. induction q as [|[c' v'] q IH]; simpl; intros HN Hin; [contradiction|].
  inversion HN as [|? ? Hni HN']; subst.
  destruct Hin as [E|Hin].
  - inversion E; subst. rewrite Nat.eqb_refl; simpl. f_equal.
    assert (Hq : filter (fun kv => negb (fst kv =? c)%nat) q = q).
    { rewrite <- (filter_ext_in' (fun _ => true)).
      - clear. induction q; simpl; congruence.
      - intros [a b] Hab; simpl. destruct (Nat.eqb_spec a c); [|reflexivity].
        subst. exfalso; apply Hni. change c with (fst (c, b)). apply in_map; assumption. }
    rewrite Hq. reflexivity.
  - assert (c' <> c). { intros ->. apply Hni. change c with (fst (c, v)). apply in_map; assumption. }
    rewrite IH by assumption. destruct (Nat.eqb_spec c' c); [contradiction|]. simpl.
    destruct (has_value D c' v' r), (has_value D c v r); reflexivity.
Qed.

Lemma nmatch_remove S q c v : NoDup (map fst q) -> In (c, v) q ->
  nmatch S q = nmatch (subsel D S c v) (qremove c q).
Proof.
  intros HN Hin. unfold nmatch, subsel. rewrite filter_filter. f_equal. f_equal.
  apply filter_ext_in'. intros r _. apply rmatch_remove; assumption.
Qed.

Lemma zsum_pick (x a : Z) (f : Z -> Z) vs : NoDup vs -> In x vs ->
  zsum (map (fun v => (if x =? v then a else 0) + f v) vs) = a + zsum (map f vs).
Proof.
  induction vs as [|v vs IH]; simpl; [contradiction|]. intros HN Hin.
  inversion HN as [|? ? Hni HN']; subst. destruct (Z.eqb_spec x v).
  - subst. enough (zsum (map (fun w => (if v =? w then a else 0) + f w) vs) = zsum (map f vs)) by lia.
    f_equal. apply map_ext_in. intros w Hw. destruct (Z.eqb_spec v w); [subst; contradiction|lia].
  - destruct Hin as [E|Hin]; [congruence|]. rewrite IH by assumption. lia.
Qed.

(** partition of a selection by the values of a column *)
Lemma nmatch_partition S q c vs : inrange S -> (c < ncols D)%nat -> colvals D c = Some vs ->
  nmatch S q = zsum (map (fun v => nmatch (subsel D S c v) q) vs).
Proof.
  intros HS Hc Hvs. destruct (wf_vals D WF c Hc) as (vs' & Hvs' & HN & _ & _).
  rewrite Hvs in Hvs'; inversion Hvs'; subst vs'; clear Hvs'.
  assert (Hin : forall r, In r S -> exists x, cell D r c = Ok x /\ In x vs).
  { intros r Hr. unfold inrange in HS. rewrite Forall_forall in HS. destruct (cell_ok r c (HS r Hr) Hc) as (x & Hx).
    exists x; split; [assumption|]. eapply cell_in_vals; eauto. }
  clear HS. induction S as [|r S IH]; simpl.
  - unfold nmatch; simpl. clear. induction vs; simpl; lia.
  - destruct (Hin r (or_introl eq_refl)) as (x & Hx & Hxin).
    unfold nmatch in *. simpl.
    assert (IH' := IH (fun r' H => Hin r' (or_intror H))). clear IH.
    unfold subsel in *.
    assert (Hsum : zsum (map (fun v => Z.of_nat (length (filter (rmatch q) (filter (has_value D c v) (r :: S))))) vs)
       = (if rmatch q r then 1 else 0) + zsum (map (fun v => Z.of_nat (length (filter (rmatch q) (filter (has_value D c v) S)))) vs)).
    { rewrite <- (zsum_pick x) by assumption. f_equal. apply map_ext. intros v. cbn [filter].
      unfold has_value at 1. rewrite Hx. destruct (x =? v); [|lia]. cbn [filter].
      destruct (rmatch q r); cbn [length]; lia. }
    cbn [filter] in Hsum.
    rewrite Hsum, <- IH'. destruct (rmatch q r); simpl length; lia.
Qed.

Lemma subsel_inrange S c v : inrange S -> inrange (subsel D S c v).
Proof.
  unfold inrange, subsel. rewrite !Forall_forall. intros H r Hr. apply filter_In in Hr. apply H, Hr.
Qed.

(** ** The invariant of a node: it is the node the dataset dictates for the selection S. *)
Variable dyn : bool.

Inductive ok_ad : list nat -> nat -> adnode -> Prop :=
| OkAD S c cnt col v leaf sel vs :
    cnt = Z.of_nat (length S) ->
    leaf = (cnt <? threshold D) ->
    (leaf = true -> sel = Some S) ->
    (dyn = true -> eff_sel D sel = S) ->
    (leaf = false -> dyn = false -> forall c', (c <= c' < ncols D)%nat -> exists vy, find_vary c' vs = Some vy) ->
    (leaf = false -> forall c' vy, (c <= c' < ncols D)%nat -> find_vary c' vs = Some vy -> ok_vary S vy) ->
    (forall c' vy, find_vary c' vs = Some vy -> (c' < ncols D)%nat) ->
    ok_ad S c (AD cnt col v leaf sel vs)
with ok_vary : list nat -> varynode -> Prop :=
| OkVary S c vals mcv ch :
    (c < ncols D)%nat ->
    colvals D c = Some vals -> In mcv vals ->
    Forall2 (ok_child S c mcv) vals ch ->
    ok_vary S (Vary c vals mcv ch)
with ok_child : list nat -> nat -> Z -> Z -> option adnode -> Prop :=
| OkNone S c mcv v : v = mcv \/ subsel D S c v = [] -> ok_child S c mcv v None
| OkSome S c mcv v n : v <> mcv -> subsel D S c v <> [] -> ad_value n = v -> ad_col n = Z.of_nat c ->
    ok_ad (subsel D S c v) (Datatypes.S c) n -> ok_child S c mcv v (Some n).

Lemma ok_count S c n : ok_ad S c n -> ad_count n = Z.of_nat (length S).
Proof. intros H; inversion H; subst; reflexivity. Qed.

Lemma py_max_in {A} (key : A -> Z) l m : py_max key l = Ok m -> In m l.
Proof.
  destruct l as [|x l]; simpl; [discriminate|]. intros H; inversion H; subst; clear H.
  assert (HH : forall l b, let r := fold_left (fun best y => if key best <? key y then y else best) l b in r = b \/ In r l).
  { clear. induction l as [|y l IH]; simpl; intros b; [auto|].
    destruct (IH (if key b <? key y then y else b)) as [E|E]; [|auto].
    rewrite E. destruct (key b <? key y); auto. }
  destruct (HH l x); auto.
Qed.

Lemma py_max_ok {A} (key : A -> Z) l : l <> [] -> exists m, py_max key l = Ok m.
Proof. destruct l; [congruence|]. simpl. eauto. Qed.

Lemma make_vary_ok mk sel c :
  (c < ncols D)%nat ->
  (forall v, let s := subsel D (eff_sel D sel) c v in s <> [] ->
     exists n, mk v s = Ok n /\ ad_value n = v /\ ad_col n = Z.of_nat c /\ ok_ad s (Datatypes.S c) n) ->
  exists vy, make_vary D mk sel c = Ok vy /\ v_col vy = c /\ ok_vary (eff_sel D sel) vy.
Proof.
  intros Hc Hmk. unfold make_vary. destruct (Nat.leb_spec (ncols D) c); [lia|].
  destruct (wf_vals D WF c Hc) as (vals & Hvals & HN & Hne & Hcov). rewrite Hvals; simpl.
  destruct (py_max_ok (fun v => Z.of_nat (length (subsel D (eff_sel D sel) c v))) vals Hne) as (m & Hm).
  rewrite Hm; simpl.
  match goal with |- context [mapM ?f vals] =>
    destruct (mapM_exists f (ok_child (eff_sel D sel) c m) vals) as (ch & Hch & HF) end.
  { intros v Hv. cbv zeta. destruct (Nat.ltb_spec 0 (length (subsel D (eff_sel D sel) c v))); simpl.
    - destruct (Z.eqb_spec v m); simpl.
      + eexists; split; [reflexivity|]. constructor; auto.
      + destruct (Hmk v) as (n' & Hn & H1 & H2 & H3). { intros E; rewrite E in *; simpl in *; lia. }
        rewrite Hn; simpl. eexists; split; [reflexivity|]. econstructor; eauto.
        intros E; rewrite E in *; simpl in *; lia.
    - eexists; split; [reflexivity|]. constructor. right.
      destruct (subsel D (eff_sel D sel) c v); simpl in *; [reflexivity|lia]. }
  rewrite Hch; simpl. eexists; split; [reflexivity|]. split; [reflexivity|].
  constructor; auto. eapply py_max_in; eauto.
Qed.

Lemma node_count_eff sel : node_count D sel = Z.of_nat (length (eff_sel D sel)).
Proof. destruct sel; simpl; [reflexivity|]. rewrite seq_length. reflexivity. Qed.

Lemma find_vary_app c vs ws : find_vary c (vs ++ ws) =
  match find_vary c vs with Some v => Some v | None => find_vary c ws end.
Proof. induction vs as [|v vs IH]; simpl; [reflexivity|]. destruct (v_col v =? c)%nat; auto. Qed.

(** the static construction establishes the invariant *)
Lemma build_varys_ok k : (k <= ncols D)%nat -> dyn = false ->
  forall sel, exists vs, build_varys D k sel = Ok vs /\
   (forall c', (ncols D - k <= c' < ncols D)%nat -> exists vy, find_vary c' vs = Some vy /\ ok_vary (eff_sel D sel) vy) /\
   (forall c' vy, find_vary c' vs = Some vy -> (c' < ncols D)%nat).
Proof.
  intros Hk Hdyn. induction k as [|k IH]; intros sel; cbn [build_varys].
  - exists []. split; [reflexivity|]. split; [intros; lia|intros c' vy E; discriminate E].
  - set (c := (ncols D - Datatypes.S k)%nat).
    destruct (make_vary_ok (fun value s => mk_ad D (Z.of_nat c) value (Some s) (build_varys D k)) sel c)
      as (vy & Hvy & Hcol & Hok).
    { unfold c; lia. }
    { intros v s Hs. unfold mk_ad. destruct (is_leaf D (Some s)) eqn:El.
      - eexists; split; [reflexivity|]. split; [reflexivity|]. split; [reflexivity|].
        unfold is_leaf in El. econstructor; eauto; try discriminate.
      - destruct (IH ltac:(lia) (Some s)) as (vs & Hvs & Hall & Hlim). rewrite Hvs; simpl.
        eexists; split; [reflexivity|]. split; [reflexivity|]. split; [reflexivity|].
        unfold is_leaf in El. econstructor; eauto; try congruence.
        + intros _ _ c' Hc'. destruct (Hall c') as (w & Hw & _); [unfold c in *; lia|]. eauto.
        + intros _ c' w Hc' Hw. destruct (Hall c') as (w' & Hw' & Hok'); [unfold c in *; lia|].
          rewrite Hw in Hw'; inversion Hw'; subst. exact Hok'. }
    rewrite Hvy; simpl. destruct (IH ltac:(lia) sel) as (vs & Hvs & Hall & Hlim). rewrite Hvs; simpl.
    eexists; split; [reflexivity|]. split; [intros c' Hc'|intros c' w]; simpl; destruct (Nat.eqb_spec (v_col vy) c').
    + eexists; split; [reflexivity|]. assumption.
    + apply Hall. unfold c in *. lia.
    + intros _. unfold c in *. lia.
    + apply Hlim.
Qed.

Lemma build_tree_ok : threshold_ok D ->
  exists t, build_tree D dyn = Ok t /\ ok_ad (seq 0 (nrows D)) 0 t /\ ad_value t = -1 /\ ad_col t = -1.
Proof.
  intros Hthr. unfold build_tree, mk_ad, is_leaf, node_count.
  unfold threshold_ok in Hthr. fold (nrows D) in Hthr.
  destruct (Z.ltb_spec (Z.of_nat (nrows D)) (threshold D)); [lia|].
  unfold create_varys. destruct dyn eqn:Ed.
  - simpl. eexists; split; [reflexivity|]. split; [|auto].
    econstructor.
    + rewrite seq_length; reflexivity.
    + symmetry; apply Z.ltb_ge; lia.
    + discriminate.
    + reflexivity.
    + congruence.
    + intros _ c' vy _ Hf; discriminate.
    + intros c' vy Hf; discriminate Hf.
  - destruct (build_varys_ok (ncols D) (le_n _) Ed None) as (vs & Hvs & Hall & Hlim). rewrite Hvs; simpl.
    eexists; split; [reflexivity|]. split; [|auto]. rewrite Nat.sub_diag in Hall.
    econstructor.
    + rewrite seq_length; reflexivity.
    + symmetry; apply Z.ltb_ge; lia.
    + discriminate.
    + congruence.
    + intros _ _ c' Hc'. destruct (Hall c' Hc') as (w & Hw & _); eauto.
    + intros _ c' w Hc' Hw. destruct (Hall c' Hc') as (w' & Hw' & Hok'). rewrite Hw in Hw'; inversion Hw'; subst. exact Hok'.
    + exact Hlim.
Qed.

(** ** leaf lists *)
Lemma row_matches_ok r q : (r < nrows D)%nat -> (forall c v, In (c, v) q -> (c < ncols D)%nat) ->
  row_matches D r q = Ok (rmatch q r).
Proof.
  intros Hr Hq. unfold row_matches, rmatch.
  enough (HH : forall b, foldM (fun (m : bool) (kv : nat * Z) => x <- cell D r (fst kv);; Ok (if x =? snd kv then m else false)) q b
     = Ok (b && forallb (fun kv => has_value D (fst kv) (snd kv) r) q)%bool) by apply HH.
  induction q as [|[c v] q IH]; intros b; simpl.
  - rewrite andb_true_r; reflexivity.
  - destruct (cell_ok r c Hr (Hq c v (or_introl eq_refl))) as (x & Hx). rewrite Hx; simpl.
    rewrite IH by (intros; eapply Hq; right; eauto).
    unfold has_value at 2. rewrite Hx. destruct (x =? v), b; reflexivity.
Qed.

Lemma count_leaf_ok S q : inrange S -> (forall c v, In (c, v) q -> (c < ncols D)%nat) ->
  count_leaf D q (Some S) = Ok (nmatch S q).
Proof.
  intros HS Hq. unfold count_leaf, nmatch.
  enough (HH : forall n, foldM (fun n r => b <- row_matches D r q;; Ok (if b : bool then n + 1 else n)) S n
     = Ok (n + Z.of_nat (length (filter (rmatch q) S)))) by (rewrite HH; reflexivity).
  induction S as [|r S IH]; intros n; simpl.
  - f_equal; lia.
  - inversion HS; subst. rewrite row_matches_ok by assumption. simpl. rewrite IH by assumption.
    destruct (rmatch q r); simpl length; f_equal; lia.
Qed.

(** ** lookups and updates *)
Lemma ok_find_child S c mcv vals ch v : Forall2 (ok_child S c mcv) vals ch -> NoDup vals ->
  match find_child v ch with
  | Some n => In v vals /\ ok_child S c mcv v (Some n)
  | None => (In v vals -> v = mcv \/ subsel D S c v = [])
  end.
Proof.
  intros HF HN. induction HF as [|w o vals ch Ho HF IH]; simpl; [contradiction|].
  inversion HN as [|? ? Hni HN']; subst. specialize (IH HN').
  destruct o as [n|].
  - inversion Ho as [|? ? ? ? ? Hne Hnn Hv Hcol Hok]; subst.
    destruct (Z.eqb_spec (ad_value n) v).
    + subst v. split; [auto|]. exact Ho.
    + destruct (find_child v ch).
      * destruct IH; split; auto.
      * intros [E|Hin]; [congruence|auto].
  - inversion Ho; subst. destruct (find_child v ch).
    + destruct IH; split; auto.
    + intros [E|Hin]; [subst|]; auto.
Qed.

Lemma ok_put_child S c mcv vals ch v n n' : Forall2 (ok_child S c mcv) vals ch ->
  find_child v ch = Some n -> ok_child S c mcv v (Some n') ->
  Forall2 (ok_child S c mcv) vals (put_child v n' ch).
Proof.
  intros HF. induction HF as [|w o vals ch Ho HF IH]; simpl; [discriminate|].
  intros Hf Hn'. destruct o as [m|].
  - inversion Ho as [|? ? ? ? ? Hne Hnn Hv Hcol Hok]; subst. destruct (Z.eqb_spec (ad_value m) v).
    + subst. constructor; assumption.
    + constructor; auto.
  - constructor; auto.
Qed.

Lemma find_put_same vy vs : (exists w, find_vary (v_col vy) vs = Some w) -> find_vary (v_col vy) (put_vary vy vs) = Some vy.
Proof.
  induction vs as [|w vs IH]; simpl; intros (u & Hu); [discriminate|].
  destruct (Nat.eqb_spec (v_col w) (v_col vy)).
  - simpl. rewrite Nat.eqb_refl. reflexivity.
  - simpl. destruct (Nat.eqb_spec (v_col w) (v_col vy)); [contradiction|]. apply IH; eauto.
Qed.
Lemma find_put_other vy vs c : c <> v_col vy -> find_vary c (put_vary vy vs) = find_vary c vs.
Proof.
  intros Hc. induction vs as [|w vs IH]; simpl; [reflexivity|].
  destruct (Nat.eqb_spec (v_col w) (v_col vy)); simpl.
  - destruct (Nat.eqb_spec (v_col vy) c); [congruence|]. destruct (Nat.eqb_spec (v_col w) c); [congruence|]. reflexivity.
  - rewrite IH. reflexivity.
Qed.

(** replacing a Vary child by another good one keeps the node good *)
Lemma ok_put_vary S c node vy c' :
  ok_ad S c node -> v_col vy = c' -> (c <= c')%nat ->
  (exists w, find_vary c' (ad_varys node) = Some w) ->
  ok_vary S vy -> ok_ad S c (set_varys node (put_vary vy (ad_varys node))).
Proof.
  intros Hok <- Hc Hex Hvy. inversion Hok as [? ? cnt col v leaf sel vs H1 H2 H3 H4 H5 H6 H7]; subst; simpl in *.
  econstructor; eauto.
  - intros Hl Hd c' Hc'. destruct (Nat.eq_dec c' (v_col vy)) as [->|Hne].
    + eexists. apply find_put_same; assumption.
    + rewrite find_put_other by assumption. eauto.
  - intros Hl c' w Hc' Hw. destruct (Nat.eq_dec c' (v_col vy)) as [->|Hne].
    + rewrite find_put_same in Hw by assumption. inversion Hw; subst; assumption.
    + rewrite find_put_other in Hw by assumption. eauto.
  - intros c' w Hw. destruct (Nat.eq_dec c' (v_col vy)) as [->|Hne].
    + destruct Hex as (u & Hu). eauto.
    + rewrite find_put_other in Hw by assumption. eauto.
Qed.

Lemma get_vary_ok S c node c' :
  ok_ad S c node -> ad_leaf node = false -> (c <= c' < ncols D)%nat ->
  exists vy node', get_vary D dyn c' node = Ok (vy, node') /\ v_col vy = c' /\ ok_vary S vy /\
    ok_ad S c node' /\ find_vary c' (ad_varys node') = Some vy /\
    ad_count node' = ad_count node /\ ad_value node' = ad_value node /\ ad_col node' = ad_col node /\ ad_leaf node' = false.
Proof.
  intros Hok Hleaf Hc'. unfold get_vary.
  assert (Hcol : forall cc vs w, find_vary cc vs = Some w -> v_col w = cc).
  { clear. induction vs as [|u vs IH]; simpl; [discriminate|]. intros w.
    destruct (Nat.eqb_spec (v_col u) cc); auto. intros E; inversion E; congruence. }
  destruct (find_vary c' (ad_varys node)) as [vy|] eqn:Ef.
  - exists vy, node. inversion Hok as [? ? cnt col v leaf sel vs H1 H2 H3 H4 H5 H6 H7]; subst; simpl in *.
    repeat split; eauto.
  - inversion Hok as [? ? cnt col v leaf sel vs H1 H2 H3 H4 H5 H6 H7]; subst.
    cbn [ad_varys ad_leaf ad_sel ad_value ad_col ad_count set_varys] in *.
    destruct dyn eqn:Ed.
    + assert (HSs : S = eff_sel D sel) by (symmetry; auto).
      destruct (make_vary_ok (fun value s => mk_ad D (Z.of_nat c') value (Some s) (fun _ => Ok [])) sel c')
        as (vy & Hvy & Hvc & Hvok).
      { lia. }
      { intros w s Hs. unfold mk_ad. destruct (is_leaf D (Some s)) eqn:El; simpl.
        - eexists; split; [reflexivity|]. split; [reflexivity|]. split; [reflexivity|].
          unfold is_leaf in El. econstructor; eauto; try discriminate; try congruence.
        - eexists; split; [reflexivity|]. split; [reflexivity|]. split; [reflexivity|].
          unfold is_leaf in El. econstructor; eauto; try discriminate; try congruence; try (simpl; discriminate). }
      rewrite Hvy; simpl. exists vy. eexists. split; [reflexivity|]. split; [assumption|].
      rewrite <- HSs in Hvok. split; [assumption|]. split; [|split].
      * econstructor; eauto.
        -- intros Hl Hd. congruence.
        -- intros Hl c'' w Hc'' Hw. rewrite find_vary_app in Hw.
           destruct (find_vary c'' vs) eqn:E2; [inversion Hw; subst; eauto|].
           simpl in Hw. destruct (Nat.eqb_spec (v_col vy) c''); [|discriminate].
           inversion Hw; subst. exact Hvok.
        -- intros c'' w Hw. rewrite find_vary_app in Hw.
           destruct (find_vary c'' vs) eqn:E2; [eauto|].
           simpl in Hw. destruct (Nat.eqb_spec (v_col vy) c''); [|discriminate]. lia.
      * simpl. rewrite find_vary_app, Ef. simpl. rewrite Hvc, Nat.eqb_refl. reflexivity.
      * repeat split. simpl. exact Hleaf.
    + destruct (H5 Hleaf eq_refl c' Hc') as (w & Hw). congruence.
Qed.

Lemma visit_sum_ok S c mcv vals ch (f : adnode -> res (Z * adnode)) (g : list nat -> Z) :
  Forall2 (ok_child S c mcv) vals ch ->
  (forall v n, In v vals -> ok_child S c mcv v (Some n) ->
     exists n', f n = Ok (g (subsel D S c v), n') /\ ok_child S c mcv v (Some n')) ->
  (g [] = 0) -> NoDup vals -> In mcv vals ->
  exists ch', visit_sum f ch = Ok (zsum (map (fun v => g (subsel D S c v)) vals) - g (subsel D S c mcv), ch') /\
    Forall2 (ok_child S c mcv) vals ch'.
Proof.
  intros HF Hf Hg0 HN Hin.
  enough (HH : exists ch', visit_sum f ch = Ok (zsum (map (fun v => if v =? mcv then 0 else g (subsel D S c v)) vals), ch') /\
    Forall2 (ok_child S c mcv) vals ch').
  { destruct HH as (ch' & E & HF'). exists ch'. split; [|assumption]. rewrite E. do 2 f_equal.
    clear -HN Hin. induction vals as [|v vals IH]; simpl in *; [contradiction|].
    inversion HN as [|? ? Hni HN']; subst. destruct Hin as [->|Hin].
    - rewrite Z.eqb_refl.
      rewrite (map_ext_in _ (fun v => g (subsel D S c v))); [lia|].
      intros v Hv. destruct (Z.eqb_spec v mcv); [subst; contradiction|reflexivity].
    - destruct (Z.eqb_spec v mcv); [subst; contradiction|]. rewrite IH by assumption. lia. }
  clear HN Hin. induction HF as [|v o vals ch Ho HF IH]; simpl.
  - eexists; split; [reflexivity|constructor].
  - destruct IH as (ch' & E & HF'). { intros; apply Hf; auto; right; auto. }
    destruct o as [n|].
    + destruct (Hf v n (or_introl eq_refl) Ho) as (n' & Hfn & Hok'). rewrite Hfn; simpl. rewrite E; simpl.
      eexists; split; [|constructor; [exact Hok'|exact HF']].
      inversion Ho; subst. destruct (Z.eqb_spec (ad_value n) mcv); [contradiction|]. reflexivity.
    + rewrite E; simpl. eexists; split; [|constructor; [exact Ho|exact HF']].
      inversion Ho as [? ? ? ? [->|E0]|]; subst.
      * rewrite Z.eqb_refl. do 2 f_equal.
      * rewrite E0, Hg0. destruct (v =? mcv); do 2 f_equal.
Qed.

Lemma min_key_in q c0 v0 : In (min_key ((c0, v0) :: q) c0) (map fst ((c0, v0) :: q)).
Proof.
  unfold min_key. cbn [map fst fold_left]. rewrite Nat.min_id.
  enough (HH : forall l b, fold_left Nat.min l b = b \/ In (fold_left Nat.min l b) l)
    by (destruct (HH (map fst q) c0) as [E|E]; [left; auto|right; auto]).
  induction l as [|x l IH]; simpl; intros b; [auto|].
  destruct (IH (Nat.min b x)) as [E|E]; [|auto].
  rewrite E. destruct (Nat.min_spec b x) as [[_ ->]|[_ ->]]; auto.
Qed.

Lemma fold_min_le l : forall b, (fold_left Nat.min l b <= b)%nat /\ forall x, In x l -> (fold_left Nat.min l b <= x)%nat.
Proof.
  induction l as [|y l IH]; simpl; intros b; [split; [lia|contradiction]|].
  destruct (IH (Nat.min b y)) as [H1 H2]. split; [lia|].
  intros x [->|Hx]; [lia|auto].
Qed.

Lemma min_key_le q d c v : In (c, v) q -> (min_key q d <= c)%nat.
Proof.
  intros H. unfold min_key. apply fold_min_le. change c with (fst (c, v)). apply in_map; assumption.
Qed.

Lemma assoc_in c (q : query) : In c (map fst q) -> exists v, assoc Nat.eqb c q = Some v /\ In (c, v) q.
Proof.
  induction q as [|[k w] q IH]; simpl; [contradiction|].
  destruct (Nat.eqb_spec c k).
  - subst. eauto.
  - intros [E|H]; [congruence|]. destruct (IH H) as (v & Hv & Hin). eauto.
Qed.

Lemma qremove_props c (q : query) : In c (map fst q) -> NoDup (map fst q) ->
  (length (qremove c q) < length q)%nat /\ NoDup (map fst (qremove c q)) /\
  forall c' v', In (c', v') (qremove c q) <-> In (c', v') q /\ c' <> c.
Proof.
  intros Hin HN. repeat split.
  - clear HN. unfold qremove. induction q as [|[k w] q IH]; simpl in *; [contradiction|].
    assert (Hle : (length (filter (fun kv : nat * Z => negb (fst kv =? c)%nat) q) <= length q)%nat).
    { clear. induction q as [|x q IH]; simpl; [lia|]. destruct (negb _); simpl; lia. }
    destruct (Nat.eqb_spec k c); simpl; [lia|]. destruct Hin as [E|Hin]; [congruence|]. apply IH in Hin. lia.
  - unfold qremove. clear Hin. induction q as [|[k w] q IH]; simpl in *; [constructor|].
    inversion HN; subst. destruct (negb (k =? c)%nat); simpl; auto. constructor; auto.
    intros H. apply H1. apply in_map_iff in H as ([a b] & E & H). apply filter_In in H as (H & _).
    simpl in E; subst. change k with (fst (k, b)). apply in_map; assumption.
  - apply filter_In in H. apply H.
  - apply filter_In in H as (_ & H). simpl in H. destruct (Nat.eqb_spec c' c); [discriminate|assumption].
  - intros (H & Hne). apply filter_In. split; [assumption|]. simpl. destruct (Nat.eqb_spec c' c); [contradiction|reflexivity].
Qed.

Lemma qc_ok fuel : forall q S c node,
  (length q <= fuel)%nat -> ok_ad S c node -> inrange S ->
  NoDup (map fst q) -> (forall k v, In (k, v) q -> (c <= k < ncols D)%nat) ->
  exists node', qc D dyn fuel q node = Ok (nmatch S q, node') /\ ok_ad S c node' /\
    ad_value node' = ad_value node /\ ad_col node' = ad_col node.
Proof.
  induction fuel as [|fuel IH]; intros q S c node Hfuel Hok HS HN Hq.
  - destruct q; simpl in Hfuel; [|lia]. simpl. exists node.
    rewrite nmatch_nil. inversion Hok; subst; simpl. auto.
  - destruct q as [|[c0 v0] q0].
    { simpl. exists node. rewrite nmatch_nil. inversion Hok; subst; simpl. auto. }
    remember ((c0, v0) :: q0) as q eqn:Eq.
    assert (Hqe : qc D dyn (Datatypes.S fuel) q node =
      if ad_leaf node then n <- count_leaf D q (ad_sel node) ;; Ok (n, node) else
        let c := min_key q c0 in
        match assoc Nat.eqb c q with
        | None => Err KeyError
        | Some v =>
          let next := qremove c q in
          '(vary, node1) <- get_vary D dyn c node ;;
          match find_child v (v_children vary) with
          | Some child =>
              '(n, child') <- qc D dyn fuel next child ;;
              Ok (n, set_varys node1 (put_vary (set_children vary (put_child v child' (v_children vary))) (ad_varys node1)))
          | None =>
              if negb (v_mcv vary =? v) then Ok (0, node1) else
              match next with
              | [] => Ok (ad_count node1 - children_count (v_children vary), node1)
              | _ =>
                '(s, ch') <- visit_sum (qc D dyn fuel next) (v_children vary) ;;
                let node2 := set_varys node1 (put_vary (set_children vary ch') (ad_varys node1)) in
                '(p, node3) <- qc D dyn fuel next node2 ;;
                Ok (p - s, node3)
              end
          end
        end) by (subst q; reflexivity).
    rewrite Hqe; clear Hqe.
    destruct (ad_leaf node) eqn:Eleaf.
    { assert (Hsel : ad_sel node = Some S) by (inversion Hok; subst; simpl in *; auto).
      rewrite Hsel, count_leaf_ok; [|assumption|intros; eapply Hq; eauto]. simpl. eauto. }
    cbv zeta. set (k := min_key q c0).
    assert (Hkin : In k (map fst q)) by (subst q; apply min_key_in).
    destruct (assoc_in k q Hkin) as (v & Hv & Hkv). rewrite Hv.
    assert (Hk : (c <= k < ncols D)%nat) by (eapply Hq; eauto).
    destruct (get_vary_ok S c node k Hok Eleaf Hk)
      as (vy & node1 & Hgv & Hvcol & Hvok & Hok1 & Hfind & Hcnt1 & Hval1 & Hcol1 & Hleaf1).
    rewrite Hgv. cbn [bind].
    destruct (qremove_props k q Hkin HN) as (Hlen & HN' & Hrem).
    set (next := qremove k q) in *.
    assert (Hnext : forall k' v', In (k', v') next -> (Datatypes.S k <= k' < ncols D)%nat).
    { intros k' v' Hin. apply Hrem in Hin as (Hin & Hne).
      assert (k <= k')%nat by (eapply min_key_le; eauto). specialize (Hq _ _ Hin). lia. }
    assert (Hnext' : forall k' v', In (k', v') next -> (c <= k' < ncols D)%nat).
    { intros k' v' Hin. specialize (Hnext _ _ Hin). lia. }
    assert (Hnm : nmatch S q = nmatch (subsel D S k v) next) by (apply nmatch_remove; assumption).
    inversion Hvok as [? ? vals mcv ch Hkc Hvals Hmcv HF]; subst. simpl in Hvcol; subst c1.
    destruct (wf_vals D WF k Hkc) as (vals' & Hvals' & HNv & _ & _).
    rewrite Hvals in Hvals'; inversion Hvals'; subst vals'; clear Hvals'.
    cbn [v_children v_mcv set_children v_col].
    pose proof (ok_find_child S k mcv vals ch v HF HNv) as Hfc.
    destruct (find_child v ch) as [child|] eqn:Efc.
    + destruct Hfc as (Hvin & Hchild). inversion Hchild as [|? ? ? ? ? Hne Hnn Hcv Hcc Hcok]; subst.
      destruct (IH next (subsel D S k (ad_value child)) (Datatypes.S k) child) as (child' & Hq' & Hok' & Hv' & Hc'); auto.
      { simpl in *; lia. } { apply subsel_inrange; assumption. }
      rewrite Hq'. cbn [bind]. eexists. split; [rewrite Hnm; reflexivity|].
      split; [|destruct node1; simpl in *; auto].
      apply (ok_put_vary S c node1 _ k); [assumption|reflexivity|lia|eauto|].
      constructor; auto. eapply ok_put_child; eauto. constructor; auto; try congruence.
    + destruct (Z.eqb_spec mcv v) as [Em|Hm]; cbn [negb].
      * subst v.
        assert (Hchild : forall w n, In w vals -> ok_child S k mcv w (Some n) ->
           exists n', qc D dyn fuel next n = Ok (nmatch (subsel D S k w) next, n') /\ ok_child S k mcv w (Some n')).
        { intros w n Hw Hc. inversion Hc as [|? ? ? ? ? Hne Hnn Hcv Hcc Hcok]; subst.
          destruct (IH next (subsel D S k (ad_value n)) (Datatypes.S k) n) as (n' & Hq' & Hok' & Hv' & Hc'); auto.
          { simpl in *; lia. } { apply subsel_inrange; assumption. }
          exists n'. split; [assumption|]. constructor; auto; congruence. }
        assert (Hpart : nmatch S next = zsum (map (fun w => nmatch (subsel D S k w) next) vals))
          by (apply nmatch_partition; assumption).
        destruct next as [|nx next0] eqn:En.
        -- exists node1. split; [|auto].
           assert (Hcc : children_count ch = zsum (map (fun w => nmatch (subsel D S k w) []) vals) - nmatch (subsel D S k mcv) []).
           { unfold children_count.
             destruct (visit_sum_ok S k mcv vals ch (fun n => Ok (ad_count n, n)) (fun s => nmatch s []) HF) as (ch' & E & _); auto.
             { intros w n Hw Hc. exists n. split; [|assumption]. inversion Hc as [|? ? ? ? ? Hne Hnn Hcv Hcc Hcok]; subst.
               apply ok_count in Hcok. rewrite nmatch_nil, Hcok. reflexivity. }
             assert (HV : forall ch, exists ch', visit_sum (fun n => Ok (ad_count n, n)) ch =
               Ok (zsum (map (fun o : option adnode => match o with Some n => ad_count n | None => 0 end) ch), ch')).
             { clear. induction ch as [|[n|] ch (ch' & IH)]; simpl; [eauto| |]; rewrite IH; simpl; eauto. }
             destruct (HV ch) as (ch2 & E2). rewrite E2 in E. injection E as E1 _. exact E1. }
           rewrite Hnm, Hcc, <- Hpart, Hcnt1, nmatch_nil. pose proof (ok_count _ _ _ Hok) as Hoc. f_equal. f_equal. lia.
        -- rewrite <- En in *. clear nx next0 En.
           destruct (visit_sum_ok S k mcv vals ch (qc D dyn fuel next) (fun s => nmatch s next) HF) as (ch' & E & HF'); auto.
           rewrite E. cbn [bind].
           assert (Hok2 : ok_ad S c (set_varys node1 (put_vary (Vary k vals mcv ch') (ad_varys node1)))).
           { apply (ok_put_vary S c node1 _ k); [assumption|reflexivity|lia|eauto|]. constructor; auto. }
           destruct (IH next S c _ ltac:(simpl in *; lia) Hok2 HS HN' Hnext') as (node3 & Hq3 & Hok3 & Hv3 & Hc3).
           rewrite Hq3. cbn [bind]. exists node3. split; [|split; [assumption|]].
           ++ do 2 f_equal. rewrite Hnm, Hpart. lia.
           ++ rewrite Hv3, Hc3. destruct node1; simpl in *; auto.
      * exists node1. split; [|auto]. do 2 f_equal. rewrite Hnm.
        assert (Hemp : subsel D S k v = []).
        { destruct (in_dec Z.eq_dec v vals) as [Hin|Hnin].
          - destruct (Hfc Hin) as [E|E]; [congruence|assumption].
          - unfold subsel. unfold inrange in HS. rewrite Forall_forall in HS. clear -Hnin HS WF Hkc Hvals.
            induction S as [|r S IHS]; simpl; [reflexivity|].
            destruct (cell_ok r k (HS r (or_introl eq_refl)) Hkc) as (x & Hx).
            unfold has_value at 1. rewrite Hx. destruct (Z.eqb_spec x v).
            + subst. exfalso. apply Hnin. eapply cell_in_vals; eauto.
            + apply IHS. intros; apply HS; right; assumption. }
        rewrite Hemp. reflexivity.
Qed.

Lemma inrange_all : inrange (seq 0 (nrows D)).
Proof. unfold inrange. apply Forall_forall. intros r Hr. apply in_seq in Hr. lia. Qed.

Definition ok_root (t : adnode) : Prop := ok_ad (seq 0 (nrows D)) 0 t /\ ad_value t = -1 /\ ad_col t = -1.

Lemma query_count_ok t q : ok_root t -> wf_query D q ->
  exists t', query_count D dyn q t = Ok (count_matching D q, t') /\ ok_root t'.
Proof.
  intros (Hok & Hv & Hc) (HN & Hq).
  destruct (qc_ok (length q) q (seq 0 (nrows D)) 0%nat t) as (t' & H & Hok' & Hv' & Hc'); auto.
  { apply inrange_all. }
  { intros k v Hin. split; [lia|eauto]. }
  exists t'. unfold query_count. rewrite H, nmatch_all. split; [reflexivity|]. unfold ok_root. intuition congruence.
Qed.

End P.
