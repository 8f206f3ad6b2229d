(** C08: contingency tables. *)
From Verif Require Import Base CTable_Model.
Open Scope nat_scope.

(** ** Specification *)
(** what the row with key [l] gives for the column [d], when the columns are [cs] *)
Fixpoint at_column (cs : list nat) (l : list Z) (d : nat) : option Z :=
  match cs, l with c :: cs', x :: l' => if d =? c then Some x else at_column cs' l' d | _, _ => None end.
(** the count that the table gives for the values [e] of its columns *)
Definition value (t : ctable) (e : nat -> Z) : Z := get t (Tup (map e (columns t))).
(** a proper table: distinct columns, distinct keys, keys are tuples with one value for each column *)
Definition proper (t : ctable) : Prop :=
  NoDup (columns t) /\ NoDup (map fst (ct t)) /\ forall k n, In (k, n) (ct t) -> exists l, k = Tup l /\ length l = length (columns t).
(** the row agrees with [e] on every column, except perhaps on [c] *)
Definition agrees_but (c : nat) (cs : list nat) (e : nat -> Z) (k : ckey) : bool :=
  match k with
  | Tup l => forallb (fun d => (d =? c) || match at_column cs l d with Some x => (x =? e d)%Z | None => false end) cs
  | One _ => false
  end.
(** sum of the counts of these rows *)
Definition sum_over (t : ctable) (c : nat) (e : nat -> Z) : Z := zsum (map snd (filter (fun kn => agrees_but c (columns t) e (fst kn)) (ct t))).
Definition total (t : ctable) : Z := zsum (map snd (ct t)).

(** ** Lemmas *)
Lemma zs_eqb_eq a b : zs_eqb a b = true <-> a = b.
Proof.
  revert b; induction a as [|x a IH]; intros [|y b]; cbn [zs_eqb]; split; intros H; try discriminate; try reflexivity.
  - apply andb_true_iff in H as [H1 H2]. apply Z.eqb_eq in H1. apply IH in H2. congruence.
  - injection H as -> ->. rewrite Z.eqb_refl. cbn [andb]. apply IH. reflexivity.
Qed.
Lemma ckey_eqb_eq a b : ckey_eqb a b = true <-> a = b.
Proof.
  destruct a, b; cbn [ckey_eqb]; try rewrite zs_eqb_eq; try rewrite Z.eqb_eq; split; intros H; try discriminate; congruence.
Qed.
Lemma ckey_eqb_refl a : ckey_eqb a a = true.
Proof. apply ckey_eqb_eq; reflexivity. Qed.
Lemma ckey_eqb_neq a b : a <> b -> ckey_eqb a b = false.
Proof. intros H. destruct (ckey_eqb a b) eqn:E; [apply ckey_eqb_eq in E; congruence|reflexivity]. Qed.
Lemma ckey_dec (a b : ckey) : {a = b} + {a <> b}.
Proof. destruct (ckey_eqb a b) eqn:E; [left; apply ckey_eqb_eq; exact E|right; intros ->; rewrite ckey_eqb_refl in E; discriminate]. Qed.

Definition look (d : list (ckey * Z)) (k : ckey) : Z := match assoc ckey_eqb k d with Some n => n | None => 0%Z end.
Lemma look_set k n d k' : look (assoc_set ckey_eqb k n d) k' = if ckey_eqb k' k then n else look d k'.
Proof.
  unfold look. induction d as [|[k0 v] d IH]; cbn [assoc_set assoc].
  - destruct (ckey_eqb k' k); reflexivity.
  - destruct (ckey_eqb k k0) eqn:E.
    + apply ckey_eqb_eq in E. subst k0. cbn [assoc]. destruct (ckey_eqb k' k); reflexivity.
    + cbn [assoc]. destruct (ckey_eqb k' k0) eqn:E'; [|exact IH]. apply ckey_eqb_eq in E'. subst k0.
      destruct (ckey_eqb k' k) eqn:E2; [apply ckey_eqb_eq in E2; subst; rewrite ckey_eqb_refl in E; discriminate|reflexivity].
Qed.
Lemma set_keys k (n : Z) (d : list (ckey * Z)) : map fst (assoc_set ckey_eqb k n d) = if existsb (ckey_eqb k) (map fst d) then map fst d else map fst d ++ [k].
Proof.
  induction d as [|[k0 v] d IH]; cbn [assoc_set map existsb app fst]; [reflexivity|]. destruct (ckey_eqb k k0) eqn:E; cbn [orb map fst]; [reflexivity|].
  rewrite IH. destruct (existsb (ckey_eqb k) (map fst d)); reflexivity.
Qed.
Lemma existsb_key k l : existsb (ckey_eqb k) l = true <-> In k l.
Proof. rewrite existsb_exists. split; [intros (x & H & E); apply ckey_eqb_eq in E; congruence|intros H; exists k; split; [exact H|apply ckey_eqb_refl]]. Qed.
Lemma set_NoDup k (n : Z) (d : list (ckey * Z)) : NoDup (map fst d) -> NoDup (map fst (assoc_set ckey_eqb k n d)).
Proof.
  intros H. rewrite set_keys. destruct (existsb (ckey_eqb k) (map fst d)) eqn:E; [exact H|]. apply NoDup_rev in H. rewrite <- (rev_involutive (map fst d)). change ([k]) with (rev [k]). rewrite <- rev_app_distr.
  apply NoDup_rev. cbn [app]. constructor; [|exact H]. intros Hin. apply in_rev in Hin. apply existsb_key in Hin. congruence.
Qed.
Lemma set_fresh k (n : Z) (d : list (ckey * Z)) : ~ In k (map fst d) -> assoc_set ckey_eqb k n d = d ++ [(k, n)].
Proof.
  induction d as [|[k0 v] d IH]; intros H; cbn [assoc_set app]; [reflexivity|]. rewrite ckey_eqb_neq by (intros ->; apply H; left; reflexivity). f_equal. apply IH. intros Hin; apply H; right; exact Hin.
Qed.
Lemma total_set k (n : Z) (d : list (ckey * Z)) : NoDup (map fst d) -> zsum (map snd (assoc_set ckey_eqb k n d)) = (zsum (map snd d) - look d k + n)%Z.
Proof.
  induction d as [|[k0 v] d IH]; intros H; cbn [assoc_set map snd zsum]; [unfold look; cbn [assoc zsum]; lia|]. inversion H as [|? ? N H']; subst.
  destruct (ckey_eqb k k0) eqn:E; cbn [map snd zsum]; unfold look; cbn [assoc]; rewrite E.
  - lia.
  - rewrite IH by exact H'. unfold look. lia.
Qed.
Lemma look_nil k : look [] k = 0%Z.
Proof. reflexivity. Qed.
Lemma look_In (d : list (ckey * Z)) k n : NoDup (map fst d) -> In (k, n) d -> look d k = n.
Proof.
  unfold look. induction d as [|[k0 v] d IH]; intros HN H; [destruct H|]. cbn in HN. inversion HN as [|? ? N HN']; subst. cbn [assoc]. destruct H as [H|H].
  - injection H as -> ->. rewrite ckey_eqb_refl. reflexivity.
  - rewrite ckey_eqb_neq; [auto|]. intros ->. apply N. apply (in_map fst) in H. exact H.
Qed.
Lemma look_notin (d : list (ckey * Z)) k : ~ In k (map fst d) -> look d k = 0%Z.
Proof.
  unfold look. induction d as [|[k0 v] d IH]; intros H; [reflexivity|]. cbn [assoc]. rewrite ckey_eqb_neq by (intros ->; apply H; left; reflexivity). apply IH. intros Hin; apply H; right; exact Hin.
Qed.

(** summing while re-keying *)
Lemma rekey_sum_ok g (d : list (ckey * Z)) : (forall k n, In (k, n) d -> exists l, k = Tup l) ->
  exists d', rekey_sum (on_tuple g) d = Ok d' /\ NoDup (map fst d') /\
    (forall k, look d' k = zsum (map snd (filter (fun kn => match fst kn with Tup l => ckey_eqb k (Tup (g l)) | One _ => false end) d))) /\
    (forall k, In k (map fst d') -> exists l n, In (Tup l, n) d /\ k = Tup (g l)) /\
    zsum (map snd d') = zsum (map snd d).
Proof.
  intros H. unfold rekey_sum.
  assert (G : forall (d new : list (ckey * Z)), (forall k n, In (k, n) d -> exists l, k = Tup l) -> NoDup (map fst new) ->
    exists d', foldM (fun new kn => k' <- on_tuple g (fst kn) ;;
                       Ok (assoc_set ckey_eqb k' (match assoc ckey_eqb k' new with Some n => n + snd kn | None => snd kn end)%Z new)) d new = Ok d' /\ NoDup (map fst d') /\
    (forall k, look d' k = (look new k + zsum (map snd (filter (fun kn => match fst kn with Tup l => ckey_eqb k (Tup (g l)) | One _ => false end) d)))%Z) /\
    (forall k, In k (map fst d') -> In k (map fst new) \/ exists l n, In (Tup l, n) d /\ k = Tup (g l)) /\
    zsum (map snd d') = (zsum (map snd new) + zsum (map snd d))%Z).
  { clear d H. induction d as [|[k n] d IH]; intros new H HN; cbn [foldM].
    - exists new. split; [reflexivity|]. split; [exact HN|]. split; [intros k; cbn; lia|]. split; [intros k Hk; left; exact Hk|cbn; lia].
    - destruct (H k n (or_introl eq_refl)) as (l & ->). cbn [fst snd on_tuple bind].
      set (m := (match assoc ckey_eqb (Tup (g l)) new with Some n0 => n0 + n | None => n end)%Z).
      assert (Em : m = (look new (Tup (g l)) + n)%Z) by (unfold m, look; destruct (assoc ckey_eqb (Tup (g l)) new); lia).
      destruct (IH (assoc_set ckey_eqb (Tup (g l)) m new)) as (d' & E & HN' & HL & HK & HT); [intros k' n' Hin; apply (H k' n'); right; exact Hin|apply set_NoDup; exact HN|].
      exists d'. split; [exact E|]. split; [exact HN'|]. split; [|split].
      + intros k. rewrite HL, look_set. cbn [filter fst]. destruct (ckey_eqb k (Tup (g l))) eqn:Ek; cbn [map snd zsum]; [apply ckey_eqb_eq in Ek; subst k; rewrite Em; lia|reflexivity].
      + intros k Hk. destruct (HK k Hk) as [Hin|(l' & n' & Hin & Ek)]; [|right; exists l', n'; split; [right; exact Hin|exact Ek]].
        rewrite set_keys in Hin. destruct (existsb (ckey_eqb (Tup (g l))) (map fst new)); [left; exact Hin|]. apply in_app_or in Hin as [Hin|[<- |[]]]; [left; exact Hin|]. right. exists l, n. split; [left; reflexivity|reflexivity].
      + rewrite HT, (total_set _ _ _ HN), Em. cbn [map snd zsum]. lia. }
  destruct (G d [] H (NoDup_nil _)) as (d' & E & HN & HL & HK & HT). exists d'. split; [exact E|]. split; [exact HN|]. split; [intros k; rewrite HL, look_nil; reflexivity|]. split; [|exact HT].
  intros k Hk. destruct (HK k Hk) as [[]|Hx]. exact Hx.
Qed.
(** re-keying with a function that is injective on the keys *)
Lemma rekey_ok f g (d : list (ckey * Z)) : (forall k n, In (k, n) d -> f k = Ok (g k)) -> NoDup (map g (map fst d)) -> rekey f d = Ok (map (fun kn => (g (fst kn), snd kn)) d).
Proof.
  unfold rekey. intros Hf HN.
  assert (G : forall (d new : list (ckey * Z)), (forall k n, In (k, n) d -> f k = Ok (g k)) -> NoDup (map fst new ++ map g (map fst d)) ->
    foldM (fun new kn => k' <- f (fst kn) ;; Ok (assoc_set ckey_eqb k' (snd kn) new)) d new = Ok (new ++ map (fun kn => (g (fst kn), snd kn)) d)).
  { clear. induction d as [|[k n] d IH]; intros new Hf HN; cbn [foldM map]; [rewrite app_nil_r; reflexivity|]. cbn [fst snd]. rewrite (Hf k n (or_introl eq_refl)). cbn [bind].
    assert (Hk : ~ In (g k) (map fst new)).
    { intros Hin. cbn [map fst] in HN. apply NoDup_remove_2 in HN. apply HN. apply in_or_app. left; exact Hin. }
    rewrite (set_fresh _ _ _ Hk), IH.
    - rewrite <- app_assoc. reflexivity.
    - intros k' n' Hin. apply (Hf k' n'). right; exact Hin.
    - rewrite map_app. cbn [map fst]. rewrite <- app_assoc. exact HN. }
  rewrite (G d []); [reflexivity|exact Hf|exact HN].
Qed.
Lemma look_rekeyed g (d : list (ckey * Z)) k : (forall a b, In a (map fst d) -> In b (map fst d) -> g a = g b -> a = b) -> NoDup (map fst d) -> In k (map fst d) -> look (map (fun kn => (g (fst kn), snd kn)) d) (g k) = look d k.
Proof.
  intros Hinj HN Hk. apply in_map_iff in Hk as ([k0 n] & E & Hin). cbn in E. subst k0. rewrite (look_In d k n HN Hin). apply look_In.
  - rewrite map_map. cbn [fst]. rewrite <- (map_map fst g). revert Hinj HN. generalize (map fst d). clear. intros l Hinj HN. induction HN as [|x l N HN IH]; cbn; constructor.
    + intros Hin. apply in_map_iff in Hin as (y & E & Hy). apply Hinj in E; [|right; exact Hy|left; reflexivity]. congruence.
    + apply IH. intros a b Ha Hb. apply Hinj; right; assumption.
  - apply in_map_iff. exists (k, n). split; [reflexivity|exact Hin].
Qed.
Lemma NoDup_inj (g : ckey -> ckey) l : (forall a b, In a l -> In b l -> g a = g b -> a = b) -> NoDup l -> NoDup (map g l).
Proof.
  intros Hinj HN. induction HN as [|x l N HN IH]; cbn; constructor.
  - intros Hin. apply in_map_iff in Hin as (y & E & Hy). apply Hinj in E; [|right; exact Hy|left; reflexivity]. congruence.
  - apply IH. intros a b Ha Hb. apply Hinj; right; assumption.
Qed.

(** the column index *)
Lemma index_fold l : forall d a c, ~ In c l -> assoc Nat.eqb c (fold_left (fun d ic => assoc_set Nat.eqb (snd ic) (fst ic) d) (combine (seq a (length l)) l) d) = assoc Nat.eqb c d.
Proof.
  induction l as [|x l IH]; intros d a c H; cbn [length seq combine fold_left]; [reflexivity|]. cbn [fst snd]. rewrite IH by (intros Hin; apply H; right; exact Hin).
  apply assoc_set_other. intros ->. apply H. left; reflexivity.
Qed.
Lemma index_of l : NoDup l -> forall d a c i, nth_error l i = Some c -> assoc Nat.eqb c (fold_left (fun d ic => assoc_set Nat.eqb (snd ic) (fst ic) d) (combine (seq a (length l)) l) d) = Some (a + i).
Proof.
  induction 1 as [|x l N HN IH]; intros d a c i Hi; [destruct i; discriminate|]. cbn [length seq combine fold_left fst snd]. destruct i as [|i]; cbn [nth_error] in Hi.
  - injection Hi as ->. rewrite index_fold by exact N. rewrite assoc_set_same. f_equal. lia.
  - rewrite (IH _ (S a) c i Hi). f_equal. lia.
Qed.
Lemma index_none l : forall d a c, ~ In c l -> ~ In c (map fst d) -> assoc Nat.eqb c (fold_left (fun d ic => assoc_set Nat.eqb (snd ic) (fst ic) d) (combine (seq a (length l)) l) d) = None.
Proof.
  intros d a c H Hd. rewrite index_fold by exact H. induction d as [|[k v] d IH]; [reflexivity|]. cbn [assoc]. destruct (Nat.eqb_spec c k) as [-> |E]; [exfalso; apply Hd; left; reflexivity|]. apply IH. intros Hin; apply Hd; right; exact Hin.
Qed.
Lemma index_sound l : forall d a c i, assoc Nat.eqb c (fold_left (fun d ic => assoc_set Nat.eqb (snd ic) (fst ic) d) (combine (seq a (length l)) l) d) = Some i -> (exists j, i = a + j /\ nth_error l j = Some c) \/ assoc Nat.eqb c d = Some i.
Proof.
  induction l as [|x l IH]; intros d a c i H; cbn [length seq combine fold_left fst snd] in H; [right; exact H|]. apply IH in H as [(j & -> & Hj)|H]; [left; exists (S j); split; [lia|exact Hj]|].
  destruct (Nat.eq_dec c x) as [-> |N]; [rewrite assoc_set_same in H; injection H as <-; left; exists 0; split; [lia|reflexivity]|]. rewrite assoc_set_other in H by exact N. right; exact H.
Qed.

(** a key is determined by what it gives for the columns *)
Lemma key_at cs e l : NoDup cs -> length l = length cs -> (l = map e cs <-> forall d, In d cs -> at_column cs l d = Some (e d)).
Proof.
  intros HN; revert l; induction HN as [|c cs N HN IH]; intros [|x l] Hl; cbn in Hl; try discriminate; [split; [intros _ d []|reflexivity]|]. cbn [map]. split.
  - intros E. injection E as -> ->. intros d Hd. cbn [at_column]. destruct (Nat.eqb_spec d c) as [-> |Ne]; [reflexivity|]. destruct Hd as [Eq|Hd]; [congruence|].
    apply (proj1 (IH (map e cs) ltac:(rewrite map_length; reflexivity)) eq_refl d Hd).
  - intros H. f_equal; [specialize (H c (or_introl eq_refl)); cbn [at_column] in H; rewrite Nat.eqb_refl in H; congruence|]. apply IH; [lia|].
    intros d Hd. specialize (H d (or_intror Hd)). cbn [at_column] in H. destruct (Nat.eqb_spec d c) as [Eq|Ne]; [congruence|exact H].
Qed.
Lemma drop_agrees i : forall cs c l e, NoDup cs -> length l = length cs -> nth_error cs i = Some c ->
  (drop_at i l = map e (drop_at i cs) <-> forall d, In d cs -> d <> c -> at_column cs l d = Some (e d)).
Proof.
  induction i as [|i IH]; intros [|c0 cs] c [|x l] e HN Hl Hi; cbn in Hl, Hi; try discriminate; inversion HN as [|? ? N HN']; subst.
  - injection Hi as ->. unfold drop_at. cbn [firstn skipn app]. rewrite (key_at cs e l HN') by lia. split; intros H d Hd.
    + intros Ne. cbn [at_column]. destruct (Nat.eqb_spec d c) as [-> |_]; [congruence|]. destruct Hd as [Eq|Hd]; [congruence|]. apply H; exact Hd.
    + specialize (H d (or_intror Hd)). cbn [at_column] in H. destruct (Nat.eqb_spec d c) as [Eq|Ne]; [congruence|]. apply H; exact Ne.
  - change (drop_at (S i) (x :: l)) with (x :: drop_at i l). change (drop_at (S i) (c0 :: cs)) with (c0 :: drop_at i cs). cbn [map]. specialize (IH cs c l e HN' ltac:(lia) Hi).
    assert (Hne : c0 <> c) by (intros ->; apply N; apply (nth_error_In _ _ Hi)). split.
    + intros E. injection E as -> E. rewrite IH in E. intros d Hd Ne. cbn [at_column]. destruct (Nat.eqb_spec d c0) as [-> |Ne0]; [reflexivity|]. destruct Hd as [Eq|Hd]; [congruence|]. apply E; assumption.
    + intros H. f_equal.
      * specialize (H c0 (or_introl eq_refl) Hne). cbn [at_column] in H. rewrite Nat.eqb_refl in H. congruence.
      * apply IH. intros d Hd Ne. specialize (H d (or_intror Hd) Ne). cbn [at_column] in H. destruct (Nat.eqb_spec d c0) as [Eq|Ne0]; [congruence|exact H].
Qed.
Lemma agrees_but_spec c cs e l : agrees_but c cs e (Tup l) = true <-> forall d, In d cs -> d <> c -> at_column cs l d = Some (e d).
Proof.
  cbn [agrees_but]. rewrite forallb_forall. split; intros H d Hd.
  - intros Ne. specialize (H d Hd). apply orb_true_iff in H as [H|H]; [apply Nat.eqb_eq in H; contradiction|]. destruct (at_column cs l d); [apply Z.eqb_eq in H; congruence|discriminate].
  - destruct (Nat.eqb_spec d c) as [-> |Ne]; [reflexivity|]. rewrite (H d Hd Ne). cbn [orb]. apply Z.eqb_refl.
Qed.
Lemma drop_at_length {A} i (l : list A) : i < length l -> length (drop_at i l) = length l - 1.
Proof. intros H. unfold drop_at. rewrite app_length, firstn_length, skipn_length. lia. Qed.
Lemma drop_at_NoDup i (l : list nat) : NoDup l -> NoDup (drop_at i l).
Proof.
  intros HN. unfold drop_at. destruct (Nat.lt_ge_cases i (length l)) as [H|H].
  - destruct (nth_error l i) as [x|] eqn:E; [|apply nth_error_None in E; lia]. apply nth_error_split in E as (l1 & l2 & -> & Hl). subst i.
    rewrite firstn_app, firstn_all, Nat.sub_diag. cbn [firstn]. rewrite app_nil_r. replace (skipn (S (length l1)) (l1 ++ x :: l2)) with l2; [apply (NoDup_remove_1 _ _ _ HN)|].
    change (S (length l1)) with (1 + length l1). rewrite skipn_app. rewrite skipn_all2 by lia. replace (1 + length l1 - length l1) with 1 by lia. reflexivity.
  - rewrite firstn_all2 by lia. rewrite skipn_all2 by lia. rewrite app_nil_r. exact HN.
Qed.

(** ** The theorems *)
(** What marginalize_column(column) does: it sums over the column at the position that the index gives
    for [column], whichever column that is. *)
Theorem C08_marginalizes_the_indexed_column : forall t column i c, proper t -> assoc Nat.eqb column (column_index t) = Some i -> nth_error (columns t) i = Some c ->
  exists t', marginalize_column t column = (t', Ok tt) /\ proper t' /\ columns t' = drop_at i (columns t) /\
    (forall e, value t' e = sum_over t c e) /\ total t' = total t.
Proof.
  intros t column i c (HC & HK & HT) Hi Hc. unfold marginalize_column. rewrite Hi.
  assert (Hlt : i < length (columns t)) by (apply nth_error_Some; congruence). rewrite (proj2 (Nat.ltb_lt _ _) Hlt).
  destruct (rekey_sum_ok (drop_at i) (ct t)) as (d' & E & HN & HL & HI & HS); [intros k n Hin; destruct (HT k n Hin) as (l & -> & _); eauto|].
  rewrite E. cbn [finish]. eexists. split; [reflexivity|]. split; [|split; [reflexivity|split]].
  - split; [cbn; apply drop_at_NoDup; exact HC|]. split; [exact HN|]. cbn [set_ct update_columns set_cols ct columns]. intros k n Hin. destruct (HI k (in_map fst _ _ Hin)) as (l & n' & Hin' & ->). exists (drop_at i l). split; [reflexivity|].
    destruct (HT _ _ Hin') as (l' & El & Hl). injection El as <-. rewrite !drop_at_length by (rewrite ?Hl; exact Hlt). rewrite Hl. reflexivity.
  - intros e. unfold value, get. cbn [set_ct update_columns set_cols ct columns]. fold (look d' (Tup (map e (drop_at i (columns t))))). rewrite HL. unfold sum_over. do 2 f_equal. apply filter_ext_in. intros [k n] Hin. cbn [fst].
    destruct (HT _ _ Hin) as (l & -> & Hl). apply eq_true_iff_eq. rewrite ckey_eqb_eq, agrees_but_spec, <- (drop_agrees i (columns t) c l e HC Hl Hc). split; intros H; [injection H as H; congruence|congruence].
  - exact HS.
Qed.
Print Assumptions C08_marginalizes_the_indexed_column.
(** the index is what the columns say: each column at its own position *)
Definition faithful_index (t : ctable) : Prop := forall i c, nth_error (columns t) i = Some c -> assoc Nat.eqb c (column_index t) = Some i.
(** So with a faithful index every remaining key gets the sum over all values of the column. *)
Theorem C08_marginalize_column : forall t c, proper t -> faithful_index t -> In c (columns t) ->
  exists t', marginalize_column t c = (t', Ok tt) /\ proper t' /\ (forall d, In d (columns t') <-> In d (columns t) /\ d <> c) /\
    (forall e, value t' e = sum_over t c e) /\ total t' = total t.
Proof.
  intros t c Hp Hf Hc. destruct (In_nth_error _ _ Hc) as (i & Hi). destruct (C08_marginalizes_the_indexed_column t c i c Hp (Hf i c Hi) Hi) as (t' & E & Hp' & Ec & Hv & Ht).
  exists t'. split; [exact E|]. split; [exact Hp'|]. split; [|split; assumption]. intros d. rewrite Ec. destruct Hp as (HN & _). apply nth_error_split in Hi as (l1 & l2 & El & Hl). rewrite El in *. subst i.
  unfold drop_at. rewrite firstn_app, firstn_all, Nat.sub_diag. cbn [firstn]. rewrite app_nil_r. replace (skipn (S (length l1)) (l1 ++ c :: l2)) with l2.
  2: { change (S (length l1)) with (1 + length l1). rewrite skipn_app, skipn_all2 by lia. replace (1 + length l1 - length l1) with 1 by lia. reflexivity. }
  apply NoDup_remove_2 in HN. rewrite !in_app_iff in *. cbn [In]. split; [intros [H|H]; (split; [tauto|intros ->; tauto])|]. intros [[H|[H|H]] Ne]; auto. congruence.
Qed.
(** Whenever the columns are in increasing order the index is faithful: after __init__, set_columns,
    duplicate and every operation that ends with update_columns(). *)
Lemma sorted_fixed l : StronglySorted lt l -> sort_nat l = l.
Proof.
  induction 1 as [|x l Hs IH Hf]; [reflexivity|]. cbn [sort_nat fold_right]. fold (sort_nat l). rewrite IH. destruct l as [|y l]; [reflexivity|]. cbn [insert_nat].
  inversion Hf; subst. rewrite (proj2 (Nat.leb_le x y)) by lia. reflexivity.
Qed.
Lemma sorted_NoDup l : StronglySorted lt l -> NoDup l.
Proof. induction 1 as [|x l Hs IH Hf]; constructor; [|exact IH]. intros Hin. rewrite Forall_forall in Hf. specialize (Hf x Hin). lia. Qed.
Theorem C08_sorted_columns_are_faithful : forall t, StronglySorted lt (columns t) -> faithful_index (update_columns true t).
Proof.
  intros t Hs i c Hi. cbn [update_columns columns column_index] in *. rewrite (sorted_fixed _ Hs). apply (index_of _ (sorted_NoDup _ Hs) [] 0 c i Hi).
Qed.
Theorem C08_set_column_order_is_faithful : forall t, NoDup (columns t) -> faithful_index (update_columns false t).
Proof. intros t HN i c Hi. cbn [update_columns columns column_index] in *. apply (index_of _ HN [] 0 c i Hi). Qed.
(** Conversely, for any other order some column has a wrong index. *)
Theorem C08_faithful_iff_sorted : forall t, NoDup (columns t) -> (faithful_index (update_columns true t) <-> StronglySorted lt (columns t)).
Proof.
  intros t HN. split; [|apply C08_sorted_columns_are_faithful]. intros Hf.
  pose proof (Permutation_NoDup (sort_perm (columns t)) HN) as HN'.
  assert (E : columns t = sort_nat (columns t)).
  { assert (Hn : forall i, nth_error (columns t) i = nth_error (sort_nat (columns t)) i).
    { intros i. destruct (nth_error (columns t) i) as [c|] eqn:Ei.
      - specialize (Hf i c Ei). cbn [update_columns column_index] in Hf. apply index_sound in Hf as [(j & -> & Hj)|Hf]; [symmetry; exact Hj|discriminate].
      - symmetry. apply nth_error_None. apply nth_error_None in Ei. rewrite <- (Permutation_length (sort_perm (columns t))). exact Ei. }
    revert Hn. generalize (sort_nat (columns t)) as m. generalize (columns t) as l. clear. induction l as [|x l IH]; intros [|y m] H; [reflexivity|specialize (H 0); discriminate|specialize (H 0); discriminate|].
    f_equal; [specialize (H 0); cbn in H; congruence|]. apply IH. intros i. apply (H (S i)). }
  rewrite E. apply sort_strict. exact HN.
Qed.
(** the failure: columns listed as (2, 1); asked to marginalise column 2, the table sums over column 1 *)
Definition two_columns : ctable := set_columns (CTable [(Tup [5; 7], 10); (Tup [5; 8], 1); (Tup [6; 7], 4)]%Z [] []) [2; 1].
Theorem C08_unsorted_refuted : exists t', proper two_columns /\ marginalize_column two_columns 2 = (t', Ok tt) /\ columns t' = [2] /\
  (forall e, value t' e = sum_over two_columns 1 e) /\ exists e, value t' e <> sum_over two_columns 2 e.
Proof.
  assert (Hp : proper two_columns).
  { split; [cbn; repeat constructor; cbn; intuition lia|]. split; [cbn; repeat constructor; cbn; intuition congruence|].
    intros k n H. cbn in H. intuition; match goal with H : (_, _) = _ |- _ => injection H as <- <- end; eexists; split; reflexivity. }
  destruct (C08_marginalizes_the_indexed_column two_columns 2 1 1 Hp eq_refl eq_refl) as (t' & E & _ & Hc & Hv & _). exists t'. split; [exact Hp|]. split; [exact E|]. split; [exact Hc|]. split; [exact Hv|].
  exists (fun c => if c =? 2 then 5%Z else 7%Z). rewrite Hv. vm_compute. discriminate.
Qed.
(** a column that the table does not have *)
Theorem C08_unknown_column : forall t c b, ~ In c (columns t) -> marginalize_column (update_columns b t) c = (update_columns b t, Err KeyError).
Proof.
  intros t c b H. unfold marginalize_column. assert (E : assoc Nat.eqb c (column_index (update_columns b t)) = None); [|rewrite E; reflexivity].
  cbn [update_columns column_index]. apply index_none; [|intros []]. destruct b; [intros Hin; apply (proj1 (sort_in _ _)) in Hin; contradiction|exact H].
Qed.
Lemma removelast_drop {A} (l : list A) : removelast l = drop_at (length l - 1) l.
Proof.
  unfold drop_at. destruct l as [|x l']; [reflexivity|]. set (l := x :: l'). rewrite skipn_all2 by (cbn; lia). rewrite app_nil_r. rewrite removelast_firstn_len. f_equal. unfold l. cbn [length]. lia.
Qed.
(** marginalize_last_column always sums over the last column *)
Theorem C08_marginalize_last_column : forall t cs c, proper t -> columns t = cs ++ [c] ->
  exists t', marginalize_last_column t = (t', Ok tt) /\ proper t' /\ columns t' = cs /\ (forall e, value t' e = sum_over t c e) /\ total t' = total t.
Proof.
  intros t cs c (HC & HK & HT) Ec. unfold marginalize_last_column.
  assert (Hlen : length (columns t) = S (length cs)) by (rewrite Ec, app_length; cbn; lia).
  destruct (rekey_sum_ok (@removelast Z) (ct t)) as (d' & E & HN & HL & HI & HS); [intros k n Hin; destruct (HT k n Hin) as (l & -> & _); eauto|].
  rewrite E. assert (Hrl : removelast (columns t) = cs) by (rewrite Ec; apply removelast_last). destruct (columns t) as [|c0 cs0] eqn:E0; [discriminate|]. rewrite <- E0 in *. cbn [finish].
  eexists. split; [reflexivity|]. split; [|split; [exact Hrl|split]].
  - split; [cbn; rewrite Hrl; rewrite Ec in HC; apply NoDup_remove_1 in HC; rewrite app_nil_r in HC; exact HC|]. split; [exact HN|]. cbn [set_ct update_columns set_cols ct columns]. intros k n Hin. destruct (HI k (in_map fst _ _ Hin)) as (l & n' & Hin' & ->).
    exists (removelast l). split; [reflexivity|]. destruct (HT _ _ Hin') as (l' & El & Hl). injection El as <-. rewrite Hrl. destruct l as [|x l0] using rev_ind; [cbn in Hl; lia|]. rewrite removelast_last. rewrite app_length in Hl; cbn in Hl. lia.
  - intros e. unfold value, get. cbn [set_ct update_columns set_cols ct columns]. fold (look d' (Tup (map e (removelast (columns t))))). rewrite HL. unfold sum_over. do 2 f_equal. apply filter_ext_in. intros [k n] Hin. cbn [fst].
    destruct (HT _ _ Hin) as (l & -> & Hl). assert (Hnth : nth_error (columns t) (length cs) = Some c) by (rewrite Ec, nth_error_app2, Nat.sub_diag by lia; reflexivity).
    apply eq_true_iff_eq. rewrite ckey_eqb_eq, agrees_but_spec, <- (drop_agrees (length cs) (columns t) c l e HC Hl Hnth). rewrite !removelast_drop, Hl, Hlen. replace (S (length cs) - 1) with (length cs) by lia. split; intros H; [injection H as H; congruence|congruence].
  - exact HS.
Qed.

(** adding a constant column: the rows keep their counts *)
Definition extended (t t' : ctable) (c : nat) (v : Z) : Prop :=
  proper t' /\ (forall e, value t' e = if (e c =? v)%Z then value t e else 0%Z) /\ total t' = total t.
Lemma extend_ok t c v (g : list Z -> list Z) cs' : proper t -> ~ In c (columns t) -> NoDup cs' -> length cs' = S (length (columns t)) ->
  (forall l, length l = length (columns t) -> length (g l) = length cs') ->
  (forall l l', length l = length (columns t) -> length l' = length (columns t) -> g l = g l' -> l = l') ->
  (forall l e, length l = length (columns t) -> (g l = map e cs' <-> l = map e (columns t) /\ e c = v)) ->
  exists d, rekey (on_tuple g) (ct t) = Ok d /\ forall idx, extended t (CTable d cs' idx) c v.
Proof.
  intros (HC & HK & HT) Hc HN' Hlen Hg Hinj Hm. set (G := fun k => match k with Tup l => Tup (g l) | One z => One z end).
  assert (Hi : forall a b, In a (map fst (ct t)) -> In b (map fst (ct t)) -> G a = G b -> a = b).
  { intros a b Ha Hb E. apply in_map_iff in Ha as ([a' na] & Ea & Ha), Hb as ([b' nb] & Eb & Hb). cbn in Ea, Eb. subst a' b'.
    destruct (HT _ _ Ha) as (l & -> & Hl), (HT _ _ Hb) as (l' & -> & Hl'). cbn [G] in E. injection E as E. f_equal. apply Hinj; assumption. }
  exists (map (fun kn => (G (fst kn), snd kn)) (ct t)). split.
  - apply rekey_ok; [|apply NoDup_inj; [exact Hi|exact HK]]. intros k n Hin. destruct (HT _ _ Hin) as (l & -> & _). reflexivity.
  - intros idx. split; [|split].
    + split; [exact HN'|]. cbn [ct columns]. split; [rewrite map_map; cbn [fst]; rewrite <- (map_map fst G); apply NoDup_inj; [exact Hi|exact HK]|].
      intros k n Hin. apply in_map_iff in Hin as ([k0 n0] & E & Hin). injection E as <- <-. cbn [fst snd]. destruct (HT _ _ Hin) as (l & -> & Hl). exists (g l). split; [reflexivity|apply Hg; exact Hl].
    + intros e. unfold value, get. cbn [ct columns]. fold (look (map (fun kn => (G (fst kn), snd kn)) (ct t)) (Tup (map e cs'))). fold (look (ct t) (Tup (map e (columns t)))).
      destruct (Z.eqb_spec (e c) v) as [Ev|Nv].
      * assert (Eg : g (map e (columns t)) = map e cs') by (apply Hm; [apply map_length|split; [reflexivity|exact Ev]]).
        destruct (in_dec ckey_dec (Tup (map e (columns t))) (map fst (ct t))) as [Hin|Hnin].
        -- rewrite <- Eg. apply (look_rekeyed G (ct t) (Tup (map e (columns t))) Hi HK Hin).
        -- rewrite (look_notin _ _ Hnin). apply look_notin. intros Hin. apply Hnin. rewrite map_map in Hin. cbn [fst] in Hin. apply in_map_iff in Hin as ([k n] & E & Hin). cbn [fst] in E.
           destruct (HT _ _ Hin) as (l & -> & Hl). cbn [G] in E. injection E as E. apply Hm in E as (-> & _); [|exact Hl]. apply (in_map fst) in Hin. exact Hin.
      * apply look_notin. intros Hin. rewrite map_map in Hin. cbn [fst] in Hin. apply in_map_iff in Hin as ([k n] & E & Hin). cbn [fst] in E.
        destruct (HT _ _ Hin) as (l & -> & Hl). cbn [G] in E. injection E as E. apply Hm in E as (_ & E); [congruence|exact Hl].
    + unfold total. cbn [ct]. rewrite map_map. cbn [snd]. reflexivity.
Qed.
Theorem C08_prepend_column : forall t c v, proper t -> ~ In c (columns t) ->
  exists t', prepend_column t c v = (t', Ok tt) /\ columns t' = c :: columns t /\ extended t t' c v.
Proof.
  intros t c v Hp Hc. pose proof Hp as (HC & _ & _). destruct (extend_ok t c v (cons v) (c :: columns t) Hp Hc) as (d & E & Hx).
  - constructor; assumption.
  - reflexivity.
  - intros l Hl. cbn. lia.
  - intros l l' _ _ E. congruence.
  - intros l e Hl. cbn [map]. split; [intros E; injection E as E1 E2; split; [exact E2|congruence]|intros [-> <-]; reflexivity].
  - unfold prepend_column. rewrite E. cbn [finish]. eexists. split; [reflexivity|]. split; [reflexivity|]. apply Hx.
Qed.
Theorem C08_append_column : forall t c v, proper t -> ~ In c (columns t) ->
  exists t', append_column t c v = (t', Ok tt) /\ columns t' = columns t ++ [c] /\ extended t t' c v.
Proof.
  intros t c v Hp Hc. pose proof Hp as (HC & _ & _). destruct (extend_ok t c v (fun l => l ++ [v]) (columns t ++ [c]) Hp Hc) as (d & E & Hx).
  - apply (Permutation_NoDup (Permutation_cons_append _ _)). constructor; assumption.
  - rewrite app_length. cbn. lia.
  - intros l Hl. rewrite !app_length. cbn. lia.
  - intros l l' _ _ E. apply app_inj_tail in E as [E _]. exact E.
  - intros l e Hl. rewrite map_app. cbn [map]. split; [intros E; apply app_inj_tail in E as [E1 E2]; split; [exact E1|congruence]|intros [-> <-]; reflexivity].
  - unfold append_column. rewrite E. cbn [finish]. eexists. split; [reflexivity|]. split; [reflexivity|]. apply Hx.
Qed.
(** inserting at any integer position puts the column and its values at the same place *)
Lemma insert_at_split {A B} p (x : A) (y : B) l m : length l = length m -> exists i, insert_at p x l = firstn i l ++ x :: skipn i l /\ insert_at p y m = firstn i m ++ y :: skipn i m /\ i <= length l.
Proof. intros H. unfold insert_at. rewrite H. eexists. split; [reflexivity|]. split; [reflexivity|]. lia. Qed.
Lemma insert_inj {A} i (x : A) l l' : length l = length l' -> firstn i l ++ x :: skipn i l = firstn i l' ++ x :: skipn i l' -> l = l'.
Proof.
  intros H E. rewrite <- (firstn_skipn i l), <- (firstn_skipn i l'). assert (Hf : length (firstn i l) = length (firstn i l')) by (rewrite !firstn_length, H; reflexivity).
  revert E Hf. generalize (firstn i l) (firstn i l') (skipn i l) (skipn i l'). clear. intros a; induction a as [|u a IH]; intros [|w b] c d E Hf; cbn in Hf; try discriminate; [injection E as ->; reflexivity|].
  cbn [app] in E. injection E as -> E. cbn [app]. f_equal. apply IH; [exact E|lia].
Qed.
Theorem C08_insert_column : forall t c v position, proper t -> ~ In c (columns t) ->
  exists t', insert_column t c v position = (t', Ok tt) /\ extended t t' c v /\
    exists i, columns t' = firstn i (columns t) ++ c :: skipn i (columns t) /\
      ((0 <= position <= Z.of_nat (length (columns t)))%Z -> Z.of_nat i = position) /\
      ((- Z.of_nat (length (columns t)) <= position < 0)%Z -> Z.of_nat i = Z.of_nat (length (columns t)) + position)%Z.
Proof.
  intros t c v position Hp Hc. pose proof Hp as (HC & _ & _). unfold insert_column. set (p := if (position <? 0)%Z then _ else _).
  set (i := Z.to_nat (Z.min (Z.of_nat (length (columns t))) (Z.max 0 (if (p <? 0)%Z then p + Z.of_nat (length (columns t)) else p)))).
  assert (Hi : forall (A : Type) (x : A) (l : list A), length l = length (columns t) -> insert_at p x l = firstn i l ++ x :: skipn i l) by (intros A x l Hl; unfold insert_at; rewrite Hl; reflexivity).
  assert (Hcs : insert_at p c (columns t) = firstn i (columns t) ++ c :: skipn i (columns t)) by (apply Hi; reflexivity).
  destruct (extend_ok t c v (insert_at p v) (insert_at p c (columns t)) Hp Hc) as (d & E & Hx).
  - rewrite Hcs. apply (Permutation_NoDup (l := c :: columns t)); [|constructor; assumption]. rewrite <- (firstn_skipn i (columns t)) at 1. apply Permutation_middle.
  - rewrite Hcs, app_length, firstn_length. cbn [length]. rewrite skipn_length. lia.
  - intros l Hl. rewrite (Hi _ v l Hl), Hcs, !app_length. cbn [length]. rewrite !firstn_length, !skipn_length. lia.
  - intros l l' Hl Hl' E. rewrite (Hi _ v l Hl), (Hi _ v l' Hl') in E. apply (insert_inj i v); [congruence|exact E].
  - intros l e Hl. rewrite (Hi _ v l Hl), Hcs, map_app. cbn [map]. rewrite <- firstn_map, <- skipn_map. split.
    + intros E. assert (Hv : v = e c).
      { assert (Hn : nth_error (firstn i l ++ v :: skipn i l) (length (firstn i l)) = Some v) by (rewrite nth_error_app2, Nat.sub_diag by lia; reflexivity).
        rewrite E in Hn. replace (length (firstn i l)) with (length (firstn i (map e (columns t)))) in Hn by (rewrite !firstn_length, map_length, Hl; reflexivity). rewrite nth_error_app2, Nat.sub_diag in Hn by lia. cbn in Hn. congruence. }
      subst v. split; [|reflexivity]. apply (insert_inj i (e c)); [rewrite map_length; exact Hl|exact E].
    + intros [-> <-]. reflexivity.
  - rewrite E. eexists. split; [reflexivity|]. split; [apply Hx|]. exists i. split; [exact Hcs|]. unfold i, p. split; intros H; [destruct (Z.ltb_spec position 0); [lia|]|destruct (Z.ltb_spec position 0); [|lia]]; match goal with |- context [if (?a <? 0)%Z then _ else _] => destruct (Z.ltb_spec a 0) end; lia.
Qed.

(** deduct: subtracts pointwise when every key of the other table occurs; otherwise KeyError *)
Theorem C08_deduct : forall t other, proper t -> NoDup (map fst (ct other)) -> columns other = columns t -> (forall k, In k (map fst (ct other)) -> In k (map fst (ct t))) ->
  exists t', deduct_table t other = (t', Ok tt) /\ proper t' /\ columns t' = columns t /\ (forall e, value t' e = value t e - value other e)%Z /\ total t' = (total t - total other)%Z.
Proof.
  intros t other Hp HO Hcol Hsub. unfold deduct_table.
  assert (G : forall items t0, NoDup (map fst items) -> (forall k n, In (k, n) items -> get other k = n) -> (forall k, In k (map fst items) -> In k (map fst (ct t0))) -> NoDup (map fst (ct t0)) ->
    exists t', deduct t0 other items = (t', Ok tt) /\ map fst (ct t') = map fst (ct t0) /\ columns t' = columns t0 /\ (forall k, look (ct t') k = look (ct t0) k - look items k)%Z /\ zsum (map snd (ct t')) = (zsum (map snd (ct t0)) - zsum (map snd items))%Z).
  { induction items as [|[k n] items IH]; intros t0 HN Hg Hs HN0; cbn [deduct].
    - exists t0. repeat (split; [reflexivity|]). split; [intros k; unfold look at 3; cbn [assoc]; lia|cbn; lia].
    - assert (Hk : In k (map fst (ct t0))) by (apply Hs; left; reflexivity). inversion HN as [|? ? N HN']; subst.
      assert (Ea : exists m, assoc ckey_eqb k (ct t0) = Some m /\ look (ct t0) k = m).
      { apply in_map_iff in Hk as ([k0 m] & E & Hin). cbn in E. subst k0. pose proof (look_In _ _ _ HN0 Hin) as El. unfold look in El. destruct (assoc ckey_eqb k (ct t0)) as [m'|] eqn:Ea; [exists m'; split; [reflexivity|]; unfold look; rewrite Ea; reflexivity|].
        exfalso. clear -Ea Hin. induction (ct t0) as [|[k1 v1] d IHd]; [destruct Hin|]. cbn [assoc] in Ea. destruct (ckey_eqb k k1) eqn:E; [discriminate|]. destruct Hin as [Hin|Hin]; [injection Hin as -> ->; rewrite ckey_eqb_refl in E; discriminate|auto]. }
      destruct Ea as (m & Ea & Em). rewrite Ea, (Hg k n (or_introl eq_refl)).
      assert (Hkeys : map fst (assoc_set ckey_eqb k (m - n)%Z (ct t0)) = map fst (ct t0)) by (rewrite set_keys, (proj2 (existsb_key _ _) Hk); reflexivity).
      destruct (IH (set_ct t0 (assoc_set ckey_eqb k (m - n)%Z (ct t0))) HN') as (t' & E & HK & HC & HL & HT).
      + intros k' n' Hin. apply Hg. right; exact Hin.
      + intros k' Hin. cbn [set_ct ct]. rewrite Hkeys. apply Hs. right; exact Hin.
      + cbn [set_ct ct]. rewrite Hkeys. exact HN0.
      + exists t'. split; [exact E|]. cbn [set_ct ct columns] in *. split; [congruence|]. split; [exact HC|]. split.
        * intros k'. rewrite HL, look_set. unfold look at 4. cbn [assoc]. destruct (ckey_eqb k' k) eqn:Ek.
          -- apply ckey_eqb_eq in Ek. subst k'. rewrite (look_notin _ _ N). lia.
          -- fold (look items k'). lia.
        * rewrite HT, (total_set _ _ _ HN0), Em. cbn [map snd zsum]. lia. }
  destruct Hp as (HC & HK & HT). destruct (G (ct other) t HO) as (t' & E & HK' & HC' & HL & Htot).
  - intros k n Hin. apply (look_In (ct other) k n HO Hin).
  - exact Hsub.
  - exact HK.
  - exists t'. split; [exact E|]. split; [|split; [exact HC'|split; [|exact Htot]]].
    + split; [rewrite HC'; exact HC|]. split; [rewrite HK'; exact HK|]. intros k n Hin. apply (in_map fst) in Hin. rewrite HK' in Hin. apply in_map_iff in Hin as ([k0 n0] & E0 & Hin). cbn in E0. subst k0. rewrite HC'. apply (HT _ _ Hin).
    + intros e. unfold value. rewrite HC', Hcol. apply HL.
Qed.

(** set_column_order keeps what the table says, if the index is faithful and the new order lists the
    same columns *)
Lemma at_nth cs l d i : NoDup cs -> nth_error cs i = Some d -> nth_error l i = at_column cs l d.
Proof.
  intros HN; revert l i; induction HN as [|c cs N HN IH]; intros l i Hi; [destruct i; discriminate|]. destruct i as [|i]; cbn [nth_error] in Hi.
  - injection Hi as ->. destruct l; cbn [nth_error at_column]; [reflexivity|]. rewrite Nat.eqb_refl. reflexivity.
  - destruct l as [|x l]; cbn [nth_error at_column]; [reflexivity|]. destruct (Nat.eqb_spec d c) as [-> |Ne]; [exfalso; apply N; apply (nth_error_In _ _ Hi)|]. apply IH; exact Hi.
Qed.
Lemma at_some cs l d : length l = length cs -> In d cs -> exists x, at_column cs l d = Some x.
Proof.
  revert l; induction cs as [|c cs IH]; intros [|x l] Hl Hd; cbn in Hl; try discriminate; [destruct Hd|]. cbn [at_column]. destruct (Nat.eqb_spec d c) as [-> |Ne]; [eauto|]. destruct Hd as [Eq|Hd]; [congruence|]. apply IH; [lia|exact Hd].
Qed.
Definition at0 (cs : list nat) (l : list Z) (d : nat) : Z := match at_column cs l d with Some x => x | None => 0%Z end.
Theorem C08_set_column_order : forall t new_order, proper t -> faithful_index t -> Permutation new_order (columns t) ->
  exists t', set_column_order t new_order = (t', Ok tt) /\ proper t' /\ (2 <= length (columns t) -> columns t' = new_order) /\ (forall e, value t' e = value t e) /\ total t' = total t /\ faithful_index t'.
Proof.
  intros t new Hp Hf HP. unfold set_column_order. destruct (Nat.ltb_spec (length (columns t)) 2) as [Hs|Hs].
  - exists t. split; [reflexivity|]. split; [exact Hp|]. split; [lia|]. split; [reflexivity|]. split; [reflexivity|exact Hf].
  - destruct Hp as (HC & HK & HT). set (G := fun k => match k with Tup l => Tup (map (at0 (columns t) l) new) | One z => One z end).
    assert (Hnew : forall d, In d new <-> In d (columns t)) by (intros d; split; apply Permutation_in; [exact HP|apply Permutation_sym; exact HP]).
    assert (Hre : forall l, length l = length (columns t) -> reorder (column_index t) new (Tup l) = Ok (Tup (map (at0 (columns t) l) new))).
    { intros l Hl. unfold reorder. rewrite (mapM_ok _ (at0 (columns t) l)); [reflexivity|]. intros d Hd. apply Hnew in Hd. destruct (In_nth_error _ _ Hd) as (i & Hi). rewrite (Hf i d Hi). cbn [of_option bind].
      rewrite (at_nth (columns t) l d i HC Hi). unfold at0. destruct (at_some (columns t) l d Hl Hd) as (x & ->). reflexivity. }
    assert (Hm : forall l e, length l = length (columns t) -> (map (at0 (columns t) l) new = map e new <-> l = map e (columns t))).
    { intros l e Hl. rewrite (key_at (columns t) e l HC Hl). split; intros H.
      - intros d Hd. destruct (at_some (columns t) l d Hl Hd) as (x & Ex). rewrite Ex. f_equal. assert (Hmap : forall m, map (at0 (columns t) l) m = map e m -> In d m -> at0 (columns t) l d = e d).
        { clear. induction m as [|y m IH]; intros E Hin; [destruct Hin|]. cbn in E. injection E as E1 E2. destruct Hin as [<- |Hin]; auto. }
        specialize (Hmap new H (proj2 (Hnew d) Hd)). unfold at0 in Hmap. rewrite Ex in Hmap. exact Hmap.
      - apply map_ext_in. intros d Hd. unfold at0. rewrite (H d (proj1 (Hnew d) Hd)). reflexivity. }
    assert (Hi : forall a b, In a (map fst (ct t)) -> In b (map fst (ct t)) -> G a = G b -> a = b).
    { intros a b Ha Hb E. apply in_map_iff in Ha as ([a' na] & Ea & Ha), Hb as ([b' nb] & Eb & Hb). cbn in Ea, Eb. subst a' b'.
      destruct (HT _ _ Ha) as (l & -> & Hl), (HT _ _ Hb) as (l' & -> & Hl'). cbn [G] in E. injection E as E. f_equal. rewrite (Hm l (at0 (columns t) l') Hl) in E. rewrite E. symmetry. apply (proj2 (key_at (columns t) _ l' HC Hl')).
      intros d Hd. unfold at0. destruct (at_some (columns t) l' d Hl' Hd) as (x & ->). reflexivity. }
    assert (E : rekey (reorder (column_index t) new) (ct t) = Ok (map (fun kn => (G (fst kn), snd kn)) (ct t))).
    { apply rekey_ok; [|apply NoDup_inj; [exact Hi|exact HK]]. intros k n Hin. destruct (HT _ _ Hin) as (l & -> & Hl). apply Hre; exact Hl. }
    rewrite E. eexists. split; [reflexivity|]. assert (HN' : NoDup new) by (apply (Permutation_NoDup (Permutation_sym HP) HC)). split; [|split; [reflexivity|split; [|split]]].
    + split; [exact HN'|]. cbn [set_ct update_columns set_cols ct columns]. split; [rewrite map_map; cbn [fst]; rewrite <- (map_map fst G); apply NoDup_inj; [exact Hi|exact HK]|].
      intros k n Hin. apply in_map_iff in Hin as ([k0 n0] & E0 & Hin). injection E0 as <- <-. cbn [fst snd]. destruct (HT _ _ Hin) as (l & -> & Hl). eexists. split; [reflexivity|]. apply map_length.
    + intros e. unfold value, get. cbn [set_ct update_columns set_cols ct columns]. fold (look (map (fun kn => (G (fst kn), snd kn)) (ct t)) (Tup (map e new))). fold (look (ct t) (Tup (map e (columns t)))).
      assert (Eg : G (Tup (map e (columns t))) = Tup (map e new)) by (cbn [G]; f_equal; apply Hm; [apply map_length|reflexivity]).
      destruct (in_dec ckey_dec (Tup (map e (columns t))) (map fst (ct t))) as [Hin|Hnin].
      * rewrite <- Eg. apply (look_rekeyed G (ct t) _ Hi HK Hin).
      * rewrite (look_notin _ _ Hnin). apply look_notin. intros Hin. apply Hnin. rewrite map_map in Hin. cbn [fst] in Hin. apply in_map_iff in Hin as ([k n] & E0 & Hin). cbn [fst] in E0.
        destruct (HT _ _ Hin) as (l & -> & Hl). cbn [G] in E0. injection E0 as E0. apply Hm in E0; [|exact Hl]. subst l. apply (in_map fst) in Hin. exact Hin.
    + unfold total. cbn [set_ct update_columns set_cols ct]. rewrite map_map. reflexivity.
    + apply (C08_set_column_order_is_faithful (set_cols t new)). exact HN'.
Qed.
(** ... but the next marginalisation rebuilds the index from the sorted columns: the order set by the
    caller is then no longer respected. *)
Definition three_columns : ctable := set_columns (CTable [(Tup [0; 0; 0], 1); (Tup [0; 0; 1], 2); (Tup [0; 1; 0], 4); (Tup [1; 0; 0], 8)]%Z [] []) [1; 2; 3].
Theorem C08_order_then_marginalize_twice_refuted : exists t1 t2 t3, set_column_order three_columns [3; 2; 1] = (t1, Ok tt) /\
  marginalize_column t1 2 = (t2, Ok tt) /\ columns t2 = [3; 1] /\ marginalize_column t2 3 = (t3, Ok tt) /\ columns t3 = [3].
Proof. eexists _, _, _. split; [reflexivity|]. split; [reflexivity|]. split; [reflexivity|]. split; reflexivity. Qed.

(** remove_leftmost_column (finalize) drops the first column without summing: when two rows differ only
    there, only the count of the last one remains *)
Theorem C08_remove_leftmost_overwrites_refuted : exists t, snd (remove_leftmost_column t) = Ok tt /\ proper t /\ total (fst (remove_leftmost_column t)) <> total t.
Proof.
  exists (set_columns (CTable [(Tup [0; 7], 3); (Tup [1; 7], 4)]%Z [] []) [1; 2]). split; [reflexivity|]. split; [|vm_compute; discriminate].
  split; [cbn; repeat constructor; cbn; intuition lia|]. split; [cbn; repeat constructor; cbn; intuition congruence|].
  intros k n H. cbn in H. intuition; match goal with H : (_, _) = _ |- _ => injection H as <- <- end; eexists; split; reflexivity.
Qed.
(** With a constant first column nothing is lost. *)
Theorem C08_remove_leftmost : forall t c cs v, proper t -> columns t = c :: cs -> (forall l n, In (Tup l, n) (ct t) -> hd 0%Z l = v) ->
  exists t', remove_leftmost_column t = (t', Ok tt) /\ columns t' = cs /\ total t' = total t /\
    (forall e, e c = v -> get t' (match cs with [d] => One (e d) | _ => Tup (map e cs) end) = value t e).
Proof.
  intros t c cs v (HC & HK & HT) Ec Hv. unfold remove_leftmost_column. rewrite Ec.
  set (G := fun k => match k with Tup l => match tl l with [x] => One x | l' => Tup l' end | One z => One z end).
  assert (Hi : forall a b, In a (map fst (ct t)) -> In b (map fst (ct t)) -> G a = G b -> a = b).
  { intros a b Ha Hb E. apply in_map_iff in Ha as ([a' na] & Ea & Ha), Hb as ([b' nb] & Eb & Hb). cbn in Ea, Eb. subst a' b'.
    destruct (HT _ _ Ha) as (l & -> & Hl), (HT _ _ Hb) as (l' & -> & Hl'). pose proof (Hv _ _ Ha) as H1. pose proof (Hv _ _ Hb) as H2. rewrite Ec in Hl, Hl'.
    destruct l as [|x l], l' as [|x' l']; cbn in Hl, Hl'; try discriminate. cbn in H1, H2. subst x x'. cbn [G tl] in E. do 2 f_equal.
    assert (Hll : length l = length l') by lia. destruct l as [|y [|z l]], l' as [|y' [|z' l']]; cbn in Hll; try discriminate; congruence. }
  assert (E : rekey without_first (ct t) = Ok (map (fun kn => (G (fst kn), snd kn)) (ct t))).
  { apply rekey_ok; [|apply NoDup_inj; [exact Hi|exact HK]]. intros k n Hin. destruct (HT _ _ Hin) as (l & -> & Hl). reflexivity. }
  rewrite E. cbn [finish]. eexists. split; [reflexivity|]. split; [reflexivity|]. split; [unfold total; cbn [set_ct ct]; rewrite map_map; reflexivity|].
  intros e He. unfold get. cbn [set_ct update_columns set_cols ct]. fold (look (map (fun kn => (G (fst kn), snd kn)) (ct t)) (match cs with [d] => One (e d) | _ => Tup (map e cs) end)).
  assert (Eg : match cs with [d] => One (e d) | _ => Tup (map e cs) end = G (Tup (map e (columns t)))) by (rewrite Ec; cbn [map G tl]; destruct cs as [|d [|d' cs]]; reflexivity).
  rewrite Eg. unfold value, get. fold (look (ct t) (Tup (map e (columns t)))).
  destruct (in_dec ckey_dec (Tup (map e (columns t))) (map fst (ct t))) as [Hin|Hnin]; [apply (look_rekeyed G (ct t) _ Hi HK Hin)|].
  rewrite (look_notin _ _ Hnin). apply look_notin. intros Hin. apply Hnin. rewrite map_map in Hin. cbn [fst] in Hin. apply in_map_iff in Hin as ([k n] & E0 & Hin). cbn [fst] in E0.
  destruct (HT _ _ Hin) as (l & -> & Hl). pose proof (Hv _ _ Hin) as H1. rewrite Ec in Hl, E0 |- *. destruct l as [|x l]; cbn in Hl; [discriminate|]. cbn in H1. subst x. cbn [map G tl] in E0.
  assert (El : l = map e cs) by (destruct l as [|y [|z l]], cs as [|d [|d' cs]]; cbn in Hl; try discriminate; cbn [map] in *; congruence).
  cbn [map]. rewrite He, <- El. apply (in_map fst) in Hin. exact Hin.
Qed.

(** append: the rows of the other table are added under a new value of the first column *)
Lemma add_missing_same cs new : (forall c, In c new -> In c cs) -> add_missing cs new = cs.
Proof.
  intros H. unfold add_missing. induction new as [|c new IH]; [reflexivity|]. cbn [fold_left]. rewrite (proj2 (mem_In c cs)) by (apply H; left; reflexivity). apply IH. intros d Hd. apply H. right; exact Hd.
Qed.
Lemma add_missing_app new : forall cs, NoDup (cs ++ new) -> add_missing cs new = cs ++ new.
Proof.
  unfold add_missing. induction new as [|c new IH]; intros cs HN; cbn [fold_left]; [rewrite app_nil_r; reflexivity|].
  rewrite (proj2 (mem_false c cs)) by (intros Hin; apply NoDup_remove_2 in HN; apply HN, in_or_app; left; exact Hin). rewrite IH; rewrite <- app_assoc; [reflexivity|exact HN].
Qed.
Lemma update_look e : NoDup (map fst e) -> forall d k, look (dict_update d e) k = if existsb (ckey_eqb k) (map fst e) then look e k else look d k.
Proof.
  unfold dict_update. induction e as [|[k0 n] e IH]; intros HN d k; cbn [fold_left map existsb]; [reflexivity|]. inversion HN as [|? ? N HN']; subst. cbn [fst snd]. rewrite (IH HN'), look_set. unfold look at 3. cbn [assoc].
  destruct (ckey_eqb k k0) eqn:Ek; cbn [orb].
  - apply ckey_eqb_eq in Ek. subst k0. destruct (existsb (ckey_eqb k) (map fst e)) eqn:Ex; [apply existsb_key in Ex; contradiction|reflexivity].
  - reflexivity.
Qed.
Theorem C08_append : forall t c v other, proper other -> ~ In c (columns other) ->
  (t = new_table \/ (proper t /\ columns t = c :: columns other /\ forall l n, In (Tup l, n) (ct t) -> hd 0%Z l <> v)) ->
  exists t', append t (Some (c, v)) other = (t', Ok tt) /\ columns t' = c :: columns other /\
    (forall e, value t' e = if (e c =? v)%Z then value other e else if length (columns t) =? 0 then 0%Z else value t e).
Proof.
  intros t c v other Hp Hc Ht. unfold append. destruct (C08_prepend_column other c v Hp Hc) as (o' & Eo & Hco & (HC' & HK' & HT') & Hv' & _). rewrite Eo. cbv zeta. rewrite Hco.
  assert (Hout : forall k, In k (map fst (ct o')) -> exists l, k = Tup (v :: l)).
  { intros k Hin. unfold prepend_column in Eo. destruct Hp as (HC & HK & HT). pose proof (rekey_ok (on_tuple (cons v)) (fun k => match k with Tup l => Tup (v :: l) | One z => One z end) (ct other)) as R.
    rewrite R in Eo; [|intros k0 n Hin0; destruct (HT _ _ Hin0) as (l & -> & _); reflexivity|].
    - cbn [finish] in Eo. injection Eo as <-. cbn [set_ct ct] in Hin. rewrite map_map in Hin. apply in_map_iff in Hin as ([k0 n0] & <- & Hin). cbn [fst]. destruct (HT _ _ Hin) as (l & -> & _). eauto.
    - apply NoDup_inj; [|exact HK]. intros a b Ha Hb E. apply in_map_iff in Ha as ([a' na] & Ea & Ha), Hb as ([b' nb] & Eb & Hb). cbn in Ea, Eb. subst a' b'. destruct (HT _ _ Ha) as (l & -> & _), (HT _ _ Hb) as (l' & -> & _). congruence. }
  set (t1 := if _ =? _ then t else _).
  assert (H1 : columns t1 = c :: columns other /\ ct t1 = ct t).
  { unfold t1. destruct Ht as [-> |(Hpt & Ect & _)].
    - cbn [new_table columns]. rewrite add_missing_app by (cbn [app]; rewrite Hco in HC'; exact HC'). cbn. split; reflexivity.
    - rewrite Ect, add_missing_same by (intros d Hd; exact Hd). rewrite Nat.eqb_refl. split; [exact Ect|reflexivity]. }
  destruct H1 as (Hc1 & Hd1). eexists. split; [reflexivity|]. split; [exact Hc1|]. intros e. unfold value at 1, get. cbn [set_ct ct columns]. rewrite Hc1, Hd1.
  fold (look (dict_update (ct t) (ct o')) (Tup (map e (c :: columns other)))). rewrite update_look by exact HK'.
  specialize (Hv' e). unfold value at 1, get in Hv'. rewrite Hco in Hv'. fold (look (ct o') (Tup (map e (c :: columns other)))) in Hv'.
  assert (Hold : (if (e c =? v)%Z then look (ct t) (Tup (map e (c :: columns other))) = 0%Z else look (ct t) (Tup (map e (c :: columns other))) = if length (columns t) =? 0 then 0%Z else value t e)).
  { destruct Ht as [-> |(Hpt & Ect & Hfresh)].
    - cbn [new_table ct columns length Nat.eqb]. rewrite look_nil. destruct (e c =? v)%Z; reflexivity.
    - rewrite Ect. cbn [length Nat.eqb]. destruct (Z.eqb_spec (e c) v) as [Ev|Nv].
      + apply look_notin. intros Hin. apply in_map_iff in Hin as ([k n] & E & Hin). cbn in E. subst k. apply Hfresh in Hin. apply Hin. exact Ev.
      + unfold value, get. rewrite Ect. reflexivity. }
  destruct (existsb (ckey_eqb (Tup (map e (c :: columns other)))) (map fst (ct o'))) eqn:Ex.
  - apply existsb_key, Hout in Ex as (l & El). cbn [map] in El. injection El as El _. rewrite Hv', El, Z.eqb_refl. reflexivity.
  - assert (Hn : ~ In (Tup (map e (c :: columns other))) (map fst (ct o'))) by (intros Hin; apply existsb_key in Hin; congruence). rewrite (look_notin _ _ Hn) in Hv'. destruct (e c =? v)%Z; [rewrite Hold; exact Hv'|exact Hold].
Qed.

Example C08_nonvacuous : proper three_columns /\ faithful_index three_columns /\ In 2 (columns three_columns) /\ sum_over three_columns 2 (fun _ => 0%Z) = 5%Z /\
  value (fst (marginalize_column three_columns 2)) (fun _ => 0%Z) = 5%Z /\ total three_columns = 15%Z.
Proof.
  split; [|split; [|split; [cbn; auto|split; [reflexivity|split; reflexivity]]]].
  - split; [cbn; repeat constructor; cbn; intuition lia|]. split; [cbn; repeat constructor; cbn; intuition congruence|].
    intros k n H. cbn in H. intuition; match goal with H : (_, _) = _ |- _ => injection H as <- <- end; eexists; split; reflexivity.
  - apply C08_sorted_columns_are_faithful. cbn. repeat constructor.
Qed.

(** ** Copies, and adding rows *)
Lemma zsum_app l1 l2 : zsum (l1 ++ l2) = (zsum l1 + zsum l2)%Z.
Proof. induction l1 as [|x l1 IH]; cbn [app zsum]; lia. Qed.
(** duplicate(): the copy has the same columns and gives the same count for every key. *)
Theorem C08_duplicate : forall t, columns (duplicate t) = columns t /\ (forall k, get (duplicate t) k = get t k) /\ (forall e, value (duplicate t) e = value t e) /\
  total (duplicate t) = total t /\ (proper t -> proper (duplicate t)) /\ (StronglySorted lt (columns t) -> faithful_index (duplicate t)).
Proof.
  intros t. split; [reflexivity|]. split; [reflexivity|]. split; [reflexivity|]. split; [reflexivity|]. split; [intros H; exact H|]. intros H. apply C08_sorted_columns_are_faithful. exact H.
Qed.
(** But a copy of a table whose columns were put in another order by set_column_order no longer has the
    right index: marginalizing the copy sums over another column than marginalizing the original. *)
Theorem C08_copy_behaves_alike_refuted : exists t, proper t /\ faithful_index t /\
  snd (marginalize_column t 1) = Ok tt /\ snd (marginalize_column (duplicate t) 1) = Ok tt /\
  columns (fst (marginalize_column t 1)) = [2] /\ columns (fst (marginalize_column (duplicate t) 1)) = [1].
Proof.
  exists (update_columns false (CTable [(Tup [7%Z; 8%Z], 3%Z)] [2; 1] [])). split; [|split; [|split; [reflexivity|split; [reflexivity|split; reflexivity]]]].
  - split; [repeat constructor; cbn; intuition discriminate|]. split; [repeat constructor; cbn; tauto|]. intros k n [E|[]]. injection E as <- <-. exists [7%Z; 8%Z]. split; reflexivity.
  - apply C08_set_column_order_is_faithful. repeat constructor; cbn; intuition discriminate.
Qed.
(** append without a column: the other table's rows are put in, replacing rows with the same key; all
    other rows stay, and so do the columns. *)
Theorem C08_append_rows : forall t other, NoDup (map fst (ct other)) ->
  exists t', append t None other = (t', Ok tt) /\ columns t' = columns t /\
    (forall k, (In k (map fst (ct other)) -> get t' k = get other k) /\ (~ In k (map fst (ct other)) -> get t' k = get t k)) /\
    (columns other = columns t -> proper t -> proper other -> proper t' /\
       ((forall k, In k (map fst (ct t)) -> ~ In k (map fst (ct other))) -> total t' = (total t + total other)%Z)).
Proof.
  intros t other HN. eexists. split; [reflexivity|]. split; [reflexivity|]. split.
  - intros k. unfold get. cbn [set_ct ct]. fold (look (dict_update (ct t) (ct other)) k) (look (ct other) k) (look (ct t) k). rewrite (update_look _ HN). split; intros H.
    + rewrite (proj2 (existsb_key _ _) H). reflexivity.
    + destruct (existsb (ckey_eqb k) (map fst (ct other))) eqn:E; [apply existsb_key in E; contradiction|reflexivity].
  - intros Hcol (HC & HK & HT) (_ & _ & HTo). cbn [set_ct ct columns]. 
    assert (G : forall e d, NoDup (map fst d) -> NoDup (map fst e) -> NoDup (map fst (dict_update d e)) /\ (forall k n, In (k, n) (dict_update d e) -> In (k, n) d \/ In (k, n) e) /\
      ((forall k, In k (map fst d) -> ~ In k (map fst e)) -> zsum (map snd (dict_update d e)) = (zsum (map snd d) + zsum (map snd e))%Z)).
    { unfold dict_update. induction e as [|(k, n) e IH]; intros d Hd He; cbn [fold_left].
      - split; [exact Hd|]. split; [auto|]. intros _. cbn. lia.
      - inversion He as [|? ? Hk He']; subst. cbn [fst snd]. destruct (IH (assoc_set ckey_eqb k n d) (set_NoDup _ _ _ Hd) He') as (A & B & C). split; [exact A|]. split.
        + intros k' n' H. destruct (B k' n' H) as [H1|H1]; [|right; right; exact H1]. clear -H1. induction d as [|(k1, n1) d IHd]; cbn [assoc_set] in H1; [destruct H1 as [H1|[]]; right; left; exact H1|].
          destruct (ckey_eqb k k1) eqn:E; [apply ckey_eqb_eq in E; subst k1; destruct H1 as [H1|H1]; [right; left; exact H1|left; right; exact H1]|].
          destruct H1 as [H1|H1]; [left; left; exact H1|]. destruct (IHd H1) as [H|H]; [left; right; exact H|right; exact H].
        + intros Hdis. assert (Hfr : ~ In k (map fst d)) by (intros H; apply (Hdis k H); left; reflexivity). rewrite C.
          * rewrite (set_fresh _ _ _ Hfr), map_app, zsum_app. cbn. lia.
          * intros k' H. rewrite (set_fresh _ _ _ Hfr), map_app in H. apply in_app_or in H as [H|[<-|[]]]; [|exact Hk]. intros H'. apply (Hdis k' H). right. exact H'. }
    destruct (G (ct other) (ct t) HK HN) as (A & B & C). split; [|exact C]. split; [exact HC|]. split; [exact A|]. cbn [set_ct ct columns]. intros k n H. destruct (B k n H) as [H'|H']; [apply (HT _ _ H')|]. rewrite <- Hcol. apply (HTo _ _ H').
Qed.
Example C08_append_rows_met : proper three_columns /\ NoDup (map fst (ct three_columns)). Proof. split; [|apply C08_nonvacuous]. apply C08_nonvacuous. Qed.
