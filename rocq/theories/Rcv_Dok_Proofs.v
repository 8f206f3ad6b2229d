(** Lemmas for Rcv_Properties.v: counting words, and filling the matrices. *)
From Coq Require Import String DecimalNat.
From Verif Require Import Base Matrix_Model Matrix_Spec Matrix_Proofs Text_Model Text_Proofs Sources_Model Sources_Proofs
  Select_Model Rcv_Model Rcv_Spec.
Open Scope nat_scope.

(** ** counting words *)
Definition freq (f : list (text * Z)) (w : text) : Z := match assoc text_eqb w f with Some n => n | None => 0%Z end.
Lemma text_eqb_refl w : text_eqb w w = true.
Proof. apply text_eqb_eq; reflexivity. Qed.
Lemma assoc_set_same {V} (w : text) (v : V) f : assoc text_eqb w (assoc_set text_eqb w v f) = Some v.
Proof. induction f as [|[k x] f IH]; cbn [assoc_set assoc]; [rewrite text_eqb_refl; reflexivity|]. destruct (text_eqb w k) eqn:E; cbn [assoc]; rewrite E; auto. Qed.
Lemma assoc_set_other {V} (w w' : text) (v : V) f : w <> w' -> assoc text_eqb w' (assoc_set text_eqb w v f) = assoc text_eqb w' f.
Proof.
  intros N. induction f as [|[k x] f IH]; cbn [assoc_set assoc].
  - destruct (text_eqb w' w) eqn:E; [apply text_eqb_eq in E; congruence|reflexivity].
  - destruct (text_eqb w k) eqn:E; cbn [assoc].
    + apply text_eqb_eq in E. subst k. destruct (text_eqb w' w) eqn:E'; [apply text_eqb_eq in E'; congruence|reflexivity].
    + destruct (text_eqb w' k); [reflexivity|exact IH].
Qed.
Lemma assoc_set_keys {V} (w : text) (v : V) f x : In x (map fst (assoc_set text_eqb w v f)) <-> x = w \/ In x (map fst f).
Proof.
  induction f as [|[k y] f IH]; cbn [assoc_set map fst In]; [firstorder|]. destruct (text_eqb w k) eqn:E; cbn [map fst In].
  - apply text_eqb_eq in E. subst k. split; intros H; firstorder.
  - rewrite IH. split; intros H; firstorder.
Qed.
Lemma assoc_set_NoDup {V} (w : text) (v : V) f : NoDup (map fst f) -> NoDup (map fst (assoc_set text_eqb w v f)).
Proof.
  induction f as [|[k y] f IH]; intros H; cbn [assoc_set map fst]; [repeat constructor; intros []|]. inversion H as [|? ? Hn HN]; subst.
  destruct (text_eqb w k) eqn:E; cbn [map fst]; [exact H|]. constructor; [|auto]. intros Hin. apply assoc_set_keys in Hin as [-> |Hin]; [|contradiction].
  rewrite text_eqb_refl in E. discriminate.
Qed.
Lemma count_word_freq f w x : freq (count_word f w) x = (freq f x + (if text_dec w x then 1 else 0))%Z.
Proof.
  unfold freq, count_word. destruct (text_dec w x) as [-> |N].
  - rewrite assoc_set_same. destruct (assoc text_eqb x f); lia.
  - rewrite assoc_set_other by exact N. lia.
Qed.
Lemma count_words ws : forall f x, freq (fold_left count_word ws f) x = (freq f x + Z.of_nat (count_occ text_dec ws x))%Z.
Proof.
  induction ws as [|w ws IH]; intros f x; [cbn; lia|]. cbn [fold_left count_occ]. rewrite IH, count_word_freq. destruct (text_dec w x); lia.
Qed.
Lemma count_words_keys ws : forall f x, In x (map fst (fold_left count_word ws f)) <-> In x ws \/ In x (map fst f).
Proof.
  induction ws as [|w ws IH]; intros f x; [cbn; tauto|]. cbn [fold_left In]. rewrite IH. unfold count_word. rewrite assoc_set_keys. split; intros H; intuition congruence.
Qed.
Lemma count_words_NoDup ws : forall f, NoDup (map fst f) -> NoDup (map fst (fold_left count_word ws f)).
Proof. induction ws as [|w ws IH]; intros f H; [exact H|]. cbn [fold_left]. apply IH, assoc_set_NoDup, H. Qed.
Lemma In_freq f w v : NoDup (map fst f) -> In (w, v) f -> freq f w = v.
Proof.
  unfold freq. induction f as [|[k y] f IH]; intros HN Hin; [destruct Hin|]. inversion HN as [|? ? Hn HN']; subst. cbn [assoc]. destruct Hin as [Hin|Hin].
  - injection Hin as -> ->. rewrite text_eqb_refl. reflexivity.
  - destruct (text_eqb w k) eqn:E; [|auto]. apply text_eqb_eq in E. subst k. exfalso. apply Hn. apply (in_map fst) in Hin. exact Hin.
Qed.

(** ** the column labels *)
Lemma distinct_texts_In l x : In x (distinct_texts l) <-> In x l.
Proof.
  induction l as [|y l IH]; [reflexivity|]. cbn [distinct_texts]. destruct (existsb (text_eqb y) l) eqn:E; cbn [In]; rewrite IH; [|reflexivity].
  split; [auto|]. intros [<- |H]; [|exact H]. apply existsb_exists in E as (z & Hz & Ez). apply text_eqb_eq in Ez. subst z. exact Hz.
Qed.
Lemma distinct_texts_NoDup l : NoDup (distinct_texts l).
Proof.
  induction l as [|y l IH]; [constructor|]. cbn [distinct_texts]. destruct (existsb (text_eqb y) l) eqn:E; [exact IH|]. constructor; [|exact IH].
  rewrite distinct_texts_In. intros H. assert (existsb (text_eqb y) l = true) by (apply existsb_exists; exists y; split; [exact H|apply text_eqb_refl]). congruence.
Qed.
Definition sorted_set (l : list text) : list text := sort_text (distinct_texts l).
Lemma sorted_set_In l x : In x (sorted_set l) <-> In x l.
Proof.
  unfold sorted_set. rewrite <- (distinct_texts_In l). split; intros H; [eapply Permutation_in; [apply Permutation_sym, sort_text_perm|exact H]|eapply Permutation_in; [apply sort_text_perm|exact H]].
Qed.
Lemma sorted_set_sorted l : StronglySorted before (sorted_set l).
Proof. apply sort_text_sorted, distinct_texts_NoDup. Qed.
Lemma sorted_set_NoDup l : NoDup (sorted_set l).
Proof. eapply Permutation_NoDup; [apply sort_text_perm|apply distinct_texts_NoDup]. Qed.

Lemma index_from l : forall s w j, NoDup l -> nth_error l j = Some w -> assoc text_eqb w (combine l (seq s (length l))) = Some (s + j).
Proof.
  induction l as [|x l IH]; intros s w j HN Hj; [destruct j; discriminate|]. inversion HN as [|? ? Hn HN']; subst. cbn [length seq combine assoc]. destruct j as [|j]; cbn in Hj.
  - injection Hj as ->. rewrite text_eqb_refl. f_equal. lia.
  - destruct (text_eqb w x) eqn:E; [apply text_eqb_eq in E; subst x; exfalso; apply Hn; eapply nth_error_In, Hj|]. rewrite (IH (S s) w j HN' Hj). f_equal. lia.
Qed.
Lemma create_index_nth l w j : NoDup l -> nth_error l j = Some w -> assoc text_eqb w (create_index l) = Some j.
Proof. intros HN Hj. unfold create_index. apply (index_from l 0 w j HN Hj). Qed.

(** ** writing into a matrix *)
Lemma pos_eqb_eq p q : pos_eqb p q = true <-> p = q.
Proof.
  destruct p as [a b], q as [c d]. unfold pos_eqb. cbn [fst snd]. rewrite andb_true_iff, !Nat.eqb_eq. split; [intros [-> ->]; reflexivity|intros H; injection H as -> ->; auto].
Qed.
Lemma dok_assoc_set (m : dok) p q v : assoc pos_eqb q (assoc_set pos_eqb p v m) = if pos_eqb q p then Some v else assoc pos_eqb q m.
Proof.
  induction m as [|[k x] m IH]; cbn [assoc_set assoc]; [reflexivity|]. destruct (pos_eqb p k) eqn:E; cbn [assoc].
  - apply pos_eqb_eq in E. subst k. destruct (pos_eqb q p); reflexivity.
  - rewrite IH. destruct (pos_eqb q k) eqn:E'; [|reflexivity]. apply pos_eqb_eq in E'. subst k. destruct (pos_eqb q p) eqn:E2; [|reflexivity].
    apply pos_eqb_eq in E2. subst q. assert (pos_eqb p p = true) by (apply pos_eqb_eq; reflexivity). congruence.
Qed.
Lemma dok_set_ok nr nc m r c v : r < nr -> c < nc -> exists m', dok_set nr nc m r c v = Ok m' /\ dok_get m' r c = v /\
  forall r' c', (r', c') <> (r, c) -> dok_get m' r' c' = dok_get m r' c'.
Proof.
  intros Hr Hc. unfold dok_set. rewrite (proj2 (Nat.ltb_lt r nr) Hr), (proj2 (Nat.ltb_lt c nc) Hc). cbn [andb]. eexists. split; [reflexivity|]. unfold dok_get. split.
  - rewrite dok_assoc_set. assert (E : pos_eqb (r, c) (r, c) = true) by (apply pos_eqb_eq; reflexivity). rewrite E. reflexivity.
  - intros r' c' N. rewrite dok_assoc_set. destruct (pos_eqb (r', c') (r, c)) eqn:E; [apply pos_eqb_eq in E; contradiction|reflexivity].
Qed.
(** row [r] holds [values], and nothing else *)
Definition row_holds (labels : list text) (values : list (text * Z)) (m : dok) (r : nat) : Prop :=
  (forall j w v, nth_error labels j = Some w -> In (w, v) values -> dok_get m r j = v) /\
  (forall j, (forall w v, nth_error labels j = Some w -> ~ In (w, v) values) -> dok_get m r j = 0%Z).
Definition functional (values : list (text * Z)) : Prop := forall w v v', In (w, v) values -> In (w, v') values -> v = v'.
Definition pair_dec : forall a b : text * Z, {a = b} + {a <> b}.
Proof. intros [a x] [b y]. destruct (text_dec a b) as [-> |N]; [destruct (Z.eq_dec x y) as [-> |N]; [left; reflexivity|]|]; right; congruence. Defined.
Lemma fill_row_ok nr labels row : NoDup labels -> row < nr -> forall values m,
  (forall w v, In (w, v) values -> In w labels) -> functional values ->
  exists m', fill_row nr (length labels) (create_index labels) row values m = Ok m' /\
    (forall r j, r <> row -> dok_get m' r j = dok_get m r j) /\
    (forall j w v, nth_error labels j = Some w -> In (w, v) values -> dok_get m' row j = v) /\
    (forall j, (forall w v, nth_error labels j = Some w -> ~ In (w, v) values) -> dok_get m' row j = dok_get m row j).
Proof.
  intros HN Hr values. induction values as [|[w v] values IH]; intros m Hin Hfun.
  - exists m. split; [reflexivity|]. split; [reflexivity|]. split; [intros ? ? ? _ []|reflexivity].
  - unfold fill_row. cbn [foldM fst snd]. assert (Hw : In w labels) by (eapply Hin; left; reflexivity). apply In_nth_error in Hw as (j0 & Hj0).
    rewrite (create_index_nth labels w j0 HN Hj0). cbn [of_option bind]. assert (Hj0l : j0 < length labels) by (apply nth_error_Some; congruence).
    destruct (dok_set_ok nr (length labels) m row j0 v Hr Hj0l) as (m1 & E1 & Hv & Ho). rewrite E1. cbn [bind].
    destruct (IH m1) as (m' & E & H1 & H2 & H3); [intros w' v' H'; apply (Hin w' v'); right; exact H'|intros w' v1 v2 A B; apply (Hfun w'); right; assumption|].
    unfold fill_row in E. exists m'. split; [exact E|]. split; [|split].
    + intros r j N. rewrite H1 by exact N. apply Ho. congruence.
    + intros j w' v' Hj H'. destruct (in_dec pair_dec (w', v') values) as [Hd|Hd].
      * apply (H2 j w' v' Hj Hd).
      * destruct H' as [H'|H']; [|contradiction]. injection H' as <- <-. assert (j = j0). { eapply (proj1 (NoDup_nth_error labels) HN); [|congruence]. apply nth_error_Some. congruence. } subst j.
        rewrite H3; [exact Hv|]. intros w2 v2 E2 H2'. assert (w2 = w) by congruence. subst w2. apply Hd. replace v with v2; [exact H2'|]. apply (Hfun w); [right; exact H2'|left; reflexivity].
    + intros j H'. rewrite H3 by (intros w2 v2 E2 H2'; apply (H' w2 v2 E2); right; exact H2'). apply Ho. intros E'. injection E' as ->. apply (H' w v Hj0). left; reflexivity.
Qed.

(** ** the loop over the documents *)
Section Rows.
  Context (ds : documents) (words topics : list text) (f : feature) (HNw : NoDup words) (HNt : NoDup topics).
  Definition topic_values (d : rdoc) : list (text * Z) := map (fun t => (t, 1%Z)) (rd_topics d).
  Definition fits (d : rdoc) : Prop :=
    (forall w v, In (w, v) (features f d) -> In w words) /\ functional (features f d) /\ (forall t, In t (rd_topics d) -> In t topics).
  Context (Hfits : forall k d, assoc Z.eqb k ds = Some d -> fits d).
  Definition row_step (mm : dok * dok) (row_id : nat * Z) : res (dok * dok) :=
    let (row, k) := row_id in
    d <- of_option KeyError (assoc Z.eqb k ds) ;;
    mw <- fill_row (length ds) (length words) (create_index words) row (features f d) (fst mm) ;;
    mt <- fill_row (length ds) (length topics) (create_index topics) row (map (fun t => (t, 1%Z)) (rd_topics d)) (snd mm) ;;
    Ok (mw, mt).
  Lemma create_dok_eq ids : create_dok_matrices ds ids words topics f = foldM row_step (combine (seq 0 (length ids)) ids) ([], []).
  Proof. reflexivity. Qed.
  Lemma topic_values_fit d : fits d -> (forall t v, In (t, v) (topic_values d) -> In t topics) /\ functional (topic_values d).
  Proof.
    intros (_ & _ & H). split.
    - intros t v Hin. unfold topic_values in Hin. apply in_map_iff in Hin as (t' & E & Hin). injection E as -> _. auto.
    - intros t v v' A B. unfold topic_values in A, B. apply in_map_iff in A as (a & Ea & _), B as (b & Eb & _). congruence.
  Qed.
  Lemma row_step_ok mm row k d : row < length ds -> assoc Z.eqb k ds = Some d ->
    (forall j, dok_get (fst mm) row j = 0%Z) -> (forall j, dok_get (snd mm) row j = 0%Z) ->
    exists mm', row_step mm (row, k) = Ok mm' /\
      (forall r j, r <> row -> dok_get (fst mm') r j = dok_get (fst mm) r j /\ dok_get (snd mm') r j = dok_get (snd mm) r j) /\
      row_holds words (features f d) (fst mm') row /\ row_holds topics (topic_values d) (snd mm') row.
  Proof.
    intros Hr Hd Z1 Z2. unfold row_step. rewrite Hd. cbn [of_option bind]. destruct (Hfits k d Hd) as (F1 & F2 & F3). destruct (topic_values_fit d (Hfits k d Hd)) as (T1 & T2).
    destruct (fill_row_ok (length ds) words row HNw Hr (features f d) (fst mm) F1 F2) as (mw & E1 & A1 & A2 & A3). rewrite E1. cbn [bind].
    destruct (fill_row_ok (length ds) topics row HNt Hr (topic_values d) (snd mm) T1 T2) as (mt & E2 & B1 & B2 & B3). unfold topic_values in E2. rewrite E2. cbn [bind].
    eexists. split; [reflexivity|]. cbn [fst snd]. split; [intros r j N; split; auto|]. split; (split; [assumption|]).
    - intros j Hj. rewrite A3 by exact Hj. apply Z1.
    - intros j Hj. rewrite B3 by exact Hj. apply Z2.
  Qed.
  Lemma rows_ok ids : forall s mm, s + length ids <= length ds -> (forall k, In k ids -> exists d, assoc Z.eqb k ds = Some d) ->
    (forall r j, s <= r -> dok_get (fst mm) r j = 0%Z /\ dok_get (snd mm) r j = 0%Z) ->
    exists mm', foldM row_step (combine (seq s (length ids)) ids) mm = Ok mm' /\
      (forall r j, r < s -> dok_get (fst mm') r j = dok_get (fst mm) r j /\ dok_get (snd mm') r j = dok_get (snd mm) r j) /\
      (forall i k d, nth_error ids i = Some k -> assoc Z.eqb k ds = Some d ->
         row_holds words (features f d) (fst mm') (s + i) /\ row_holds topics (topic_values d) (snd mm') (s + i)).
  Proof.
    induction ids as [|k ids IH]; intros s mm Hl Hk HZ.
    - exists mm. split; [reflexivity|]. split; [auto|]. intros [|i] k d H; discriminate.
    - cbn [length] in Hl. cbn [length seq combine foldM]. destruct (Hk k (or_introl eq_refl)) as (d & Hd).
      destruct (row_step_ok mm s k d) as (m1 & E1 & O1 & W1 & T1); [lia|exact Hd|intros j; apply (HZ s j); lia|intros j; apply (HZ s j); lia|]. rewrite E1. cbn [bind].
      destruct (IH (S s) m1) as (m' & E & Ho & Hrows); [lia|intros k' H'; apply Hk; right; exact H'| |].
      { intros r j Hr. destruct (O1 r j) as [A B]; [lia|]. rewrite A, B. apply HZ. lia. }
      exists m'. split; [exact E|]. split.
      + intros r j Hr. destruct (Ho r j) as [A B]; [lia|]. destruct (O1 r j) as [A' B']; [lia|]. rewrite A, B. auto.
      + intros [|i] k' d' Hi Hd'; cbn in Hi.
        * injection Hi as <-. assert (d' = d) by congruence. subst d'. rewrite Nat.add_0_r. destruct W1 as [W1 W2], T1 as [T1 T2].
          split; (split; [intros j w v Hj Hin|intros j Hj]); destruct (Ho s j) as [A B]; try lia; rewrite ?A, ?B; eauto.
        * replace (s + S i) with (S s + i) by lia. apply (Hrows i k' d' Hi Hd').
  Qed.

  (** rows that do not exist, and documents that do not exist *)
  Lemma fill_row_out nr labels row values m : NoDup labels -> nr <= row -> (forall w v, In (w, v) values -> In w labels) ->
    fill_row nr (length labels) (create_index labels) row values m = match values with [] => Ok m | _ => Err IndexError end.
  Proof.
    intros HN Hr H. destruct values as [|[w v] values]; [reflexivity|]. unfold fill_row. cbn [foldM fst snd].
    assert (Hw : In w labels) by (eapply H; left; reflexivity). apply In_nth_error in Hw as (j & Hj). rewrite (create_index_nth _ _ _ HN Hj). cbn [of_option bind]. unfold dok_set.
    rewrite (proj2 (Nat.ltb_ge row nr) Hr). reflexivity.
  Qed.
  Lemma row_step_out mm row k d : length ds <= row -> assoc Z.eqb k ds = Some d ->
    row_step mm (row, k) = if (match features f d with [] => true | _ => false end) && (match rd_topics d with [] => true | _ => false end) then Ok mm else Err IndexError.
  Proof.
    intros Hr Hd. unfold row_step. rewrite Hd. cbn [of_option bind]. destruct (Hfits k d Hd) as (F1 & F2 & F3). destruct (topic_values_fit d (Hfits k d Hd)) as (T1 & T2).
    rewrite (fill_row_out _ _ _ _ _ HNw Hr F1). destruct (features f d); [|reflexivity]. cbn [bind andb]. unfold topic_values in T1. rewrite (fill_row_out _ _ _ _ _ HNt Hr T1). destruct (rd_topics d); [destruct mm|]; reflexivity.
  Qed.
  Lemma rows_out ids : forall mm s, length ds <= s -> (forall k, In k ids -> exists d, assoc Z.eqb k ds = Some d) ->
    (exists k d, In k ids /\ assoc Z.eqb k ds = Some d /\ (features f d <> [] \/ rd_topics d <> [])) ->
    foldM row_step (combine (seq s (length ids)) ids) mm = Err IndexError.
  Proof.
    induction ids as [|k ids IH]; intros mm s Hs Hk (k0 & d0 & Hin & Hd0 & Hne); [destruct Hin|]. cbn [length seq combine foldM]. destruct (Hk k (or_introl eq_refl)) as (d & Hd).
    rewrite (row_step_out mm s k d Hs Hd). destruct (features f d) eqn:Ef; [|reflexivity]. destruct (rd_topics d) eqn:Et; [|reflexivity]. cbn [andb bind]. apply IH; [lia|intros k' H'; apply Hk; right; exact H'|].
    exists k0, d0. split; [|auto]. destruct Hin as [-> |Hin]; [|exact Hin]. assert (d0 = d) by congruence. subst d0. rewrite Ef, Et in Hne. destruct Hne; congruence.
  Qed.
End Rows.

Lemma tocsr_rectangular nr nc m : rectangular (tocsr nr nc m) nr nc.
Proof.
  unfold rectangular, tocsr. cbn [sm_rows sm_ncols]. split; [rewrite map_length, seq_length; reflexivity|]. split; [reflexivity|].
  apply Forall_forall. intros row Hrow. apply in_map_iff in Hrow as (r & <- & _). rewrite map_length, seq_length. reflexivity.
Qed.
Lemma tocsr_entry nr nc m r c : r < nr -> c < nc -> entry (tocsr nr nc m) r c = dok_get m r c.
Proof.
  intros Hr Hc. unfold entry, tocsr. cbn [sm_rows]. rewrite (nth_indep _ [] (map (fun c => dok_get m 0 c) (seq 0 nc))) by (rewrite map_length, seq_length; exact Hr).
  rewrite (map_nth (fun r => map (fun c => dok_get m r c) (seq 0 nc))), seq_nth by exact Hr. cbn [Nat.add].
  rewrite (nth_indep _ 0%Z (dok_get m r 0)) by (rewrite map_length, seq_length; exact Hc). rewrite (map_nth (fun c => dok_get m r c)), seq_nth by exact Hc. reflexivity.
Qed.
