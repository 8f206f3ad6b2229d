(** Lemmas for Rcv_Properties.v. *)
From Coq Require Import String DecimalNat.
From Verif Require Import Base Matrix_Model Matrix_Spec Matrix_Proofs Text_Model Text_Proofs Sources_Model Sources_Proofs
  Select_Model Select_Properties Rcv_Model Rcv_Spec.
Open Scope nat_scope.

(** ** lines and words *)
Lemma words_from_word w : (forall c, In c w -> is_space c = false) -> forall cur t, words_from cur (w ++ t) = words_from (cur ++ w) t.
Proof.
  induction w as [|c w IH]; intros H cur t; [rewrite app_nil_r; reflexivity|]. cbn [app words_from]. rewrite (H c (or_introl eq_refl)).
  rewrite IH by (intros x Hx; apply H; right; exact Hx). rewrite <- app_assoc. reflexivity.
Qed.
Lemma split_word w t c : word w -> is_space c = true -> split_words (w ++ c :: t) = w :: split_words t.
Proof.
  intros (Hne & Hw) Hc. unfold split_words. rewrite words_from_word by exact Hw. cbn [words_from app]. rewrite Hc. destruct w; [congruence|reflexivity].
Qed.
Lemma split_last w : word w -> split_words w = [w].
Proof.
  intros (Hne & Hw). unfold split_words. rewrite <- (app_nil_r w) at 1. rewrite words_from_word by exact Hw. cbn. destruct w; [congruence|reflexivity].
Qed.
Lemma split_spaced l : Forall word l -> split_words (spaced l) = l.
Proof.
  induction 1 as [|w l Hw Hl IH]; [reflexivity|]. destruct l as [|w' l]; [apply split_last, Hw|].
  change (spaced (w :: w' :: l)) with (w ++ SP :: spaced (w' :: l)). rewrite split_word by (assumption || reflexivity). rewrite IH. reflexivity.
Qed.
Lemma split_spaced_line l : Forall word l -> split_words (spaced l ++ [LF]) = l.
Proof.
  induction 1 as [|w l Hw Hl IH]; [reflexivity|]. destruct l as [|w' l].
  - cbn [spaced]. rewrite split_word by (assumption || reflexivity). reflexivity.
  - change (spaced (w :: w' :: l)) with (w ++ SP :: spaced (w' :: l)). rewrite <- app_assoc. cbn [app]. rewrite split_word by (assumption || reflexivity). rewrite IH. reflexivity.
Qed.
Lemma spaced_chars l c : Forall word l -> In c (spaced l) -> c = SP \/ is_space c = false.
Proof.
  induction 1 as [|w l (_ & Hw) Hl IH]; [intros []|]. destruct l as [|w' l]; [cbn [spaced]; auto|].
  change (spaced (w :: w' :: l)) with (w ++ SP :: spaced (w' :: l)). intros Hin. apply in_app_or in Hin as [Hin|[Hin|Hin]]; auto.
Qed.
Lemma spaced_no_break l : Forall word l -> ~ In LF (spaced l) /\ ~ In CR (spaced l).
Proof.
  intros H. split; intros Hin; apply (spaced_chars _ _ H) in Hin as [E|E]; discriminate E.
Qed.
Lemma spaced_first l c t : Forall word l -> spaced l = c :: t -> is_space c = false.
Proof.
  intros H E. destruct l as [|w l]; [discriminate|]. inversion H as [|? ? (Hne & Hw) Hl]; subst. destruct w as [|x w]; [congruence|].
  assert (x = c). { destruct l as [|w' l]; [cbn [spaced] in E; congruence|]. change (spaced ((x :: w) :: w' :: l)) with (x :: (w ++ SP :: spaced (w' :: l))) in E. congruence. }
  subst x. apply Hw; left; reflexivity.
Qed.
Lemma spaced_last l c t : Forall word l -> spaced l = t ++ [c] -> is_space c = false.
Proof.
  intros H. revert t. induction H as [|w l (Hne & Hw) Hl IH]; intros t E; [destruct t; discriminate|].
  destruct l as [|w' l].
  - cbn [spaced] in E. apply Hw. rewrite E. apply in_or_app; right; left; reflexivity.
  - change (spaced (w :: w' :: l)) with (w ++ SP :: spaced (w' :: l)) in E.
    assert (Hs : spaced (w' :: l) <> []).
    { intros E0. pose proof (split_spaced _ Hl) as E1. rewrite E0 in E1. discriminate E1. }
    destruct (exists_last Hs) as (u & x & Eu). rewrite Eu in E. change (w ++ SP :: u ++ [x]) with (w ++ (SP :: u) ++ [x]) in E. rewrite app_assoc in E.
    apply app_inj_tail in E as [_ ->]. apply (IH u). exact Eu.
Qed.
Lemma strip_spaced l : Forall word l -> strip (spaced l) = spaced l.
Proof. intros H. apply strip_id; intros; eauto using spaced_first, spaced_last. Qed.

Definition broken (xs : list text) : text := concat (map (fun x => x ++ [LF]) xs).
Lemma lines_broken xs : Forall (fun x => ~ In LF x) xs -> file_lines (broken xs) = map (fun x => x ++ [LF]) xs.
Proof.
  induction 1 as [|x xs Hx Hxs IH]; [reflexivity|]. unfold broken in *. cbn [map concat]. rewrite <- app_assoc. cbn [app]. rewrite lines_cons by exact Hx. rewrite IH. reflexivity.
Qed.
Lemma broken_no_CR xs : Forall (fun x => ~ In CR x) xs -> ~ In CR (broken xs).
Proof.
  induction 1 as [|x xs Hx Hxs IH]; [intros []|]. unfold broken in *. cbn [map concat]. intros Hin. apply in_app_or in Hin as [Hin|Hin]; [|auto].
  apply in_app_or in Hin as [Hin|[Hin|[]]]; [auto|discriminate].
Qed.
Lemma text_lines_broken xs : Forall (fun x => ~ In LF x /\ ~ In CR x) xs -> text_lines (broken xs) = map (fun x => x ++ [LF]) xs.
Proof.
  intros H. unfold text_lines. rewrite universal_id, lines_broken; [reflexivity| |].
  - eapply Forall_impl; [|exact H]. intros x [A B]; exact A.
  - apply broken_no_CR. eapply Forall_impl; [|exact H]. intros x [A B]; exact B.
Qed.
Lemma broken_app a b : broken (a ++ b) = broken a ++ broken b.
Proof. unfold broken. rewrite map_app, concat_app. reflexivity. Qed.

Definition document_lines (d : document) : list text :=
  ([46; 73; 32] ++ numeral (doc_id d)) :: [46; 87] :: map spaced (doc_lines d) ++ [[]].
Lemma render_document_broken d : render_document d = broken (document_lines d).
Proof.
  unfold render_document, document_lines.
  change (([46; 73; 32] ++ numeral (doc_id d)) :: [46; 87] :: map spaced (doc_lines d) ++ [[]])
    with ([[46; 73; 32] ++ numeral (doc_id d)] ++ [[46; 87]] ++ map spaced (doc_lines d) ++ [[]]).
  rewrite !broken_app. unfold broken at 1 2 4. cbn [map concat]. rewrite !app_nil_r, <- !app_assoc. unfold broken. rewrite map_map. reflexivity.
Qed.
Lemma render_documents_broken docs : render_documents docs = broken (concat (map document_lines docs)).
Proof.
  unfold render_documents. induction docs as [|d docs IH]; [reflexivity|]. cbn [map concat]. rewrite broken_app, IH, render_document_broken. reflexivity.
Qed.
Lemma render_assignments_broken a : render_assignments a = broken (map (fun p => spaced [fst p; numeral (snd p); [49]]) a).
Proof. unfold render_assignments, broken. rewrite map_map. reflexivity. Qed.

Lemma numeral_word k : word (numeral k).
Proof.
  destruct (C45_every_number_has_a_numeral k) as (Hne & Hd & _). split; [exact Hne|]. intros c Hc. apply digit_not_space, Hd, Hc.
Qed.
Lemma numeral_int k : py_int (numeral k) = Ok (Z.of_nat k).
Proof. apply py_int_numeral, C45_every_number_has_a_numeral. Qed.
Lemma word_no_break w : word w -> ~ In LF w /\ ~ In CR w.
Proof. intros (_ & H). split; intros Hin; apply H in Hin; discriminate Hin. Qed.
Lemma dot_I_line k : [46; 73; 32] ++ numeral k = spaced [[46; 73]; numeral k].
Proof. reflexivity. Qed.
Lemma word_dot_I : word [46; 73].
Proof. split; [discriminate|]. intros c [<- |[<- |[]]]; reflexivity. Qed.
Lemma word_dot_W : word [46; 87].
Proof. split; [discriminate|]. intros c [<- |[<- |[]]]; reflexivity. Qed.
Lemma word_one : word [49].
Proof. split; [discriminate|]. intros c [<- |[]]; reflexivity. Qed.
Lemma document_lines_ok d : Forall (Forall word) (doc_lines d) -> Forall (fun x => ~ In LF x /\ ~ In CR x) (document_lines d).
Proof.
  intros H. unfold document_lines. constructor; [|constructor; [|apply Forall_app; split]].
  - rewrite dot_I_line. apply spaced_no_break. repeat constructor; [apply word_dot_I|apply word_dot_I|apply numeral_word|apply numeral_word].
  - apply word_no_break, word_dot_W.
  - apply Forall_map. eapply Forall_impl; [|exact H]. intros l. apply spaced_no_break.
  - repeat constructor; intros [].
Qed.

(** ** reading the token file *)
Definition parsed (d : document) : rdoc := RDoc (fold_left count_word (words_of d) []) [].
Definition key (d : document) : Z := Z.of_nat (doc_id d).
Lemma firstn3_spaced w l : word w -> (firstn 3 (spaced (w :: l)) = dot_I -> w = [46; 73]) /\ (word_line (w :: l) -> firstn 2 (spaced (w :: l)) <> dot_W).
Proof.
  intros (Hne & Hw).
  assert (E : exists r, spaced (w :: l) = w ++ r /\ (r = [] \/ exists r', r = SP :: r')).
  { destruct l as [|w' l]; [exists []; split; [cbn; rewrite app_nil_r; reflexivity|auto]|]. exists (SP :: spaced (w' :: l)). split; [reflexivity|right; eauto]. }
  destruct E as (r & -> & Hr). split.
  - destruct w as [|a [|b [|c w]]]; [congruence| | |].
    + destruct Hr as [-> | (r' & ->)]; cbn; [discriminate|]. destruct r'; cbn; discriminate.
    + destruct Hr as [-> | (r' & ->)]; cbn; [discriminate|]. intros E. change ([a; b; SP] = [46; 73; SP]) in E. congruence.
    + cbn. intros E. change ([a; b; c] = [46; 73; 32]) in E. assert (c = 32) by congruence. subst c. specialize (Hw 32 (or_intror (or_intror (or_introl eq_refl)))). discriminate Hw.
  - intros (_ & w0 & l0 & E & _ & Hn). injection E as <- <-.
    destruct w as [|a [|b w]]; [congruence| |exact Hn]. destruct Hr as [-> | (r' & ->)]; cbn; discriminate.
Qed.
Lemma text_eqb_neq a b : a <> b -> text_eqb a b = false.
Proof. intros H. destruct (text_eqb a b) eqn:E; [|reflexivity]. apply text_eqb_eq in E. contradiction. Qed.
Lemma word_lines_words L : Forall word_line L -> Forall (Forall word) L.
Proof. apply Forall_impl. intros l H. apply H. Qed.

Section Tokens.
  Context (requested : list Z).
  Lemma token_line_words st l : word_line l ->
    token_line requested st (spaced l ++ [LF]) =
    Ok (fst st, match snd st with Some (k, d) => Some (k, RDoc (fold_left count_word l (rd_words d)) (rd_topics d)) | None => None end).
  Proof.
    intros H. destruct st as [ds cur]. assert (HW := proj1 H). pose proof H as (_ & w & l' & El & HnI & _).
    assert (Hww : word w) by (rewrite El in HW; inversion HW; assumption).
    destruct (firstn3_spaced w l' Hww) as [H3 H2]. rewrite <- El in H3, H2. specialize (H2 H).
    unfold token_line. rewrite strip_newline, (strip_spaced l HW), (text_eqb_neq _ dot_I) by (intros E; apply HnI, H3, E).
    rewrite (text_eqb_neq _ dot_W H2). destruct (spaced l) as [|c t] eqn:E.
    - pose proof (split_spaced l HW) as E1. rewrite E in E1. subst l. discriminate E1.
    - rewrite <- E. unfold read_line_with_tokens. rewrite (split_spaced l HW). reflexivity.
  Qed.
  Lemma token_lines_words L : Forall word_line L -> forall ds k d,
    foldM (token_line requested) (map (fun x => x ++ [LF]) (map spaced L)) (ds, Some (k, d)) =
    Ok (ds, Some (k, RDoc (fold_left count_word (concat L) (rd_words d)) (rd_topics d))).
  Proof.
    induction 1 as [|l L Hl HL IH]; intros ds k d; [destruct d; reflexivity|]. cbn [map foldM]. rewrite token_line_words by exact Hl. cbn [bind fst snd]. rewrite IH. cbn [rd_words rd_topics concat].
    rewrite fold_left_app. reflexivity.
  Qed.
  Lemma token_lines_skipped L : Forall word_line L -> forall ds,
    foldM (token_line requested) (map (fun x => x ++ [LF]) (map spaced L)) (ds, None) = Ok (ds, None).
  Proof.
    induction 1 as [|l L Hl HL IH]; intros ds; [reflexivity|]. cbn [map foldM]. rewrite token_line_words by exact Hl. cbn [bind fst snd]. apply IH.
  Qed.
  Lemma foldM_app {A B} (f : B -> A -> res B) l l' b : foldM f (l ++ l') b = (b' <- foldM f l b ;; foldM f l' b').
  Proof. revert b; induction l as [|x l IH]; intros b; [reflexivity|]. cbn [app foldM]. destruct (f b x); [apply IH|reflexivity]. Qed.
  Lemma token_mark st k : token_line requested st (([46; 73; 32] ++ numeral k) ++ [LF]) =
    Ok (save_document (fst st) (snd st), if mem_Z (Z.of_nat k) requested then Some (Z.of_nat k, new_rdoc) else None).
  Proof.
    destruct st as [ds cur]. unfold token_line.
    rewrite strip_newline, dot_I_line, strip_spaced by (repeat constructor; first [apply word_dot_I|apply numeral_word]). rewrite <- dot_I_line. cbn [app firstn skipn].
    change (text_eqb [46; 73; 32] dot_I) with true. cbn iota.
    destruct (numeral_word k) as (Hne & Hw). rewrite strip_id.
    - rewrite numeral_int. reflexivity.
    - intros c t' E. apply Hw. rewrite E. left; reflexivity.
    - intros c t' E. apply Hw. rewrite E. apply in_or_app; right; left; reflexivity.
  Qed.
  Lemma token_document d st : Forall word_line (doc_lines d) ->
    foldM (token_line requested) (map (fun x => x ++ [LF]) (document_lines d)) st =
    Ok (save_document (fst st) (snd st), if mem_Z (key d) requested then Some (key d, parsed d) else None).
  Proof.
    intros H. unfold document_lines. cbn [map foldM]. rewrite token_mark. cbn [bind]. set (ds := save_document _ _).
    assert (E : forall cur, token_line requested (ds, cur) ([46; 87] ++ [LF]) = Ok (ds, cur)) by reflexivity. rewrite E. cbn [bind].
    rewrite map_app, foldM_app. unfold key. assert (Eb : forall cur, token_line requested (ds, cur) ([] ++ [LF]) = Ok (ds, cur)) by reflexivity.
    destruct (mem_Z (Z.of_nat (doc_id d)) requested).
    - unfold new_rdoc. rewrite token_lines_words by exact H. cbn [bind map foldM]. rewrite Eb. reflexivity.
    - rewrite token_lines_skipped by exact H. cbn [bind map foldM]. rewrite Eb. reflexivity.
  Qed.
  Definition selected (docs : list document) : list document := filter (fun d => mem_Z (key d) requested) docs.
  Lemma assoc_set_new {V} (k : Z) (v : V) ds : ~ In k (map fst ds) -> assoc_set Z.eqb k v ds = ds ++ [(k, v)].
  Proof.
    induction ds as [|[k' v'] ds IH]; intros H; [reflexivity|]. cbn [assoc_set app]. destruct (Z.eqb_spec k k') as [-> |N]; [exfalso; apply H; left; reflexivity|].
    rewrite IH by (intros Hin; apply H; right; exact Hin). reflexivity.
  Qed.
  Lemma token_documents docs : NoDup (map doc_id docs) -> Forall (fun d => Forall word_line (doc_lines d)) docs -> forall ds cur,
    (forall d, In d docs -> ~ In (key d) (map fst (save_document ds cur))) ->
    exists st, foldM (token_line requested) (map (fun x => x ++ [LF]) (concat (map document_lines docs))) (ds, cur) = Ok st /\
      save_document (fst st) (snd st) = save_document ds cur ++ map (fun d => (key d, parsed d)) (selected docs).
  Proof.
    intros HN HW. revert HN. induction HW as [|d docs Hd HW IH]; intros HN ds cur Hfresh.
    - exists (ds, cur). split; [reflexivity|]. cbn. rewrite app_nil_r. reflexivity.
    - cbn [map concat]. rewrite map_app, foldM_app, token_document by exact Hd. cbn [bind fst snd]. inversion HN as [|? ? Hn HN']; subst.
      assert (Hs : save_document (save_document ds cur) (if mem_Z (key d) requested then Some (key d, parsed d) else None)
                   = save_document ds cur ++ (if mem_Z (key d) requested then [(key d, parsed d)] else [])).
      { destruct (mem_Z (key d) requested); cbn [save_document]; [|rewrite app_nil_r; reflexivity]. apply assoc_set_new. apply Hfresh; left; reflexivity. }
      destruct (IH HN' (save_document ds cur) (if mem_Z (key d) requested then Some (key d, parsed d) else None)) as (st & E & Est).
      { intros d' Hd'. rewrite Hs, map_app, in_app_iff. intros [Hin|Hin]; [apply (Hfresh d' (or_intror Hd')), Hin|].
        destruct (mem_Z (key d) requested); [|destruct Hin]. destruct Hin as [Hin|[]]. cbn [fst] in Hin. unfold key in Hin. apply Nat2Z.inj in Hin.
        apply Hn. rewrite Hin. apply in_map, Hd'. }
      exists st. split; [exact E|]. rewrite Est, Hs, <- app_assoc. f_equal. unfold selected. cbn [filter]. destruct (mem_Z (key d) requested); reflexivity.
  Qed.
End Tokens.

(** ** assigning topics *)
Definition topics_of (assigned : list (text * nat)) (k : Z) : list text :=
  map fst (filter (fun a => (Z.of_nat (snd a) =? k)%Z) assigned).
Lemma add_topic_map ds k t : NoDup (map fst ds) ->
  match assoc Z.eqb k ds with Some d => assoc_set Z.eqb k (add_topic d t) ds | None => ds end =
  map (fun kd => (fst kd, if (k =? fst kd)%Z then add_topic (snd kd) t else snd kd)) ds.
Proof.
  induction ds as [|[k' d'] ds IH]; intros HN; [reflexivity|]. inversion HN as [|? ? Hn HN']; subst. cbn [assoc map fst snd]. destruct (Z.eqb_spec k k') as [-> |N].
  - cbn [assoc_set]. rewrite Z.eqb_refl. f_equal. rewrite <- (map_id ds) at 1. apply map_ext_in. intros [k2 d2] H2. cbn [fst snd].
    destruct (Z.eqb_spec k' k2) as [-> |_]; [|reflexivity]. exfalso. apply Hn. apply (in_map fst) in H2. exact H2.
  - specialize (IH HN'). rewrite <- IH. destruct (assoc Z.eqb k ds); [|reflexivity]. cbn [assoc_set]. destruct (Z.eqb_spec k k'); [contradiction|reflexivity].
Qed.
Lemma assign_topics_ok assigned : assignments assigned -> forall ds, NoDup (map fst ds) ->
  assign_topics_to_documents (render_assignments assigned) ds =
  Ok (map (fun kd => (fst kd, RDoc (rd_words (snd kd)) (rd_topics (snd kd) ++ topics_of assigned (fst kd)))) ds).
Proof.
  intros H. unfold assign_topics_to_documents. rewrite render_assignments_broken, text_lines_broken.
  2: { apply Forall_map. eapply Forall_impl; [|exact H]. intros a Ha. apply spaced_no_break. repeat constructor; first [apply Ha|apply numeral_word|apply word_one]. }
  induction H as [|[t k] assigned Ht Ha IH]; intros ds HN.
  - cbn. f_equal. rewrite <- (map_id ds) at 1. apply map_ext. intros [k [w tp]]. cbn. rewrite app_nil_r. reflexivity.
  - cbn [map foldM]. rewrite split_spaced_line by (repeat constructor; first [apply Ht|apply numeral_word|apply word_one]). cbn [fst snd nth_error of_option bind].
    rewrite numeral_int. cbn [bind].
    assert (E : (match assoc Z.eqb (Z.of_nat k) ds with Some d => Ok (assoc_set Z.eqb (Z.of_nat k) (add_topic d t) ds) | None => Ok ds end) =
                Ok (map (fun kd => (fst kd, if (Z.of_nat k =? fst kd)%Z then add_topic (snd kd) t else snd kd)) ds)).
    { rewrite <- (add_topic_map ds (Z.of_nat k) t HN). destruct (assoc Z.eqb (Z.of_nat k) ds); reflexivity. }
    rewrite E. cbn [bind]. rewrite IH by (rewrite map_map; exact HN). f_equal. rewrite map_map. apply map_ext. intros [k' [w tp]]. cbn [fst snd rd_words rd_topics].
    unfold topics_of. cbn [filter snd]. destruct (Z.of_nat k =? k')%Z; cbn [rd_words rd_topics add_topic map fst]; [rewrite <- app_assoc|]; reflexivity.
Qed.

(** the documents that are read *)
Definition loaded (assigned : list (text * nat)) (d : document) : Z * rdoc :=
  (key d, RDoc (fold_left count_word (words_of d) []) (topics_of assigned (key d))).
Lemma NoDup_keys requested docs : NoDup (map doc_id docs) -> NoDup (map key (selected requested docs)).
Proof.
  intros H. unfold selected. induction docs as [|d docs IH]; [constructor|]. inversion H as [|? ? Hn HN]; subst. cbn [filter].
  destruct (mem_Z (key d) requested); [|auto]. cbn [map]. constructor; [|auto]. intros Hin. apply in_map_iff in Hin as (d' & E & Hd'). apply filter_In in Hd' as [Hd' _].
  unfold key in E. apply Nat2Z.inj in E. apply Hn. rewrite <- E. apply in_map, Hd'.
Qed.
Lemma concat_lines_ok docs : Forall (fun d => Forall word_line (doc_lines d)) docs -> Forall (fun x => ~ In LF x /\ ~ In CR x) (concat (map document_lines docs)).
Proof.
  induction 1 as [|d docs Hd H IH]; [constructor|]. cbn [map concat]. apply Forall_app. split; [|exact IH]. apply document_lines_ok, word_lines_words, Hd.
Qed.
Lemma read_documents_ok docs assigned requested : collection docs -> assignments assigned -> requested <> [] ->
  read_documents (render_documents docs) (render_assignments assigned) requested = Ok (map (loaded assigned) (selected requested docs)).
Proof.
  intros (HN & HW) HA Hne. unfold read_documents. destruct requested as [|r0 rs] eqn:Er; [congruence|]. rewrite <- Er. clear Hne.
  rewrite render_documents_broken, text_lines_broken by (apply concat_lines_ok, HW).
  destruct (token_documents requested docs HN HW [] None) as (st & E & Est); [intros d _ []|].
  etransitivity; [exact (f_equal (fun r => '(ds, current) <- r ;; assign_topics_to_documents (render_assignments assigned) (save_document ds current)) E)|].
  cbn [bind]. destruct st as [ds cur]. cbn [fst snd save_document app] in Est.
  rewrite Est, assign_topics_ok by (try exact HA; rewrite map_map; apply NoDup_keys, HN). f_equal. rewrite map_map. reflexivity.
Qed.
