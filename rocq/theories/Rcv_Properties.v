(** C54: the document-term matrix that RCV1v2DatasetSource makes of the published files. *)
From Coq Require Import String DecimalNat.
From Verif Require Import Base Matrix_Model Matrix_Spec Matrix_Proofs Text_Model Text_Proofs Sources_Model Sources_Proofs
  Select_Model Select_Properties Rcv_Model Rcv_Spec Rcv_Proofs Rcv_Dok_Proofs.
Open Scope nat_scope.

(** the value of a word in a document: how often it occurs, whether it occurs, or nothing *)
Definition feature_value (f : feature) (d : document) (w : text) : Z :=
  match f with
  | Wordcount => Z.of_nat (occurrences d w)
  | Binary => if in_dec text_dec w (words_of d) then 1%Z else 0%Z
  | OtherFeature => 0%Z
  end.

(** ** what is loaded *)
Section Loaded.
  Context (docs : list document) (assigned : list (text * nat)) (ids : list nat) (f : feature).
  Context (HC : collection docs) (Hincl : incl ids (map doc_id docs)).
  Let requested := map Z.of_nat ids.
  Let ds := map (loaded assigned) (selected requested docs).
  Let words := gather_complete_word_list ds.
  Let topics := gather_complete_topic_list ds.
  Lemma mem_requested k : mem_Z (Z.of_nat k) requested = true <-> In k ids.
  Proof.
    unfold mem_Z, requested. rewrite existsb_exists. split.
    - intros (z & Hz & E). apply Z.eqb_eq in E. subst z. apply in_map_iff in Hz as (k' & E & Hk). apply Nat2Z.inj in E. subst k'. exact Hk.
    - intros H. exists (Z.of_nat k). split; [apply in_map, H|apply Z.eqb_refl].
  Qed.
  Lemma selected_In d : In d (selected requested docs) <-> In d docs /\ In (doc_id d) ids.
  Proof. unfold selected. rewrite filter_In. unfold key. rewrite mem_requested. reflexivity. Qed.
  Lemma doc_unique d d' : In d docs -> In d' docs -> doc_id d = doc_id d' -> d = d'.
  Proof.
    destruct HC as [HN _]. clear -HN. intros A B E. induction docs as [|x l IH]; [destruct A|]. inversion HN as [|? ? Hn HN']; subst.
    destruct A as [<- |A], B as [<- |B]; [reflexivity| | |auto]; exfalso; apply Hn; [rewrite E|rewrite <- E]; apply in_map; assumption.
  Qed.
  Lemma assoc_loaded d : In d docs -> In (doc_id d) ids -> assoc Z.eqb (key d) ds = Some (snd (loaded assigned d)).
  Proof.
    intros Hd Hin. assert (Hs : In d (selected requested docs)) by (apply selected_In; auto).
    pose proof (NoDup_keys requested docs (proj1 HC)) as HN. unfold ds. revert Hs HN. generalize (selected requested docs). intros L Hs HN.
    induction L as [|x L IH]; [destruct Hs|]. inversion HN as [|? ? Hn HN']; subst. cbn [map]. change (loaded assigned x) with (key x, snd (loaded assigned x)). cbn [assoc].
    destruct (Z.eqb_spec (key d) (key x)) as [E|N].
    - destruct Hs as [-> |Hs]; [reflexivity|]. exfalso. apply Hn. rewrite <- E. apply in_map, Hs.
    - destruct Hs as [-> |Hs]; [congruence|]. apply (IH Hs HN').
  Qed.
  Lemma assoc_loaded_inv k d' : assoc Z.eqb k ds = Some d' -> exists d, In d (selected requested docs) /\ k = key d /\ d' = snd (loaded assigned d).
  Proof.
    unfold ds. generalize (selected requested docs). intros L. induction L as [|x L IH]; [discriminate|]. cbn [map]. change (loaded assigned x) with (key x, snd (loaded assigned x)). cbn [assoc]. destruct (Z.eqb_spec k (key x)) as [-> |N].
    - intros E. injection E as <-. exists x. split; [left; reflexivity|]. auto.
    - intros E. destruct (IH E) as (d & Hd & R). exists d. split; [right; exact Hd|exact R].
  Qed.
  Lemma loaded_length : NoDup ids -> length ds = length ids.
  Proof.
    intros HN. unfold ds. rewrite map_length. rewrite <- (map_length doc_id (selected requested docs)). apply Nat.le_antisymm.
    - apply NoDup_incl_length.
      + pose proof (NoDup_keys requested docs (proj1 HC)) as H. unfold key in H. rewrite <- map_map in H. apply NoDup_map_inv in H. exact H.
      + intros k Hk. apply in_map_iff in Hk as (d & <- & Hd). apply selected_In in Hd. tauto.
    - apply NoDup_incl_length; [exact HN|]. intros k Hk. destruct (proj1 (in_map_iff _ _ _) (Hincl k Hk)) as (d & E & Hd). subst k. apply in_map, selected_In. auto.
  Qed.
  Lemma words_In w : In w words <-> exists d, In d docs /\ In (doc_id d) ids /\ In w (words_of d).
  Proof.
    unfold words, gather_complete_word_list. fold (sorted_set (concat (map (fun kd => map fst (rd_words (snd kd))) ds))). rewrite sorted_set_In, in_concat. split.
    - intros (l & Hl & Hw). apply in_map_iff in Hl as (kd & <- & Hkd). unfold ds in Hkd. apply in_map_iff in Hkd as (d & <- & Hd). cbn [loaded snd rd_words] in Hw.
      apply count_words_keys in Hw as [Hw|[]]. apply selected_In in Hd as [A B]. eauto.
    - intros (d & A & B & Hw). exists (map fst (rd_words (snd (loaded assigned d)))). split.
      + apply in_map_iff. exists (loaded assigned d). split; [reflexivity|]. apply in_map, selected_In. auto.
      + cbn [loaded snd rd_words]. apply count_words_keys. auto.
  Qed.
  Lemma topics_of_In t k : In t (topics_of assigned (Z.of_nat k)) <-> In (t, k) assigned.
  Proof.
    unfold topics_of. rewrite in_map_iff. split.
    - intros ([t' k'] & E & H). apply filter_In in H as [H E']. cbn [fst snd] in *. apply Z.eqb_eq in E'. apply Nat2Z.inj in E'. subst. exact H.
    - intros H. exists (t, k). split; [reflexivity|]. apply filter_In. split; [exact H|]. cbn. apply Z.eqb_refl.
  Qed.
  Lemma topics_In_doc t d : In d docs -> In (doc_id d) ids -> In (t, doc_id d) assigned -> In t topics.
  Proof.
    intros Hd Hk Ht. unfold topics, gather_complete_topic_list. fold (sorted_set (concat (map (fun kd => rd_topics (snd kd)) ds))). apply sorted_set_In, in_concat.
    exists (rd_topics (snd (loaded assigned d))). split.
    - apply in_map_iff. exists (loaded assigned d). split; [reflexivity|]. apply in_map, selected_In. auto.
    - cbn [loaded snd rd_topics]. apply topics_of_In, Ht.
  Qed.
  Lemma topics_In t : In t topics <-> exists k, In (t, k) assigned /\ In k ids.
  Proof.
    unfold topics, gather_complete_topic_list. fold (sorted_set (concat (map (fun kd => rd_topics (snd kd)) ds))). rewrite sorted_set_In, in_concat. split.
    - intros (l & Hl & Ht). apply in_map_iff in Hl as (kd & <- & Hkd). unfold ds in Hkd. apply in_map_iff in Hkd as (d & <- & Hd). cbn [loaded snd rd_topics] in Ht.
      apply topics_of_In in Ht. apply selected_In in Hd as [A B]. eauto.
    - intros (k & Ht & Hk). destruct (proj1 (in_map_iff _ _ _) (Hincl k Hk)) as (d & E & Hd). subst k.
      rewrite <- in_concat, <- sorted_set_In. apply (topics_In_doc t d Hd Hk Ht).
  Qed.
  Lemma loaded_features d w v : In (w, v) (features f (snd (loaded assigned d))) -> In w (words_of d) /\ v = feature_value f d w.
  Proof.
    assert (HN : NoDup (map fst (fold_left count_word (words_of d) []))) by (apply count_words_NoDup; constructor).
    destruct f; cbn [features loaded snd rd_words feature_value]; intros H.
    - assert (Hw : In w (words_of d)) by (apply (in_map fst) in H; apply count_words_keys in H as [H|[]]; exact H). split; [exact Hw|].
      rewrite <- (In_freq _ _ _ HN H), count_words. reflexivity.
    - apply in_map_iff in H as ([w' v'] & E & H). cbn in E. injection E as -> <-.
      assert (Hw : In w (words_of d)) by (apply (in_map fst) in H; apply count_words_keys in H as [H|[]]; exact H). split; [exact Hw|].
      destruct (in_dec text_dec w (words_of d)); [reflexivity|contradiction].
    - destruct H.
  Qed.
  Lemma loaded_features_all d w : In w (words_of d) -> f <> OtherFeature -> In (w, feature_value f d w) (features f (snd (loaded assigned d))).
  Proof.
    intros Hw Hf. assert (HN : NoDup (map fst (fold_left count_word (words_of d) []))) by (apply count_words_NoDup; constructor).
    assert (Hk : In w (map fst (fold_left count_word (words_of d) []))) by (apply count_words_keys; auto). apply in_map_iff in Hk as ([w' v] & E & Hv). cbn in E. subst w'.
    destruct f; cbn [features loaded snd rd_words feature_value]; [| |congruence].
    - pose proof (In_freq _ _ _ HN Hv) as E. rewrite count_words in E. cbn [freq assoc] in E. unfold occurrences. rewrite Z.add_0_l in E. rewrite E. exact Hv.
    - destruct (in_dec text_dec w (words_of d)); [|contradiction]. apply in_map_iff. exists (w, v). auto.
  Qed.
  Lemma loaded_fits k d' : assoc Z.eqb k ds = Some d' -> fits words topics f d'.
  Proof.
    intros H. apply assoc_loaded_inv in H as (d & Hd & -> & ->). pose proof (proj1 (selected_In d) Hd) as [Hdd Hid]. split; [|split].
    - intros w v Hin. apply loaded_features in Hin as [Hw _]. apply words_In. eauto.
    - intros w v v' A B. apply loaded_features in A as [_ ->], B as [_ ->]. reflexivity.
    - intros t Ht. apply (topics_In_doc t d Hdd Hid). apply topics_of_In. exact Ht.
  Qed.
  Lemma loaded_exists k : In k ids -> exists d, In d docs /\ doc_id d = k /\ assoc Z.eqb (Z.of_nat k) ds = Some (snd (loaded assigned d)).
  Proof.
    intros Hk. destruct (proj1 (in_map_iff _ _ _) (Hincl k Hk)) as (d & E & Hd). exists d. split; [exact Hd|]. split; [exact E|]. rewrite <- E. apply assoc_loaded; [exact Hd|]. rewrite E. exact Hk.
  Qed.
  Lemma decimal_numeral : map decimal requested = map numeral ids.
  Proof. unfold requested. rewrite map_map. apply map_ext. intros k. unfold decimal, numeral. rewrite Nat2Z.id. reflexivity. Qed.

  Lemma matrix_ok label : NoDup ids -> exists mw mt, create_dok_matrices ds requested words topics f = Ok (mw, mt) /\
    document_term_matrix docs assigned ids (feature_value f)
      (DMat label (tocsr (length ds) (length words) mw) (tocsr (length ds) (length topics) mt) (map decimal requested) words topics false).
  Proof.
    intros HN. pose proof (loaded_length HN) as Hlen.
    assert (HNw : NoDup words) by apply sorted_set_NoDup. assert (HNt : NoDup topics) by apply sorted_set_NoDup.
    destruct (rows_ok ds words topics f HNw HNt loaded_fits requested 0 ([], [])) as ((mw & mt) & E & _ & Hrows).
    { unfold requested. rewrite map_length. cbn [Nat.add]. rewrite Hlen. apply Nat.le_refl. }
    { intros k Hk. unfold requested in Hk. apply in_map_iff in Hk as (k' & <- & Hk). destruct (loaded_exists k' Hk) as (d & _ & _ & Ed). eauto. }
    { intros r j _. split; reflexivity. }
    exists mw, mt. split; [exact E|]. cbn [fst snd] in Hrows. unfold document_term_matrix. cbn [dm_row_labels dm_labels_X dm_labels_Y dm_X dm_Y].
    split; [apply decimal_numeral|]. split; [apply sorted_set_sorted|]. split; [apply words_In|]. split; [apply sorted_set_sorted|]. split; [apply topics_In|]. split.
    { unfold aligned. cbn [dm_row_labels dm_labels_X dm_labels_Y dm_X dm_Y]. rewrite decimal_numeral, map_length, <- Hlen. split; apply tocsr_rectangular. }
    assert (Hreq : forall i k, nth_error ids i = Some k -> nth_error requested i = Some (Z.of_nat k)).
    { intros i k Hi. unfold requested. rewrite nth_error_map, Hi. reflexivity. }
    split.
    - intros i j d w Hd Hi Hj. assert (Hin : In (doc_id d) ids) by (eapply nth_error_In, Hi).
      destruct (Hrows i (Z.of_nat (doc_id d)) _ (Hreq _ _ Hi) (assoc_loaded d Hd Hin)) as [[H1 H2] _]. cbn [Nat.add] in *.
      assert (Hil : i < length ds) by (rewrite Hlen; apply nth_error_Some; congruence). assert (Hjl : j < length words) by (apply nth_error_Some; congruence).
      rewrite tocsr_entry by assumption.
      destruct (in_dec text_dec w (words_of d)) as [Hw|Hw].
      + destruct f eqn:Ef.
        * apply (H1 j w); [exact Hj|]. rewrite <- Ef. apply loaded_features_all; [exact Hw|rewrite Ef; discriminate].
        * apply (H1 j w); [exact Hj|]. rewrite <- Ef. apply loaded_features_all; [exact Hw|rewrite Ef; discriminate].
        * apply H2. intros w' v' _ [].
      + rewrite H2.
        * destruct f; cbn [feature_value]; [|destruct (in_dec text_dec w (words_of d)); [contradiction|reflexivity]|reflexivity].
          unfold occurrences. rewrite (proj1 (count_occ_not_In text_dec _ _) Hw). reflexivity.
        * intros w' v' Hj' Hin'. assert (w' = w) by congruence. subst w'. apply loaded_features in Hin' as [Hin' _]. contradiction.
    - intros i j k t Hi Hj. assert (Hin : In k ids) by (eapply nth_error_In, Hi). destruct (loaded_exists k Hin) as (d & Hd & Ek & Ed).
      destruct (Hrows i (Z.of_nat k) _ (Hreq _ _ Hi) Ed) as [_ [H1 H2]]. cbn [Nat.add] in *.
      assert (Hil : i < length ds) by (rewrite Hlen; apply nth_error_Some; congruence). assert (Hjl : j < length topics) by (apply nth_error_Some; congruence).
      rewrite tocsr_entry by assumption. unfold topic_values in H1, H2. cbn [loaded snd rd_topics] in H1, H2. split.
      + intros Ht. apply (H1 j t); [exact Hj|]. apply in_map_iff. exists t. split; [reflexivity|]. unfold key. rewrite Ek. apply topics_of_In, Ht.
      + intros Ht. apply H2. intros w v Hj' Hin'. assert (w = t) by congruence. subst w. apply Ht. apply in_map_iff in Hin' as (t' & E' & H'). injection E' as -> _.
        unfold key in H'. rewrite Ek in H'. apply topics_of_In, H'.
  Qed.
End Loaded.

(** ** the theorems *)
Lemma insert_Z_nat k l : insert_Z (Z.of_nat k) (map Z.of_nat l) = map Z.of_nat (insert_nat k l).
Proof.
  induction l as [|x l IH]; [reflexivity|]. cbn [map insert_Z insert_nat]. destruct (Nat.leb_spec k x) as [H|H].
  - rewrite (proj2 (Z.leb_le (Z.of_nat k) (Z.of_nat x))) by lia. reflexivity.
  - rewrite (proj2 (Z.leb_gt (Z.of_nat k) (Z.of_nat x))) by lia. rewrite IH. reflexivity.
Qed.
Lemma sort_Z_nat l : sort_Z (map Z.of_nat l) = map Z.of_nat (sort_nat l).
Proof. unfold sort_Z, sort_nat. induction l as [|x l IH]; [reflexivity|]. cbn [map fold_right]. rewrite IH. apply insert_Z_nat. Qed.
Lemma read_documents_all docs assigned requested : collection docs -> assignments assigned ->
  read_documents (render_documents docs) (render_assignments assigned) requested = Ok (map (loaded assigned) (selected requested docs)).
Proof.
  intros HC HA. destruct requested as [|r rs]; [|apply read_documents_ok; [exact HC|exact HA|discriminate]].
  unfold read_documents, selected. assert (E : filter (fun d => mem_Z (key d) []) docs = []) by (induction docs; [reflexivity|]; cbn; apply IHdocs; destruct HC as [A B]; split; [inversion A|inversion B]; assumption).
  rewrite E. reflexivity.
Qed.
(** the files that publish a collection *)
Definition published (ids : list nat) (docs : list document) (assigned industries : list (text * nat)) : rcv_files :=
  {| f_ids := map Z.of_nat ids; f_tokens := render_documents docs; f_topics := render_assignments assigned; f_industries := render_assignments industries |}.
(** the feature type that applies: the argument, or else the configured one *)
Definition effective (conf : rcv_conf) (ft : option feature) : feature := match ft with Some f => f | None => rc_feature conf end.
Definition effective_filters (conf : rcv_conf) (filters : list (string * text)) : list (string * text) :=
  match filters with [] => rc_filters conf | _ => filters end.

Lemma after_selection docs assigned ids f label : collection docs -> assignments assigned -> NoDup ids -> incl ids (map doc_id docs) ->
  exists order D, Permutation ids order /\ StronglySorted lt order /\
    (ds <- read_documents (render_documents docs) (render_assignments assigned) (sort_Z (map Z.of_nat ids)) ;;
     '(mw, mt) <- create_dok_matrices ds (sort_Z (map Z.of_nat ids)) (gather_complete_word_list ds) (gather_complete_topic_list ds) f ;;
     Ok (DMat label (tocsr (length ds) (length (gather_complete_word_list ds)) mw) (tocsr (length ds) (length (gather_complete_topic_list ds)) mt)
           (map decimal (sort_Z (map Z.of_nat ids))) (gather_complete_word_list ds) (gather_complete_topic_list ds) false)) = Ok D /\
    dm_label D = label /\ dm_final D = false /\ document_term_matrix docs assigned order (feature_value f) D.
Proof.
  intros HC HA HN Hincl. rewrite sort_Z_nat. pose proof (sort_perm ids) as HP. exists (sort_nat ids).
  destruct (matrix_ok docs assigned (sort_nat ids) f HC) with (label := label) as (mw & mt & E & HD).
  { intros k Hk. apply Hincl. apply (Permutation_in _ (Permutation_sym HP) Hk). }
  { apply (Permutation_NoDup HP HN). }
  rewrite read_documents_all by assumption. cbn [bind]. eexists. split; [exact HP|]. split; [apply sort_strict, HN|].
  split; [etransitivity; [exact (f_equal (fun r => '(mw, mt) <- r ;; Ok (DMat label _ _ _ _ _ false)) E)|reflexivity]|]. split; [reflexivity|]. split; [reflexivity|]. exact HD.
Qed.

(** without a filter: one row for every document in the file of IDs *)
Theorem C54_all_documents : forall docs assigned industries ids conf label ft filters,
  collection docs -> assignments assigned ->
  NoDup ids -> incl ids (map doc_id docs) -> length ids <> 1 ->
  effective_filters conf filters = [] ->
  exists order D, Permutation ids order /\ StronglySorted lt order /\
    rcv_create (published ids docs assigned industries) conf label ft filters = Ok D /\
    dm_label D = label /\ dm_final D = false /\ document_term_matrix docs assigned order (feature_value (effective conf ft)) D.
Proof.
  intros docs assigned industries ids conf label ft filters HC HA HN Hincl Hlen Hf.
  destruct (after_selection docs assigned ids (effective conf ft) label HC HA HN Hincl) as (order & D & H1 & H2 & E & H3). exists order, D. split; [exact H1|]. split; [exact H2|]. split; [|exact H3].
  unfold rcv_create. fold (effective_filters conf filters). rewrite Hf. cbn [assoc published f_ids f_tokens f_topics].
  assert (Er : read_all_documentIDs (map Z.of_nat ids) = Ok (sort_Z (map Z.of_nat ids))) by (destruct ids as [|a [|b l]]; [reflexivity|cbn in Hlen; congruence|reflexivity]).
  rewrite Er. cbn [bind]. exact E.
Qed.

(** with the filter 'industry': one row for every document assigned to the industry *)
Definition in_industry (code : text) (industries : list (text * nat)) : list nat :=
  map snd (filter (fun a => if text_dec (fst a) code then true else false) industries).
Lemma read_industry_ok industries code : assignments industries ->
  read_documentIDs_in_industry (render_assignments industries) code = Ok (sort_Z (map Z.of_nat (in_industry code industries))).
Proof.
  intros H. unfold read_documentIDs_in_industry. rewrite render_assignments_broken, text_lines_broken.
  2: { apply Forall_map. eapply Forall_impl; [|exact H]. intros a Ha. apply spaced_no_break. repeat constructor; first [apply Ha|apply numeral_word|apply word_one]. }
  assert (G : forall acc, foldM (fun ids line => let a := split_words line in
      i <- of_option IndexError (nth_error a 0) ;;
      if text_eqb i code then (s <- of_option IndexError (nth_error a 1) ;; k <- py_int s ;; Ok (ids ++ [k])) else Ok ids)
      (map (fun x => x ++ [LF]) (map (fun p => spaced [fst p; numeral (snd p); [49]]) industries)) acc = Ok (acc ++ map Z.of_nat (in_industry code industries))).
  { induction H as [|[c k] l Hc Hl IH]; intros acc; [cbn; rewrite app_nil_r; reflexivity|]. cbn [map foldM].
    rewrite split_spaced_line by (repeat constructor; first [apply Hc|apply numeral_word|apply word_one]). cbn [fst snd nth_error of_option bind].
    unfold in_industry. cbn [filter fst]. destruct (text_dec c code) as [-> |N].
    - rewrite text_eqb_refl, numeral_int. cbn [bind]. rewrite IH. cbn [map snd]. rewrite <- app_assoc. reflexivity.
    - rewrite text_eqb_neq by exact N. cbn [bind]. apply IH. }
  etransitivity; [exact (f_equal (fun r => ids <- r ;; Ok (sort_Z ids)) (G []))|]. reflexivity.
Qed.
Theorem C54_industry : forall docs assigned industries all_ids code conf label ft filters,
  collection docs -> assignments assigned -> assignments industries ->
  assoc String.eqb "industry"%string (effective_filters conf filters) = Some code ->
  NoDup (in_industry code industries) -> incl (in_industry code industries) (map doc_id docs) ->
  exists order D, Permutation (in_industry code industries) order /\ StronglySorted lt order /\
    rcv_create (published all_ids docs assigned industries) conf label ft filters = Ok D /\
    dm_label D = label /\ dm_final D = false /\ document_term_matrix docs assigned order (feature_value (effective conf ft)) D.
Proof.
  intros docs assigned industries all_ids code conf label ft filters HC HA HI Hf HN Hincl.
  destruct (after_selection docs assigned (in_industry code industries) (effective conf ft) label HC HA HN Hincl) as (order & D & H1 & H2 & E & H3).
  exists order, D. split; [exact H1|]. split; [exact H2|]. split; [|exact H3].
  unfold rcv_create. fold (effective_filters conf filters). rewrite Hf. cbn [published f_industries f_tokens f_topics]. rewrite (read_industry_ok industries code HI). cbn [bind]. exact E.
Qed.

(** a filter that is not an industry is refused *)
Theorem C54_unsupported_filter : forall files conf label ft filters,
  effective_filters conf filters <> [] -> assoc String.eqb "industry"%string (effective_filters conf filters) = None ->
  rcv_create files conf label ft filters = Err ValueError.
Proof.
  intros files conf label ft filters H1 H2. unfold rcv_create. fold (effective_filters conf filters). rewrite H2. destruct (effective_filters conf filters); [congruence|reflexivity].
Qed.
(** a file of IDs with a single ID cannot be read *)
Theorem C54_single_document : forall files k conf label ft filters,
  effective_filters conf filters = [] -> f_ids files = [k] -> rcv_create files conf label ft filters = Err TypeError.
Proof. intros files k conf label ft filters Hf Hk. unfold rcv_create. fold (effective_filters conf filters). rewrite Hf, Hk. reflexivity. Qed.

(** a document that is asked for but absent from the token file *)
Lemma combine_app_seq {B} (a b : list B) s : combine (seq s (length (a ++ b))) (a ++ b) = combine (seq s (length a)) a ++ combine (seq (s + length a) (length b)) b.
Proof.
  revert s. induction a as [|x a IH]; intros s; [cbn; rewrite Nat.add_0_r; reflexivity|]. cbn [app length seq combine]. rewrite IH. replace (s + S (length a)) with (S s + length a) by lia. reflexivity.
Qed.
Lemma NoDup_prefix {A} (a b : list A) : NoDup (a ++ b) -> NoDup a.
Proof.
  induction a as [|x a IH]; intros H; [constructor|]. inversion H as [|? ? Hn HN]; subst. constructor; [intros Hx; apply Hn, in_or_app; auto|auto].
Qed.
Lemma first_missing ids docs : ~ incl ids (map doc_id docs) -> exists a k b, ids = a ++ k :: b /\ incl a (map doc_id docs) /\ ~ In k (map doc_id docs).
Proof.
  induction ids as [|k ids IH]; intros H; [exfalso; apply H; intros x []|]. destruct (in_dec Nat.eq_dec k (map doc_id docs)) as [Hk|Hk].
  - destruct IH as (a & k' & b & -> & Ha & Hk'); [intros Hi; apply H; intros x [<- |Hx]; auto|]. exists (k :: a), k', b. split; [reflexivity|]. split; [|exact Hk']. intros x [<- |Hx]; auto.
  - exists [], k, ids. split; [reflexivity|]. split; [intros x []|exact Hk].
Qed.
Lemma matrix_missing docs assigned ids f : collection docs -> NoDup ids -> ~ incl ids (map doc_id docs) ->
  let ds := map (loaded assigned) (selected (map Z.of_nat ids) docs) in
  create_dok_matrices ds (map Z.of_nat ids) (gather_complete_word_list ds) (gather_complete_topic_list ds) f = Err KeyError.
Proof.
  intros HC HN Hmiss ds. destruct (first_missing ids docs Hmiss) as (a & k & b & Eids & Ha & Hk).
  assert (Hain : forall x, In x a -> In x ids) by (intros x Hx; rewrite Eids; apply in_or_app; auto).
  assert (Hla : length a <= length ds).
  { unfold ds. rewrite map_length, <- (map_length doc_id). apply NoDup_incl_length; [rewrite Eids in HN; apply NoDup_prefix in HN; exact HN|].
    intros x Hx. destruct (proj1 (in_map_iff _ _ _) (Ha x Hx)) as (d & E & Hd). subst x. apply in_map. apply selected_In. split; [exact Hd|]. apply Hain, Hx. }
  rewrite create_dok_eq, Eids, map_app. cbn [map]. rewrite combine_app_seq, foldM_app.
  destruct (rows_ok ds (gather_complete_word_list ds) (gather_complete_topic_list ds) f (sorted_set_NoDup _) (sorted_set_NoDup _) (loaded_fits docs assigned ids f) (map Z.of_nat a) 0 ([], [])) as (mm & E & _).
  { rewrite map_length. exact Hla. }
  { intros z Hz. apply in_map_iff in Hz as (x & <- & Hx). destruct (proj1 (in_map_iff _ _ _) (Ha x Hx)) as (d & E & Hd). subst x.
    eexists. apply (assoc_loaded docs assigned ids HC d Hd). apply Hain, Hx. }
  { intros; split; reflexivity. }
  etransitivity; [exact (f_equal (fun r => b' <- r ;; foldM _ _ b') E)|]. cbn [bind length seq combine foldM]. unfold row_step at 1.
  destruct (assoc Z.eqb (Z.of_nat k) ds) as [d'|] eqn:Ed; [|reflexivity]. exfalso. apply assoc_loaded_inv in Ed as (d & Hd & Ek & _). unfold key in Ek. apply Nat2Z.inj in Ek.
  apply Hk. rewrite Ek. apply in_map. apply selected_In in Hd. apply Hd.
Qed.
Theorem C54_document_without_tokens : forall docs assigned industries ids conf label ft filters,
  collection docs -> assignments assigned -> NoDup ids -> length ids <> 1 -> effective_filters conf filters = [] ->
  ~ incl ids (map doc_id docs) ->
  rcv_create (published ids docs assigned industries) conf label ft filters = Err KeyError.
Proof.
  intros docs assigned industries ids conf label ft filters HC HA HN Hlen Hf Hmiss.
  unfold rcv_create. fold (effective_filters conf filters). rewrite Hf. cbn [assoc published f_ids f_tokens f_topics].
  assert (Er : read_all_documentIDs (map Z.of_nat ids) = Ok (sort_Z (map Z.of_nat ids))) by (destruct ids as [|a [|b l]]; [reflexivity|cbn in Hlen; congruence|reflexivity]).
  rewrite Er. cbn [bind]. rewrite sort_Z_nat, read_documents_all by assumption. cbn [bind].
  assert (Hm : ~ incl (sort_nat ids) (map doc_id docs)) by (intros Hi; apply Hmiss; intros x Hx; apply Hi; apply (Permutation_in _ (sort_perm ids) Hx)).
  pose proof (matrix_missing docs assigned (sort_nat ids) (effective conf ft) HC (Permutation_NoDup (sort_perm ids) HN) Hm) as E. cbn zeta in E.
  etransitivity; [exact (f_equal (fun r => '(mw, mt) <- r ;; Ok (DMat label _ _ _ _ _ false)) E)|reflexivity].
Qed.

(** a document that is listed twice *)
Lemma matrix_twice docs assigned ids f : collection docs -> incl ids (map doc_id docs) -> ~ NoDup ids -> f <> OtherFeature ->
  (forall d, In d docs -> In (doc_id d) ids -> words_of d <> []) ->
  let ds := map (loaded assigned) (selected (map Z.of_nat ids) docs) in
  create_dok_matrices ds (map Z.of_nat ids) (gather_complete_word_list ds) (gather_complete_topic_list ds) f = Err IndexError.
Proof.
  intros HC Hincl HD Hf Hne ds. rewrite create_dok_eq.
  assert (Hlt : length ds < length ids).
  { destruct (Nat.lt_ge_cases (length ds) (length ids)) as [H|H]; [exact H|]. exfalso. apply HD. apply (@NoDup_incl_NoDup nat (map doc_id (selected (map Z.of_nat ids) docs)) ids).
    - pose proof (NoDup_keys (map Z.of_nat ids) docs (proj1 HC)) as HK. unfold key in HK. rewrite <- map_map in HK. apply NoDup_map_inv in HK. exact HK.
    - unfold ds in H. rewrite map_length in H. rewrite map_length. exact H.
    - intros k Hk. apply in_map_iff in Hk as (d & <- & Hd). apply selected_In in Hd. tauto. }
  set (n := length ds) in *. rewrite <- (firstn_skipn n ids), map_app, combine_app_seq, foldM_app.
  assert (Hex : forall z, In z (map Z.of_nat ids) -> exists d, assoc Z.eqb z ds = Some d).
  { intros z Hz. apply in_map_iff in Hz as (x & <- & Hx). destruct (loaded_exists docs assigned ids HC Hincl x Hx) as (d & _ & _ & E). eauto. }
  assert (Hsub : forall l, incl l ids -> forall z, In z (map Z.of_nat l) -> exists d, assoc Z.eqb z ds = Some d).
  { intros l Hl z Hz. apply Hex. apply in_map_iff in Hz as (x & <- & Hx). apply in_map, Hl, Hx. }
  assert (Hfi : incl (firstn n ids) ids) by (intros x Hx; rewrite <- (firstn_skipn n ids); apply in_or_app; auto).
  assert (Hsk : incl (skipn n ids) ids) by (intros x Hx; rewrite <- (firstn_skipn n ids); apply in_or_app; auto).
  destruct (rows_ok ds (gather_complete_word_list ds) (gather_complete_topic_list ds) f (sorted_set_NoDup _) (sorted_set_NoDup _) (loaded_fits docs assigned ids f) (map Z.of_nat (firstn n ids)) 0 ([], [])) as (mm & E & _).
  { rewrite map_length, firstn_length. fold n. lia. }
  { apply Hsub, Hfi. }
  { intros; split; reflexivity. }
  etransitivity; [exact (f_equal (fun r => b' <- r ;; foldM _ _ b') E)|]. cbn [bind].
  apply (rows_out ds (gather_complete_word_list ds) (gather_complete_topic_list ds) f (sorted_set_NoDup _) (sorted_set_NoDup _) (loaded_fits docs assigned ids f)).
  - rewrite map_length, firstn_length. fold n. lia.
  - apply Hsub, Hsk.
  - destruct (skipn n ids) as [|k l] eqn:Es; [apply (f_equal (@length nat)) in Es; rewrite skipn_length in Es; cbn in Es; lia|].
    assert (Hk : In k ids) by (apply Hsk; left; reflexivity). destruct (loaded_exists docs assigned ids HC Hincl k Hk) as (d & Hd & Ek & Ed).
    eexists _, _. split; [left; reflexivity|]. split; [exact Ed|]. left. destruct (words_of d) as [|w ws] eqn:Ew; [exfalso; rewrite <- Ek in Hk; apply (Hne d Hd Hk Ew)|].
    intros Ef. assert (Hin : In (w, feature_value f d w) (features f (snd (loaded assigned d)))) by (apply loaded_features_all; [rewrite Ew; left; reflexivity|exact Hf]). rewrite Ef in Hin. destruct Hin.
Qed.
Theorem C54_document_listed_twice : forall docs assigned industries all_ids code conf label ft filters,
  collection docs -> assignments assigned -> assignments industries ->
  assoc String.eqb "industry"%string (effective_filters conf filters) = Some code ->
  incl (in_industry code industries) (map doc_id docs) ->
  ~ NoDup (in_industry code industries) -> effective conf ft <> OtherFeature ->
  (forall d, In d docs -> In (doc_id d) (in_industry code industries) -> words_of d <> []) ->
  rcv_create (published all_ids docs assigned industries) conf label ft filters = Err IndexError.
Proof.
  intros docs assigned industries all_ids code conf label ft filters HC HA HI Hf Hincl HD Hft Hne.
  unfold rcv_create. fold (effective_filters conf filters). rewrite Hf. cbn [published f_industries f_tokens f_topics]. rewrite (read_industry_ok industries code HI). cbn [bind].
  rewrite sort_Z_nat, read_documents_all by assumption. cbn [bind]. pose proof (sort_perm (in_industry code industries)) as HP. set (ids := in_industry code industries) in *.
  assert (H1 : incl (sort_nat ids) (map doc_id docs)) by (intros x Hx; apply Hincl; apply (Permutation_in _ (Permutation_sym HP) Hx)).
  assert (H2 : ~ NoDup (sort_nat ids)) by (intros H; apply HD; apply (Permutation_NoDup (Permutation_sym HP) H)).
  assert (H3 : forall d, In d docs -> In (doc_id d) (sort_nat ids) -> words_of d <> []) by (intros d A B; apply Hne; [exact A|]; apply (Permutation_in _ (Permutation_sym HP) B)).
  pose proof (matrix_twice docs assigned (sort_nat ids) (effective conf ft) HC H1 H2 Hft H3) as E. cbn zeta in E.
  etransitivity; [exact (f_equal (fun r => '(mw, mt) <- r ;; Ok (DMat label _ _ _ _ _ false)) E)|reflexivity].
Qed.

(** a line of the token file that begins with ".W" has no effect, whatever follows on the line *)
Lemma file_lines_split a b : file_lines (a ++ LF :: b) = file_lines (a ++ [LF]) ++ file_lines b.
Proof.
  unfold file_lines. assert (G : forall cur, lines_from cur (a ++ LF :: b) = lines_from cur (a ++ [LF]) ++ lines_from [] b).
  { induction a as [|c a IH]; intros cur; cbn [app lines_from]; [reflexivity|]. destruct (c =? LF); rewrite IH; reflexivity. }
  apply G.
Qed.
Theorem C54_lines_after_dot_W_are_lost : forall ids before_ line after_ topics industries conf label ft filters,
  ~ In CR (before_ ++ line ++ after_) -> ~ In LF line ->
  rcv_create {| f_ids := ids; f_tokens := before_ ++ LF :: ([46; 87] ++ line) ++ LF :: after_; f_topics := topics; f_industries := industries |} conf label ft filters =
  rcv_create {| f_ids := ids; f_tokens := before_ ++ LF :: after_; f_topics := topics; f_industries := industries |} conf label ft filters.
Proof.
  intros ids a l b topics industries conf label ft filters HCR HLF.
  assert (E : forall requested, read_documents (a ++ LF :: ([46; 87] ++ l) ++ LF :: b) topics requested = read_documents (a ++ LF :: b) topics requested).
  { intros requested. unfold read_documents. destruct requested as [|r rs]; [reflexivity|]. set (req := r :: rs). f_equal.
    assert (Ha : ~ In CR a) by (intros H; apply HCR, in_or_app; auto). assert (Hl : ~ In CR l) by (intros H; apply HCR, in_or_app; right; apply in_or_app; auto).
    assert (Hb : ~ In CR b) by (intros H; apply HCR, in_or_app; right; apply in_or_app; auto).
    unfold text_lines. rewrite !universal_id.
    2: { rewrite in_app_iff. cbn [In]. intros [H|[H|H]]; [auto|discriminate|auto]. }
    2: { rewrite in_app_iff. cbn [In app]. rewrite in_app_iff. cbn [In]. intros [H|[H|[H|[H|[H|[H|H]]]]]]; try discriminate; auto. }
    rewrite (file_lines_split a), (file_lines_split a b), (lines_cons ([46; 87] ++ l) b).
    2: { cbn [app In]. intros [H|[H|H]]; [discriminate|discriminate|auto]. }
    rewrite !foldM_app. destruct (foldM (token_line req) (file_lines (a ++ [LF])) ([], None)) as [[ds cur]|e]; [|reflexivity]. cbn [bind foldM].
    assert (Et : token_line req (ds, cur) (([46; 87] ++ l) ++ [LF]) = Ok (ds, cur)).
    { unfold token_line. rewrite strip_newline. assert (Es : exists u, strip ([46; 87] ++ l) = 46 :: 87 :: u).
      { unfold strip. cbn [app lstrip]. change (is_space 46) with false. cbn iota. cbn [rev].
        assert (G : forall v, exists u, lstrip (v ++ [87] ++ [46]) = u ++ [87] ++ [46]).
        { induction v as [|c v (u & Eu)]; [exists []; reflexivity|]. cbn [app lstrip]. destruct (is_space c); [exists u; exact Eu|exists (c :: v); reflexivity]. }
        destruct (G (rev l)) as (u & Eu). exists (rev u). rewrite <- app_assoc, Eu, !rev_app_distr. reflexivity. }
      destruct Es as (u & ->). reflexivity. }
    rewrite Et. reflexivity. }
  unfold rcv_create. cbn [f_ids f_tokens f_topics f_industries]. destruct (match assoc String.eqb "industry"%string _ with Some i => _ | None => _ end) as [requested|e]; [|reflexivity]. cbn [bind]. rewrite E. reflexivity.
Qed.

(** ** examples *)
Section Example.
  (** documents 12 ("b a b" / "c") and 7 ("a"), topics T and U *)
  Let d12 := Document 12 [[[98]; [97]; [98]]; [[99]]].
  Let d7 := Document 7 [[[97]]].
  Let d3 := Document 3 [[[120]]].
  Let docs := [d12; d3; d7].
  Let assigned := [([84], 12); ([85], 7); ([84], 7); ([86], 3)].
  Let files := published [12; 7] docs assigned [([73], 7); ([74], 3); ([73], 12)].
  Example C54_example_wordcount : rcv_create files default_conf "d"%string None [] =
    Ok (DMat "d"%string (SMat CSR 3 [[1; 0; 0]; [1; 2; 1]]%Z) (SMat CSR 2 [[1; 1]; [1; 0]]%Z) [[55]; [49; 50]] [[97]; [98]; [99]] [[84]; [85]] false).
  Proof. vm_compute. reflexivity. Qed.
  Example C54_example_industry_binary : rcv_create files default_conf "d"%string (Some Binary) [("industry"%string, [73])] =
    Ok (DMat "d"%string (SMat CSR 3 [[1; 0; 0]; [1; 1; 1]]%Z) (SMat CSR 2 [[1; 1]; [1; 0]]%Z) [[55]; [49; 50]] [[97]; [98]; [99]] [[84]; [85]] false).
  Proof. vm_compute. reflexivity. Qed.
  Example C54_example_missing : rcv_create (published [12; 99] docs assigned []) default_conf "d"%string None [] = Err KeyError /\ NoDup [12; 99] /\ ~ incl [12; 99] (map doc_id docs).
  Proof.
    split; [vm_compute; reflexivity|]. split; [repeat constructor; cbn; intuition discriminate|]. intros H. specialize (H 99 (or_intror (or_introl eq_refl))). cbn in H. intuition discriminate.
  Qed.
  Example C54_example_twice : rcv_create (published [] docs assigned [([73], 7); ([73], 12); ([73], 7)]) default_conf "d"%string None [("industry"%string, [73])] = Err IndexError /\
    ~ NoDup (in_industry [73] [([73], 7); ([73], 12); ([73], 7)]).
  Proof. split; [vm_compute; reflexivity|]. cbn. intros H. inversion H as [|? ? Hn _]; subst. apply Hn. right; left; reflexivity. Qed.
  Example C54_example_collection : collection docs /\ assignments assigned /\ NoDup [12; 7] /\ incl [12; 7] (map doc_id docs).
  Proof.
    assert (W : forall c, is_space c = false -> word [c]) by (intros c Hc; split; [discriminate|intros x [<- |[]]; exact Hc]).
    split; [split|split; [|split]].
    - cbn. repeat constructor; cbn; intuition discriminate.
    - repeat constructor; try (apply W; reflexivity); eexists _, _; split; try reflexivity; split; discriminate.
    - repeat constructor; apply W; reflexivity.
    - repeat constructor; cbn; intuition discriminate.
    - intros x [<- |[<- |[]]]; cbn; auto.
  Qed.
End Example.
