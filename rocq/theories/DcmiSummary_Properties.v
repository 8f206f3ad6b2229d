(** C84.  What the summary and the plot of the dcMI experiment show: the right numbers of the stored results, but of old ones when a summary is stored, and under wrong names when a tag has no results. *)
From Coq Require Import String Ascii QArith Sorted Permutation Lqa.
From Verif Require Import Base Matrix_Model Sources_Model Sources_Proofs Render_Model BifText_Model Paths_Model DcmiRuns_Model DcmiRuns_Properties DcmiSummary_Model.
Open Scope nat_scope.
Open Scope list_scope.

(** *** specification *)
(** the results of all runs, one after the other; whether all have been stored *)
Definition stored_results (f : stored) (rs : list run) : list Q := flat_map (fun r => match f_results f (r_results r) with Some l => l | None => [] end) rs.
Definition complete (f : stored) (rs : list run) : Prop := forall r, In r rs -> f_results f (r_results r) <> None.
(** the runs that carry a tag *)
Definition tagged (tag : text) (rs : list run) : list run := filter (fun r => if in_dec (list_eq_dec Nat.eq_dec) tag (r_tags r) then true else false) rs.
(** the sum, the median: at least half of the values are not above it and at least half are not below it *)
Fixpoint qsum (l : list Q) : Q := match l with [] => 0%Q | x :: l' => (x + qsum l')%Q end.
Definition halves (m : Q) (l : list Q) : Prop :=
  length l <= 2 * length (filter (fun x => Qle_bool x m) l) /\ length l <= 2 * length (filter (fun x => Qle_bool m x) l).
Definition qlen {A} (l : list A) : Q := inject_Z (Z.of_nat (length l)).

(** *** lists of durations *)
Lemma sumQ_eq l : (sumQ l == qsum l)%Q.
Proof.
  unfold sumQ. assert (G : forall a, (fold_left Qplus l a == a + qsum l)%Q); [|rewrite G; ring].
  induction l as [|x l IH]; intros a; cbn [fold_left qsum]; [ring|]. rewrite IH. ring.
Qed.
Lemma maxQ_spec l m : maxQ l = Ok m -> In m l /\ forall x, In x l -> (x <= m)%Q.
Proof.
  revert m. induction l as [|x l IH]; intros m; [discriminate|]. destruct l as [|y l].
  - cbn [maxQ]. intros E. injection E as <-. split; [left; reflexivity|]. intros z [<- |[]]. apply Qle_refl.
  - change (maxQ (x :: y :: l)) with (m <- maxQ (y :: l) ;; Ok (if Qle_bool m x then x else m)). destruct (maxQ (y :: l)) as [n|]; [|discriminate]. cbn [bind]. intros E. injection E as <-.
    destruct (IH n eq_refl) as (I & U). destruct (Qle_bool n x) eqn:C.
    + apply Qle_bool_iff in C. split; [left; reflexivity|]. intros z [<- |H]; [apply Qle_refl|]. eapply Qle_trans; [apply U, H|exact C].
    + assert (D : (x <= n)%Q). { apply Qlt_le_weak, Qnot_le_lt. intros F. apply Qle_bool_iff in F. congruence. }
      split; [right; exact I|]. intros z [<- |H]; [exact D|apply U, H].
Qed.
Lemma maxQ_ok l : l <> [] -> exists m, maxQ l = Ok m.
Proof. induction l as [|x l IH]; [congruence|]. intros _. destruct l as [|y l]; [eexists; reflexivity|]. destruct IH as (m & E); [discriminate|]. change (maxQ (x :: y :: l)) with (m <- maxQ (y :: l) ;; Ok (if Qle_bool m x then x else m)). rewrite E. eexists. reflexivity. Qed.
Lemma insertQ_perm x l : Permutation (x :: l) (insertQ x l).
Proof. induction l as [|y l IH]; cbn [insertQ]; [reflexivity|]. destruct (Qle_bool x y); [reflexivity|]. rewrite perm_swap, IH. reflexivity. Qed.
Lemma sortQ_perm l : Permutation l (fold_right insertQ [] l).
Proof. induction l as [|x l IH]; cbn [fold_right]; [reflexivity|]. rewrite <- insertQ_perm, <- IH. reflexivity. Qed.
Lemma insertQ_sorted x l : StronglySorted Qle l -> StronglySorted Qle (insertQ x l).
Proof.
  induction 1 as [|y l S IH F]; cbn [insertQ]; [repeat constructor|]. destruct (Qle_bool x y) eqn:C.
  - apply Qle_bool_iff in C. constructor; [constructor; assumption|]. constructor; [exact C|]. eapply Forall_impl; [|exact F]. intros z Hz. eapply Qle_trans; eassumption.
  - assert (D : (y <= x)%Q). { apply Qlt_le_weak, Qnot_le_lt. intros G. apply Qle_bool_iff in G. congruence. }
    constructor; [exact IH|]. eapply Permutation_Forall; [apply insertQ_perm|]. constructor; assumption.
Qed.
Lemma sortQ_sorted l : StronglySorted Qle (fold_right insertQ [] l).
Proof. induction l; cbn [fold_right]; [constructor|apply insertQ_sorted; assumption]. Qed.
Lemma filter_perm {A} (p : A -> bool) l l' : Permutation l l' -> length (filter p l) = length (filter p l').
Proof. induction 1 as [|x l l' _ IH|x y l|l l' l'' _ IH1 _ IH2]; cbn [filter]; [reflexivity|destruct (p x); cbn [length]; congruence|destruct (p x), (p y); reflexivity|congruence]. Qed.
Lemma filter_all {A} (p : A -> bool) l : (forall x, In x l -> p x = true) -> filter p l = l.
Proof. induction l as [|x l IH]; intros H; cbn [filter]; [reflexivity|]. rewrite (H x (or_introl eq_refl)), IH; [reflexivity|]. intros y Hy. apply H. right. exact Hy. Qed.
Lemma filter_len {A} (p : A -> bool) (l1 l2 : list A) : length (filter p l1) <= length (filter p (l1 ++ l2)) /\ length (filter p l2) <= length (filter p (l1 ++ l2)).
Proof. rewrite filter_app, app_length. lia. Qed.
(** in a sorted list what stands before is not above *)
Lemma sorted_low s i x : StronglySorted Qle s -> i < length s -> In x (firstn (Datatypes.S i) s) -> (x <= nth i s 0)%Q.
Proof.
  intros H. revert i. induction H as [|y s S IH F]; intros i L I; [cbn [length] in L; lia|]. destruct i as [|i]; cbn [firstn nth] in *.
  - destruct I as [<- |[]]. apply Qle_refl.
  - destruct I as [<- |I]; [|apply IH; [cbn [length] in L; lia|exact I]]. rewrite Forall_forall in F. apply F. apply nth_In. cbn [length] in L. lia.
Qed.
Lemma sorted_high s i x : StronglySorted Qle s -> i < length s -> In x (skipn i s) -> (nth i s 0 <= x)%Q.
Proof.
  intros H. revert i. induction H as [|y s S IH F]; intros i L I; [cbn [length] in L; lia|]. destruct i as [|i]; cbn [skipn nth] in *.
  - destruct I as [<- |I]; [apply Qle_refl|]. rewrite Forall_forall in F. apply F, I.
  - apply IH; [cbn [length] in L; lia|exact I].
Qed.
Lemma between_halves s i j m : StronglySorted Qle s -> i < length s -> j < length s -> length s <= 2 * (i + 1) -> length s <= 2 * (length s - j) -> (nth i s 0 <= m)%Q -> (m <= nth j s 0)%Q -> halves m s.
Proof.
  intros S Li Lj Ei Ej Hi Hj. split.
  - destruct (filter_len (fun x => Qle_bool x m) (firstn (Datatypes.S i) s) (skipn (Datatypes.S i) s)) as (H & _). rewrite firstn_skipn in H. rewrite filter_all in H.
    + rewrite firstn_length in H. lia.
    + intros x Hx. apply Qle_bool_iff. eapply Qle_trans; [apply (sorted_low s i x S Li Hx)|exact Hi].
  - destruct (filter_len (fun x => Qle_bool m x) (firstn j s) (skipn j s)) as (_ & H). rewrite firstn_skipn in H. rewrite filter_all in H.
    + rewrite skipn_length in H. lia.
    + intros x Hx. apply Qle_bool_iff. eapply Qle_trans; [exact Hj|apply (sorted_high s j x S Lj Hx)].
Qed.
Lemma median_halves l m : medianQ l = Ok m -> halves m l.
Proof.
  unfold medianQ. set (s := fold_right insertQ [] l). assert (S : StronglySorted Qle s) by apply sortQ_sorted. assert (P : Permutation l s) by apply sortQ_perm. clearbody s. intros E.
  assert (H : halves m s); [|unfold halves in *; rewrite !(filter_perm _ _ _ P), (Permutation_length P); exact H].
  assert (E' : length s <> 0 /\ (if Nat.odd (length s) then nth (length s / 2) s 0%Q else ((nth (length s / 2 - 1) s 0 + nth (length s / 2) s 0) / 2)%Q) = m).
  { destruct (length s) as [|n]; [discriminate E|]. split; [lia|]. destruct (Nat.odd (Datatypes.S n)); congruence. }
  clear E. destruct E' as (L & <-). destruct (Nat.odd (length s)) eqn:O.
  - apply Nat.odd_spec in O. destruct O as (k & O). assert (D : length s / 2 = k) by (rewrite O; symmetry; apply (Nat.div_unique _ _ k 1); lia). rewrite D.
    apply (between_halves s k k); try lia; try assumption; apply Qle_refl.
  - assert (Ev : Nat.even (length s) = true) by (rewrite <- Nat.negb_odd, O; reflexivity). apply Nat.even_spec in Ev. destruct Ev as (k & Ev).
    assert (D : length s / 2 = k) by (rewrite Ev; symmetry; apply (Nat.div_unique _ _ k 0); lia). rewrite D.
    assert (Hk : (nth (k - 1) s 0 <= nth k s 0)%Q). { apply (sorted_low s k _ S); [lia|]. rewrite <- (firstn_skipn k s) at 1. 
      assert (In (nth (k - 1) (firstn (Datatypes.S k) s) 0%Q) (firstn (Datatypes.S k) s)) as G by (apply nth_In; rewrite firstn_length; lia).
      replace (nth (k - 1) (firstn k s ++ skipn k s) 0%Q) with (nth (k - 1) (firstn (Datatypes.S k) s) 0%Q); [exact G|].
      rewrite (firstn_skipn k s). rewrite <- (firstn_skipn (Datatypes.S k) s) at 2. rewrite app_nth1; [reflexivity|]. rewrite firstn_length. lia. }
    apply (between_halves s (k - 1) k); try lia; try assumption.
    + apply Qle_shift_div_l; [reflexivity|]. lra.
    + apply Qle_shift_div_r; [reflexivity|]. lra.
Qed.
Lemma median_ok l : l <> [] -> exists m, medianQ l = Ok m.
Proof.
  intros H. unfold medianQ. pose proof (Permutation_length (sortQ_perm l)) as P. destruct (length (fold_right insertQ [] l)) eqn:E; [destruct l; [congruence|discriminate P]|].
  destruct (Nat.odd (Datatypes.S n)); eexists; reflexivity.
Qed.
Lemma maxN_spec l m : maxN l = Ok m -> In m l /\ forall x, In x l -> x <= m.
Proof.
  destruct l as [|a l]; [discriminate|]. cbn [maxN]. intros E. injection E as <-. revert a. induction l as [|b l IH]; intros a; cbn [fold_left].
  - split; [left; reflexivity|]. intros x [<- |[]]. reflexivity.
  - destruct (IH (Nat.max a b)) as (I & U). split.
    + destruct I as [I|I]; [|right; right; exact I]. rewrite <- I. destruct (Nat.max_spec a b) as [(_ & ->)|(_ & ->)]; [right; left; reflexivity|left; reflexivity].
    + intros x Hx. specialize (U (Nat.max a b) (or_introl eq_refl)) as U0. destruct Hx as [<- |[<- |Hx]]; [lia|lia|]. apply U. right. exact Hx.
Qed.

(** *** reading the results *)
Lemma by_tag_eq tag l : by_tag tag l = tagged tag l.
Proof.
  unfold by_tag, tagged. apply filter_ext. intros r. destruct (in_dec _ _ _) as [H|H].
  - apply existsb_exists. exists tag. split; [exact H|apply text_eqb_iff; reflexivity].
  - destruct (existsb _ _) eqn:E; [|reflexivity]. apply existsb_exists in E. destruct E as (x & Hx & E). apply text_eqb_iff in E. subst x. contradiction.
Qed.
Lemma load_citr_complete f rs : complete f rs -> load_citr f rs = Ok (stored_results f rs).
Proof.
  induction rs as [|r rs IH]; intros H; cbn [load_citr stored_results flat_map]; [reflexivity|]. pose proof (H r (or_introl eq_refl)). destruct (f_results f (r_results r)) as [l|]; [|congruence].
  rewrite IH; [reflexivity|]. intros x Hx. apply H. right. exact Hx.
Qed.
Lemma load_citr_missing f rs : load_citr f rs = Ok (stored_results f rs) /\ complete f rs \/ load_citr f rs = Err OSErr /\ ~ complete f rs.
Proof.
  induction rs as [|r rs IH]; cbn [load_citr stored_results flat_map]; [left; split; [reflexivity|intros ? []]|]. destruct (f_results f (r_results r)) as [l|] eqn:E.
  - destruct IH as [(-> & C)|(-> & C)]; cbn [bind]; [left|right]; (split; [reflexivity|]).
    + intros x [<- |Hx]; [congruence|apply C, Hx].
    + intros D. apply C. intros x Hx. apply D. right. exact Hx.
  - right. split; [reflexivity|]. intros D. apply (D r (or_introl eq_refl)), E.
Qed.
Lemma datapoints_eq s f rs : load_datapoints s f rs = flat_map (fun r => match f_datapoint f (datapoint_file s r) with Some d => [d] | None => [] end) rs. Proof. reflexivity. Qed.

(** *** the numbers *)
(** if a summary has numbers, all results of the runs with the tag were stored, and the numbers are theirs; the datapoints are only those that were stored *)
Theorem C84_numbers : forall s f all trees tag summ n, create_summary s f all trees tag = Ok summ -> s_numbers summ = Some n ->
  let rs := tagged tag all in let l := stored_results f rs in
  let dp := flat_map (fun r => match f_datapoint f (datapoint_file s r) with Some d => [d] | None => [] end) rs in
  complete f rs /\ l <> [] /\ s_runs summ = length rs /\ s_citr n = length l /\ (s_ci_duration n == qsum l)%Q /\
  (s_average n * qlen l == qsum l)%Q /\ (s_per_second n * qsum l == qlen l)%Q /\
  (In (s_max n) l /\ forall x, In x l -> (x <= s_max n)%Q) /\ halves (s_median n) l /\
  s_datapoints n = length dp /\ (s_duration n == qsum dp)%Q.
Proof.
  intros s f all trees tag summ n E N. cbv zeta. unfold create_summary in E.
  destruct (if starts_with_adtree tag then _ else _) as [oa|e] eqn:A in E; [|discriminate]. cbn [bind] in E. rewrite by_tag_eq in E. set (rs := tagged tag all) in *.
  destruct (load_citr_missing f rs) as [(L & C)|(L & C)]; rewrite L in E; [|injection E as <-; discriminate N].
  destruct (stored_results f rs) as [|x l] eqn:R; [injection E as <-; discriminate N|]. clear R. assert (R : x :: l <> []) by discriminate. remember (x :: l) as li eqn:Eli. clear Eli.
  destruct (Qeq_bool (sumQ li) 0) eqn:Z; [discriminate|]. assert (Z' : ~ (qsum li == 0)%Q). { intros F. rewrite <- sumQ_eq in F. apply Qeq_bool_iff in F. congruence. }
  destruct (maxQ li) as [b|] eqn:B; [|discriminate]. destruct (medianQ li) as [m|] eqn:M; [|discriminate]. cbn [bind] in E.
  cbn [bind] in E. destruct (if text_eqb tag (Render_Model.lit "dcmi") then _ else _) as [od|e] in E; [|discriminate]. cbn [bind] in E. injection E as <-. cbn [s_numbers s_runs] in *. injection N as <-.
  cbn [s_citr s_ci_duration s_average s_per_second s_max s_median s_datapoints s_duration]. split; [exact C|]. split; [exact R|]. split; [reflexivity|]. split; [reflexivity|]. split; [apply sumQ_eq|].
  assert (Ln : ~ (inject_Z (Z.of_nat (length li)) == 0)%Q). { destruct li; [congruence|]. unfold Qeq, inject_Z. cbn [Qnum Qden length]. lia. }
  split; [unfold qlen; rewrite sumQ_eq; field; exact Ln|]. split; [unfold qlen; rewrite sumQ_eq; field; exact Z'|]. split; [apply maxQ_spec, B|]. split; [apply median_halves, M|].
  split; [reflexivity|]. apply sumQ_eq.
Qed.
(** otherwise a result is missing or there are none: one missing file hides the results of all other runs *)
Theorem C84_nothing_found : forall s f all trees tag summ, create_summary s f all trees tag = Ok summ ->
  (s_numbers summ = None <-> ~ complete f (tagged tag all) \/ stored_results f (tagged tag all) = []) /\ s_runs summ = length (tagged tag all).
Proof.
  intros s f all trees tag summ E. unfold create_summary in E.
  destruct (if starts_with_adtree tag then _ else _) as [oa|e] eqn:A in E; [|discriminate]. cbn [bind] in E. rewrite by_tag_eq in E. set (rs := tagged tag all) in *.
  destruct (load_citr_missing f rs) as [(L & C)|(L & C)]; rewrite L in E; [|injection E as <-; split; [split; auto|reflexivity]].
  destruct (stored_results f rs) as [|x l] eqn:R; [injection E as <-; split; [split; auto|reflexivity]|].
  destruct (Qeq_bool _ 0) in E; [discriminate|]. destruct (maxQ _) in E; [|discriminate]. destruct (medianQ _) in E; [|discriminate]. cbn [bind] in E.
  destruct (if text_eqb tag (Render_Model.lit "dcmi") then _ else _) in E; [|discriminate]. cbn [bind] in E. injection E as <-. cbn [s_numbers s_runs]. split; [|reflexivity]. split; [discriminate|].
  intros [F|F]; [contradiction|discriminate F].
Qed.
(** when there is no summary, for tags other than dcmi: the tag begins with adtree and no analysis is known, or all durations add up to zero *)
Theorem C84_no_summary : forall s f all trees tag e, tag <> Render_Model.lit "dcmi" ->
  (create_summary s f all trees tag = Err e <->
   (firstn 6 tag = Render_Model.lit "adtree" /\ assoc text_eqb tag trees = None /\ e = KeyError) \/
   (~ (firstn 6 tag = Render_Model.lit "adtree" /\ assoc text_eqb tag trees = None) /\
    complete f (tagged tag all) /\ stored_results f (tagged tag all) <> [] /\ (qsum (stored_results f (tagged tag all)) == 0)%Q /\ e = ZeroDivisionError)).
Proof.
  intros s f all trees tag e D. unfold create_summary, starts_with_adtree. rewrite by_tag_eq. set (rs := tagged tag all).
  assert (G : forall oa : option tree_analysis, (let citr := stored_results f rs in
     match (match load_citr f rs with Ok l => l | Err _ => [] end) with
     | [] => Ok (Summary (length rs) None)
     | citr => if Qeq_bool (sumQ citr) 0 then Err ZeroDivisionError else
        b <- maxQ citr ;; m <- medianQ citr ;; tree <- Ok oa ;;
        dcmi <- (if text_eqb tag (Render_Model.lit "dcmi") then p <- create_dcmi_part f all ;; Ok (Some p) else Ok None) ;;
        Ok (Summary (length rs) (Some {| s_datapoints := length (load_datapoints s f rs); s_citr := length citr; s_duration := sumQ (load_datapoints s f rs); s_ci_duration := sumQ citr;
             s_average := (sumQ citr / inject_Z (Z.of_nat (length citr)))%Q; s_per_second := (inject_Z (Z.of_nat (length citr)) / sumQ citr)%Q;
             s_max := b; s_median := m; s_tree := tree; s_dcmi := dcmi |})) end) = Err e <->
     complete f rs /\ stored_results f rs <> [] /\ (qsum (stored_results f rs) == 0)%Q /\ e = ZeroDivisionError).
  { intros oa. cbv zeta. destruct (load_citr_missing f rs) as [(L & C)|(L & C)]; rewrite L; [|split; [discriminate|intros (F & _); contradiction]].
    destruct (stored_results f rs) as [|x l] eqn:R; [split; [discriminate|intros (_ & F & _); congruence]|]. clear R. assert (R0 : x :: l <> []) by discriminate. remember (x :: l) as li eqn:Eli. clear Eli.
    destruct (Qeq_bool (sumQ li) 0) eqn:Z.
    - apply Qeq_bool_iff in Z. rewrite sumQ_eq in Z. split; [intros F; injection F as <-; auto|intros (_ & _ & _ & ->); reflexivity].
    - destruct (maxQ_ok li R0) as (b & ->). destruct (median_ok li R0) as (m & ->). cbn [bind].
      assert (T : text_eqb tag (Render_Model.lit "dcmi") = false). { destruct (text_eqb tag (Render_Model.lit "dcmi")) eqn:T; [|reflexivity]. apply text_eqb_iff in T. contradiction. }
      rewrite T. cbn [bind]. split; [discriminate|]. intros (_ & _ & F & _). exfalso. rewrite <- sumQ_eq in F. apply Qeq_bool_iff in F. congruence. }
  cbv zeta in G. destruct (text_eqb (firstn 6 tag) (Render_Model.lit "adtree")) eqn:A.
  - apply text_eqb_iff in A. destruct (assoc text_eqb tag trees) as [a|]; cbn [bind].
    + specialize (G (Some a)). cbn [bind] in G. rewrite G. split; [intros H; right; split; [intros (_ & F); discriminate F|exact H]|intros [(_ & F & _)|(_ & H)]; [discriminate F|exact H]].
    + split; [intros F; injection F as <-; left; auto|]. intros [(_ & _ & ->)|(F & _)]; [reflexivity|]. exfalso. apply F. auto.
  - assert (A' : firstn 6 tag <> Render_Model.lit "adtree") by (intros F; apply text_eqb_iff in F; congruence). cbn [bind]. specialize (G None). cbn [bind] in G. rewrite G.
    split; [intros H; right; split; [intros (F & _); contradiction|exact H]|intros [(F & _)|(_ & H)]; [contradiction|exact H]].
Qed.

(** *** the analyses of AD-trees *)
Lemma eqb_refl t : text_eqb t t = true. Proof. apply text_eqb_iff. reflexivity. Qed.
Lemma assoc_text_set {V} k k' (v : V) d : assoc text_eqb k (assoc_set text_eqb k' v d) = if text_eqb k k' then Some v else assoc text_eqb k d.
Proof.
  induction d as [|(q, w) d IH]; cbn [assoc_set assoc]; [reflexivity|]. destruct (text_eqb k' q) eqn:E; cbn [assoc].
  - apply text_eqb_iff in E. subst q. destruct (text_eqb k k'); reflexivity.
  - rewrite IH. destruct (text_eqb k q) eqn:F; [|reflexivity]. apply text_eqb_iff in F. subst q. destruct (text_eqb k k') eqn:G; [|reflexivity]. apply text_eqb_iff in G. subst k'. rewrite eqb_refl in E. discriminate.
Qed.
Lemma key_inj d d' n n' : analysis_key d n = analysis_key d' n' -> d = d' /\ n = n'.
Proof. unfold analysis_key. intros E. apply app_inv_head in E. destruct d, d'; try discriminate E; apply app_inv_head in E; apply app_inv_head in E; apply num_inj in E; auto. Qed.
Definition is_tree (d : bool) (n : nat) (r : run) : bool := match r_kind r with Adtree d' n' => andb (Bool.eqb d d') (n =? n') | _ => false end.
Definition tree_analysis_file (s : study) (d : bool) (n : nat) : ppath :=
  child (subfolder s "adtree_analysis") (Render_Model.lit "adtree_" ++ tree_type d ++ Render_Model.lit "_llt" ++ num n ++ Render_Model.lit ".pickle").
Definition tree_consistent (s : study) (r : run) : Prop := r_tree_load r = match r_kind r with Adtree d n => Some (get_ADTree_path s d n) | _ => None end.
Lemma runs_consistent s all : incl all (create_algrun_parameters s) -> forall r, In r all -> tree_consistent s r.
Proof. intros H r Hr. apply H in Hr. apply create_in in Hr. destruct Hr as (i & k & t & _ & ->). unfold tree_consistent. destruct k; reflexivity. Qed.
Lemma analysis_path_eq s d n : analysis_path s (get_ADTree_path s d n) = tree_analysis_file s d n.
Proof. unfold analysis_path, get_ADTree_path, tree_analysis_file, child at 2. cbn [parts]. rewrite last_last. reflexivity. Qed.
Lemma load_assoc s f d n : forall rs acc, (forall r, In r rs -> tree_consistent s r) ->
  assoc text_eqb (analysis_key d n) (load_adtrees_analysis s f rs acc) =
  match (if existsb (is_tree d n) rs then f_analysis f (tree_analysis_file s d n) else None) with Some a => Some a | None => assoc text_eqb (analysis_key d n) acc end.
Proof.
  induction rs as [|r rs IH]; intros acc C; cbn [load_adtrees_analysis existsb]; [reflexivity|]. rewrite IH; [|intros x Hx; apply C; right; exact Hx].
  pose proof (C r (or_introl eq_refl)) as Cr. unfold tree_consistent in Cr. rewrite Cr. unfold is_tree at 2. destruct (r_kind r) as [| |d' n'|]; cbn [orb]; try reflexivity.
  rewrite analysis_path_eq. destruct (andb (Bool.eqb d d') (n =? n')) eqn:K; cbn [orb].
  - apply andb_true_iff in K. destruct K as (K1 & K2). apply Bool.eqb_prop in K1. apply Nat.eqb_eq in K2. subst d' n'. destruct (f_analysis f (tree_analysis_file s d n)) as [a|] eqn:A.
    + rewrite assoc_text_set, eqb_refl. destruct (existsb _ rs); reflexivity.
    + destruct (existsb _ rs); reflexivity.
  - destruct (if existsb _ rs then _ else _); [reflexivity|]. destruct (f_analysis f (tree_analysis_file s d' n')); [|reflexivity]. rewrite assoc_text_set.
    destruct (text_eqb (analysis_key d n) (analysis_key d' n')) eqn:E; [|reflexivity]. apply text_eqb_iff in E. apply key_inj in E. destruct E as (-> & ->). rewrite eqb_reflx, Nat.eqb_refl in K. discriminate.
Qed.
Lemma load_keys s f : forall rs acc t, In t (map fst (load_adtrees_analysis s f rs acc)) -> In t (map fst acc) \/ exists d n, t = analysis_key d n.
Proof.
  assert (G : forall V k (v : V) d t, In t (map fst (assoc_set text_eqb k v d)) -> t = k \/ In t (map fst d)).
  { intros V k v d t. induction d as [|(q, w) d IH]; cbn [assoc_set map In fst]; [intros [H|[]]; auto|]. destruct (text_eqb k q) eqn:E; cbn [map In fst]; intros [H|H]; auto.
    apply IH in H. tauto. }
  induction rs as [|r rs IH]; intros acc t H; cbn [load_adtrees_analysis] in H; [auto|]. apply IH in H. destruct H as [H|H]; [|auto].
  destruct (r_tree_load r); [|auto]. destruct (f_analysis _ _); [|auto]. destruct (r_kind r); auto. apply G in H. destruct H as [-> |H]; [right; eauto|auto].
Qed.
Lemma assoc_key {V} t (d : list (text * V)) v : assoc text_eqb t d = Some v -> In t (map fst d).
Proof. induction d as [|(q, w) d IH]; cbn [assoc map In fst]; [discriminate|]. destruct (text_eqb t q) eqn:E; [apply text_eqb_iff in E; subst; auto|intros H; right; apply IH, H]. Qed.
(** the tag of one type and threshold finds exactly the analysis stored for that tree, if such a run is in the setup; no other tag finds any *)
Theorem C84_trees : forall s f all, incl all (create_algrun_parameters s) ->
  (forall d n r, In r all -> r_kind r = Adtree d n -> assoc text_eqb (analysis_key d n) (load_adtrees_analysis s f all []) = f_analysis f (tree_analysis_file s d n)) /\
  (forall tag a, assoc text_eqb tag (load_adtrees_analysis s f all []) = Some a -> exists d n r, tag = analysis_key d n /\ In r all /\ r_kind r = Adtree d n).
Proof.
  intros s f all I. pose proof (runs_consistent s all I) as C. split.
  - intros d n r Hr K. rewrite load_assoc by exact C. assert (E : existsb (is_tree d n) all = true) by (apply existsb_exists; exists r; split; [exact Hr|]; unfold is_tree; rewrite K, eqb_reflx, Nat.eqb_refl; reflexivity).
    rewrite E. cbn [assoc]. destruct (f_analysis _ _); reflexivity.
  - intros tag a H. pose proof (assoc_key _ _ _ H) as K. apply load_keys in K. destruct K as [[]|(d & n & ->)]. rewrite load_assoc in H by exact C. destruct (existsb (is_tree d n) all) eqn:E; [|discriminate H].
    apply existsb_exists in E. destruct E as (r & Hr & E). unfold is_tree in E. destruct (r_kind r) as [| |d' n'|] eqn:K; try discriminate E. apply andb_true_iff in E. destruct E as (E1 & E2). apply Bool.eqb_prop in E1. apply Nat.eqb_eq in E2. subst d' n'.
    exists d, n, r. auto.
Qed.

(** *** the part about dcMI *)
Lemma load_jht_some f : forall rs j, load_jht f rs = Ok (Some j) -> exists r p, In r rs /\ r_jht r = Some p /\ f_jht f p = Some j.
Proof.
  induction rs as [|r rs IH]; intros j; cbn [load_jht]; [discriminate|]. destruct (r_jht r) as [p|] eqn:P.
  - destruct (f_jht f p) as [j'|] eqn:J; [|discriminate]. intros E. injection E as ->. exists r, p. split; [left; reflexivity|auto].
  - intros E. destruct (IH j E) as (x & p & A & B). exists x, p. split; [right; exact A|exact B].
Qed.
Lemma load_dof_some f : forall rs j, load_dof_cache f rs = Ok (Some j) -> exists r p, In r rs /\ r_dof r = Some p /\ f_dof f p = Some j.
Proof.
  induction rs as [|r rs IH]; intros j; cbn [load_dof_cache]; [discriminate|]. destruct (r_dof r) as [p|] eqn:P.
  - destruct (f_dof f p) as [j'|] eqn:J; [|discriminate]. intros E. injection E as ->. exists r, p. split; [left; reflexivity|auto].
  - intros E. destruct (IH j E) as (x & p & A & B). exists x, p. split; [right; exact A|exact B].
Qed.
Definition jht_file (s : study) : ppath := child (subfolder s "jht") (Render_Model.lit "jht_" ++ exds_name s ++ Render_Model.lit ".pickle").
Definition dof_file (s : study) : ppath := child (subfolder s "dof_cache") (Render_Model.lit "dofcache_" ++ exds_name s ++ Render_Model.lit ".pickle").
(** the joint-entropy table and the cache of the study are counted for the tag dcmi, and only for it; AD-tree data are shown for tags that begin with adtree, and only for them *)
Theorem C84_parts : forall s f all trees tag summ n, incl all (create_algrun_parameters s) -> create_summary s f all trees tag = Ok summ -> s_numbers summ = Some n ->
  (tag <> Render_Model.lit "dcmi" -> s_dcmi n = None) /\
  (tag = Render_Model.lit "dcmi" -> exists j c p, f_jht f (jht_file s) = Some j /\ f_dof f (dof_file s) = Some c /\ s_dcmi n = Some p /\
     s_reads p = jht_reads j /\ s_misses p = jht_misses j /\ (s_hits p + s_misses p = s_reads p)%Z /\ (s_hit_rate p * inject_Z (s_reads p) == inject_Z (s_hits p))%Q /\
     s_entries p = length (jht_key_sizes j) /\ In (s_max_key p) (jht_key_sizes j) /\ (forall x, In x (jht_key_sizes j) -> x <= s_max_key p) /\
     s_dof_entries p = length c /\ In (s_dof_max_key p) c /\ (forall x, In x c -> x <= s_dof_max_key p)) /\
  (if starts_with_adtree tag then exists a, s_tree n = Some a /\ assoc text_eqb tag trees = Some a else s_tree n = None).
Proof.
  intros s f all trees tag summ n I E N. unfold create_summary in E.
  destruct (if starts_with_adtree tag then _ else _) as [oa|e] eqn:A in E; [|discriminate]. cbn [bind] in E. rewrite by_tag_eq in E. set (rs := tagged tag all) in *.
  destruct (match load_citr f rs with Ok l => l | Err _ => [] end) as [|x l]; [injection E as <-; discriminate N|]. remember (x :: l) as li eqn:Eli. clear Eli.
  destruct (Qeq_bool (sumQ li) 0); [discriminate|]. destruct (maxQ li) as [b|]; [|discriminate]. destruct (medianQ li) as [m|]; [|discriminate]. cbn [bind] in E.
  destruct (text_eqb tag (Render_Model.lit "dcmi")) eqn:T.
  - apply text_eqb_iff in T. destruct (create_dcmi_part f all) as [p|e] eqn:P; [|discriminate]. cbn [bind] in E. injection E as <-. cbn [s_numbers] in N. injection N as <-. cbn [s_dcmi s_tree].
    split; [contradiction|]. split.
    + intros _. unfold create_dcmi_part in P. destruct (load_jht f all) as [[j|]|] eqn:J; try discriminate P. cbn [bind] in P. destruct (jht_reads j =? 0)%Z eqn:Z; [discriminate P|]. apply Z.eqb_neq in Z.
      destruct (maxN (jht_key_sizes j)) as [mk|] eqn:K; [|discriminate P]. cbn [bind] in P. destruct (load_dof_cache f all) as [[c|]|] eqn:D; try discriminate P. cbn [bind] in P. destruct (maxN c) as [dk|] eqn:K'; [|discriminate P].
      cbn [bind] in P. injection P as <-. cbn [s_reads s_misses s_hits s_hit_rate s_entries s_max_key s_dof_entries s_dof_max_key]. exists j, c. eexists.
      apply load_jht_some in J. destruct J as (r & q & Hr & Q & J). apply load_dof_some in D. destruct D as (r' & q' & Hr' & Q' & D).
      assert (q = jht_file s). { apply I, create_in in Hr. destruct Hr as (i & k & t & _ & ->). destruct k; cbn [with_index parameters r_jht] in Q; try discriminate Q. injection Q as <-. reflexivity. }
      assert (q' = dof_file s). { apply I, create_in in Hr'. destruct Hr' as (i & k & t & _ & ->). destruct k; cbn [with_index parameters r_dof] in Q'; try discriminate Q'. injection Q' as <-. reflexivity. }
      subst q q'. split; [exact J|]. split; [exact D|]. split; [reflexivity|]. cbn [s_reads s_misses s_hits s_hit_rate s_entries s_max_key s_dof_entries s_dof_max_key].
      split; [reflexivity|]. split; [reflexivity|]. split; [lia|]. split; [field; unfold Qeq, inject_Z; cbn [Qnum Qden]; lia|]. split; [reflexivity|]. apply maxN_spec in K, K'. tauto.
    + destruct (starts_with_adtree tag); [|injection A as <-; reflexivity]. destruct (assoc text_eqb tag trees) as [a|]; [|discriminate A]. injection A as <-. exists a. auto.
  - cbn [bind] in E. injection E as <-. cbn [s_numbers] in N. injection N as <-. cbn [s_dcmi s_tree]. split; [reflexivity|]. split; [intros ->; rewrite eqb_refl in T; discriminate|].
    destruct (starts_with_adtree tag); [|injection A as <-; reflexivity]. destruct (assoc text_eqb tag trees) as [a|]; [|discriminate A]. injection A as <-. exists a. auto.
Qed.
(** the tags adtree, adtree-static and adtree-dynamic, which runs carry, can never be summarised *)
Theorem C84_adtree_tags : forall s f only refresh cache tag, In tag [Render_Model.lit "adtree"; Render_Model.lit "adtree-static"; Render_Model.lit "adtree-dynamic"] -> (refresh = false -> assoc text_eqb tag cache = None) ->
  command_summary_show s f only refresh (Some [tag]) cache = (cache, [], Err KeyError).
Proof.
  intros s f only refresh cache tag H C. unfold command_summary_show. cbn [show_tags].
  assert (R : (if refresh then None else assoc text_eqb tag cache) = None) by (destruct refresh; [reflexivity|apply C; reflexivity]). rewrite R.
  set (all := match only with Some t => by_tag t (create_algrun_parameters s) | None => create_algrun_parameters s end).
  assert (I : incl all (create_algrun_parameters s)). { unfold all. destruct only; [|apply incl_refl]. intros r Hr. apply filter_In in Hr. apply Hr. }
  assert (N : assoc text_eqb tag (load_adtrees_analysis s f all []) = None).
  { destruct (assoc text_eqb tag (load_adtrees_analysis s f all [])) as [a|] eqn:A; [|reflexivity]. destruct (C84_trees s f all I) as (_ & T). destruct (T tag a A) as (d & n & r & -> & _). exfalso.
    unfold analysis_key in H. destruct H as [H|[H|[H|[]]]]; destruct d; discriminate H. }
  unfold create_summary. rewrite N. assert (S : starts_with_adtree tag = true) by (destruct H as [<- |[<- |[<- |[]]]]; vm_compute; reflexivity). rewrite S. reflexivity.
Qed.

(** *** stored summaries *)
(** what one command does; the setup it works on *)
Definition setup_runs (s : study) (only : option text) : list run := match only with Some t => by_tag t (create_algrun_parameters s) | None => create_algrun_parameters s end.
(** the summary of a tag that the present files give *)
Definition present (s : study) (f : stored) (only : option text) (tag : text) : res summary :=
  create_summary s f (setup_runs s only) (load_adtrees_analysis s f (setup_runs s only) []) tag.
(** a history of summary commands, each with the files there are at that time *)
Record command := Command { c_files : stored; c_only : option text; c_refresh : bool; c_tags : option (list text) }.
Definition run_command (s : study) (cache : list (text * summary)) (c : command) : list (text * summary) :=
  fst (fst (command_summary_show s (c_files c) (c_only c) (c_refresh c) (c_tags c) cache)).

Lemma show_tags_spec s f all trees refresh : forall tags cache c out u, show_tags s f all trees refresh cache tags = (c, out, u) ->
  (forall sh, In sh out -> sh_cached sh = false -> create_summary s f all trees (sh_tag sh) = Ok (sh_summary sh)) /\
  (forall sh, In sh out -> sh_cached sh = true -> refresh = false /\ (assoc text_eqb (sh_tag sh) cache = Some (sh_summary sh) \/ create_summary s f all trees (sh_tag sh) = Ok (sh_summary sh))) /\
  (forall tag summ, assoc text_eqb tag c = Some summ -> assoc text_eqb tag cache = Some summ \/ create_summary s f all trees tag = Ok summ) /\
  (refresh = false -> forall tag summ, assoc text_eqb tag cache = Some summ -> assoc text_eqb tag c = Some summ) /\
  (forall sh, In sh out -> assoc text_eqb (sh_tag sh) c = Some (sh_summary sh)) /\
  (exists rest, tags = map sh_tag out ++ rest /\ match u with Ok _ => rest = [] | Err e => exists tag rest', rest = tag :: rest' /\ create_summary s f all trees tag = Err e end).
Proof.
  induction tags as [|tag tags IH]; intros cache c out u E; cbn [show_tags] in E.
  - injection E as <- <- <-. split; [intros ? []|]. split; [intros ? []|]. split; [auto|]. split; [auto|]. split; [intros ? []|]. exists []. auto.
  - destruct (if refresh then None else assoc text_eqb tag cache) as [summ|] eqn:K.
    + assert (R : refresh = false) by (destruct refresh; [discriminate K|reflexivity]). rewrite R in K.
      destruct (show_tags s f all trees refresh cache tags) as ((c1, out1), u1) eqn:E1. injection E as <- <- <-. destruct (IH cache c1 out1 u1 E1) as (H1 & H2 & H3 & H4 & H5 & rest & H6 & H7).
      split; [intros sh [<- |H]; [discriminate|apply H1, H]|]. split; [intros sh [<- |H]; [intros _; split; [exact R|left; exact K]|apply H2, H]|]. split; [exact H3|]. split; [exact H4|].
      split; [intros sh [<- |H]; [apply (H4 R), K|apply H5, H]|]. exists rest. split; [cbn [map app sh_tag]; congruence|exact H7].
    + destruct (create_summary s f all trees tag) as [summ|e] eqn:C.
      * destruct (show_tags s f all trees refresh (assoc_set text_eqb tag summ cache) tags) as ((c1, out1), u1) eqn:E1. injection E as <- <- <-. destruct (IH _ c1 out1 u1 E1) as (H1 & H2 & H3 & H4 & H5 & rest & H6 & H7).
        assert (X : forall t x, assoc text_eqb t (assoc_set text_eqb tag summ cache) = Some x -> assoc text_eqb t cache = Some x \/ create_summary s f all trees t = Ok x).
        { intros t x. rewrite assoc_text_set. destruct (text_eqb t tag) eqn:T; [|auto]. apply text_eqb_iff in T. subst t. intros Y. injection Y as <-. auto. }
        assert (W : assoc text_eqb tag c1 = Some summ). { destruct refresh eqn:R.
          - clear - E1 C. assert (A : assoc text_eqb tag (assoc_set text_eqb tag summ cache) = Some summ) by (rewrite assoc_text_set, eqb_refl; reflexivity). revert E1 A. generalize (assoc_set text_eqb tag summ cache). revert c1 out1 u1.
            induction tags as [|t tags IH]; intros c1 out1 u1 d E1 A; cbn [show_tags] in E1; [injection E1 as <- <- <-; exact A|]. destruct (create_summary s f all trees t) as [x|e] eqn:Ct; [|injection E1 as <- <- <-; exact A].
            destruct (show_tags s f all trees true (assoc_set text_eqb t x d) tags) as ((c2, out2), u2) eqn:E2. injection E1 as <- <- <-. apply (IH _ _ _ _ E2). rewrite assoc_text_set. destruct (text_eqb tag t) eqn:T; [|exact A]. apply text_eqb_iff in T. subst t. congruence.
          - apply (H4 eq_refl). rewrite assoc_text_set, eqb_refl. reflexivity. }
        split; [intros sh [<- |H]; [intros _; exact C|apply H1, H]|]. split.
        { intros sh [<- |H]; [discriminate|]. intros Hc. destruct (H2 sh H Hc) as (R & [Y|Y]); (split; [exact R|]); [apply X in Y; exact Y|auto]. }
        split; [intros t x Y; apply H3 in Y; destruct Y as [Y|Y]; [apply X, Y|auto]|]. split.
        { intros R t x Y. apply (H4 R). rewrite assoc_text_set. destruct (text_eqb t tag) eqn:T; [|exact Y]. apply text_eqb_iff in T. subst t. rewrite R in K. congruence. }
        split; [intros sh [<- |H]; [exact W|apply H5, H]|]. exists rest. split; [cbn [map app sh_tag]; congruence|exact H7].
      * injection E as <- <- <-. split; [intros ? []|]. split; [intros ? []|]. split; [auto|]. split; [auto|]. split; [intros ? []|]. exists (tag :: tags). split; [reflexivity|]. exists tag, tags. auto.
Qed.
(** what is shown as not cached is what the present files give, and after a refresh all of it is; what is shown is stored; it stops at the first tag without a summary *)
Theorem C84_show : forall s f only refresh tags cache c out u, command_summary_show s f only refresh tags cache = (c, out, u) ->
  (forall sh, In sh out -> sh_cached sh = false -> present s f only (sh_tag sh) = Ok (sh_summary sh)) /\
  (refresh = true -> forall sh, In sh out -> sh_cached sh = false) /\
  (forall sh, In sh out -> assoc text_eqb (sh_tag sh) c = Some (sh_summary sh)) /\
  (exists rest, match tags with Some l => l | None => default_tags end = map sh_tag out ++ rest /\
    match u with Ok _ => rest = [] | Err e => exists tag rest', rest = tag :: rest' /\ present s f only tag = Err e end).
Proof.
  intros s f only refresh tags cache c out u E. unfold command_summary_show in E. apply show_tags_spec in E. destruct E as (H1 & H2 & H3 & H4 & H5 & H6).
  split; [exact H1|]. split; [|split; [exact H5|exact H6]]. intros R sh H. destruct (sh_cached sh) eqn:K; [|reflexivity]. destruct (H2 sh H K) as (F & _). congruence.
Qed.
(** a stored summary is shown whatever the files have become, until the tag is refreshed *)
Theorem C84_stale : forall s cs f only tag summ cache, assoc text_eqb tag cache = Some summ -> (forall c, In c cs -> c_refresh c = false) ->
  command_summary_show s f only false (Some [tag]) (fold_left (run_command s) cs cache) = (fold_left (run_command s) cs cache, [Shown tag true summ], Ok tt).
Proof.
  intros s cs f only tag summ cache H R. assert (K : assoc text_eqb tag (fold_left (run_command s) cs cache) = Some summ).
  { revert cache H. induction cs as [|c cs IH]; intros cache H; cbn [fold_left]; [exact H|]. apply IH; [intros x Hx; apply R; right; exact Hx|]. unfold run_command.
    destruct (command_summary_show s (c_files c) (c_only c) (c_refresh c) (c_tags c) cache) as ((d, out), u) eqn:E. unfold command_summary_show in E. apply show_tags_spec in E. destruct E as (_ & _ & _ & H4 & _).
    cbn [fst]. apply (H4 (R c (or_introl eq_refl))), H. }
  unfold command_summary_show. cbn [show_tags]. rewrite K. reflexivity.
Qed.
(** every stored summary is what the files gave at the time of some command of the history, for the runs selected by that command *)
Theorem C84_stored : forall s cs tag summ, assoc text_eqb tag (fold_left (run_command s) cs []) = Some summ -> exists c, In c cs /\ present s (c_files c) (c_only c) tag = Ok summ.
Proof.
  intros s cs tag summ. assert (G : forall cs cache, assoc text_eqb tag (fold_left (run_command s) cs cache) = Some summ -> assoc text_eqb tag cache = Some summ \/ exists c, In c cs /\ present s (c_files c) (c_only c) tag = Ok summ).
  { clear cs. induction cs as [|c cs IH]; intros cache H; cbn [fold_left] in H; [auto|]. apply IH in H. destruct H as [H|(x & Hx & H)]; [|right; exists x; split; [right; exact Hx|exact H]]. unfold run_command in H.
    destruct (command_summary_show s (c_files c) (c_only c) (c_refresh c) (c_tags c) cache) as ((d, out), u) eqn:E. unfold command_summary_show in E. apply show_tags_spec in E. destruct E as (_ & _ & H3 & _).
    cbn [fst] in H. apply H3 in H. destruct H as [H|H]; [auto|]. right. exists c. split; [left; reflexivity|exact H]. }
  intros H. apply G in H. destruct H as [H|H]; [discriminate H|exact H].
Qed.

(** *** the plot *)
Lemma accumulate_from_spec l : forall a, length (accumulate_from a l) = length l /\ forall i, i < length l -> (nth i (accumulate_from a l) 0 == a + qsum (firstn (Datatypes.S i) l))%Q.
Proof.
  induction l as [|x l IH]; intros a; cbn [accumulate_from length]; [split; [reflexivity|intros i H; lia]|]. destruct (IH (a + x)%Q) as (L & H). split; [congruence|]. intros [|i] Hi.
  - cbn [nth firstn qsum]. ring.
  - change (firstn (Datatypes.S (Datatypes.S i)) (x :: l)) with (x :: firstn (Datatypes.S i) l). cbn [nth qsum]. rewrite H by lia. ring.
Qed.
(** the cumulative durations: as many as there are results, each the sum of all durations up to there *)
Theorem C84_cumulative : forall l, length (accumulate l) = length l /\ forall i, i < length l -> (nth i (accumulate l) 0 == qsum (firstn (Datatypes.S i) l))%Q.
Proof.
  intros [|x l]; cbn [accumulate]; [split; [reflexivity|intros i H; cbn [length] in H; lia]|]. destruct (accumulate_from_spec l x) as (L & H). cbn [length]. split; [congruence|]. intros [|i] Hi.
  - cbn [nth firstn qsum]. ring.
  - change (firstn (Datatypes.S (Datatypes.S i)) (x :: l)) with (x :: firstn (Datatypes.S i) l). cbn [nth qsum]. apply H. lia.
Qed.
(** the values to be plotted for a tag *)
Definition line (f : stored) (all : list run) (cumulative : bool) (tag : text) : list Q :=
  if cumulative then accumulate (stored_results f (tagged tag all)) else stored_results f (tagged tag all).
Definition filled (l : list Q) : bool := match l with [] => false | _ => true end.
Lemma citr_dict f all : forall tags d, NoDup (map fst d) -> (forall t v, In (t, v) d -> v = load_citr f (by_tag t all)) ->
  let d' := fold_left (fun d tag => assoc_set text_eqb tag (load_citr f (by_tag tag all)) d) tags d in
  NoDup (map fst d') /\ (forall t v, In (t, v) d' -> v = load_citr f (by_tag t all)) /\ (forall t, In t (map fst d') <-> In t (map fst d) \/ In t tags).
Proof.
  assert (G : forall k (v : res (list Q)) d, (forall t, In t (map fst (assoc_set text_eqb k v d)) <-> t = k \/ In t (map fst d)) /\ (forall t w, In (t, w) (assoc_set text_eqb k v d) -> (t = k /\ w = v) \/ In (t, w) d) /\
    (NoDup (map fst d) -> NoDup (map fst (assoc_set text_eqb k v d)))).
  { intros k v. induction d as [|(q, w) d (I1 & I2 & I3)]; cbn [assoc_set].
    - cbn [map In fst]. split; [intuition|]. split; [intros t w [H|[]]; injection H as <- <-; auto|intros _; repeat constructor; intros []].
    - destruct (text_eqb k q) eqn:E.
      + apply text_eqb_iff in E. subst q. cbn [map In fst]. split; [intuition|]. split; [intros t x [H|H]; [injection H as <- <-; auto|auto]|auto].
      + cbn [map In fst]. split; [intros t; rewrite I1; tauto|]. split; [intros t x [H|H]; [auto|apply I2 in H; tauto]|]. intros N. inversion N as [|? ? N1 N2]; subst. constructor; [|apply I3, N2].
        rewrite I1. intros [-> |F]; [rewrite eqb_refl in E; discriminate|contradiction]. }
  induction tags as [|tag tags IH]; intros d N H; cbn [fold_left]; [split; [exact N|split; [exact H|intros t; cbn [In]; tauto]]|].
  destruct (G tag (load_citr f (by_tag tag all)) d) as (G1 & G2 & G3). destruct (IH (assoc_set text_eqb tag (load_citr f (by_tag tag all)) d)) as (A & B & C).
  - apply G3, N.
  - intros t v Hv. apply G2 in Hv. destruct Hv as [(-> & ->)|Hv]; [reflexivity|apply H, Hv].
  - split; [exact A|]. split; [exact B|]. intros t. rewrite C, G1. cbn [In]. intuition congruence.
Qed.
Lemma assoc_found {V} (g : text -> V) d k : (forall t v, In (t, v) d -> v = g t) -> In k (map fst d) -> assoc text_eqb k d = Some (g k).
Proof.
  intros H I. induction d as [|(q, w) d IH]; [destruct I|]. cbn [assoc]. destruct (text_eqb k q) eqn:E.
  - apply text_eqb_iff in E. subst q. f_equal. apply H. left. reflexivity.
  - cbn [map In fst] in I. destruct I as [I|I]; [subst; rewrite eqb_refl in E; discriminate|]. apply IH; [|exact I]. intros t v Hv. apply H. right. exact Hv.
Qed.
Lemma plot_loop_some data val n : forall ks, (forall k, In k ks -> assoc text_eqb k data = Some (Ok (val k))) ->
  plot_loop data (Some n) ks = if forallb (fun k => implb (filled (val k)) (length (val k) =? n)) ks then Ok (filter filled (map val ks)) else Err ValueError.
Proof.
  induction ks as [|k ks IH]; intros H; cbn [plot_loop forallb map filter]; [reflexivity|]. rewrite (H k (or_introl eq_refl)). cbn [bind]. rewrite IH by (intros x Hx; apply H; right; exact Hx).
  destruct (val k) as [|x l]; cbn [filled implb]; [reflexivity|]. rewrite (Nat.eqb_sym (length (x :: l)) n). destruct (n =? length (x :: l)); [|reflexivity]. cbn [andb]. destruct (forallb _ ks); reflexivity.
Qed.
(** all tags, sorted, are in the legend, but the lines are only those with results, so that names and lines are paired by position; there is no plot if a line is not as long as that of the first tag *)
Theorem C84_plot : forall s f only cumulative tags, let all := setup_runs s only in (forall tag, In tag tags -> complete f (tagged tag all)) ->
  exists keys, NoDup keys /\ StronglySorted before keys /\ (forall t, In t keys <-> In t tags) /\
  command_plot_create s f only cumulative tags =
  if forallb (fun k => implb (filled (line f all cumulative k)) (length (line f all cumulative k) =? match keys with [] => 0 | k0 :: _ => length (line f all cumulative k0) end)) keys
  then Ok (combine keys (filter filled (map (line f all cumulative) keys))) else Err ValueError.
Proof.
  intros s f only cumulative tags all C. unfold command_plot_create. fold (setup_runs s only). fold all. unfold plot.
  destruct (citr_dict f all tags []) as (N & V & K); [constructor|intros t v []|]. fold (load_citr_of_tags f all tags) in N, V, K. set (d := load_citr_of_tags f all tags) in *. clearbody d.
  assert (M : map fst (make_plot_data cumulative d) = map fst d) by (unfold make_plot_data; rewrite map_map; apply map_ext; reflexivity). rewrite M.
  assert (A : forall k, In k (map fst d) -> assoc text_eqb k (make_plot_data cumulative d) = Some (Ok (line f all cumulative k))).
  { intros k Hk. assert (Ck : complete f (tagged k all)) by (apply C; apply K in Hk; destruct Hk as [[]|Hk]; exact Hk).
    rewrite (assoc_found (fun t => l <- load_citr f (by_tag t all) ;; Ok (if cumulative then accumulate l else l)) (make_plot_data cumulative d) k).
    - cbn beta. rewrite by_tag_eq, (load_citr_complete f _ Ck). cbn [bind]. reflexivity.
    - intros t v Hv. unfold make_plot_data in Hv. apply in_map_iff in Hv. destruct Hv as ((t', v') & E & Hv). injection E as <- <-. cbn [fst snd]. rewrite (V t' v' Hv). reflexivity.
    - rewrite M. exact Hk. }
  exists (sort_text (map fst d)). pose proof (sort_text_perm (map fst d)) as P. split; [eapply Permutation_NoDup; [exact P|exact N]|]. split; [apply sort_text_sorted, N|].
  split; [intros t; split; [intros H; apply (Permutation_in _ (Permutation_sym P)) in H; apply K in H; destruct H as [[]|H]; exact H|intros H; apply (Permutation_in _ P), K; auto]|].
  assert (B : forall k, In k (sort_text (map fst d)) -> assoc text_eqb k (make_plot_data cumulative d) = Some (Ok (line f all cumulative k))) by (intros k Hk; apply A; apply (Permutation_in _ (Permutation_sym P)); exact Hk).
  generalize (sort_text (map fst d)) B. intros ks Bk. destruct ks as [|k ks]; [reflexivity|]. cbn [plot_loop]. rewrite (Bk k (or_introl eq_refl)). cbn [bind].
  rewrite (plot_loop_some _ (line f all cumulative)) by (intros x Hx; apply Bk; right; exact Hx). cbn [forallb map filter]. rewrite Nat.eqb_refl, implb_true_r. cbn [andb].
  destruct (line f all cumulative k) as [|x l] eqn:L; cbn [filled]; [destruct (forallb _ ks); reflexivity|]. destruct (forallb _ ks); reflexivity.
Qed.
(** if every tag has results every line has its own name *)
Theorem C84_legend_right : forall (keys : list text) (line : text -> list Q), (forall k, In k keys -> line k <> []) ->
  combine keys (filter filled (map line keys)) = map (fun k => (k, line k)) keys.
Proof.
  induction keys as [|k keys IH]; intros line H; cbn [map filter]; [reflexivity|]. pose proof (H k (or_introl eq_refl)). destruct (line k) as [|x l] eqn:L; [congruence|]. cbn [filled combine]. rewrite IH; [reflexivity|].
  intros y Hy. apply H. right. exact Hy.
Qed.
(** after a tag without results (a misspelt one) the next line carries its name *)
Theorem C84_legend_wrong : forall before_it (e k : text) after (line : text -> list Q), (forall x, In x before_it -> line x <> []) -> line e = [] -> line k <> [] ->
  nth_error (combine (before_it ++ e :: k :: after) (filter filled (map line (before_it ++ e :: k :: after)))) (length before_it) = Some (e, line k).
Proof.
  intros pre e k post line H E K. induction pre as [|x pre IH]; cbn [app map filter length].
  - rewrite E. cbn [filled]. destruct (line k) as [|y l]; [congruence|]. reflexivity.
  - pose proof (H x (or_introl eq_refl)) as X. destruct (line x) as [|y l] eqn:L; [congruence|]. cbn [filled combine nth_error]. apply IH. intros z Hz. apply H. right. exact Hz.
Qed.

(** *** a concrete study *)
(** two targets; the results of both unoptimized runs are stored, and one datapoint: the numbers; with one file missing nothing is found, and that stays when the file has come, until a refresh;
    the misspelt tag 'unopt' gives its name to the line of 'unoptimized' *)
Example C84_example :
  let s := Study (PP true [Render_Model.lit "runs"]) (Render_Model.lit "alarm") (Render_Model.lit "4e2") 400 2 [0; 5; 10] in
  let un := Render_Model.lit "unoptimized" in
  let res t := r_results (parameters s Unoptimized t) in
  let full := Stored (fun p => if ppath_eqb p (res 0) then Some [1 # 2; 3 # 2]%Q else if ppath_eqb p (res 1) then Some [1; 5]%Q else None)
    (fun p => if ppath_eqb p (datapoint_file s (with_index 2 (parameters s Unoptimized 0))) then Some 9%Q else None) (fun _ => None) (fun _ => None) (fun _ => None) in
  let part := Stored (fun p => if ppath_eqb p (res 1) then None else f_results full p) (f_datapoint full) (fun _ => None) (fun _ => None) (fun _ => None) in
  complete full (tagged un (setup_runs s None)) /\ ~ complete part (tagged un (setup_runs s None)) /\
  (exists n, present s full None un = Ok (Summary 2 (Some n)) /\ s_citr n = 4 /\ (s_ci_duration n == 8)%Q /\ (s_median n == 5 # 4)%Q /\ (s_max n == 5)%Q /\ s_datapoints n = 1 /\ (s_duration n == 9)%Q) /\
  present s part None un = Ok (Summary 2 None) /\
  (let cache := run_command s [] (Command part None false (Some [un])) in
   command_summary_show s full None false (Some [un]) cache = (cache, [Shown un true (Summary 2 None)], Ok tt) /\
   exists c n, command_summary_show s full None true (Some [un]) cache = (c, [Shown un false (Summary 2 (Some n))], Ok tt)) /\
  command_plot_create s full None false [un; Render_Model.lit "slow"; Render_Model.lit "unopt"] =
    Ok [(Render_Model.lit "slow", [1 # 2; 3 # 2; 1; 5]%Q); (Render_Model.lit "unopt", [1 # 2; 3 # 2; 1; 5]%Q)] /\
  command_plot_create s full None true [un; Render_Model.lit "a"] = Err ValueError.
Proof.
  cbv zeta. split; [|split].
  - intros r Hr. vm_compute in Hr. repeat (destruct Hr as [<- |Hr]; [vm_compute; discriminate|]). destruct Hr.
  - intros C. specialize (C (with_index 3 (parameters (Study (PP true [Render_Model.lit "runs"]) (Render_Model.lit "alarm") (Render_Model.lit "4e2") 400 2 [0; 5; 10]) Unoptimized 1))).
    apply C; [vm_compute; right; left; reflexivity|vm_compute; reflexivity].
  - split; [eexists; split; [vm_compute; reflexivity|repeat split; vm_compute; reflexivity]|]. split; [vm_compute; reflexivity|].
    split; [split; [vm_compute; reflexivity|eexists; eexists; vm_compute; reflexivity]|]. split; vm_compute; reflexivity.
Qed.

Print Assumptions C84_numbers.
Print Assumptions C84_parts.
Print Assumptions C84_stored.
Print Assumptions C84_plot.
