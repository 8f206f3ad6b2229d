(** C82.  The runs of the dcMI experiment (experiments/experiment_dcmi): complete, distinct, each with files of its own except for what is to be shared. *)
From Coq Require Import String Ascii.
From Verif Require Import Base Matrix_Model Sources_Model Sources_Proofs Render_Model BifText_Model Paths_Model DcmiRuns_Model.
Open Scope nat_scope.
Open Scope list_scope.

(** *** specification *)
(** the kinds of test that are compared: d-separation, unoptimized, both AD-trees with each threshold, dcMI *)
Definition offered (s : study) (k : kind) : Prop := match k with Adtree _ llt => In llt (st_llts s) | _ => True end.
(** the files a run writes or reads: results, datapoint, tree, joint-entropy table, cache of degrees of freedom *)
Definition opt_list {A} (o : option A) : list A := match o with Some x => [x] | None => [] end.
Definition files_of (s : study) (r : run) : list ppath :=
  [r_results r; datapoint_file s r] ++ opt_list (r_tree_load r) ++ opt_list (r_tree_save r) ++ opt_list (r_jht r) ++ opt_list (r_dof r).
(** a digit of a decimal number *)
Definition is_digit (c : nat) : Prop := 48 <= c <= 57.

(** *** numerals and pieces of names *)
Lemma num_digit n c : In c (num n) -> is_digit c.
Proof.
  unfold num, is_digit. assert (G : forall u, In c (digits u) -> 48 <= c <= 57) by (induction u; cbn [digits In]; intros H; try contradiction; destruct H as [<- |H]; try lia; auto). apply G.
Qed.
Lemma num_inj a b : num a = num b -> a = b.
Proof. unfold num. intros H. apply digits_inj in H. apply DecimalNat.Unsigned.to_uint_inj. exact H. Qed.
Lemma cut_at (c : nat) a : forall b u v, ~ In c a -> ~ In c b -> a ++ c :: u = b ++ c :: v -> a = b /\ u = v.
Proof.
  induction a as [|x a IH]; intros [|y b] u v Ha Hb E; cbn [app] in E; try (injection E as E1 E2).
  - injection E as E. auto.
  - subst. exfalso. apply Hb. left. reflexivity.
  - subst. exfalso. apply Ha. left. reflexivity.
  - subst y. destruct (IH b u v) as (-> & ->); [intros H; apply Ha; right; exact H|intros H; apply Hb; right; exact H|exact E2|auto].
Qed.
Lemma num_cut c a b u v : ~ is_digit c -> num a ++ c :: u = num b ++ c :: v -> a = b /\ u = v.
Proof. intros D E. apply cut_at in E; [|intros H; apply D, (num_digit _ _ H)|intros H; apply D, (num_digit _ _ H)]. destruct E as (E & ->). split; [apply num_inj, E|reflexivity]. Qed.
(** what follows the target in the name of a file of results *)
Definition suffix (k : kind) : text :=
  match k with
  | Dsep => Render_Model.lit "_dsep.pickle"
  | Unoptimized => Render_Model.lit "_unoptimized.pickle"
  | Adtree dyn llt => Render_Model.lit "_ADtree_" ++ tree_type dyn ++ Render_Model.lit "_LLT" ++ num llt ++ Render_Model.lit ".pickle"
  | Dcmi => Render_Model.lit "_dcMI.pickle"
  end.
Lemma not_digit_95 : ~ is_digit 95. Proof. unfold is_digit. lia. Qed.
Lemma not_digit_46 : ~ is_digit 46. Proof. unfold is_digit. lia. Qed.
Lemma not_digit_32 : ~ is_digit 32. Proof. unfold is_digit. lia. Qed.
Lemma suffix_head k : exists u, suffix k = 95 :: u.
Proof. destruct k as [| |[|] llt|]; eexists; reflexivity. Qed.
Lemma tree_tail_inj d d' n n' : tree_type d ++ Render_Model.lit "_LLT" ++ num n ++ Render_Model.lit ".pickle" = tree_type d' ++ Render_Model.lit "_LLT" ++ num n' ++ Render_Model.lit ".pickle" -> d = d' /\ n = n'.
Proof.
  intros E. destruct d, d'; try discriminate E; apply app_inv_head in E; apply app_inv_head in E; (split; [reflexivity|]);
    apply (num_cut 46 n n' (Render_Model.lit "pickle") (Render_Model.lit "pickle") not_digit_46 E).
Qed.
Lemma tree_name_inj d d' n n' : tree_type d ++ Render_Model.lit "_llt" ++ num n ++ Render_Model.lit ".pickle" = tree_type d' ++ Render_Model.lit "_llt" ++ num n' ++ Render_Model.lit ".pickle" -> d = d' /\ n = n'.
Proof.
  intros E. destruct d, d'; try discriminate E; apply app_inv_head in E; apply app_inv_head in E; (split; [reflexivity|]);
    apply (num_cut 46 n n' (Render_Model.lit "pickle") (Render_Model.lit "pickle") not_digit_46 E).
Qed.
Lemma suffix_inj k k' : suffix k = suffix k' -> k = k'.
Proof.
  destruct k as [| |d n|], k' as [| |d' n'|]; intros E; try reflexivity; try (destruct d; discriminate E); try (destruct d'; discriminate E); try discriminate E.
  unfold suffix in E. apply app_inv_head in E. apply tree_tail_inj in E. destruct E as (-> & ->). reflexivity.
Qed.
Lemma citr_inj s t t' k k' : citr_name s t k = citr_name s t' k' -> t = t' /\ k = k'.
Proof.
  change (citr_name s t k) with (Render_Model.lit "ci_test_results_" ++ exds_name s ++ Render_Model.lit "_T" ++ num t ++ suffix k).
  change (citr_name s t' k') with (Render_Model.lit "ci_test_results_" ++ exds_name s ++ Render_Model.lit "_T" ++ num t' ++ suffix k').
  intros E. apply app_inv_head in E. apply app_inv_head in E. apply app_inv_head in E.
  destruct (suffix_head k) as (u & Eu), (suffix_head k') as (u' & Eu'). rewrite Eu, Eu' in E. destruct (num_cut 95 t t' u u' not_digit_95 E) as (-> & ->).
  split; [reflexivity|]. apply suffix_inj. congruence.
Qed.
Lemma child_inj p q a b : child p a = child q b -> p = q /\ a = b.
Proof.
  unfold child. intros E. injection E as E1 E2. apply app_inj_tail in E2. destruct E2 as (E2 & ->). destruct p as [ap lp], q as [aq lq]. cbn [absolute parts] in *. subst. auto.
Qed.
Lemma subfolder_inj s s' n n' : subfolder s n = subfolder s' n' -> Render_Model.lit n = Render_Model.lit n' /\ st_dataset s ++ [95] ++ st_samples s = st_dataset s' ++ [95] ++ st_samples s'.
Proof. unfold subfolder. intros E. apply child_inj in E. destruct E as (E & ->). apply child_inj in E. destruct E as (_ & ->). auto. Qed.

(** *** the list *)
(** the kind and target of every run, in order *)
Definition plan (s : study) : list (kind * nat) :=
  map (pair Dsep) (seq 0 (st_targets s)) ++ map (pair Unoptimized) (seq 0 (st_targets s)) ++
  flat_map (fun t => map (fun llt => (Adtree false llt, t)) (st_llts s)) (seq 0 (st_targets s)) ++
  flat_map (fun t => map (fun llt => (Adtree true llt, t)) (st_llts s)) (seq 0 (st_targets s)) ++ map (pair Dcmi) (seq 0 (st_targets s)).
Lemma plan_runs s : per_target s Dsep ++ per_target s Unoptimized ++ per_tree s false ++ per_tree s true ++ per_target s Dcmi = map (fun kt => parameters s (fst kt) (snd kt)) (plan s).
Proof.
  unfold plan, per_target, per_tree. rewrite !map_app, !map_map. repeat f_equal.
  - induction (seq 0 (st_targets s)) as [|t l IH]; [reflexivity|]. cbn [flat_map]. rewrite map_app, <- IH, map_map. reflexivity.
  - induction (seq 0 (st_targets s)) as [|t l IH]; [reflexivity|]. cbn [flat_map]. rewrite map_app, <- IH, map_map. reflexivity.
Qed.
Lemma plan_in s k t : In (k, t) (plan s) <-> offered s k /\ t < st_targets s.
Proof.
  unfold plan. rewrite !in_app_iff, !in_map_iff, !in_flat_map. split.
  - intros [H|[H|[H|[H|H]]]].
    1,2,5: destruct H as (x & E & H); injection E as <- <-; apply in_seq in H; split; [exact Logic.I|lia].
    1,2: destruct H as (x & H & G); apply in_map_iff in G; destruct G as (l & E & G); injection E as <- <-; apply in_seq in H; split; [exact G|lia].
  - intros (O & L). assert (Q : In t (seq 0 (st_targets s))) by (apply in_seq; lia). destruct k as [| |[|] llt|].
    + left. exists t. auto.
    + right. left. exists t. auto.
    + right. right. right. left. exists t. split; [exact Q|]. apply in_map_iff. exists llt. auto.
    + right. right. left. exists t. split; [exact Q|]. apply in_map_iff. exists llt. auto.
    + right. right. right. right. exists t. auto.
Qed.
Lemma nodup_app {A} (l l' : list A) : NoDup l -> NoDup l' -> (forall x, In x l -> ~ In x l') -> NoDup (l ++ l').
Proof.
  induction 1 as [|x l N D IH]; intros D' H; cbn [app]; [exact D'|]. constructor.
  - rewrite in_app_iff. intros [E|E]; [contradiction|]. apply (H x); [left; reflexivity|exact E].
  - apply IH; [exact D'|]. intros y Hy. apply H. right. exact Hy.
Qed.
Lemma nodup_map {A B} (f : A -> B) l : (forall x y, In x l -> In y l -> f x = f y -> x = y) -> NoDup l -> NoDup (map f l).
Proof.
  intros I. induction 1 as [|x l N D IH]; cbn [map]; [constructor|]. constructor.
  - rewrite in_map_iff. intros (y & E & H). apply I in E; [subst; contradiction|right; exact H|left; reflexivity].
  - apply IH. intros a b Ha Hb. apply I; right; assumption.
Qed.
Lemma nodup_trees s dyn : NoDup (st_llts s) -> NoDup (flat_map (fun t => map (fun llt => (Adtree dyn llt, t)) (st_llts s)) (seq 0 (st_targets s))).
Proof.
  intros N. pose proof (seq_NoDup (st_targets s) 0) as D. induction D as [|t l Nt D IH]; cbn [flat_map]; [constructor|]. apply nodup_app; [|exact IH|].
  - apply nodup_map; [|exact N]. intros x y _ _ E. injection E as ->. reflexivity.
  - intros (k, x) H H'. apply in_map_iff in H. destruct H as (n & E & _). injection E as _ <-. apply in_flat_map in H'. destruct H' as (t' & Ht & H').
    apply in_map_iff in H'. destruct H' as (n' & E & _). injection E as _ <-. contradiction.
Qed.
Lemma nodup_plan s : NoDup (st_llts s) -> NoDup (plan s).
Proof.
  intros N. unfold plan.
  assert (P : forall k : kind, NoDup (map (pair k) (seq 0 (st_targets s)))) by (intros k; apply nodup_map; [intros x y _ _ E; injection E as ->; reflexivity|apply seq_NoDup]).
  repeat (apply nodup_app; [first [apply P | apply nodup_trees, N] | |]); try (first [apply P | apply nodup_trees, N]);
  intros (k, t) H H';
  repeat match goal with
    | H : _ \/ _ |- _ => destruct H as [H|H]
    | H : exists _, _ |- _ => destruct H as (? & H)
    | H : _ /\ _ |- _ => destruct H
    | H : In _ (map _ _) |- _ => apply in_map_iff in H
    | H : In _ (_ ++ _) |- _ => apply in_app_iff in H
    | H : In _ (flat_map _ _) |- _ => apply in_flat_map in H
    end; congruence.
Qed.
Lemma number_nth l : forall i j, nth_error (number_from i l) j = option_map (with_index (i + j)) (nth_error l j).
Proof.
  induction l as [|r l IH]; intros i j; cbn [number_from]; [destruct j; reflexivity|]. destruct j as [|j]; cbn [nth_error option_map]; [f_equal; f_equal; lia|].
  rewrite IH. replace (S i + j) with (i + S j) by lia. reflexivity.
Qed.
Lemma create_nth s i : nth_error (create_algrun_parameters s) i = option_map (fun kt => with_index i (parameters s (fst kt) (snd kt))) (nth_error (plan s) i).
Proof. unfold create_algrun_parameters. rewrite plan_runs, number_nth, nth_error_map. destruct (nth_error (plan s) i); reflexivity. Qed.
Lemma create_in s r : In r (create_algrun_parameters s) <-> exists i k t, nth_error (plan s) i = Some (k, t) /\ r = with_index i (parameters s k t).
Proof.
  split.
  - intros H. apply In_nth_error in H. destruct H as (i & H). rewrite create_nth in H. destruct (nth_error (plan s) i) as [(k, t)|] eqn:E; [|discriminate].
    injection H as <-. exists i, k, t. auto.
  - intros (i & k & t & E & ->). apply (nth_error_In _ i). rewrite create_nth, E. reflexivity.
Qed.

(** *** every offered kind of test is run once for every target *)
Theorem C82_complete : forall s, NoDup (st_llts s) ->
  (forall r, In r (create_algrun_parameters s) -> offered s (r_kind r) /\ r_target r < st_targets s) /\
  (forall k t, offered s k -> t < st_targets s -> exists! r, In r (create_algrun_parameters s) /\ r_kind r = k /\ r_target r = t) /\
  (forall i r, nth_error (create_algrun_parameters s) i = Some r -> r_index r = i) /\
  length (create_algrun_parameters s) = st_targets s * (3 + 2 * length (st_llts s)).
Proof.
  intros s N. split; [|split; [|split]].
  - intros r H. apply create_in in H. destruct H as (i & k & t & E & ->). apply nth_error_In in E. apply plan_in in E. exact E.
  - intros k t O L. assert (H : In (k, t) (plan s)) by (apply plan_in; auto). apply In_nth_error in H. destruct H as (i & Ei).
    exists (with_index i (parameters s k t)). split; [split; [apply create_in; exists i, k, t; auto|split; reflexivity]|].
    intros r (H & Hk & Ht). apply create_in in H. destruct H as (j & k' & t' & Ej & ->). cbn in Hk, Ht. subst k' t'.
    assert (i = j) by (apply (proj1 (NoDup_nth_error (plan s)) (nodup_plan s N)); [apply nth_error_Some; congruence|congruence]). subst. reflexivity.
  - intros i r H. rewrite create_nth in H. destruct (nth_error (plan s) i); [|discriminate]. injection H as <-. reflexivity.
  - assert (L : length (create_algrun_parameters s) = length (plan s)).
    { unfold create_algrun_parameters. rewrite plan_runs, <- (map_length (fun kt => parameters s (fst kt) (snd kt))). generalize 0.
      induction (map (fun kt => parameters s (fst kt) (snd kt)) (plan s)) as [|r l IH]; intros i; [reflexivity|]. cbn [number_from length]. f_equal. apply IH. }
    rewrite L. unfold plan. rewrite !app_length, !map_length, seq_length.
    assert (F : forall dyn l, length (flat_map (fun t : nat => map (fun llt => (Adtree dyn llt, t)) (st_llts s)) l) = length l * length (st_llts s))
      by (intros dyn; induction l as [|t l IH]; [reflexivity|]; cbn [flat_map]; rewrite app_length, map_length, IH; cbn [length]; lia).
    rewrite !F, seq_length. lia.
Qed.

(** *** the files *)
Definition file_kind (s : study) (r : run) (f : ppath) : Prop :=
  f = r_results r \/ f = datapoint_file s r \/ (exists dyn llt, r_kind r = Adtree dyn llt /\ f = get_ADTree_path s dyn llt) \/
  (r_kind r = Dcmi /\ (f = child (subfolder s "jht") (Render_Model.lit "jht_" ++ exds_name s ++ Render_Model.lit ".pickle") \/
                       f = child (subfolder s "dof_cache") (Render_Model.lit "dofcache_" ++ exds_name s ++ Render_Model.lit ".pickle"))).
Lemma files_kind s i k t f : In f (files_of s (with_index i (parameters s k t))) <-> file_kind s (with_index i (parameters s k t)) f.
Proof.
  unfold files_of, file_kind. rewrite !in_app_iff. cbn [with_index parameters r_results r_tree_load r_tree_save r_jht r_dof r_kind In].
  split.
  - intros [[H|[H|[]]]|H]; [left; auto|right; left; auto|]. destruct k as [| |dyn llt|]; cbn [opt_list In] in H.
    + intuition.
    + intuition.
    + right. right. left. exists dyn, llt. intuition.
    + right. right. right. intuition.
  - intros [H|[H|[(d & l & E & H)|(E & H)]]]; [left; left; auto|left; right; left; auto| |]; subst k; cbn [opt_list In]; right.
    + left. left. symmetry. exact H.
    + destruct H as [H|H]; symmetry in H; [right; right; left|right; right; right]; left; exact H.
Qed.
Lemma ID_inj i i' k k' t t' : r_ID (with_index i (parameters (Study (PP true []) [] [] 0 0 []) k t)) = r_ID (with_index i' (parameters (Study (PP true []) [] [] 0 0 []) k' t')) -> i = i'.
Proof. cbn [with_index parameters r_ID r_kind r_target]. intros E. apply app_inv_head in E. apply (num_cut 95 i i' _ _ not_digit_95 E). Qed.
Lemma lit_neq a b : String.eqb a b = false -> Render_Model.lit a <> Render_Model.lit b.
Proof.
  intros E H. apply String.eqb_neq in E. apply E. clear E. revert b H. induction a as [|x a IH]; intros [|y b] H; try discriminate; [reflexivity|].
  unfold Render_Model.lit in H. cbn [list_ascii_of_string map] in H. injection H as H1 H2. f_equal; [|apply IH, H2].
  rewrite <- (ascii_nat_embedding x), <- (ascii_nat_embedding y), H1. reflexivity.
Qed.
Lemma sub_apart s s' n n' x y : String.eqb n n' = false -> child (subfolder s n) x <> child (subfolder s' n') y.
Proof. intros E H. apply child_inj in H. destruct H as (H & _). apply subfolder_inj in H. destruct H as (H & _). exact (lit_neq n n' E H). Qed.

(** no two runs have the same ID, write the same file of results, or the same datapoint *)
Theorem C82_own_files : forall s r r', NoDup (st_llts s) -> In r (create_algrun_parameters s) -> In r' (create_algrun_parameters s) ->
  r_ID r = r_ID r' \/ r_results r = r_results r' \/ datapoint_file s r = datapoint_file s r' -> r = r'.
Proof.
  intros s r r' N H H' E. apply create_in in H, H'. destruct H as (i & k & t & Ei & ->), H' as (j & k' & t' & Ej & ->).
  assert (IJ : i = j -> with_index i (parameters s k t) = with_index j (parameters s k' t')) by (intros ->; congruence).
  destruct E as [E|[E|E]].
  - apply IJ, (ID_inj i j k k' t t'), E.
  - cbn [with_index parameters r_results] in E. apply child_inj in E. destruct E as (_ & E). apply citr_inj in E. destruct E as (-> & ->).
    apply IJ. apply (proj1 (NoDup_nth_error (plan s)) (nodup_plan s N)); [apply nth_error_Some; congruence|congruence].
  - apply child_inj in E. destruct E as (_ & E). apply app_inv_tail in E. apply IJ, (ID_inj i j k k' t t'), E.
Qed.
(** two runs share a file only if both use an AD-tree of the same type and threshold argument, or both use dcMI, and it is the tree, the table or the cache *)
Theorem C82_shared_files : forall s r r' f, NoDup (st_llts s) -> In r (create_algrun_parameters s) -> In r' (create_algrun_parameters s) -> r <> r' ->
  In f (files_of s r) -> In f (files_of s r') ->
  r_kind r = r_kind r' /\ ((exists dyn llt, r_kind r = Adtree dyn llt /\ r_tree_load r = Some f) \/ (r_kind r = Dcmi /\ (r_jht r = Some f \/ r_dof r = Some f))).
Proof.
  intros s r r' f N H H' Ne F F'. pose proof (C82_own_files s r r' N H H') as O. apply create_in in H, H'. destruct H as (i & k & t & Ei & ->), H' as (j & k' & t' & Ej & ->).
  apply files_kind in F, F'. unfold file_kind, datapoint_file in *. cbn [with_index parameters r_results r_kind r_tree_load r_jht r_dof] in *.
  destruct F as [F|[F|[(d & l & K & F)|(K & [F|F])]]], F' as [F'|[F'|[(d' & l' & K' & F')|(K' & [F'|F'])]]]; subst f.
  all: try solve [exfalso; apply Ne, O; first [left; assumption | right; left; assumption | right; right; assumption | right; left; symmetry; assumption | right; right; symmetry; assumption]].
  all: try solve [exfalso; unfold get_ADTree_path in F'; revert F'; apply sub_apart; reflexivity].
  - unfold get_ADTree_path in F'. apply child_inj in F'. destruct F' as (_ & F'). apply app_inv_head in F'. apply tree_name_inj in F'. destruct F' as (-> & ->).
    subst k k'. split; [reflexivity|]. left. exists d', l'. auto.
  - subst. split; [reflexivity|]. right. auto.
  - subst. split; [reflexivity|]. right. auto.
Qed.
(** the file a run uses for its results, its datapoint, its tree, its table, its cache *)
Inductive purpose := Results | Datapoint | Tree | Table | Cache.
Definition file_for (s : study) (r : run) (p : purpose) : option ppath :=
  match p with Results => Some (r_results r) | Datapoint => Some (datapoint_file s r) | Tree => r_tree_save r | Table => r_jht r | Cache => r_dof r end.
Lemma file_for_child s r p f : In r (create_algrun_parameters s) -> file_for s r p = Some f ->
  exists x, f = child (subfolder s (match p with Results => "ci_test_results" | Datapoint => "algorithm_run_datapoints" | Tree => "adtrees" | Table => "jht" | Cache => "dof_cache" end)%string) x.
Proof.
  intros H E. apply create_in in H. destruct H as (i & k & t & _ & ->).
  destruct p; cbn [file_for with_index parameters r_results r_tree_save r_jht r_dof] in E; try (injection E as <-; eexists; reflexivity);
    destruct k; try discriminate E; injection E as <-; eexists; reflexivity.
Qed.
(** no file serves two purposes, not even in two studies *)
Theorem C82_one_purpose : forall s s' r r' p p' f, In r (create_algrun_parameters s) -> In r' (create_algrun_parameters s') ->
  file_for s r p = Some f -> file_for s' r' p' = Some f -> p = p'.
Proof.
  intros s s' r r' p p' f H H' E E'. destruct (file_for_child _ _ _ _ H E) as (x & ->). destruct (file_for_child _ _ _ _ H' E') as (y & F).
  destruct p, p'; try reflexivity; exfalso; apply sub_apart in F; auto.
Qed.
(** what is shared is shared: the runs of one kind have the same tree (loaded from where it is saved), table, cache and absolute threshold *)
Theorem C82_same_kind : forall s r, In r (create_algrun_parameters s) ->
  r_tree_save r = r_tree_load r /\
  (forall r', In r' (create_algrun_parameters s) -> r_kind r' = r_kind r ->
    r_tree_load r' = r_tree_load r /\ r_threshold r' = r_threshold r /\ r_jht r' = r_jht r /\ r_dof r' = r_dof r /\ r_tags r' = r_tags r) /\
  (forall dyn llt, r_kind r = Adtree dyn llt -> r_tree_load r = Some (get_ADTree_path s dyn llt) /\ r_threshold r = Some (st_count s * llt / 1000)) /\
  (r_tree_load r = None <-> forall dyn llt, r_kind r <> Adtree dyn llt) /\ (r_jht r = None <-> r_kind r <> Dcmi) /\ (r_dof r = None <-> r_kind r <> Dcmi).
Proof.
  intros s r H. apply create_in in H. destruct H as (i & k & t & _ & ->). cbn [with_index parameters r_kind r_tree_save r_tree_load r_threshold r_jht r_dof r_tags].
  split; [reflexivity|]. split; [|split; [|split; [|split]]].
  - intros r' H' E. apply create_in in H'. destruct H' as (j & k' & t' & _ & ->). cbn [with_index parameters r_kind r_tree_save r_tree_load r_threshold r_jht r_dof r_tags] in *. subst k'. repeat split.
  - intros dyn llt ->. split; reflexivity.
  - destruct k as [| |d l|]; (split; [intros H d' l' E; discriminate|intros H; try reflexivity]). exfalso. apply (H d l). reflexivity.
  - destruct k; split; intros H; congruence.
  - destruct k; split; intros H; congruence.
Qed.
(** no run knows the network, so the runs with the d-separation test (which ask it) cannot work *)
Theorem C82_no_network : forall s r, In r (create_algrun_parameters s) -> r_network r = false.
Proof. intros s r H. apply create_in in H. destruct H as (i & k & t & _ & ->). reflexivity. Qed.

(** *** several studies in one repository *)
Lemma file_sub s r f : In r (create_algrun_parameters s) -> In f (files_of s r) -> exists n name, f = child (subfolder s n) name.
Proof.
  intros H F. apply create_in in H. destruct H as (i & k & t & _ & ->). apply files_kind in F. unfold file_kind, datapoint_file, get_ADTree_path in F. cbn [with_index parameters r_results] in F.
  destruct F as [-> |[-> |[(d & l & _ & ->)|(_ & [-> | ->])]]]; eexists; eexists; reflexivity.
Qed.
Lemma allowed_iff t : validate_dataset_name t = Ok tt <-> In t allowed_names.
Proof.
  unfold validate_dataset_name. destruct (existsb (text_eqb t) allowed_names) eqn:E; (split; [intros H|intros H; try reflexivity]); try discriminate.
  - apply existsb_exists in E. destruct E as (x & H1 & H2). unfold text_eqb in H2. destruct (list_eq_dec Nat.eq_dec t x); [subst; exact H1|discriminate].
  - exfalso. assert (X : existsb (text_eqb t) allowed_names = true) by (apply existsb_exists; exists t; split; [exact H|unfold text_eqb; destruct (list_eq_dec Nat.eq_dec t t); [reflexivity|congruence]]). congruence.
Qed.
(** studies whose dataset or sample count is written differently have no file in common *)
Theorem C82_studies_apart : forall s s' r r' f, validate_dataset_name (st_dataset s) = Ok tt -> validate_dataset_name (st_dataset s') = Ok tt ->
  In r (create_algrun_parameters s) -> In r' (create_algrun_parameters s') -> In f (files_of s r) -> In f (files_of s' r') ->
  st_dataset s = st_dataset s' /\ st_samples s = st_samples s'.
Proof.
  intros s s' r r' f V V' H H' F F'. apply (file_sub s r f H) in F. apply (file_sub s' r' f H') in F'. destruct F as (n & x & ->), F' as (n' & y & E).
  apply child_inj in E. destruct E as (E & _). apply subfolder_inj in E. destruct E as (_ & E). apply allowed_iff in V, V'.
  assert (A : forall t, In t allowed_names -> ~ In 95 t).
  { intros t Ht Hc. assert (B : forallb (fun t => forallb (fun c => negb (Nat.eqb c 95)) t) allowed_names = true) by reflexivity.
    rewrite forallb_forall in B. specialize (B t Ht). rewrite forallb_forall in B. specialize (B 95 Hc). discriminate. }
  apply (cut_at 95) in E; [exact E|apply A, V|apply A, V'].
Qed.
(** the sample counts that are accepted: digits, e, digits, and a line feed that may follow *)
Lemma span_eq (p : nat -> bool) t : exists a, t = a ++ snd (span p t) /\ fst (span p t) = a /\ Forall (fun c => p c = true) a /\ match snd (span p t) with [] => True | c :: _ => p c = false end.
Proof.
  induction t as [|c t (a & E & F & A & B)]; [exists []; cbn; auto|]. cbn [span]. destruct (p c) eqn:P.
  - destruct (span p t) as (x, y). cbn [fst snd] in *. exists (c :: a). subst x. split; [cbn; congruence|]. split; [reflexivity|]. split; [constructor; assumption|exact B].
  - exists []. cbn [fst snd]. auto.
Qed.
Definition digit_text (t : text) : Prop := t <> [] /\ forall c, In c t -> is_digit c.
Lemma span_cut (p : nat -> bool) a r : Forall (fun c => p c = true) a -> match r with [] => True | c :: _ => p c = false end -> span p (a ++ r) = (a, r).
Proof.
  intros A R. induction A as [|c a Pc A IH]; cbn [app span].
  - destruct r as [|c r]; [reflexivity|]. cbn [span]. rewrite R. reflexivity.
  - rewrite Pc, IH. reflexivity.
Qed.
Lemma some_digits_iff t r : some_digits t = Some r <-> exists a, digit_text a /\ t = a ++ r /\ match r with [] => True | c :: _ => ~ is_digit c end.
Proof.
  unfold some_digits. set (p := fun c => andb (48 <=? c) (c <=? 57)). assert (P : forall c, p c = true <-> is_digit c) by (intros c; unfold p, is_digit; rewrite andb_true_iff, !Nat.leb_le; reflexivity).
  assert (P' : forall c, p c = false <-> ~ is_digit c) by (intros c; rewrite <- P; destruct (p c); split; congruence). split.
  - intros H. destruct (span_eq p t) as (a & E & F & A & B). destruct (span p t) as (x, y). cbn [fst snd] in *. subst x. destruct a as [|c a]; [discriminate|]. injection H as ->.
    exists (c :: a). split; [split; [discriminate|]|split; [exact E|destruct r; [exact Logic.I|apply P', B]]]. rewrite Forall_forall in A. intros d Hd. apply P, A, Hd.
  - intros (a & (Ne & A) & -> & R). rewrite (span_cut p a r); [destruct a; [congruence|reflexivity]| |destruct r; [exact Logic.I|apply P', R]].
    rewrite Forall_forall. intros c Hc. apply P, A, Hc.
Qed.
Theorem C82_accepted_sample_counts : forall t, validate_sample_count_string t = Ok tt <->
  exists mantissa exponent, digit_text mantissa /\ digit_text exponent /\ (t = mantissa ++ [101] ++ exponent \/ t = mantissa ++ [101] ++ exponent ++ [10]).
Proof.
  intros t. unfold validate_sample_count_string. split.
  - destruct (some_digits t) as [r|] eqn:E; [|discriminate]. apply some_digits_iff in E. destruct E as (a & A & -> & _).
    destruct r as [|c r]; [discriminate|]. destruct (Nat.eq_dec c 101) as [-> |C]; [|do 102 (destruct c as [|c]; try discriminate; try congruence)].
    destruct (some_digits r) as [r'|] eqn:E; [|discriminate]. apply some_digits_iff in E. destruct E as (b & B & -> & _). intros H. exists a, b. split; [exact A|]. split; [exact B|].
    destruct r' as [|c r']; [left; rewrite app_nil_r; reflexivity|]. destruct (Nat.eq_dec c 10) as [-> |C].
    + destruct r' as [|? ?]; [right; reflexivity|discriminate].
    + do 11 (destruct c as [|c]; try discriminate; try congruence).
  - intros (a & b & A & B & [-> | ->]).
    + assert (E1 : some_digits (a ++ 101 :: b) = Some (101 :: b)) by (apply some_digits_iff; exists a; split; [exact A|split; [reflexivity|unfold is_digit; lia]]).
      assert (E2 : some_digits b = Some []) by (apply some_digits_iff; exists b; rewrite app_nil_r; auto). cbn [app]. rewrite E1, E2. reflexivity.
    + assert (E1 : some_digits (a ++ 101 :: b ++ [10]) = Some (101 :: b ++ [10])) by (apply some_digits_iff; exists a; split; [exact A|split; [reflexivity|unfold is_digit; lia]]).
      assert (E2 : some_digits (b ++ [10]) = Some [10]) by (apply some_digits_iff; exists b; split; [exact B|split; [reflexivity|unfold is_digit; lia]]). cbn [app]. rewrite E1, E2. reflexivity.
Qed.

(** *** choosing runs by tag *)
Lemma text_eqb_iff a b : text_eqb a b = true <-> a = b.
Proof. unfold text_eqb. destruct (list_eq_dec Nat.eq_dec a b); split; congruence. Qed.
Definition has (tag : text) (k : kind) : bool := existsb (text_eqb tag) (tags_of k).
Lemma by_tag_plan tag s : map (fun r => (r_kind r, r_target r)) (by_tag tag (create_algrun_parameters s)) = filter (fun kt => has tag (fst kt)) (plan s).
Proof.
  unfold create_algrun_parameters, by_tag. rewrite plan_runs. generalize 0. induction (plan s) as [|(k, t) l IH]; intros i; [reflexivity|]. cbn [map fst snd number_from filter].
  change (existsb (text_eqb tag) (r_tags (with_index i (parameters s k t)))) with (has tag k). destruct (has tag k); cbn [map]; rewrite IH; reflexivity.
Qed.
Definition kind_eqb (k k' : kind) : bool :=
  match k, k' with Dsep, Dsep | Unoptimized, Unoptimized | Dcmi, Dcmi => true | Adtree d l, Adtree d' l' => andb (Bool.eqb d d') (Nat.eqb l l') | _, _ => false end.
Lemma kind_eqb_iff k k' : kind_eqb k k' = true <-> k = k'.
Proof.
  destruct k as [| |d l|], k' as [| |d' l'|]; cbn [kind_eqb]; try (split; congruence). rewrite andb_true_iff, eqb_true_iff, Nat.eqb_eq. split; [intros (-> & ->); reflexivity|intros E; injection E; auto].
Qed.
Lemma filter_pairs k k' (l : list nat) : filter (fun kt => kind_eqb k (fst kt)) (map (pair k') l) = if kind_eqb k k' then map (pair k') l else [].
Proof. induction l as [|t l IH]; cbn [map filter fst]; [destruct (kind_eqb k k'); reflexivity|]. rewrite IH. destruct (kind_eqb k k'); reflexivity. Qed.
Lemma filter_trees k dyn llts (l : list nat) : NoDup llts ->
  filter (fun kt => kind_eqb k (fst kt)) (flat_map (fun t => map (fun llt => (Adtree dyn llt, t)) llts) l) =
  if match k with Adtree d n => andb (Bool.eqb d dyn) (if in_dec Nat.eq_dec n llts then true else false) | _ => false end then map (pair k) l else [].
Proof.
  intros N. assert (One : forall t : nat, filter (fun kt => kind_eqb k (fst kt)) (map (fun llt => (Adtree dyn llt, t)) llts) =
    if match k with Adtree d n => andb (Bool.eqb d dyn) (if in_dec Nat.eq_dec n llts then true else false) | _ => false end then [(k, t)] else []).
  { intros t. induction N as [|x llts Nx N IH]; [destruct k as [| |d n|]; try reflexivity; destruct (Bool.eqb d dyn); reflexivity|]. cbn [map filter fst]. rewrite IH. clear IH.
    destruct k as [| |d n|]; cbn [kind_eqb]; try reflexivity. destruct (Bool.eqb d dyn) eqn:D; cbn [andb]; [|reflexivity]. apply eqb_prop in D. subst d.
    destruct (Nat.eqb_spec n x) as [-> |X].
    - destruct (in_dec Nat.eq_dec x llts); [contradiction|]. destruct (in_dec Nat.eq_dec x (x :: llts)) as [_|F]; [reflexivity|exfalso; apply F; left; reflexivity].
    - destruct (in_dec Nat.eq_dec n llts) as [I1|I1], (in_dec Nat.eq_dec n (x :: llts)) as [I2|I2]; try reflexivity; exfalso.
      + apply I2. right. exact I1.
      + destruct I2; [congruence|contradiction]. }
  induction l as [|t l IH]; cbn [flat_map map]; [match goal with |- context [if ?b then _ else _] => destruct b end; reflexivity|].
  assert (FA : forall (a b : list (kind * nat)), filter (fun kt => kind_eqb k (fst kt)) (a ++ b) = filter (fun kt => kind_eqb k (fst kt)) a ++ filter (fun kt => kind_eqb k (fst kt)) b) by (intros; apply filter_app).
  rewrite FA, IH, One. match goal with |- context [if ?b then _ else _] => destruct b end; reflexivity.
Qed.
Lemma filter_plan k s : NoDup (st_llts s) -> offered s k -> filter (fun kt => kind_eqb k (fst kt)) (plan s) = map (pair k) (seq 0 (st_targets s)).
Proof.
  intros N O. unfold plan. rewrite !filter_app, !filter_pairs, !filter_trees by exact N. destruct k as [| |d n|]; cbn [kind_eqb offered] in *; rewrite ?app_nil_r; try reflexivity.
  destruct (in_dec Nat.eq_dec n (st_llts s)); [|contradiction]. destruct d; cbn [Bool.eqb andb app]; rewrite ?app_nil_r; reflexivity.
Qed.
(** the default tags divide the runs, those with the d-separation test left out, by the kind of test; each selects one run per target *)
Definition compared : list kind := [Unoptimized; Adtree false 0; Adtree false 5; Adtree false 10; Adtree true 0; Adtree true 5; Adtree true 10; Dcmi].
Theorem C82_default_tags : forall s, st_llts s = [0; 5; 10] ->
  Forall2 (fun tag k => offered s k /\ map (fun r => (r_kind r, r_target r)) (by_tag tag (create_algrun_parameters s)) = map (pair k) (seq 0 (st_targets s))) default_tags compared /\
  (forall r, In r (create_algrun_parameters s) -> r_kind r <> Dsep -> exists! tag, In tag default_tags /\ In tag (r_tags r)) /\
  (forall r tag, In r (create_algrun_parameters s) -> r_kind r = Dsep -> In tag default_tags -> ~ In tag (r_tags r)).
Proof.
  intros s L. assert (ND : NoDup (st_llts s)) by (rewrite L; repeat constructor; cbn; intuition discriminate).
  assert (Kinds : forall k, offered s k -> In k (Dsep :: compared)).
  { intros k O. destruct k as [| |d n|]; cbn; auto 10. cbn [offered] in O. rewrite L in O. cbn in O. destruct d, O as [<- |[<- |[<- |[]]]]; auto 12. }
  assert (T : Forall2 (fun tag k => In k compared /\ forall k', In k' (Dsep :: compared) -> has tag k' = kind_eqb k k') default_tags compared).
  { assert (B : forallb (fun tk => andb (existsb (kind_eqb (snd tk)) compared) (forallb (fun k' => Bool.eqb (has (fst tk) k') (kind_eqb (snd tk) k')) (Dsep :: compared))) (combine default_tags compared) = true) by (vm_compute; reflexivity).
    assert (C : forall (ts : list text) ks, length ts = length ks -> forallb (fun tk => andb (existsb (kind_eqb (snd tk)) compared) (forallb (fun k' => Bool.eqb (has (fst tk) k') (kind_eqb (snd tk) k')) (Dsep :: compared))) (combine ts ks) = true ->
      Forall2 (fun tag k => In k compared /\ forall k', In k' (Dsep :: compared) -> has tag k' = kind_eqb k k') ts ks).
    { generalize (Dsep :: compared). intros ds. generalize compared. intros cs. induction ts as [|t ts IH]; intros [|k ks] Le E; [constructor|discriminate Le|discriminate Le|]. constructor; cbn [combine forallb fst snd] in E; apply andb_prop in E; destruct E as (E1 & E2).
      - apply andb_prop in E1. destruct E1 as (E0 & E1). split.
        + apply existsb_exists in E0. destruct E0 as (x & X1 & X2). apply kind_eqb_iff in X2. subst x. exact X1.
        + intros k' H. rewrite forallb_forall in E1. apply eqb_prop, E1, H.
      - apply IH; [injection Le; auto|exact E2]. }
    apply C; [reflexivity|exact B]. }
  split; [|split].
  - assert (G : Forall2 (fun tag k => In k compared /\ forall k', In k' (Dsep :: compared) -> has tag k' = kind_eqb k k') default_tags compared ->
      Forall2 (fun tag k => offered s k /\ map (fun r => (r_kind r, r_target r)) (by_tag tag (create_algrun_parameters s)) = map (pair k) (seq 0 (st_targets s))) default_tags compared).
    { generalize default_tags. generalize compared at 3 4. intros kl ts F. induction F as [|tag k ts kl (H1 & H2) F IH]; constructor; [|exact IH].
      assert (O : offered s k) by (destruct k as [| |d n|]; try exact Logic.I; cbn [offered]; rewrite L; cbn in H1; repeat (destruct H1 as [H1|H1]; [first [discriminate H1 | injection H1 as <- <-; cbn; auto]|]); destruct H1).
      split; [exact O|]. rewrite by_tag_plan, <- (filter_plan k s ND O). apply filter_ext_in. intros (k', t) Hk. apply plan_in in Hk. cbn [fst]. apply H2, Kinds, Hk. }
    apply G, T.
  - intros r H K. apply create_in in H. destruct H as (i & k & t & E & ->). apply nth_error_In, plan_in in E. destruct E as (O & _). cbn [with_index parameters r_kind r_tags] in *.
    apply Kinds in O. destruct O as [O|O]; [congruence|]. clear K.
    assert (D : forall tag : text, {In tag (tags_of k)} + {~ In tag (tags_of k)}) by (intros tag; apply in_dec, list_eq_dec, Nat.eq_dec).
    assert (B : exists tag, filter (fun tag => has tag k) default_tags = [tag]) by (cbn [compared In] in O; repeat (destruct O as [<- |O]; [eexists; vm_compute; reflexivity|]); destruct O).
    destruct B as (tag & B). assert (P : forall x, In x default_tags /\ In x (tags_of k) <-> x = tag).
    { intros x. split.
      - intros (H1 & H2). assert (X : In x (filter (fun tag => has tag k) default_tags)) by (apply filter_In; split; [exact H1|apply existsb_exists; exists x; split; [exact H2|apply text_eqb_iff; reflexivity]]).
        rewrite B in X. destruct X as [-> |[]]. reflexivity.
      - intros ->. assert (X : In tag (filter (fun tag => has tag k) default_tags)) by (rewrite B; left; reflexivity). apply filter_In in X. destruct X as (X1 & X2). split; [exact X1|].
        apply existsb_exists in X2. destruct X2 as (y & Y1 & Y2). apply text_eqb_iff in Y2. subst y. exact Y1. }
    exists tag. split; [apply P; reflexivity|]. intros x Hx. symmetry. apply P, Hx.
  - intros r tag H K Ht Hr. apply create_in in H. destruct H as (i & k & t & E & ->). cbn [with_index parameters r_kind r_tags] in *. subst k.
    assert (B : filter (fun tag => has tag Dsep) default_tags = []) by (vm_compute; reflexivity).
    assert (X : In tag (filter (fun tag => has tag Dsep) default_tags)) by (apply filter_In; split; [exact Ht|apply existsb_exists; exists tag; split; [exact Hr|apply text_eqb_iff; reflexivity]]).
    rewrite B in X. destruct X.
Qed.

(** *** preloading *)
Section Preloading.
Context {T : Type}.
Variable files : ppath -> option T.
(** the tree a run is to be given *)
Definition need (r : @prun T) : option ppath := if in_dec (list_eq_dec Nat.eq_dec) (Render_Model.lit "adtree") (r_tags (p_run r)) then p_load r else None.
Definition given (r : @prun T) : option nat := option_map fst (p_preloaded r).

Lemma ppath_eqb_iff p q : ppath_eqb p q = true <-> p = q.
Proof.
  unfold ppath_eqb. rewrite andb_true_iff, eqb_true_iff. destruct p as [a l], q as [b m]. cbn [absolute parts]. destruct (list_eq_dec (list_eq_dec Nat.eq_dec) l m); split; try (intros (-> & H)); try congruence.
  - intros E. injection E. auto.
Qed.
Lemma assoc_in p (d : list (ppath * (nat * T))) o : assoc ppath_eqb p d = Some o -> In (p, o) d.
Proof. induction d as [|(q, x) d IH]; cbn [assoc]; [discriminate|]. destruct (ppath_eqb p q) eqn:E; [apply ppath_eqb_iff in E; subst; intros H; injection H as ->; left; reflexivity|right; apply IH, H]. Qed.
Lemma assoc_none p (d : list (ppath * (nat * T))) : assoc ppath_eqb p d = None -> ~ In p (map fst d) /\ forall o, assoc_set ppath_eqb p o d = d ++ [(p, o)].
Proof.
  induction d as [|(q, x) d IH]; cbn [assoc]; [intros _; split; [intros []|reflexivity]|]. destruct (ppath_eqb p q) eqn:E; [discriminate|]. intros H. destruct (IH H) as (I1 & I2). split.
  - cbn [map In]. intros [F|F]; [|contradiction]. cbn [fst] in F. subst q. assert (X : ppath_eqb p p = true) by (apply ppath_eqb_iff; reflexivity). congruence.
  - intros o. cbn [assoc_set]. rewrite E, I2. reflexivity.
Qed.
Definition inv (n : nat) (l : @loader T) : Prop :=
  ld_opened l = map fst (ld_trees l) /\ NoDup (ld_opened l) /\ (forall p o t, In (p, (o, t)) (ld_trees l) -> files p = Some t /\ n <= o < ld_next l) /\
  (forall p q o t t', In (p, (o, t)) (ld_trees l) -> In (q, (o, t')) (ld_trees l) -> p = q) /\ n <= ld_next l.
Lemma fetch_ok n l p t : inv n l -> files p = Some t -> exists o l', fetch files p l = (Ok (o, t), l') /\ inv n l' /\ In (p, (o, t)) (ld_trees l') /\
  (forall x, In x (ld_trees l) -> In x (ld_trees l')) /\ (forall x, In x (ld_opened l') <-> x = p \/ In x (ld_opened l)).
Proof.
  intros (I1 & I2 & I3 & I4 & I5) F. unfold fetch. destruct (assoc ppath_eqb p (ld_trees l)) as [(o, t')|] eqn:E.
  - apply assoc_in in E. destruct (I3 p o t' E) as (F' & _). assert (t' = t) by congruence. subst t'. exists o, l. split; [reflexivity|]. split; [repeat (split; [assumption|]); assumption|]. split; [exact E|]. split; [auto|].
    intros x. split; [auto|]. intros [-> |H]; [|exact H]. rewrite I1. apply in_map_iff. exists (p, (o, t)). auto.
  - rewrite F. destruct (assoc_none p _ E) as (N & A). rewrite A. eexists. eexists. split; [reflexivity|]. cbn [ld_trees ld_opened ld_next]. split; [|split; [|split]].
    + split; [cbn [ld_trees ld_opened]; rewrite map_app, I1; reflexivity|]. cbn [ld_opened ld_trees ld_next]. split; [|split; [|split]].
      * apply nodup_app; [exact I2|repeat constructor; intros []|]. intros x Hx [<- |[]]. rewrite I1 in Hx. contradiction.
      * intros q o t' H. apply in_app_iff in H. destruct H as [H|[H|[]]]; [destruct (I3 q o t' H); split; [assumption|lia]|]. injection H as <- <- <-. split; [exact F|lia].
      * intros q q' o t' t'' H H'. apply in_app_iff in H, H'. destruct H as [H|[H|[]]], H' as [H'|[H'|[]]].
        -- apply (I4 _ _ _ _ _ H H').
        -- injection H' as <- <- <-. destruct (I3 _ _ _ H). lia.
        -- injection H as <- <- <-. destruct (I3 _ _ _ H'). lia.
        -- injection H as <- <- <-. injection H' as <- _. reflexivity.
      * lia.
    + apply in_app_iff. right. left. reflexivity.
    + intros x Hx. apply in_app_iff. left. exact Hx.
    + intros x. rewrite in_app_iff. cbn [In]. intuition.
Qed.
Lemma need_tag (r : @prun T) : existsb (text_eqb (Render_Model.lit "adtree")) (r_tags (p_run r)) = if in_dec (list_eq_dec Nat.eq_dec) (Render_Model.lit "adtree") (r_tags (p_run r)) then true else false.
Proof.
  destruct (in_dec _ _ _) as [H|H]; [apply existsb_exists; exists (Render_Model.lit "adtree"); split; [exact H|apply text_eqb_iff; reflexivity]|].
  destruct (existsb _ _) eqn:E; [|reflexivity]. exfalso. apply existsb_exists in E. destruct E as (x & Hx & E). apply text_eqb_iff in E. subst x. contradiction.
Qed.
Lemma loop_ok n rs : forall l, inv n l -> (forall r p, In r rs -> need r = Some p -> files p <> None) ->
  exists rs' l', (forall more, preload_loop files l (rs ++ more) = let '(m, l2, u) := preload_loop files l' more in (rs' ++ m, l2, u)) /\ inv n l' /\
    (forall x, In x (ld_trees l) -> In x (ld_trees l')) /\
    (forall p, In p (ld_opened l') <-> In p (ld_opened l) \/ exists r, In r rs /\ need r = Some p) /\
    Forall2 (fun r r' => p_run r' = p_run r /\ match need r with None => r' = r | Some p => p_load r' = None /\ exists o t, p_preloaded r' = Some (o, t) /\ In (p, (o, t)) (ld_trees l') end) rs rs'.
Proof.
  induction rs as [|r rs IH]; intros l I H.
  - exists [], l. split; [intros more; cbn [app]; destruct (preload_loop files l more) as ((m, l2), u); reflexivity|]. split; [exact I|]. split; [auto|]. split; [|constructor].
    intros p. split; [auto|]. intros [A|(r & [] & _)]. exact A.
  - cbn [app preload_loop]. rewrite need_tag. destruct (need r) as [p|] eqn:Nr.
    + assert (Tg : (if in_dec (list_eq_dec Nat.eq_dec) (Render_Model.lit "adtree") (r_tags (p_run r)) then true else false) = true /\ p_load r = Some p)
        by (unfold need in Nr; destruct (in_dec _ _ _); [auto|discriminate]).
      destruct Tg as (Tg & Pl). destruct (files p) as [t|] eqn:F; [|exfalso; apply (H r p); [left; reflexivity|exact Nr|exact F]].
      destruct (fetch_ok n l p t I F) as (o & l1 & E & I1 & In1 & M1 & O1).
      destruct (IH l1 I1) as (rs' & l2 & E2 & I2 & M2 & O2 & F2); [intros x q Hx; apply H; right; exact Hx|].
      exists (PRun (p_run r) None (Some (o, t)) :: rs'), l2. split; [|split; [exact I2|split; [auto|split]]].
      * intros more. rewrite Tg, Pl, E, E2. destruct (preload_loop files l2 more) as ((m, l3), u). reflexivity.
      * intros q. rewrite O2, O1. split.
        -- intros [[-> |A]|(x & A & B)]; [right; exists r; split; [left; reflexivity|exact Nr]|auto|right; exists x; split; [right; exact A|exact B]].
        -- intros [A|(x & [<- |A] & B)]; [auto|left; left; congruence|right; exists x; auto].
      * constructor; [|exact F2]. cbn [p_run p_load p_preloaded]. split; [reflexivity|]. rewrite Nr. split; [reflexivity|]. exists o, t. auto.
    + destruct (IH l I) as (rs' & l2 & E2 & I2 & M2 & O2 & F2); [intros x q Hx; apply H; right; exact Hx|].
      exists (r :: rs'), l2. split; [|split; [exact I2|split; [exact M2|split]]].
      * intros more. assert (R : (let '(rs'', l'', u) := preload_loop files l (rs ++ more) in (r :: rs'', l'', u)) = let '(m, l3, u) := preload_loop files l2 more in ((r :: rs') ++ m, l3, u))
          by (rewrite E2; destruct (preload_loop files l2 more) as ((m, l3), u); reflexivity).
        unfold need in Nr. destruct (in_dec (list_eq_dec Nat.eq_dec) (Render_Model.lit "adtree") (r_tags (p_run r))); [rewrite Nr|]; exact R.
      * intros q. rewrite O2. split; intros [A|(x & A & B)]; auto.
        -- right. exists x. split; [right; exact A|exact B].
        -- destruct A as [<- |A]; [congruence|]. right. exists x. auto.
      * constructor; [|exact F2]. rewrite Nr. auto.
Qed.
Lemma inv_start n : inv n (Loader [] n []).
Proof. split; [reflexivity|]. split; [constructor|]. split; [intros ? ? ? []|]. split; [intros ? ? ? ? ? []|]. cbn. lia. Qed.

(** every run that needs a tree gets the content of its file, as one object per file, new; every file is opened once; all else stays *)
Theorem C82_preload : forall n rs, (forall r p, In r rs -> need r = Some p -> files p <> None) ->
  exists rs' l, preload_ADTrees files n rs = (rs', l, Ok tt) /\
    Forall2 (fun r r' => p_run r' = p_run r /\ match need r with None => r' = r | Some p => p_load r' = None /\ exists o t, p_preloaded r' = Some (o, t) /\ files p = Some t /\ n <= o end) rs rs' /\
    (forall i j r r' s s' p q, nth_error rs i = Some r -> nth_error rs' i = Some r' -> nth_error rs j = Some s -> nth_error rs' j = Some s' ->
      need r = Some p -> need s = Some q -> (given r' = given s' <-> p = q)) /\
    NoDup (ld_opened l) /\ (forall p, In p (ld_opened l) <-> exists r, In r rs /\ need r = Some p).
Proof.
  intros n rs H. destruct (loop_ok n rs (Loader [] n []) (inv_start n) H) as (rs' & l & E & I & _ & O & F). specialize (E []). rewrite app_nil_r in E. cbn [preload_loop] in E. rewrite app_nil_r in E.
  exists rs', l. split; [exact E|]. destruct I as (I1 & I2 & I3 & I4 & I5). split; [|split; [|split; [exact I2|]]].
  - clear - F I3. induction F as [|r r' rs rs' (A & B) F IH]; constructor; [|exact IH]. split; [exact A|]. destruct (need r) as [p|]; [|exact B]. destruct B as (B & o & t & C & D).
    split; [exact B|]. exists o, t. destruct (I3 p o t D). split; [exact C|]. split; [assumption|lia].
  - intros i j r r' s s' p q Hr Hr' Hs Hs' Nr Ns.
    assert (Q : forall i r r' p, nth_error rs i = Some r -> nth_error rs' i = Some r' -> need r = Some p -> exists o t, p_preloaded r' = Some (o, t) /\ In (p, (o, t)) (ld_trees l)).
    { clear - F. induction F as [|x x' rs rs' (A & B) F IH]; intros [|i] r r' p H1 H2 N; try discriminate; cbn [nth_error] in H1, H2; [|eauto].
      injection H1 as ->. injection H2 as ->. rewrite N in B. destruct B as (_ & B). exact B. }
    destruct (Q i r r' p Hr Hr' Nr) as (o & t & P1 & P2), (Q j s s' q Hs Hs' Ns) as (o' & t' & P3 & P4). unfold given. rewrite P1, P3. cbn [option_map fst]. split.
    + intros X. injection X as ->. apply (I4 _ _ _ _ _ P2 P4).
    + intros ->. f_equal. rewrite I1 in I2. clear - I2 P2 P4. induction (ld_trees l) as [|(y, z) d IH]; [destruct P2|]. cbn [map] in I2. inversion I2 as [|? ? N1 N2]; subst.
      destruct P2 as [P2|P2], P4 as [P4|P4].
      * congruence.
      * injection P2 as -> ->. exfalso. apply N1. apply in_map_iff. exists (q, (o', t')). auto.
      * injection P4 as -> ->. exfalso. apply N1. apply in_map_iff. exists (q, (o, t)). auto.
      * apply IH; assumption.
  - intros p. rewrite O. cbn [ld_opened In]. intuition.
Qed.
(** at the first file that is missing it raises: the runs before have their trees, that run and those after it are untouched *)
Theorem C82_preload_missing : forall n before r p after, (forall r p, In r before -> need r = Some p -> files p <> None) -> need r = Some p -> files p = None ->
  exists before' l l', preload_ADTrees files n (before ++ r :: after) = (before' ++ r :: after, l, Err OSErr) /\ preload_ADTrees files n before = (before', l', Ok tt).
Proof.
  intros n before r p after H Nr F. destruct (loop_ok n before (Loader [] n []) (inv_start n) H) as (rs' & l & E & (I1 & _ & I3 & _) & _ & _ & _). exists rs', l, l. split.
  - unfold preload_ADTrees. rewrite E. cbn [preload_loop]. rewrite need_tag. unfold need in Nr. destruct (in_dec _ _ _); [|discriminate]. rewrite Nr. unfold fetch.
    destruct (assoc ppath_eqb p (ld_trees l)) as [(o, t)|] eqn:A; [apply assoc_in in A; destruct (I3 _ _ _ A); congruence|]. rewrite F. reflexivity.
  - unfold preload_ADTrees. specialize (E []). rewrite app_nil_r in E. rewrite E. cbn [preload_loop]. rewrite app_nil_r. reflexivity.
Qed.
(** preloading again does nothing and opens nothing *)
Theorem C82_preload_again : forall n m rs rs' l, (forall r p, In r rs -> need r = Some p -> files p <> None) -> preload_ADTrees files n rs = (rs', l, Ok tt) ->
  preload_ADTrees files m rs' = (rs', Loader [] m [], Ok tt).
Proof.
  intros n m rs rs' l H E. destruct (C82_preload n rs H) as (rs2 & l2 & E2 & F & _). rewrite E in E2. injection E2 as <- <-. clear E H. unfold preload_ADTrees.
  induction F as [|r r' rs rs' (A & B) F IH]; [reflexivity|]. cbn [preload_loop]. rewrite IH, need_tag. unfold need in B.
  destruct (in_dec (list_eq_dec Nat.eq_dec) (Render_Model.lit "adtree") (r_tags (p_run r))) as [I|I]; rewrite A; destruct (in_dec _ _ _); try contradiction; try reflexivity.
  destruct (p_load r) eqn:P; [destruct B as (-> & _); reflexivity|]. subst r'. rewrite P. reflexivity.
Qed.
End Preloading.

(** a study with 2 targets: 18 runs; six trees are opened for 12 of them; without the second tree two runs have theirs *)
Example C82_example :
  let s := Study (PP true [Render_Model.lit "runs"]) (Render_Model.lit "alarm") (Render_Model.lit "4e2") 400 2 [0; 5; 10] in
  let all := create_algrun_parameters s in
  NoDup (st_llts s) /\ validate_dataset_name (st_dataset s) = Ok tt /\ validate_sample_count_string (st_samples s) = Ok tt /\
  length all = 18 /\ nth_error (map r_threshold all) 6 = Some (Some 4) /\
  nth_error (map r_ID all) 5 = Some (Render_Model.lit "run_5_T0__adtree_static_@LLT=5") /\
  (let '(rs, l, u) := preload_ADTrees (fun _ => Some 7) 100 (map fresh all) in
   u = Ok tt /\ length (ld_opened l) = 6 /\
   map given rs = map (fun x => if x =? 0 then None else Some x) [0; 0; 0; 0; 100; 101; 102; 100; 101; 102; 103; 104; 105; 103; 104; 105; 0; 0] /\
   forallb (fun r => match p_load r with None => true | Some _ => false end) rs = true) /\
  (let '(rs, l, u) := preload_ADTrees (fun p => if ppath_eqb p (get_ADTree_path s false 5) then None else Some 7) 100 (map fresh all) in
   u = Err OSErr /\ map given (firstn 6 rs) = [None; None; None; None; Some 100; None] /\ skipn 5 rs = skipn 5 (map fresh all)).
Proof.
  cbv zeta. split; [repeat constructor; cbn; intuition discriminate|].
  repeat (split; [vm_compute; reflexivity|]).
  split; [vm_compute; repeat split; reflexivity|vm_compute; repeat split; reflexivity].
Qed.

Print Assumptions C82_complete.
Print Assumptions C82_studies_apart.
Print Assumptions C82_default_tags.
Print Assumptions C82_preload.
