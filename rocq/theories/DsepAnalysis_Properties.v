(** C81.  The summary of the d-separation experiment (experiments/experiment_dsep): what its numbers are, and what "Avg. cond. set size" is not. *)
From Coq Require Import Reals Lra String Sorted Permutation.
From Verif Require Import Base Matrix_Model Sources_Model PMF_Model GTest_Model GTest_Spec CIResult_Model CIResult_Properties DsepAnalysis_Model DsepAnalysis_Proofs.
Open Scope nat_scope.

(** *** specification *)
(** exactly [n] numbers have the property *)
Definition has_size (P : nat -> Prop) (n : nat) : Prop := exists l, NoDup l /\ (forall x, In x l <-> P x) /\ length l = n.
(** the stored CI test results of a run, and of all runs *)
Definition results_of (r : run_files) : list stored := match f_results r with Some l => l | None => [] end.
Definition all_results (runs : list run_files) : list stored := flat_map results_of runs.
(** the text by which a stored result shows its conditioning set *)
Definition z_text (r : stored) : text := match cZ (fst r) with Shown t => t | _ => [] end.
(** the test has decided as the network says *)
Definition correct (r : stored) : bool :=
  match independent (fst r), computed_d_separation (fst r) with Some a, Some b => Bool.eqb a b | _, _ => false end.
(** a result that names its variables and knows what the network says *)
Definition complete (r : stored) : Prop := (exists t, cZ (fst r) = Shown t) /\ computed_d_separation (fst r) <> None.
(** a run whose files are there and complete; with data, the target has a true Markov blanket that is not empty *)
Definition usable (ds : bool) (r : run_files) : Prop :=
  f_results r = Some (results_of r) /\ Forall complete (results_of r) /\ (exists mb, f_mb r = Some mb) /\
  (ds = true -> exists tm, f_true_mb r = Some tm /\ tm <> []).
(** the scores of the Markov blanket [mb] that was found against the true one *)
Definition scored (mb tm : list nat) (s : scores) : Prop :=
  has_size (fun x => (In x mb /\ ~ In x tm) \/ (In x tm /\ ~ In x mb)) (s_errors s) /\
  exists tp m t, has_size (fun x => In x mb /\ In x tm) tp /\ has_size (fun x => In x mb) m /\ has_size (fun x => In x tm) t /\
    s_precision s = (if Nat.eqb m 0 then 0 else INR tp / INR m)%R /\ s_recall s = (INR tp / INR t)%R /\
    s_distance s = sqrt ((1 - s_precision s)^2 + (1 - s_recall s)^2)%R.
Definition run_scored (r : run_files) (s : scores) : Prop := exists mb tm, f_mb r = Some mb /\ f_true_mb r = Some tm /\ scored mb tm s.

(** *** the blankets *)
Lemma mem_iff x l : mem x l = true <-> In x l.
Proof. unfold mem. rewrite existsb_exists. split; [intros (y & H & E); apply Nat.eqb_eq in E; subst; exact H|intros H; exists x; split; [exact H|apply Nat.eqb_refl]]. Qed.
Lemma mem_not x l : negb (mem x l) = true <-> ~ In x l.
Proof. rewrite <- mem_iff. destruct (mem x l); cbn; split; try congruence; intuition. Qed.
Lemma as_set_in x l : In x (as_set l) <-> In x l.
Proof. apply nodup_In. Qed.
Lemma as_set_nodup l : NoDup (as_set l).
Proof. apply NoDup_nodup. Qed.
Lemma nodup_app {A} (l l' : list A) : NoDup l -> NoDup l' -> (forall x, In x l -> ~ In x l') -> NoDup (l ++ l').
Proof.
  induction 1 as [|x l N D IH]; intros D' H; cbn [app]; [exact D'|]. constructor.
  - rewrite in_app_iff. intros [E|E]; [contradiction|]. apply (H x); [left; reflexivity|exact E].
  - apply IH; [exact D'|]. intros y Hy. apply H. right. exact Hy.
Qed.
Lemma mb_scored r mb tm : f_mb r = Some mb -> f_true_mb r = Some tm -> tm <> [] ->
  exists s, create_algrun_mb_analysis true r = Ok (Some s) /\ scored mb tm s.
Proof.
  intros E1 E2 Ne. unfold create_algrun_mb_analysis. rewrite E1, E2. cbn [of_option bind].
  destruct (Nat.eqb_spec (length (as_set tm)) 0) as [Z|Z].
  { destruct tm as [|x tm]; [congruence|]. exfalso. assert (H : In x (as_set (x :: tm))) by (apply as_set_in; left; reflexivity).
    destruct (as_set (x :: tm)); [exact H|discriminate]. }
  eexists. split; [reflexivity|]. split; cbn [s_errors s_precision s_recall s_distance].
  - eexists. split; [|split; [|reflexivity]].
    + apply nodup_app; [apply NoDup_filter, as_set_nodup|apply NoDup_filter, as_set_nodup|]. intros x. rewrite !filter_In, !mem_not. tauto.
    + intros x. rewrite in_app_iff, !filter_In, !mem_not, !as_set_in. tauto.
  - exists (length (filter (fun x => mem x (as_set tm)) (as_set mb))), (length (as_set mb)), (length (as_set tm)). split; [|split; [|split; [|repeat split; reflexivity]]].
    + eexists. split; [apply NoDup_filter, as_set_nodup|split; [|reflexivity]]. intros x. rewrite filter_In, mem_iff, !as_set_in. reflexivity.
    + eexists. split; [apply as_set_nodup|split; [|reflexivity]]. intros x. apply as_set_in.
    + eexists. split; [apply as_set_nodup|split; [|reflexivity]]. intros x. apply as_set_in.
Qed.

(** *** one run *)
Lemma int_accurate_ok r : complete r -> int_accurate r = Ok (if correct r then 1 else 0).
Proof.
  intros (_ & H). unfold int_accurate, accurate, correct. destruct (computed_d_separation (fst r)) as [b|]; [|congruence].
  destruct (independent (fst r)) as [a|]; reflexivity.
Qed.
Lemma len_ok r : complete r -> len_shown (cZ (fst r)) = Ok (length (z_text r)).
Proof. intros ((t & E) & _). unfold z_text. rewrite E. reflexivity. Qed.
Lemma sum_filter {A} (p : A -> bool) l : list_sum (map (fun x => if p x then 1 else 0) l) = length (filter p l).
Proof.
  induction l as [|x l IH]; [reflexivity|]. change (list_sum (map (fun x => if p x then 1 else 0) (x :: l))) with ((if p x then 1 else 0) + list_sum (map (fun x => if p x then 1 else 0) l)).
  rewrite IH. cbn [filter]. destruct (p x); reflexivity.
Qed.
Lemma citr_ok ds r : usable ds r -> create_algrun_citr_analysis r =
  Ok {| v_count := length (results_of r); v_accurate := length (filter correct (results_of r)); v_duration := Rsum (map snd (results_of r));
        v_counter := counter_of (map (fun x => length (z_text x)) (results_of r)) |}.
Proof.
  intros (E & C & _). unfold create_algrun_citr_analysis, create_condset_size_counter. rewrite E. cbn [of_option bind]. rewrite Forall_forall in C.
  rewrite (mapM_map _ (fun x => if correct x then 1 else 0)) by (intros x Hx; apply int_accurate_ok, C, Hx). cbn [bind].
  rewrite (mapM_map _ (fun x => length (z_text x))) by (intros x Hx; apply len_ok, C, Hx). cbn [bind]. rewrite sum_filter. reflexivity.
Qed.
(** the scores of a run, none without data *)
Definition sc (ds : bool) (r : run_files) : scores :=
  match create_algrun_mb_analysis ds r with Ok (Some s) => s | _ => {| s_errors := 0; s_precision := 0; s_recall := 0; s_distance := 0 |}%R end.
Lemma step_ok ds r a : usable ds r -> exists a', run_step ds a r = Ok a' /\
  a_count a' = a_count a + length (results_of r) /\ a_accurate a' = a_accurate a + length (filter correct (results_of r)) /\
  a_counter a' = counter_update (a_counter a) (counter_of (map (fun x => length (z_text x)) (results_of r))) /\
  a_duration a' = (a_duration a + Rsum (map snd (results_of r)))%R /\
  a_errors a' = a_errors a + s_errors (sc ds r) /\ a_precision a' = (a_precision a + s_precision (sc ds r))%R /\
  a_recall a' = (a_recall a + s_recall (sc ds r))%R /\ a_distance a' = (a_distance a + s_distance (sc ds r))%R.
Proof.
  intros U. unfold run_step. rewrite (citr_ok ds r U). cbn [bind v_count v_accurate v_duration v_counter].
  destruct U as (_ & _ & (mb & Emb) & T). unfold sc. destruct ds.
  - destruct (T eq_refl) as (tm & Etm & Ne). destruct (mb_scored r mb tm Emb Etm Ne) as (s & E & _). rewrite E. cbn [bind]. eexists. split; [reflexivity|].
    cbn [a_count a_accurate a_counter a_duration a_errors a_precision a_recall a_distance]. repeat split.
  - unfold create_algrun_mb_analysis. rewrite Emb. cbn [of_option bind]. eexists. split; [reflexivity|].
    cbn [a_count a_accurate a_counter a_duration a_errors a_precision a_recall a_distance s_errors s_precision s_recall s_distance]. repeat split; try lia; try lra.
Qed.
Lemma list_sum_cons x l : list_sum (x :: l) = x + list_sum l.
Proof. reflexivity. Qed.
Lemma list_sum_app' l l' : list_sum (l ++ l') = list_sum l + list_sum l'.
Proof. induction l as [|x l IH]; [reflexivity|]. cbn [app]. rewrite !list_sum_cons, IH. lia. Qed.
Lemma loop_ok ds runs : forall a, good (a_counter a) -> Forall (usable ds) runs -> exists a', run_loop ds a runs = Ok a' /\
  a_count a' = a_count a + length (all_results runs) /\ a_accurate a' = a_accurate a + length (filter correct (all_results runs)) /\
  good (a_counter a') /\ (forall f, wsum f (a_counter a') = wsum f (a_counter a) + list_sum (map (fun x => f (length (z_text x))) (all_results runs))) /\
  a_duration a' = (a_duration a + Rsum (map snd (all_results runs)))%R /\
  a_errors a' = a_errors a + list_sum (map (fun r => s_errors (sc ds r)) runs) /\ a_precision a' = (a_precision a + Rsum (map (fun r => s_precision (sc ds r)) runs))%R /\
  a_recall a' = (a_recall a + Rsum (map (fun r => s_recall (sc ds r)) runs))%R /\ a_distance a' = (a_distance a + Rsum (map (fun r => s_distance (sc ds r)) runs))%R.
Proof.
  induction runs as [|r runs IH]; intros a G U.
  - exists a. unfold all_results. cbn [run_loop flat_map filter length map Rsum]. change (list_sum []) with 0. repeat (split; [solve [reflexivity | lia | lra | exact G | (intros f; lia)]|]). lra.
  - apply Forall_cons_iff in U. destruct U as (Ur & U). cbn [run_loop]. destruct (step_ok ds r a Ur) as (a1 & E & H1 & H2 & H3 & H4 & H5 & H6 & H7 & H8). rewrite E. cbn [bind].
    destruct (IH a1) as (a2 & E2 & J1 & J2 & J3 & J4 & J5 & J6 & J7 & J8 & J9); [|exact U|].
    + rewrite H3. apply good_update; [|exact G]. apply (proj2 (good_of _)).
    + exists a2. rewrite E2. split; [reflexivity|]. unfold all_results in *. cbn [flat_map map Rsum]. rewrite filter_app, !app_length, !map_app, Rsum_app, !list_sum_cons.
      split; [lia|]. split; [lia|]. split; [exact J3|]. split; [|split; [rewrite J5, H4; apply Rplus_assoc|split; [lia|split; [lra|split; lra]]]].
      intros f. rewrite J4, H3, wsum_update, wsum_of, map_map, map_app, list_sum_app'. lia.
Qed.

(** *** the summary *)
Lemma summary_ok ds runs : Forall (usable ds) runs -> all_results runs <> [] -> exists c t, good c /\
  (forall f, wsum f c = list_sum (map (fun x => f (length (z_text x))) (all_results runs))) /\
  create_citr_analysis ds runs = Ok t /\
  t_histogram t = render_condset_size_histogram c /\
  t_count t = length (all_results runs) /\ t_accurate t = length (filter correct (all_results runs)) /\
  t_percent t = (INR (length (filter correct (all_results runs))) * 100 / INR (length (all_results runs)))%R /\
  t_errors t = list_sum (map (fun r => s_errors (sc ds r)) runs) /\
  t_condset t = (INR (list_sum (map (fun r => length (z_text r)) (all_results runs))) / INR (length (all_results runs)))%R /\
  t_precision t = (Rsum (map (fun r => s_precision (sc ds r)) runs) / INR (length runs))%R /\
  t_recall t = (Rsum (map (fun r => s_recall (sc ds r)) runs) / INR (length runs))%R /\
  t_distance t = (Rsum (map (fun r => s_distance (sc ds r)) runs) / INR (length runs))%R /\
  t_duration t = Rsum (map snd (all_results runs)).
Proof.
  intros U Ne. destruct (loop_ok ds runs running_start) as (a & E & H1 & H2 & H3 & H4 & H5 & H6 & H7 & H8 & H9); [split; [constructor|intros ? []]|exact U|].
  cbn [a_count a_accurate a_counter a_duration a_errors a_precision a_recall a_distance running_start] in *. rewrite Nat.add_0_l in H1, H2, H6. rewrite Rplus_0_l in H5, H7, H8, H9.
  exists (a_counter a). unfold create_citr_analysis. rewrite E. cbn [bind].
  assert (W : forall f, wsum f (a_counter a) = list_sum (map (fun x => f (length (z_text x))) (all_results runs))) by (intros f; rewrite H4; reflexivity).
  assert (L : list_sum (map snd (a_counter a)) = length (all_results runs)).
  { assert (X : list_sum (map snd (a_counter a)) = wsum (fun _ => 1) (a_counter a)) by (unfold wsum; f_equal; apply map_ext; intros kn; lia).
    rewrite X, W. clear. induction (all_results runs) as [|x l IH]; [reflexivity|]. cbn [map length]. rewrite list_sum_cons, IH. reflexivity. }
  assert (L2 : list_sum (map (fun kn => fst kn * snd kn) (a_counter a)) = list_sum (map (fun r => length (z_text r)) (all_results runs))) by (rewrite <- (W (fun k => k)); reflexivity).
  assert (N : length (all_results runs) <> 0) by (destruct (all_results runs); [congruence|discriminate]).
  unfold calculate_condset_average. rewrite L, L2, H1. destruct (Nat.eqb_spec (length (all_results runs)) 0) as [Z|_]; [contradiction|]. cbn [bind].
  destruct (Nat.eqb_spec (length runs) 0) as [Z|_]; [destruct runs; [exfalso; apply Ne; reflexivity|discriminate]|].
  eexists. split; [exact H3|]. split; [exact W|]. split; [reflexivity|]. cbn [t_histogram t_count t_accurate t_percent t_errors t_condset t_precision t_recall t_distance t_duration].
  rewrite H2, H5, H6, H7, H8, H9. repeat split.
Qed.
Lemma sc_scored r : usable true r -> run_scored r (sc true r).
Proof.
  intros (_ & _ & (mb & E) & T). destruct (T eq_refl) as (tm & E2 & Ne). destruct (mb_scored r mb tm E E2 Ne) as (s & Es & S). exists mb, tm. unfold sc. rewrite Es. auto.
Qed.

(** the counts: over all results of all runs *)
Theorem C81_ci_counts : forall ds runs, Forall (usable ds) runs -> all_results runs <> [] ->
  exists t, create_citr_analysis ds runs = Ok t /\
    t_count t = length (all_results runs) /\
    t_accurate t = length (filter correct (all_results runs)) /\
    t_percent t = (100 * (INR (length (filter correct (all_results runs))) / INR (length (all_results runs))))%R /\ (0 <= t_percent t <= 100)%R /\
    t_duration t = Rsum (map snd (all_results runs)).
Proof.
  intros ds runs U Ne. destruct (summary_ok ds runs U Ne) as (c & t & _ & _ & E & _ & H1 & H2 & H3 & _ & _ & _ & _ & _ & H4).
  exists t. split; [exact E|]. split; [exact H1|]. split; [exact H2|].
  assert (N : (0 < INR (length (all_results runs)))%R) by (apply lt_0_INR; destruct (all_results runs); [congruence|cbn; lia]).
  split; [rewrite H3; field; lra|]. split; [|exact H4]. rewrite H3.
  assert (F : length (filter correct (all_results runs)) <= length (all_results runs)) by (clear; induction (all_results runs) as [|x l IH]; cbn [filter]; [lia|destruct (correct x); cbn [length]; lia]).
  apply le_INR in F. pose proof (pos_INR (length (filter correct (all_results runs)))) as P. split.
  - apply Rmult_le_pos; [lra|]. apply Rlt_le, Rinv_0_lt_compat, N.
  - apply (Rmult_le_reg_r (INR (length (all_results runs)))); [exact N|]. unfold Rdiv. rewrite Rmult_assoc, Rinv_l by lra. lra.
Qed.
(** with data: the errors are added up, precision, recall and distance averaged over the runs *)
Theorem C81_markov_blankets : forall runs, Forall (usable true) runs -> all_results runs <> [] ->
  exists t ss, create_citr_analysis true runs = Ok t /\ Forall2 run_scored runs ss /\
    t_errors t = list_sum (map s_errors ss) /\
    t_precision t = (Rsum (map s_precision ss) / INR (length runs))%R /\
    t_recall t = (Rsum (map s_recall ss) / INR (length runs))%R /\
    t_distance t = (Rsum (map s_distance ss) / INR (length runs))%R.
Proof.
  intros runs U Ne. destruct (summary_ok true runs U Ne) as (c & t & _ & _ & E & _ & _ & _ & _ & H1 & _ & H2 & H3 & H4 & _).
  exists t, (map (sc true) runs). split; [exact E|]. split.
  - clear - U. induction U as [|r runs Ur U IH]; [constructor|]. cbn [map]. constructor; [apply sc_scored, Ur|exact IH].
  - rewrite !map_map. auto.
Qed.

(** *** what the scores mean *)
Lemma size_le (P Q : nat -> Prop) m n : has_size P m -> has_size Q n -> (forall x, P x -> Q x) -> m <= n.
Proof. intros (l & N & E & <-) (l' & N' & E' & <-) H. apply NoDup_incl_length; [exact N|]. intros x Hx. apply E', H, E, Hx. Qed.
Lemma size_eq_all (P Q : nat -> Prop) n : has_size P n -> has_size Q n -> (forall x, P x -> Q x) -> forall x, Q x -> P x.
Proof.
  intros (l & N & E & L) (l' & N' & E' & L') H x Hx. apply E. apply (@NoDup_length_incl nat l l' N); [lia| |apply E', Hx]. intros y Hy. apply E', H, E, Hy.
Qed.
Lemma size_zero (P : nat -> Prop) : has_size P 0 -> forall x, ~ P x.
Proof. intros (l & _ & E & L) x Hx. destruct l; [|discriminate]. apply E in Hx. exact Hx. Qed.
Lemma size_pos (P : nat -> Prop) n x : has_size P n -> P x -> 0 < n.
Proof. intros (l & _ & E & L) Hx. apply E in Hx. destruct l; [destruct Hx|cbn in L; lia]. Qed.
Lemma size_fun (P : nat -> Prop) m n : has_size P m -> has_size P n -> m = n.
Proof. intros A B. pose proof (size_le P P m n A B (fun x H => H)). pose proof (size_le P P n m B A (fun x H => H)). lia. Qed.
Lemma ratio a b : a <= b -> 0 < b -> (0 <= INR a / INR b <= 1)%R.
Proof.
  intros L P. apply le_INR in L. apply lt_0_INR in P. pose proof (pos_INR a). split.
  - apply Rmult_le_pos; [lra|]. apply Rlt_le, Rinv_0_lt_compat, P.
  - apply (Rmult_le_reg_r (INR b)); [exact P|]. unfold Rdiv. rewrite Rmult_assoc, Rinv_l by lra. lra.
Qed.
Lemma ratio_one a b : 0 < b -> (INR a / INR b = 1)%R -> a = b.
Proof. intros P E. apply lt_0_INR in P. apply INR_eq. apply (f_equal (fun z => z * INR b)%R) in E. unfold Rdiv in E. rewrite Rmult_assoc, Rinv_l in E by lra. lra. Qed.
Theorem C81_scores : forall mb tm s, tm <> [] -> scored mb tm s ->
  (0 <= s_precision s <= 1)%R /\ (0 <= s_recall s <= 1)%R /\ (0 <= s_distance s <= sqrt 2)%R /\
  (s_errors s = 0 <-> forall x, In x mb <-> In x tm) /\
  (s_distance s = 0%R <-> forall x, In x mb <-> In x tm).
Proof.
  intros mb tm s Ne (He & tp & m & t & Htp & Hm & Ht & Ep & Er & Ed).
  assert (T : 0 < t) by (destruct tm as [|x tm]; [congruence|apply (size_pos _ t x Ht); left; reflexivity]).
  assert (L1 : tp <= m) by (apply (size_le _ _ _ _ Htp Hm); tauto).
  assert (L2 : tp <= t) by (apply (size_le _ _ _ _ Htp Ht); tauto).
  assert (P : (0 <= s_precision s <= 1)%R).
  { rewrite Ep. destruct (Nat.eqb_spec m 0) as [Z|Z]; [lra|apply ratio; lia]. }
  assert (Q : (0 <= s_recall s <= 1)%R) by (rewrite Er; apply ratio; lia).
  assert (D : (0 <= (1 - s_precision s)^2 + (1 - s_recall s)^2 <= 2)%R).
  { assert (S : forall x, (0 <= x <= 1 -> 0 <= (1 - x)^2 <= 1)%R) by (intros x Hx; cbn [pow]; nra). pose proof (S _ P). pose proof (S _ Q). lra. }
  split; [exact P|]. split; [exact Q|]. split; [rewrite Ed; split; [apply sqrt_pos|apply sqrt_le_1; lra]|].
  split.
  - split.
    + intros Z x. rewrite Z in He. pose proof (size_zero _ He x) as H. destruct (in_dec Nat.eq_dec x mb), (in_dec Nat.eq_dec x tm); tauto.
    + intros S. destruct (s_errors s) as [|n]; [reflexivity|]. destruct He as ([|x l] & _ & E & L); [discriminate|]. assert (X : In x (x :: l)) by (left; reflexivity).
      apply E in X. specialize (S x). tauto.
  - split.
    + intros Z. rewrite Ed in Z. apply sqrt_eq_0 in Z; [|lra]. pose proof (pow2_ge_0 (1 - s_precision s)) as A1. pose proof (pow2_ge_0 (1 - s_recall s)) as A2.
      assert (B1 : ((1 - s_precision s)^2 = 0)%R) by lra. assert (B2 : ((1 - s_recall s)^2 = 0)%R) by lra. cbn [pow] in B1, B2.
      assert (C1 : s_precision s = 1%R) by nra. assert (C2 : s_recall s = 1%R) by nra.
      rewrite Er in C2. apply ratio_one in C2; [|exact T]. rewrite Ep in C1. destruct (Nat.eqb_spec m 0) as [M|M]; [lra|]. apply ratio_one in C1; [|lia]. subst m t.
      intros x. split; intros Hx.
      * apply (size_eq_all _ _ tp Htp Hm); [tauto|exact Hx].
      * apply (size_eq_all _ _ tp Htp Ht); [tauto|exact Hx].
    + intros S. assert (E1 : tp = m) by (apply (size_fun (fun x => In x mb)); [|exact Hm]; destruct Htp as (l & N & E & L); exists l; split; [exact N|split; [|exact L]]; intros x; rewrite E; specialize (S x); tauto).
      assert (E2 : tp = t) by (apply (size_fun (fun x => In x tm)); [|exact Ht]; destruct Htp as (l & N & E & L); exists l; split; [exact N|split; [|exact L]]; intros x; rewrite E; specialize (S x); tauto).
      subst m t. apply lt_0_INR in T as T'. assert (O : (INR tp / INR tp = 1)%R) by (field; lra). rewrite Ed, Ep, Er. destruct (Nat.eqb_spec tp 0) as [Z|Z]; [lia|]. rewrite O.
      replace ((1 - 1) ^ 2 + (1 - 1) ^ 2)%R with 0%R by ring. apply sqrt_0.
Qed.
(** a summary of runs on the network itself shows no errors, precision 0 and distance 0, whatever was found *)
Theorem C81_without_data : forall runs, Forall (usable false) runs -> all_results runs <> [] ->
  exists t, create_citr_analysis false runs = Ok t /\ t_errors t = 0 /\ t_precision t = 0%R /\ t_recall t = 0%R /\ t_distance t = 0%R.
Proof.
  intros runs U Ne. destruct (summary_ok false runs U Ne) as (c & t & _ & _ & E & _ & _ & _ & _ & H1 & _ & H2 & H3 & H4 & _). exists t. split; [exact E|].
  assert (Z : forall r, In r runs -> sc false r = {| s_errors := 0; s_precision := 0; s_recall := 0; s_distance := 0 |}%R).
  { intros r Hr. rewrite Forall_forall in U. destruct (U r Hr) as (_ & _ & (mb & Em) & _). unfold sc, create_algrun_mb_analysis. rewrite Em. reflexivity. }
  rewrite H1, H2, H3, H4. clear - Z.
  assert (G : list_sum (map (fun r => s_errors (sc false r)) runs) = 0 /\ Rsum (map (fun r => s_precision (sc false r)) runs) = 0%R /\
    Rsum (map (fun r => s_recall (sc false r)) runs) = 0%R /\ Rsum (map (fun r => s_distance (sc false r)) runs) = 0%R).
  { induction runs as [|r runs IH]; [repeat split|]. cbn [map Rsum]. rewrite list_sum_cons. rewrite (Z r) by (left; reflexivity).
    destruct IH as (I1 & I2 & I3 & I4); [intros x Hx; apply Z; right; exact Hx|]. rewrite I1, I2, I3, I4. cbn [s_errors s_precision s_recall s_distance]. repeat split; lra. }
  destruct G as (-> & -> & -> & ->). repeat split; unfold Rdiv; apply Rmult_0_l.
Qed.
(** the order of the runs does not matter *)
Lemma flat_map_perm {A B} (f : A -> list B) l l' : Permutation l l' -> Permutation (flat_map f l) (flat_map f l').
Proof.
  induction 1; cbn [flat_map]; [constructor|apply Permutation_app_head; assumption| |etransitivity; eassumption].
  rewrite !app_assoc. apply Permutation_app_tail, Permutation_app_comm.
Qed.
Lemma filter_perm {A} (p : A -> bool) l l' : Permutation l l' -> Permutation (filter p l) (filter p l').
Proof. induction 1 as [|x l l' P IH|x y l|l l' l'' P1 IH1 P2 IH2]; cbn [filter]; [constructor| | |etransitivity; eassumption]; destruct (p x); try (destruct (p y)); try constructor; try assumption; reflexivity. Qed.
Theorem C81_order_irrelevant : forall ds runs runs', Permutation runs runs' -> Forall (usable ds) runs -> all_results runs <> [] ->
  create_citr_analysis ds runs = create_citr_analysis ds runs'.
Proof.
  intros ds runs runs' P U Ne. assert (PA : Permutation (all_results runs) (all_results runs')) by (apply flat_map_perm, P).
  assert (U' : Forall (usable ds) runs') by (rewrite Forall_forall in *; intros r Hr; apply U; apply (Permutation_in r (Permutation_sym P)), Hr).
  assert (Ne' : all_results runs' <> []) by (intros E; rewrite E in PA; apply Permutation_sym, Permutation_nil in PA; contradiction).
  destruct (summary_ok ds runs U Ne) as (c & t & G & W & E & H0 & H1 & H2 & H3 & H4 & H5 & H6 & H7 & H8 & H9).
  destruct (summary_ok ds runs' U' Ne') as (c' & t' & G' & W' & E' & J0 & J1 & J2 & J3 & J4 & J5 & J6 & J7 & J8 & J9). rewrite E, E'. f_equal.
  assert (L : length (all_results runs) = length (all_results runs')) by (apply Permutation_length, PA).
  assert (LF : length (filter correct (all_results runs)) = length (filter correct (all_results runs'))) by (apply Permutation_length, filter_perm, PA).
  assert (LS : forall f : stored -> nat, list_sum (map f (all_results runs)) = list_sum (map f (all_results runs'))) by (intros f; apply list_sum_perm, Permutation_map, PA).
  assert (RS : forall f : run_files -> R, Rsum (map f runs) = Rsum (map f runs')) by (intros f; apply Rsum_perm, Permutation_map, P).
  assert (LR : length runs = length runs') by (apply Permutation_length, P).
  assert (HG : render_condset_size_histogram c = render_condset_size_histogram c') by (apply histogram_same; [exact G|exact G'|intros k; rewrite W, W'; apply LS]).
  destruct t as [h n a p e cs pr rc di du], t' as [h' n' a' p' e' cs' pr' rc' di' du'].
  cbn [t_histogram t_count t_accurate t_percent t_errors t_condset t_precision t_recall t_distance t_duration] in *. subst.
  f_equal; first [exact HG | exact L | exact LF | (rewrite LF, L; reflexivity) | (apply list_sum_perm, Permutation_map, P)
    | (rewrite (LS (fun r => length (z_text r))), L; reflexivity) | (rewrite RS, LR; reflexivity) | (apply Rsum_perm, Permutation_map, PA)].
Qed.
(** the histogram: a line for each length that occurs, in increasing order, with the number of results and a bar of floor(log2) signs *)
Theorem C81_histogram : forall ds runs, Forall (usable ds) runs -> all_results runs <> [] ->
  exists t sizes, create_citr_analysis ds runs = Ok t /\ StronglySorted lt sizes /\
    (forall k, In k sizes <-> exists r, In r (all_results runs) /\ length (z_text r) = k) /\
    t_histogram t = [10] ++ flat_map (fun k => let n := length (filter (fun r => Nat.eqb (length (z_text r)) k) (all_results runs)) in
      [9; 9] ++ padded 2 k ++ [58; 32] ++ padded 6 n ++ [32] ++ repeat 45 (Nat.log2 n) ++ [10]) sizes.
Proof.
  intros ds runs U Ne. destruct (summary_ok ds runs U Ne) as (c & t & G & W & E & H0 & _). exists t, (sort_sizes (map fst c)). split; [exact E|].
  split; [apply sort_sorted, G|].
  assert (K : forall k, wsum (delta k) c = length (filter (fun r => Nat.eqb (length (z_text r)) k) (all_results runs))).
  { intros k. rewrite W. unfold delta. apply (sum_filter (fun r : stored => Nat.eqb (length (z_text r)) k)). }
  split.
  - intros k. rewrite sort_in, (key_iff c k G), K. clear. split.
    + destruct (filter (fun r => Nat.eqb (length (z_text r)) k) (all_results runs)) as [|r l] eqn:E; [cbn; lia|]. intros _.
      assert (H : In r (r :: l)) by (left; reflexivity). rewrite <- E in H. apply filter_In in H. destruct H as (H1 & H2). apply Nat.eqb_eq in H2. exists r. auto.
    + intros (r & H1 & H2). assert (H : In r (filter (fun r => Nat.eqb (length (z_text r)) k) (all_results runs))) by (apply filter_In; split; [exact H1|apply Nat.eqb_eq, H2]).
      destruct (filter _ _); [destruct H|cbn; lia].
  - rewrite H0. unfold render_condset_size_histogram. f_equal. apply flat_map_ext. intros k. rewrite (get_wsum c k G), K. reflexivity.
Qed.

(** *** "Avg. cond. set size" *)
(** the result of a test given the columns [Z], as a G-test (or, in the form of a list, the d-separation test) stores it *)
Definition conditioned_on (r : stored) (Z : list nat) : Prop := exists im omega, cZ (fst r) = Shown (represent (passed_Z im omega Z)).
Theorem C81_g_tests_store_so : forall im omega p dsep r d, conditioned_on (report im omega p dsep r, d) (r_Z r).
Proof. intros im omega p dsep r d. exists im, omega. unfold report, fst. destruct (r_independent r); reflexivity. Qed.

Lemma str_one n : length (str_int (Z.of_nat n)) <= 1 -> n < 10.
Proof.
  intros H. pose proof (str_nat_nonempty n) as Ne. pose proof (str_nat_digits n) as D. pose proof (str_nat_inj n) as Inj. destruct (str_int (Z.of_nat n)) as [|c [|c' s]]; [congruence| |cbn in H; lia].
  assert (C : 48 <= c <= 57) by (apply D; left; reflexivity).
  assert (E : exists d, d < 10 /\ str_int (Z.of_nat d) = [c]).
  { exists (c - 48). split; [lia|]. do 48 (destruct c as [|c]; [lia|]). do 10 (destruct c as [|c]; [reflexivity|]). lia. }
  destruct E as (d & Hd & E). rewrite (Inj d) by (symmetry; exact E). exact Hd.
Qed.
Lemma str_small n : n < 10 -> length (str_int (Z.of_nat n)) = 1.
Proof. intros H. do 10 (destruct n as [|n]; [reflexivity|]). lia. Qed.
Lemma str_pos n : 1 <= length (str_int (Z.of_nat n)).
Proof. pose proof (str_nat_nonempty n). destruct (str_int (Z.of_nat n)); [congruence|cbn; lia]. Qed.
Lemma join_long l : length l <= length (join_comma (map str_int (map Z.of_nat l))).
Proof.
  induction l as [|a l IH]; [cbn; lia|]. pose proof (str_pos a) as P. destruct l as [|b l]; [cbn [map join_comma length]; lia|].
  change (join_comma (map str_int (map Z.of_nat (a :: b :: l)))) with (str_int (Z.of_nat a) ++ [44; 32] ++ join_comma (map str_int (map Z.of_nat (b :: l)))).
  rewrite !app_length. change (length (a :: b :: l)) with (S (length (b :: l))). lia.
Qed.
Lemma repr_list_long Z : length Z <= length (represent_list (map Z.of_nat Z)) /\ (length Z = length (represent_list (map Z.of_nat Z)) <-> exists x, Z = [x] /\ x < 10).
Proof.
  destruct Z as [|a [|b l]].
  - cbn. split; [lia|]. split; [lia|]. intros (x & E & _). discriminate.
  - cbn [map represent_list length]. pose proof (str_pos a) as P. split; [exact P|]. split.
    + intros E. exists a. split; [reflexivity|]. apply str_one. lia.
    + intros (x & E & L). injection E as ->. rewrite str_small by exact L. reflexivity.
  - pose proof (join_long (a :: b :: l)) as J. cbn [map represent_list] in *.
    assert (E : forall x : text, length ([123] ++ x ++ [125]) = 2 + length x) by (intros x; rewrite !app_length; cbn [length]; lia). rewrite E. split; [lia|].
    split; [lia|]. intros (x & X & _). discriminate.
Qed.
Lemma repr_long r Z : conditioned_on r Z -> length Z <= length (z_text r) /\ (length Z = length (z_text r) <-> exists x, Z = [x] /\ x < 10).
Proof.
  intros (im & omega & E). unfold z_text. rewrite E. pose proof (repr_list_long Z) as R. destruct im; cbn [passed_Z]; try exact R.
  destruct Z as [|a [|b l]].
  - destruct omega; exact R.
  - cbn [represent map represent_list] in *. destruct (Z.eqb_spec (Z.of_nat a) (-1024)) as [X|_]; [lia|exact R].
  - exact R.
Qed.
(** the number shown is the mean length of the texts *)
Theorem C81_condset_is_text_length : forall ds runs, Forall (usable ds) runs -> all_results runs <> [] ->
  exists t, create_citr_analysis ds runs = Ok t /\
    t_condset t = (INR (list_sum (map (fun r => length (z_text r)) (all_results runs))) / INR (length (all_results runs)))%R.
Proof. intros ds runs U Ne. destruct (summary_ok ds runs U Ne) as (c & t & _ & _ & E & _ & _ & _ & _ & _ & H & _). exists t. auto. Qed.
(** so it is never less than the average size of the conditioning sets, and equal to it only if every test had exactly one conditioning variable, with a one-digit number *)
Theorem C81_condset_overstated : forall ds runs Zs, Forall (usable ds) runs -> all_results runs <> [] -> Forall2 conditioned_on (all_results runs) Zs ->
  exists t, create_citr_analysis ds runs = Ok t /\
    (t_condset t >= INR (list_sum (map (@length nat) Zs)) / INR (length Zs))%R /\
    (t_condset t = (INR (list_sum (map (@length nat) Zs)) / INR (length Zs))%R <-> Forall (fun Z => exists x, Z = [x] /\ x < 10) Zs).
Proof.
  intros ds runs Zs U Ne F. destruct (C81_condset_is_text_length ds runs U Ne) as (t & E & H). exists t. split; [exact E|]. rewrite H. clear H E t U.
  assert (L : length (all_results runs) = length Zs) by (clear Ne; induction F; cbn [length]; congruence).
  assert (P : (0 < INR (length Zs))%R) by (rewrite <- L; apply lt_0_INR; destruct (all_results runs); [congruence|cbn; lia]). rewrite L. clear L Ne.
  assert (G : list_sum (map (@length nat) Zs) <= list_sum (map (fun r => length (z_text r)) (all_results runs)) /\
    (list_sum (map (@length nat) Zs) = list_sum (map (fun r => length (z_text r)) (all_results runs)) <-> Forall (fun Z => exists x, Z = [x] /\ x < 10) Zs)).
  { clear P. induction F as [|r Z rs Zs Hr F IH]; [split; [apply le_n|]; split; [constructor|reflexivity]|]. cbn [map]. rewrite !list_sum_cons.
    destruct IH as (I1 & I2). destruct (repr_long r Z Hr) as (R1 & R2). split; [lia|]. rewrite Forall_cons_iff, <- I2, <- R2. lia. }
  destruct G as (G1 & G2). split.
  - apply Rle_ge. apply le_INR in G1. unfold Rdiv. apply Rmult_le_compat_r; [apply Rlt_le, Rinv_0_lt_compat, P|exact G1].
  - rewrite <- G2. split.
    + intros E. apply INR_eq. apply (f_equal (fun z => z * INR (length Zs))%R) in E. unfold Rdiv in E. rewrite !Rmult_assoc, Rinv_l, !Rmult_1_r in E by lra. symmetry. exact E.
    + intros ->. reflexivity.
Qed.

(** *** when there is no summary at all *)
Lemma loop_app ds before : forall after a, run_loop ds a (before ++ after) = (a' <- run_loop ds a before ;; run_loop ds a' after).
Proof. induction before as [|r before IH]; intros after a; [reflexivity|]. cbn [app run_loop]. destruct (run_step ds a r); cbn [bind]; [apply IH|reflexivity]. Qed.
Lemma fails_at ds before r after e : Forall (usable ds) before -> (forall a, run_step ds a r = Err e) -> create_citr_analysis ds (before ++ r :: after) = Err e.
Proof.
  intros U H. unfold create_citr_analysis. rewrite loop_app. destruct (loop_ok ds before running_start) as (a & E & _); [split; [constructor|intros ? []]|exact U|].
  rewrite E. cbn [bind run_loop]. rewrite H. reflexivity.
Qed.
Lemma mapM_err {A B} (f : A -> res B) e l : (forall x, In x l -> f x = Err e \/ exists y, f x = Ok y) -> (exists x, In x l /\ f x = Err e) -> mapM f l = Err e.
Proof.
  induction l as [|x l IH]; intros H (y & Hy & E); [destruct Hy|]. cbn [mapM]. destruct (H x) as [X|(z & X)]; [left; reflexivity|rewrite X; reflexivity|]. rewrite X. cbn [bind].
  rewrite IH; [reflexivity|intros w Hw; apply H; right; exact Hw|]. destruct Hy as [<- |Hy]; [congruence|]. exists y. auto.
Qed.
(** a target that truly has an empty Markov blanket, one result that does not know what the network says, or a missing file of CI results: whatever the other
    runs are, the command ends with an exception *)
Theorem C81_no_summary : forall ds before r after, Forall (usable ds) before ->
  (ds = true -> usable false r -> f_true_mb r = Some [] -> create_citr_analysis ds (before ++ r :: after) = Err ZeroDivisionError) /\
  (forall rs x, f_results r = Some rs -> In x rs -> computed_d_separation (fst x) = None -> create_citr_analysis ds (before ++ r :: after) = Err TypeError) /\
  (f_results r = None -> create_citr_analysis ds (before ++ r :: after) = Err OSErr).
Proof.
  intros ds before r after U. split; [|split].
  - intros -> Ur E. apply fails_at; [exact U|]. intros a. unfold run_step. rewrite (citr_ok false r Ur). cbn [bind].
    destruct Ur as (_ & _ & (mb & Em) & _). unfold create_algrun_mb_analysis. rewrite Em, E. reflexivity.
  - intros rs x E Hx N. apply fails_at; [exact U|]. intros a. unfold run_step, create_algrun_citr_analysis. rewrite E. cbn [of_option bind].
    rewrite (mapM_err int_accurate TypeError); [reflexivity| |exists x; split; [exact Hx|unfold int_accurate, accurate; rewrite N; reflexivity]].
    intros y _. unfold int_accurate. destruct (accurate (fst y)) as [b|]; [right; eexists; reflexivity|left; reflexivity].
  - intros E. apply fails_at; [exact U|]. intros a. unfold run_step, create_algrun_citr_analysis. rewrite E. reflexivity.
Qed.
(** no runs, or runs without a single CI test *)
Theorem C81_no_tests : forall ds runs, Forall (usable ds) runs -> all_results runs = [] -> create_citr_analysis ds runs = Err ZeroDivisionError.
Proof.
  intros ds runs U E. unfold create_citr_analysis. destruct (loop_ok ds runs running_start) as (a & El & H & _); [split; [constructor|intros ? []]|exact U|].
  rewrite El. cbn [bind]. rewrite H, E. reflexivity.
Qed.

(** *** example: two runs, three results; the conditioning sets have 0, 1 and 2 members, the summary says 1, 2 and 7 *)
Definition ex_result (ind net : bool) (Z : list nat) : stored :=
  (set_d_separation (Some net) (set_variables (RInt 0%Z) (RInt 1%Z) (RList (map Z.of_nat Z)) (set_independent ind (Num 1%R) fresh_result)), 1%R).
Definition ex_runs : list run_files :=
  [ {| f_target := 0; f_results := Some [ex_result true true []; ex_result false true [12]]; f_mb := Some [1; 2]; f_true_mb := Some [1; 2; 3] |};
    {| f_target := 1; f_results := Some [ex_result false false [3; 12]]; f_mb := Some [0; 5]; f_true_mb := Some [0] |} ].
Theorem C81_example : Forall (usable true) ex_runs /\ length (all_results ex_runs) = 3 /\
  Forall2 conditioned_on (all_results ex_runs) [[]; [12]; [3; 12]] /\
  exists t, create_citr_analysis true ex_runs = Ok t /\ t_count t = 3 /\ t_accurate t = 2 /\ t_errors t = 2 /\ t_condset t = (10 / 3)%R /\ t_precision t = (3 / 4)%R /\ t_recall t = (5 / 6)%R.
Proof.
  split; [|split; [reflexivity|split]].
  - repeat constructor; try (eexists; reflexivity); try discriminate; intros _; eexists; (split; [reflexivity|discriminate]).
  - repeat constructor; exists WithDcMI, true; reflexivity.
  - eexists. split; [vm_compute; reflexivity|]. cbn [t_count t_accurate t_errors t_condset t_precision t_recall]. repeat split; lra.
Qed.
Print Assumptions C81_ci_counts.
Print Assumptions C81_condset_overstated.
