(** C83.  The experiments of experiments/experiment_dsep: files of their own, the right true Markov blankets, datasets told apart. *)
From Coq Require Import String Ascii QArith.
From Verif Require Import Base Matrix_Model Sources_Model Sources_Proofs Render_Model BifText_Model Paths_Model DcmiRuns_Model DcmiRuns_Properties DsepRuns_Model.
Open Scope nat_scope.
Open Scope list_scope.

Section Setups.
Variable number : text -> res Z.
Variable network : ppath -> res nat.

(** *** specification *)
(** an experiment that can be set up *)
Definition ready (d : dsep_setup) : Prop := exists a, dsep_setup_of number network (d_root d) a = Ok d.
(** its runs *)
Definition run_in (d : dsep_setup) (r : dsep_run) : Prop := exists l, dsep_runs d = Ok l /\ In r l.
(** the files a run writes, by purpose *)
Inductive dsep_purpose := CIResults | HeuristicResults | Blanket.
Definition dsep_file (d : dsep_setup) (r : dsep_run) (p : dsep_purpose) : ppath :=
  match p with CIResults => u_results r | HeuristicResults => u_heuristic r | Blanket => run_datapoint d r end.
(** the texts a user gives *)
Definition bn : text := Render_Model.lit "bn".
Definition ds : text := Render_Model.lit "ds".

(** *** what a setup is *)
Lemma known_iff names t : known names t = Ok tt <-> In t names.
Proof.
  unfold known. destruct (existsb (text_eqb t) names) eqn:E.
  - apply existsb_exists in E. destruct E as (x & Hx & E). apply text_eqb_iff in E. subst x. tauto.
  - split; [discriminate|]. intros H. exfalso. assert (F : existsb (text_eqb t) names = true) by (apply existsb_exists; exists t; split; [exact H|apply text_eqb_iff; reflexivity]). congruence.
Qed.
Lemma known_cases names t : known names t = Ok tt \/ known names t = Err ValueError.
Proof. unfold known. destruct (existsb _ _); auto. Qed.
Lemma validate_iff a : validate_arguments a = Ok tt <-> In (a_algorithm a) ALGORITHMS /\ In (a_source_type a) SOURCES /\ In (a_source_name a) BAYESIAN_NETWORKS.
Proof.
  unfold validate_arguments. rewrite <- !known_iff.
  destruct (known_cases ALGORITHMS (a_algorithm a)) as [-> | ->]; cbn [bind]; [|split; [discriminate|intros (H & _); discriminate H]].
  destruct (known_cases SOURCES (a_source_type a)) as [-> | ->]; cbn [bind]; [|split; [discriminate|intros (_ & H & _); discriminate H]]. tauto.
Qed.
Lemma ds_not_bn : text_eqb ds bn = false. Proof. vm_compute. reflexivity. Qed.
Lemma bn_not_ds : text_eqb bn ds = false. Proof. vm_compute. reflexivity. Qed.
Lemma eqb_refl t : text_eqb t t = true. Proof. apply text_eqb_iff. reflexivity. Qed.
Lemma setup_iff root a d : dsep_setup_of number network root a = Ok d <->
  validate_arguments a = Ok tt /\ exists n, network (bif_file root (a_source_name a)) = Ok n /\
  ((a_source_type a = bn /\ d = DSetup root bn (a_algorithm a) (a_source_name a) n [] None None) \/
   (a_source_type a = ds /\ exists t c, a_sample_count a = Some t /\ number t = Ok c /\ d = DSetup root ds (a_algorithm a) (a_source_name a) n t (Some c) (Some (95 # 100)))).
Proof.
  unfold dsep_setup_of. fold bn ds. destruct (validate_arguments a) as [[]|e] eqn:V; cbn [bind]; [|split; [discriminate|intros (H & _); discriminate H]].
  apply validate_iff in V. destruct V as (_ & V & _). destruct (network _) as [n|e]; cbn [bind]; [|split; [discriminate|intros (_ & n & H & _); discriminate H]].
  destruct V as [V|[V|[]]]; fold bn ds in V; rewrite <- V.
  - rewrite bn_not_ds. split.
    + intros H. injection H as <-. split; [reflexivity|]. exists n. split; [reflexivity|]. left. auto.
    + intros (_ & m & E & [(_ & ->)|(E' & _)]); [injection E as <-; reflexivity|]. exfalso. generalize bn_not_ds. rewrite E', eqb_refl. discriminate.
  - rewrite eqb_refl. split.
    + destruct (a_sample_count a) as [t|]; [|discriminate]. destruct (number t) as [c|] eqn:N; cbn [bind]; [|discriminate]. intros H. injection H as <-. split; [reflexivity|]. exists n. split; [reflexivity|].
      right. split; [reflexivity|]. exists t, c. auto.
    + intros (_ & m & E & [(E' & _)|(_ & t & c & -> & N & ->)]); [exfalso; generalize ds_not_bn; rewrite E', eqb_refl; discriminate|]. rewrite N. cbn [bind]. injection E as <-. reflexivity.
Qed.
(** what is known of an experiment that is set up *)
Lemma ready_facts d : ready d -> In (d_algorithm d) ALGORITHMS /\ In (d_network d) BAYESIAN_NETWORKS /\ network (bif_file (d_root d) (d_network d)) = Ok (d_variables d) /\
  ((d_type d = bn /\ d_samples d = [] /\ d_count d = None /\ d_significance d = None) \/
   (d_type d = ds /\ number (d_samples d) = Ok (match d_count d with Some c => c | None => 0%Z end) /\ d_count d <> None /\ d_significance d = Some (95 # 100))).
Proof.
  intros (a & E). apply setup_iff in E. destruct E as (V & n & N & H). apply validate_iff in V. destruct V as (V1 & V2 & V3).
  destruct H as [(T & H)|(T & t & c & _ & C & H)]; rewrite H; cbn [d_algorithm d_network d_root d_variables d_type d_samples d_count d_significance]; (split; [exact V1|]; split; [exact V3|]; split; [exact N|]).
  - left. auto.
  - right. split; [reflexivity|]. split; [exact C|]. split; [discriminate|reflexivity].
Qed.
(** which arguments are accepted: the form of the sample count does not matter, only that it is a number *)
Theorem C83_accepted : forall root a, (exists d, dsep_setup_of number network root a = Ok d) <->
  In (a_algorithm a) ALGORITHMS /\ In (a_source_type a) SOURCES /\ In (a_source_name a) BAYESIAN_NETWORKS /\
  (exists n, network (bif_file root (a_source_name a)) = Ok n) /\
  (a_source_type a = ds -> exists t c, a_sample_count a = Some t /\ number t = Ok c).
Proof.
  intros root a. split.
  - intros (d & E). apply setup_iff in E. destruct E as (V & n & N & H). apply validate_iff in V. destruct V as (V1 & V2 & V3). split; [exact V1|]. split; [exact V2|]. split; [exact V3|].
    split; [exists n; exact N|]. intros T. destruct H as [(T' & _)|(_ & t & c & H1 & H2 & _)]; [|exists t, c; auto]. exfalso. generalize ds_not_bn. rewrite <- T, T', eqb_refl. discriminate.
  - intros (V1 & V2 & V3 & (n & N) & H). assert (V : validate_arguments a = Ok tt) by (apply validate_iff; auto).
    destruct V2 as [T|[T|[]]]; symmetry in T.
    + eexists. apply setup_iff. split; [exact V|]. exists n. split; [exact N|]. left. split; [exact T|reflexivity].
    + destruct (H T) as (t & c & H1 & H2). eexists. apply setup_iff. split; [exact V|]. exists n. split; [exact N|]. right. split; [exact T|]. exists t, c. split; [exact H1|]. split; [exact H2|reflexivity].
Qed.

(** *** the names *)
(** what distinguishes experiments: source type, network, sample count, algorithm *)
Definition stem (d : dsep_setup) : text :=
  if text_eqb (d_type d) bn then bn ++ [95] ++ d_network d ++ [95] ++ d_algorithm d else ds ++ [95] ++ d_network d ++ [95] ++ d_samples d ++ [95] ++ d_algorithm d.
Lemma stem_ready d : ready d -> create_experiment_run_stem d (d_type d) = Some (stem d) /\
  (forall t, create_algrun_ID d t (d_type d) = Ok (stem d ++ Render_Model.lit "_T" ++ num t)) /\ create_experiment_run_stem d bn = Some (bn ++ [95] ++ d_network d ++ [95] ++ d_algorithm d) /\
  (forall t, create_algrun_ID d t bn = Ok ((bn ++ [95] ++ d_network d ++ [95] ++ d_algorithm d) ++ Render_Model.lit "_T" ++ num t)).
Proof.
  intros R. destruct (ready_facts d R) as (_ & _ & _ & H). unfold create_experiment_run_stem, create_algrun_ID, stem. fold bn ds.
  change (Render_Model.lit "ds_") with (ds ++ [95]). change (Render_Model.lit "bn_") with (bn ++ [95]).
  pose proof (eqb_refl bn) as B1. pose proof bn_not_ds as B2. pose proof (eqb_refl ds) as B3. pose proof ds_not_bn as B4.
  destruct H as [(-> & _)|(-> & _)]; rewrite ?B1, ?B2, ?B3, ?B4; repeat split; intros; rewrite <- ?app_assoc; reflexivity.
Qed.
Lemma no_line (names : list text) : forallb (fun t => negb (existsb (Nat.eqb 95) t)) names = true -> forall t, In t names -> ~ In 95 t.
Proof.
  intros H t Ht F. rewrite forallb_forall in H. specialize (H t Ht). apply negb_true_iff in H.
  assert (G : existsb (Nat.eqb 95) t = true) by (apply existsb_exists; exists 95; split; [exact F|reflexivity]). congruence.
Qed.
Lemma network_line t : In t BAYESIAN_NETWORKS -> ~ In 95 t. Proof. apply no_line. vm_compute. reflexivity. Qed.
Lemma algorithm_line t : In t ALGORITHMS -> ~ In 95 t. Proof. apply no_line. vm_compute. reflexivity. Qed.
Lemma cut_back (c : nat) a b u v : ~ In c u -> ~ In c v -> a ++ c :: u = b ++ c :: v -> a = b /\ u = v.
Proof.
  intros Hu Hv E. apply (f_equal (@rev nat)) in E. rewrite !rev_app_distr in E. cbn [rev] in E. rewrite <- !app_assoc in E. cbn [app] in E.
  apply cut_at in E; [|intros H; apply Hu; apply in_rev; exact H|intros H; apply Hv; apply in_rev; exact H]. destruct E as (E1 & E2).
  apply (f_equal (@rev nat)) in E1, E2. rewrite !rev_involutive in E1, E2. auto.
Qed.
Lemma stem_inj d d' : ready d -> ready d' -> stem d = stem d' -> d_type d = d_type d' /\ d_network d = d_network d' /\ d_samples d = d_samples d' /\ d_algorithm d = d_algorithm d'.
Proof.
  intros R R'. destruct (ready_facts d R) as (A & N & _ & H), (ready_facts d' R') as (A' & N' & _ & H').
  apply algorithm_line in A, A'. apply network_line in N, N'. unfold stem.
  destruct H as [(T & S1 & _)|(T & _)], H' as [(T' & S1' & _)|(T' & _)]; rewrite T, T', ?eqb_refl, ?ds_not_bn.
  - intros E. apply app_inv_head in E. apply app_inv_head in E. apply cut_at in E; [|assumption..]. destruct E as (E1 & E2). rewrite S1, S1'. auto.
  - intros E. exfalso. discriminate E.
  - intros E. exfalso. discriminate E.
  - intros E. apply app_inv_head in E. apply app_inv_head in E. apply cut_at in E; [|assumption..]. destruct E as (E1 & E2). apply cut_back in E2; [|assumption..]. destruct E2 as (E2 & E3). auto.
Qed.
Lemma run_in_iff d r : ready d -> (run_in d r <-> exists t, t < d_variables d /\ dsep_run_of d t = Ok r).
Proof.
  intros R. destruct (stem_ready d R) as (_ & I & _ & _).
  assert (M : forall n k, exists l, mapM (dsep_run_of d) (seq k n) = Ok l /\ forall r, In r l <-> exists t, k <= t < k + n /\ dsep_run_of d t = Ok r).
  { induction n as [|n IH]; intros k; cbn [seq mapM].
    - exists []. split; [reflexivity|]. intros x. split; [intros []|intros (t & H & _); lia].
    - destruct (IH (Datatypes.S k)) as (l & E & H). unfold dsep_run_of at 1. rewrite (I k). cbn [bind]. rewrite E. cbn [bind]. eexists. split; [reflexivity|]. intros x. cbn [In]. rewrite H. split.
      + intros [<- |(t & Ht & Hr)]; [exists k; split; [lia|unfold dsep_run_of; rewrite (I k); reflexivity]|exists t; split; [lia|exact Hr]].
      + intros (t & Ht & Hr). destruct (Nat.eq_dec t k) as [-> |Hn]; [left; unfold dsep_run_of in Hr; rewrite (I k) in Hr; cbn [bind] in Hr; injection Hr as <-; reflexivity|right; exists t; split; [lia|exact Hr]]. }
  destruct (M (d_variables d) 0) as (l & E & H). unfold run_in, dsep_runs. rewrite E. split.
  - intros (l' & E' & Hr). injection E' as <-. apply H in Hr. destruct Hr as (t & Ht & Hr). exists t. split; [lia|exact Hr].
  - intros (t & Ht & Hr). exists l. split; [reflexivity|]. apply H. exists t. split; [lia|exact Hr].
Qed.
Lemma run_eq d t r : ready d -> dsep_run_of d t = Ok r -> u_target r = t /\ u_index r = t /\ u_ID r = Render_Model.lit "run_" ++ stem d ++ Render_Model.lit "_T" ++ num t /\
  forall p, exists pre, dsep_file d r p = child (child (child (child (exprun_repository (d_root d)) (Render_Model.lit "DsepAlgsEval"))
    (Render_Model.lit (match p with CIResults => "ci_test_results" | HeuristicResults => "heuristic_results" | Blanket => "algorithm_run_datapoints" end))) (stem d))
    (pre ++ (stem d ++ Render_Model.lit "_T" ++ num t) ++ Render_Model.lit ".pickle") /\ pre = Render_Model.lit (match p with CIResults => "citr_" | HeuristicResults => "hr_" | Blanket => "run_" end).
Proof.
  intros R. destruct (stem_ready d R) as (St & I & _ & _). unfold dsep_run_of. rewrite (I t). cbn [bind]. intros E. injection E as <-. cbn [u_target u_index u_ID].
  split; [reflexivity|]. split; [reflexivity|]. split; [reflexivity|]. intros p.
  exists (Render_Model.lit (match p with CIResults => "citr_" | HeuristicResults => "hr_" | Blanket => "run_" end)). split; [|reflexivity].
  destruct p; unfold dsep_file, run_datapoint, dsep_subfolder, definition_subfolder; rewrite St; cbn [u_results u_heuristic u_ID]; f_equal; rewrite <- !app_assoc; reflexivity.
Qed.

(** *** the runs *)
(** there is exactly one run per variable, in order; it is tagged by algorithm and network *)
Theorem C83_runs : forall d, ready d -> exists l, dsep_runs d = Ok l /\ length l = d_variables d /\
  (forall i r, nth_error l i = Some r -> u_target r = i /\ u_index r = i /\ u_tags r = [d_algorithm d; d_network d] /\ u_significance r = d_significance d).
Proof.
  intros d R. destruct (stem_ready d R) as (_ & I & _ & _). unfold dsep_runs.
  assert (M : forall n k, exists l, mapM (dsep_run_of d) (seq k n) = Ok l /\ length l = n /\
    (forall i r, nth_error l i = Some r -> u_target r = k + i /\ u_index r = k + i /\ u_tags r = [d_algorithm d; d_network d] /\ u_significance r = d_significance d)).
  { induction n as [|n IH]; intros k; cbn [seq mapM].
    - exists []. split; [reflexivity|]. split; [reflexivity|]. intros [|i] r H; discriminate H.
    - destruct (IH (Datatypes.S k)) as (l & E & L & H). unfold dsep_run_of at 1. rewrite (I k). cbn [bind]. rewrite E. cbn [bind]. eexists. split; [reflexivity|]. split; [cbn [length]; congruence|].
      intros [|i] r Hr; cbn [nth_error] in Hr.
      + injection Hr as <-. cbn [u_target u_index u_tags u_significance]. rewrite Nat.add_0_r. auto.
      + destruct (H i r Hr) as (H1 & H2 & H3 & H4). rewrite <- Nat.add_succ_comm. auto. }
  apply (M (d_variables d) 0).
Qed.
(** a file that two runs write, of one experiment or of two: it is the same run of the same experiment, for the same purpose *)
Theorem C83_own_files : forall d d' r r' p p', ready d -> ready d' -> run_in d r -> run_in d' r' -> dsep_file d r p = dsep_file d' r' p' ->
  p = p' /\ d_root d = d_root d' /\ d_type d = d_type d' /\ d_network d = d_network d' /\ d_samples d = d_samples d' /\ d_algorithm d = d_algorithm d' /\ u_target r = u_target r' /\ r = r'.
Proof.
  intros d d' r r' p p' R R' Hr Hr' E. apply run_in_iff in Hr, Hr'; [|assumption..]. destruct Hr as (t & Ht & Er), Hr' as (t' & Ht' & Er').
  destruct (run_eq d t r R Er) as (T1 & T2 & T3 & F), (run_eq d' t' r' R' Er') as (T1' & T2' & T3' & F').
  destruct (F p) as (pre & G & P), (F' p') as (pre' & G' & P'). rewrite G, G' in E. clear F F' G G'.
  apply child_inj in E. destruct E as (E & N). apply child_inj in E. destruct E as (E & S). apply child_inj in E. destruct E as (E & Fo). apply child_inj in E. destruct E as (E & _).
  unfold exprun_repository in E. apply child_inj in E. destruct E as (Ro & _). destruct (stem_inj d d' R R' S) as (S1 & S2 & S3 & S4).
  assert (Pp : p = p') by (destruct p, p'; try reflexivity; exfalso; revert Fo; apply lit_neq; reflexivity). subst p'.
  assert (Tt : t = t').
  { rewrite P, P', S in N. apply app_inv_head in N. rewrite <- !app_assoc in N. apply app_inv_head in N. apply app_inv_head in N. apply (num_cut 46 t t' (Render_Model.lit "pickle") (Render_Model.lit "pickle") not_digit_46 N). }
  subst t'. split; [reflexivity|]. split; [exact Ro|]. split; [exact S1|]. split; [exact S2|]. split; [exact S3|]. split; [exact S4|]. split; [congruence|].
  assert (D : d = d').
  { destruct (ready_facts d R) as (_ & _ & V & H), (ready_facts d' R') as (_ & _ & V' & H'). destruct d as [ro ty al ne n sa co si], d' as [ro' ty' al' ne' n' sa' co' si'].
    cbn [d_root d_type d_algorithm d_network d_variables d_samples d_count d_significance] in *. subst ro' ty' ne' sa' al'. assert (n = n') by congruence. subst n'.
    destruct H as [(H1 & _ & H2 & H3)|(H1 & H2 & H3 & H4)], H' as [(H1' & _ & H2' & H3')|(H1' & H2' & H3' & H4')]; try (exfalso; generalize ds_not_bn; rewrite <- H1, H1', eqb_refl; discriminate);
      try (exfalso; generalize bn_not_ds; rewrite <- H1, H1', eqb_refl; discriminate).
    - congruence.
    - destruct co as [c|]; [|congruence]. destruct co' as [c'|]; [|congruence]. congruence. }
  subst d'. congruence.
Qed.
(** *** the Markov blankets that the summary compares *)
(** the summary of a 'ds' experiment reads as found blanket the datapoint of the run itself, and as true blanket the datapoint that the run of the same target writes in the 'bn' experiment
    with the same root, network and algorithm, which can be set up; no other run of any experiment writes either *)
Theorem C83_blankets : forall d r, ready d -> run_in d r -> d_type d = ds ->
  found_blanket_file d r = dsep_file d r Blanket /\
  exists b r0, dsep_setup_of number network (d_root d) (DArgs (d_algorithm d) bn (d_network d) None) = Ok b /\ ready b /\ run_in b r0 /\ u_target r0 = u_target r /\
    true_blanket_file d r = Ok (Some (dsep_file b r0 Blanket)) /\
    forall d' r' p', ready d' -> run_in d' r' -> true_blanket_file d r = Ok (Some (dsep_file d' r' p')) ->
      p' = Blanket /\ d_type d' = bn /\ d_network d' = d_network d /\ d_algorithm d' = d_algorithm d /\ u_target r' = u_target r.
Proof.
  intros d r R Hr T. destruct (ready_facts d R) as (A & N & V & _). destruct (stem_ready d R) as (_ & _ & S & I). split; [reflexivity|].
  set (b := DSetup (d_root d) bn (d_algorithm d) (d_network d) (d_variables d) [] None None).
  assert (E : dsep_setup_of number network (d_root d) (DArgs (d_algorithm d) bn (d_network d) None) = Ok b).
  { apply setup_iff. split; [apply validate_iff; cbn [a_algorithm a_source_type a_source_name]; split; [exact A|split; [left; reflexivity|exact N]]|]. exists (d_variables d). split; [exact V|]. left. split; reflexivity. }
  assert (Rb : ready b) by (exists (DArgs (d_algorithm d) bn (d_network d) None); exact E).
  pose proof (proj1 (run_in_iff d r R) Hr) as (t & Ht & Er). destruct (run_eq d t r R Er) as (T1 & _).
  assert (exists r0, dsep_run_of b t = Ok r0) as (r0 & E0). { unfold dsep_run_of. destruct (stem_ready b Rb) as (_ & Ib & _). rewrite (Ib t). eexists. reflexivity. }
  assert (Hb : run_in b r0) by (apply run_in_iff; [exact Rb|]; exists t; split; [exact Ht|exact E0]).
  destruct (run_eq b t r0 Rb E0) as (B1 & _ & B3 & _).
  assert (Tr : true_blanket_file d r = Ok (Some (dsep_file b r0 Blanket))).
  { unfold true_blanket_file. rewrite T. fold ds bn. rewrite eqb_refl, T1, (I t). cbn [bind dsep_file]. f_equal. f_equal. unfold run_datapoint, dsep_subfolder, make_bn_datapoints_path, definition_subfolder.
    fold bn. rewrite S. destruct (stem_ready b Rb) as (Sb & _). rewrite Sb, B3. unfold stem, b. cbn [d_type d_root d_network d_algorithm]. rewrite eqb_refl. rewrite <- ?app_assoc. reflexivity. }
  exists b, r0. split; [exact E|]. split; [exact Rb|]. split; [exact Hb|]. split; [congruence|]. split; [exact Tr|].
  intros d' r' p' R' Hr' F. rewrite Tr in F. injection F as F. destruct (C83_own_files b d' r0 r' Blanket p' Rb R' Hb Hr' F) as (F1 & _ & F2 & F3 & _ & F5 & F6 & _).
  split; [congruence|]. split; [exact (eq_sym F2)|]. split; [exact (eq_sym F3)|]. split; [exact (eq_sym F5)|]. congruence.
Qed.
(** a 'bn' experiment tests on the network and has no dataset; a 'ds' experiment uses the G-test at 0.95 on its dataset; only then there is a true blanket to be read *)
Theorem C83_sources : forall d r, ready d -> run_in d r ->
  (d_type d = bn /\ u_test r = Some DSeparation /\ u_significance r = None /\ define_source d = None /\ true_blanket_file d r = Ok None) \/
  (d_type d = ds /\ u_test r = Some GTest /\ u_significance r = Some (95 # 100) /\
   exists x c, define_source d = Some x /\ number (d_samples d) = Ok c /\ x_count x = c /\ x_network x = bif_file (d_root d) (d_network d)).
Proof.
  intros d r R Hr. destruct (ready_facts d R) as (_ & _ & _ & H). pose proof (proj1 (run_in_iff d r R) Hr) as (t & Ht & Er). unfold dsep_run_of in Er. destruct (stem_ready d R) as (_ & I & _ & _). rewrite (I t) in Er.
  cbn [bind] in Er. injection Er as <-. cbn [u_test u_significance]. unfold get_ci_test_class, define_source, true_blanket_file. fold bn ds.
  destruct H as [(T & _ & C & S)|(T & N & C & S)]; rewrite T, ?eqb_refl, ?bn_not_ds, ?ds_not_bn; [left; auto|right].
  split; [reflexivity|]. split; [reflexivity|]. split; [exact S|]. destruct (d_count d) as [c|]; [|congruence]. eexists. exists c. split; [reflexivity|]. split; [exact N|]. split; reflexivity.
Qed.

(** *** the datasets *)
Lemma some_inj {A} (x y : A) : Some x = Some y -> x = y. Proof. congruence. Qed.
Lemma ok_inj {A} (x y : A) : Ok x = Ok y -> x = y. Proof. congruence. Qed.
(** a dataset's folder determines its network, sample count and seed: for two algorithms, and also for the dcMI experiment with the same repository; different sample counts have different seeds *)
Theorem C83_datasets : forall d d' x x', ready d -> ready d' -> define_source d = Some x -> define_source d' = Some x' ->
  (x_path x = x_path x' <-> d_root d = d_root d' /\ d_network d = d_network d' /\ d_samples d = d_samples d') /\ (x_path x = x_path x' -> x = x') /\ (x_seed x = x_seed x' <-> x_count x = x_count x').
Proof.
  intros d d' x x' R R' E E'. destruct (ready_facts d R) as (_ & N & _ & H), (ready_facts d' R') as (_ & N' & _ & H'). unfold define_source in E, E'. fold ds in E, E'.
  destruct (text_eqb (d_type d) ds) eqn:T; [|discriminate]. destruct (text_eqb (d_type d') ds) eqn:T'; [|discriminate]. apply text_eqb_iff in T, T'.
  destruct (d_count d) as [c|]; [|discriminate]. destruct (d_count d') as [c'|]; [|discriminate]. apply some_inj in E. apply some_inj in E'. subst x x'. cbn [x_path x_seed x_count].
  assert (C : number (d_samples d) = Ok c) by (destruct H as [(_ & _ & F & _)|(_ & F & _)]; [discriminate F|exact F]).
  assert (C' : number (d_samples d') = Ok c') by (destruct H' as [(_ & _ & F & _)|(_ & F & _)]; [discriminate F|exact F]).
  assert (P : child (exds_repository (d_root d)) (Render_Model.lit "synthetic_" ++ d_network d ++ [95] ++ d_samples d) = child (exds_repository (d_root d')) (Render_Model.lit "synthetic_" ++ d_network d' ++ [95] ++ d_samples d') <->
    d_root d = d_root d' /\ d_network d = d_network d' /\ d_samples d = d_samples d').
  { split; [|intros (-> & -> & ->); reflexivity]. intros E. apply child_inj in E. destruct E as (E & F). unfold exds_repository in E. apply child_inj in E. destruct E as (E & _). apply app_inv_head in F.
    apply cut_at in F; [|apply network_line; assumption..]. destruct F as (F1 & F2). auto. }
  split; [exact P|]. split; [|lia]. intros E. pose proof (proj1 P E) as (P1 & P2 & P3). rewrite P3, C' in C. injection C as <-. rewrite E, P1, P2. reflexivity.
Qed.
Theorem C83_datasets_dcmi : forall d x root dataset samples y, ready d -> define_source d = Some x -> In dataset allowed_names -> dcmi_exds_def number root dataset samples = Ok y ->
  (x_path x = x_path y <-> d_root d = root /\ d_network d = dataset /\ d_samples d = samples) /\ (x_path x = x_path y -> x = y) /\
  (forall dataset' samples' y', In dataset' allowed_names -> dcmi_exds_def number root dataset' samples' = Ok y' ->
    (x_path y = x_path y' <-> dataset = dataset' /\ samples = samples') /\ (x_path y = x_path y' -> y = y')).
Proof.
  intros d x root dataset samples y R E Al Ey. destruct (ready_facts d R) as (_ & N & _ & H). unfold define_source in E. fold ds in E. destruct (text_eqb (d_type d) ds) eqn:T; [|discriminate]. apply text_eqb_iff in T.
  destruct (d_count d) as [c|]; [|discriminate]. apply some_inj in E. subst x.
  assert (C : number (d_samples d) = Ok c) by (destruct H as [(_ & _ & F & _)|(_ & F & _)]; [discriminate F|exact F]).
  assert (L : forall t, In t allowed_names -> ~ In 95 t) by (apply no_line; vm_compute; reflexivity).
  unfold dcmi_exds_def, exds_name in Ey. cbn [st_dataset st_samples] in Ey. destruct (number samples) as [c1|] eqn:C1; [|discriminate]. cbn [bind] in Ey. apply ok_inj in Ey. subst y. cbn [x_path].
  assert (P : forall ro n s ro' n' s', ~ In 95 n -> ~ In 95 n' -> child (exds_repository ro) (Render_Model.lit "synthetic_" ++ n ++ [95] ++ s) = child (exds_repository ro') (Render_Model.lit "synthetic_" ++ n' ++ [95] ++ s') <->
    ro = ro' /\ n = n' /\ s = s').
  { intros ro n s ro' n' s' L1 L2. split; [|intros (-> & -> & ->); reflexivity]. intros E. apply child_inj in E. destruct E as (E & F). unfold exds_repository in E. apply child_inj in E. destruct E as (E & _). apply app_inv_head in F.
    apply cut_at in F; [|assumption..]. destruct F as (F1 & F2). auto. }
  split; [apply P; [apply network_line; exact N|apply L; exact Al]|]. split.
  - intros E. pose proof (proj1 (P _ _ _ _ _ _ (network_line _ N) (L _ Al)) E) as (P1 & P2 & P3). rewrite P3, C1 in C. injection C as <-. rewrite E, P1, P2. reflexivity.
  - intros dataset' samples' y' Al' Ey'. unfold dcmi_exds_def, exds_name in Ey'. cbn [st_dataset st_samples] in Ey'. destruct (number samples') as [c2|] eqn:C2; [|discriminate]. cbn [bind] in Ey'. apply ok_inj in Ey'. subst y'. cbn [x_path]. split.
    + rewrite (P _ _ _ _ _ _ (L _ Al) (L _ Al')). tauto.
    + intros E. pose proof (proj1 (P _ _ _ _ _ _ (L _ Al) (L _ Al')) E) as (_ & P2 & P3). rewrite P3, C2 in C1. injection C1 as <-. rewrite E, P2. reflexivity.
Qed.
End Setups.

(** a number parser, a network with 3 variables, a 'ds' experiment with a sample count that the unused check refuses: its runs, and the files of the blankets of target 2 *)
Example C83_example :
  let number := fun t => if text_eqb t (Render_Model.lit "5_00") then Ok 500%Z else Err ValueError in
  let network := fun _ : ppath => Ok 3 in
  let root := PP true [Render_Model.lit "x"] in
  let a := DArgs (Render_Model.lit "iamb") (Render_Model.lit "ds") (Render_Model.lit "child") (Some (Render_Model.lit "5_00")) in
  let d := DSetup root (Render_Model.lit "ds") (Render_Model.lit "iamb") (Render_Model.lit "child") 3 (Render_Model.lit "5_00") (Some 500%Z) (Some (95 # 100)) in
  dsep_setup_of number network root a = Ok d /\ ready number network d /\ validate_sample_count_string (Render_Model.lit "5_00") = Err ValueError /\
  exists r, run_in d r /\ u_target r = 2 /\ u_ID r = Render_Model.lit "run_ds_child_5_00_iamb_T2" /\
    found_blanket_file d r = PP true (map Render_Model.lit ["x"; "exprun_repository"; "DsepAlgsEval"; "algorithm_run_datapoints"; "ds_child_5_00_iamb"; "run_ds_child_5_00_iamb_T2.pickle"]%string) /\
    true_blanket_file d r = Ok (Some (PP true (map Render_Model.lit ["x"; "exprun_repository"; "DsepAlgsEval"; "algorithm_run_datapoints"; "bn_child_iamb"; "run_bn_child_iamb_T2.pickle"]%string))) /\
    option_map x_path (define_source d) = Some (PP true (map Render_Model.lit ["x"; "exds_repository"; "synthetic_child_5_00"]%string)).
Proof.
  cbv zeta. split; [vm_compute; reflexivity|]. split; [exists (DArgs (Render_Model.lit "iamb") (Render_Model.lit "ds") (Render_Model.lit "child") (Some (Render_Model.lit "5_00"))); vm_compute; reflexivity|].
  split; [vm_compute; reflexivity|]. eexists. split; [eexists; split; [vm_compute; reflexivity|right; right; left; reflexivity]|]. repeat (split; [vm_compute; reflexivity|]). vm_compute. reflexivity.
Qed.

Print Assumptions C83_accepted.
Print Assumptions C83_own_files.
Print Assumptions C83_blankets.
Print Assumptions C83_datasets_dcmi.
