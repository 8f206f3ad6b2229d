(** C48, C51: what the dataset sources produce, and when they reproduce it. *)
From Coq Require Import String Ascii DecimalString QArith Qround Reals Lra.
From Verif Require Import Base Matrix_Model Matrix_Spec BN_Model BN_Spec BN_Sampling_Spec BN_Final_Proofs BN_Joint_Proofs BN_Table_Proofs BN_Properties Sources_Model Sources_Proofs.
Open Scope nat_scope.

(** ** C48: the binary synthetic source *)
(** the matrix [m] has [n] rows and, for the labels in alphabetical order, one 0/1 column each, with
    as many ones as [ones] says *)
Definition declared (n : nat) (ones : Q -> nat) (probs : list (text * Q)) (labels : list text) (m : smat) : Prop :=
  StronglySorted before labels /\ Permutation labels (map fst probs) /\ rectangular m n (length labels) /\
  forall j l p, nth_error labels j = Some l -> In (l, p) probs ->
    (forall r, r < n -> entry m r j = 0%Z \/ entry m r j = 1%Z) /\
    length (filter (fun r => Z.eqb (entry m r j) 1) (seq 0 n)) = ones p.

Lemma count_ones m n j : length (sm_rows m) = n -> length (filter (fun r => Z.eqb (entry m r j) 1) (seq 0 n)) = count_occ Z.eq_dec (column m j) 1%Z.
Proof.
  intros <-. unfold entry, column. generalize (sm_rows m). intros rows. 
  replace (map (fun row => nth j row 0%Z) rows) with (map (fun r => nth j (nth r rows []) 0%Z) (seq 0 (length rows)))
    by (rewrite <- (map_map (fun r => nth r rows []) (fun row => nth j row 0%Z)), map_nth_seq; reflexivity).
  generalize (seq 0 (length rows)). intros l. induction l as [|r l IH]; cbn [map filter count_occ]; [reflexivity|].
  destruct (Z.eq_dec (nth j (nth r rows []) 0%Z) 1) as [-> |N]; [rewrite Z.eqb_refl; cbn [length]; f_equal; exact IH|].
  apply Z.eqb_neq in N. rewrite N. exact IH.
Qed.
Lemma In_fst_unique (probs : list (text * Q)) l p q : NoDup (map fst probs) -> In (l, p) probs -> In (l, q) probs -> p = q.
Proof.
  induction probs as [|[k x] ps IH]; intros HN H1 H2; [destruct H1|]. cbn in HN. inversion HN as [|? ? N HN']; subst.
  destruct H1 as [H1|H1], H2 as [H2|H2].
  - congruence.
  - injection H1 as -> ->. apply (in_map fst) in H2. contradiction.
  - injection H2 as -> ->. apply (in_map fst) in H1. contradiction.
  - auto.
Qed.
Lemma matrix_declared {rng} shuffle product (Hs : forall (g : rng) l, Permutation l (fst (shuffle g l))) n probs g : probs <> [] -> NoDup (map fst probs) ->
  (forall l p, In (l, p) probs -> (0 <= product n p <= inject_Z n)%Q) ->
  exists m labels g', create_random_binary_matrix shuffle product n probs g = (Ok (m, labels), g') /\
    declared (Z.to_nat n) (fun p => Z.to_nat (int_of (product n p))) probs labels m.
Proof.
  intros Hne HN Hp. destruct (create_matrix_ok shuffle product Hs n probs g Hne) as (m & g' & E & HR & HC).
  { intros l p Hin. apply int_of_le. apply (Hp l p Hin). }
  exists m, (sort_text (map fst probs)), g'. split; [exact E|]. pose proof (sort_text_perm (map fst probs)) as HP.
  split; [apply sort_text_sorted; exact HN|]. split; [apply Permutation_sym; exact HP|].
  split; [rewrite <- (Permutation_length HP), map_length; exact HR|].
  intros j l p Hj Hin. destruct (HC j l Hj) as (q & Hq & Hlen & Hb & Hc). rewrite (In_fst_unique probs l p q HN Hin Hq).
  destruct HR as (Hrows & _ & _). split; [|rewrite count_ones by exact Hrows; exact Hc].
  intros r Hr. rewrite <- column_entry by lia. apply Hb. apply nth_In. lia.
Qed.

(** the code points of a text, and the label of row i: the word row and i in decimal *)
Definition code_points (s : string) : text := map nat_of_ascii (list_ascii_of_string s).
Definition numbered (i : nat) : text := code_points (String.append "row" (NilEmpty.string_of_uint (Nat.to_uint i))).
Lemma numbered_ok i : row_label i = numbered i.
Proof.
  unfold row_label, numbered. assert (G : forall u, digits u = code_points (NilEmpty.string_of_uint u)) by (induction u as [|u IH|u IH|u IH|u IH|u IH|u IH|u IH|u IH|u IH|u IH]; cbn [digits NilEmpty.string_of_uint]; [reflexivity|..]; rewrite IH; reflexivity).
  rewrite G. reflexivity.
Qed.
Lemma row_labels_numbered n : row_labels n = map numbered (seq 0 (Z.to_nat n)).
Proof. unfold row_labels. apply map_ext. exact numbered_ok. Qed.
(** For any generator whose shuffle permutes, any state of the source and any seed: the dataset is
    created, X and Y have exactly the declared content, and the row labels are distinct. *)
Theorem C48_binary_content : forall (rng : Type) (seed : Z -> rng) (shuffle : rng -> list Z -> list Z * rng) (product : Z -> Q -> Q),
  (forall g l, Permutation l (fst (shuffle g l))) ->
  forall s label other g, let c := bs_conf s in
  bc_features c <> [] -> bc_objectives c <> [] -> NoDup (map fst (bc_features c)) -> NoDup (map fst (bc_objectives c)) ->
  (forall l p, In (l, p) (bc_features c ++ bc_objectives c) -> (0 <= product (bc_rows c) p <= inject_Z (bc_rows c))%Q) ->
  exists d s' g', bsource_create seed shuffle product s label other g = (Ok d, s', g') /\
    declared (Z.to_nat (bc_rows c)) (fun p => Z.to_nat (int_of (product (bc_rows c) p))) (bc_features c) (dm_labels_X d) (dm_X d) /\
    declared (Z.to_nat (bc_rows c)) (fun p => Z.to_nat (int_of (product (bc_rows c) p))) (bc_objectives c) (dm_labels_Y d) (dm_Y d) /\
    length (dm_row_labels d) = Z.to_nat (bc_rows c) /\ dm_row_labels d = map numbered (seq 0 (Z.to_nat (bc_rows c))) /\ NoDup (dm_row_labels d) /\ aligned d /\ dm_final d = false /\ dm_label d = label.
Proof.
  intros rng seed shuffle product Hs s label other g c Hf Ho HNf HNo Hp. unfold bsource_create. fold c. cbv zeta. match goal with |- context [create_random_binary_matrix shuffle product (bc_rows c) (bc_features c) ?x] => generalize x; intros g0 end.
  destruct (matrix_declared shuffle product Hs (bc_rows c) (bc_features c) g0 Hf HNf) as (X & lx & g1 & EX & HX); [intros l p H; apply (Hp l p), in_or_app; left; exact H|].
  destruct (matrix_declared shuffle product Hs (bc_rows c) (bc_objectives c) g1 Ho HNo) as (Y & ly & g2 & EY & HY); [intros l p H; apply (Hp l p), in_or_app; right; exact H|].
  rewrite EX, EY. cbn [bind fst snd]. eexists _, _, _. split; [reflexivity|]. cbn [dm_X dm_Y dm_labels_X dm_labels_Y dm_row_labels dm_final dm_label].
  split; [exact HX|]. split; [exact HY|]. split; [apply row_labels_length|]. split; [apply row_labels_numbered|]. split; [apply row_labels_NoDup|]. split; [|split; reflexivity].
  unfold aligned. cbn [dm_X dm_Y dm_labels_X dm_labels_Y dm_row_labels]. rewrite row_labels_length. split; [apply HX|apply HY].
Qed.
Print Assumptions C48_binary_content.

(** With an exact product and proportions in [0, 1], the number of ones is the floor of rows * p. *)
Theorem C48_binary_exact_product : forall (rng : Type) (seed : Z -> rng) (shuffle : rng -> list Z -> list Z * rng),
  (forall g l, Permutation l (fst (shuffle g l))) ->
  forall s label other g, let c := bs_conf s in
  (0 <= bc_rows c)%Z -> bc_features c <> [] -> bc_objectives c <> [] -> NoDup (map fst (bc_features c)) -> NoDup (map fst (bc_objectives c)) ->
  (forall l p, In (l, p) (bc_features c ++ bc_objectives c) -> (0 <= p <= 1)%Q) ->
  exists d s' g', bsource_create seed shuffle (fun n p => inject_Z n * p)%Q s label other g = (Ok d, s', g') /\
    declared (Z.to_nat (bc_rows c)) (fun p => Z.to_nat (Qfloor (inject_Z (bc_rows c) * p))) (bc_features c) (dm_labels_X d) (dm_X d) /\
    declared (Z.to_nat (bc_rows c)) (fun p => Z.to_nat (Qfloor (inject_Z (bc_rows c) * p))) (bc_objectives c) (dm_labels_Y d) (dm_Y d).
Proof.
  intros rng seed shuffle Hs s label other g c Hn Hf Ho HNf HNo Hp.
  assert (Hb : forall l p, In (l, p) (bc_features c ++ bc_objectives c) -> (0 <= inject_Z (bc_rows c) * p <= inject_Z (bc_rows c))%Q).
  { intros l p Hin. destruct (Hp l p Hin) as [H0 H1]. assert (Hz : (0 <= inject_Z (bc_rows c))%Q) by (change 0%Q with (inject_Z 0); rewrite <- Zle_Qle; exact Hn).
    split; [apply Qmult_le_0_compat; assumption|]. rewrite <- (Qmult_1_r (inject_Z (bc_rows c))) at 2. rewrite !(Qmult_comm (inject_Z (bc_rows c))). apply Qmult_le_compat_r; assumption. }
  destruct (C48_binary_content rng seed shuffle (fun n p => inject_Z n * p)%Q Hs s label other g Hf Ho HNf HNo Hb) as (d & s' & g' & E & HX & HY & _).
  exists d, s', g'. split; [exact E|].
  assert (Ef : forall l p, In (l, p) (bc_features c ++ bc_objectives c) -> int_of (inject_Z (bc_rows c) * p) = Qfloor (inject_Z (bc_rows c) * p)).
  { intros l p Hin. destruct (Hb l p Hin) as [H _]. destruct (inject_Z (bc_rows c) * p)%Q as [a b]. unfold int_of, Qfloor. cbn [Qnum Qden]. apply Z.quot_div_nonneg; [|lia].
    unfold Qle in H. cbn [Qnum Qden] in H. lia. }
  split; [destruct HX as (H1 & H2 & H3 & H4)|destruct HY as (H1 & H2 & H3 & H4)]; (split; [exact H1|]; split; [exact H2|]; split; [exact H3|]; intros j l p Hj Hin; fold c in H4; rewrite <- (Ef l p) by (apply in_or_app; auto); apply (H4 j l p Hj Hin)).
Qed.

(** Without features or without objectives nothing is created. *)
Theorem C48_binary_needs_columns : forall (rng : Type) (seed : Z -> rng) (shuffle : rng -> list Z -> list Z * rng) product s label other g,
  bc_features (bs_conf s) = [] -> fst (fst (bsource_create seed shuffle product s label other g)) = Err ValueError.
Proof. intros rng seed shuffle product s label other g H. unfold bsource_create. rewrite H. reflexivity. Qed.

(** The example: two features, one objective, 5 rows, a shuffle that rotates once more each time *)
Definition rotate (g : nat) (l : list Z) : list Z * nat := (skipn g l ++ firstn g l, S g).
Lemma rotate_perm g l : Permutation l (fst (rotate g l)).
Proof. cbn [rotate fst]. rewrite <- (firstn_skipn g l) at 1. apply Permutation_app_comm. Qed.
Definition conf1 : bconf := {| bc_rows := 5; bc_seed := 3; bc_features := [([98], (1#2)%Q); ([97], (3#5)%Q)]; bc_objectives := [([99], (2#5)%Q)] |}.
Definition exactly (n : Z) (p : Q) : Q := (inject_Z n * p)%Q.
Example C48_binary_nonvacuous :
  (bc_features conf1 <> [] /\ bc_objectives conf1 <> [] /\ NoDup (map fst (bc_features conf1)) /\ NoDup (map fst (bc_objectives conf1)) /\
  (forall l p, In (l, p) (bc_features conf1 ++ bc_objectives conf1) -> (0 <= p <= 1)%Q)) /\
  match bsource_create (fun _ => 0) rotate exactly (new_bsource conf1) "d" (-1) 7 with
  | (Ok d, _, _) => dm_labels_X d = [[97]; [98]] /\ sm_rows (dm_X d) = [[1; 1]; [1; 0]; [1; 0]; [0; 0]; [0; 1]]%Z /\ sm_rows (dm_Y d) = [[0]; [0]; [0]; [1]; [1]]%Z
  | _ => False
  end.
Proof.
  split; [|vm_compute; repeat split; reflexivity]. repeat split; try discriminate.
  - repeat constructor; cbn; intuition congruence.
  - repeat constructor; cbn; intuition congruence.
  - destruct H as [H|[H|[H|[]]]]; injection H as _ <-; unfold Qle; cbn; lia.
  - destruct H as [H|[H|[H|[]]]]; injection H as _ <-; unfold Qle; cbn; lia.
Qed.
(** A proportion above 1 is not refused: the matrix gets more rows than row labels. *)
Theorem C48_binary_proportion_above_one_refuted : exists c d s g, bsource_create (fun _ => 0) rotate exactly (new_bsource c) "d" (-1) 7 = (Ok d, s, g) /\
  length (sm_rows (dm_X d)) <> length (dm_row_labels d).
Proof.
  exists {| bc_rows := 2; bc_seed := 0; bc_features := [([97], 2%Q)]; bc_objectives := [([98], 2%Q)] |}. eexists _, _, _. split; [reflexivity|]. cbn. discriminate.
Qed.

(** ** C48: the sampled network source *)
Lemma variable_index ns b v : final ns b -> In v (names ns) -> exists i, variable_nodes_index b v = Ok i /\ i < length (names ns) /\ forall t, length t = length (names ns) -> nth_error t i = Some (assignment ns t v).
Proof.
  intros Hb Hv. unfold variable_nodes_index. rewrite (b_names ns b Hb). destruct (index_nat_In v (names ns) Hv) as (i & Ei). rewrite Ei. exists i. split; [reflexivity|].
  pose proof (index_nat_nth _ _ _ Ei) as Hn. split; [apply nth_error_Some; congruence|]. unfold assignment. clear Hb Hv Hn. revert i Ei. generalize (names ns). intros l.
  induction l as [|y l IH]; intros i Ei t Ht; cbn [index_nat] in Ei; [discriminate|]. destruct t as [|x t]; [discriminate|]. cbn [entry_of]. destruct (Nat.eqb v y); [injection Ei as <-; reflexivity|].
  destruct (index_nat v l) as [k|]; [|discriminate]. injection Ei as <-. cbn [nth_error]. apply IH; [reflexivity|]. cbn in Ht. lia.
Qed.
Lemma collect_ok ns b rows vs : final ns b -> rows <> [] -> (forall t, In t rows -> length t = length (names ns)) -> (forall v, In v vs -> In v (names ns)) ->
  collect_columns b rows (length rows) vs = Ok (map (fun v => map (fun t => Z.of_nat (assignment ns t v)) rows) vs).
Proof.
  intros Hb Hne Ht Hv. apply mapM_ok. intros v Hin. destruct (variable_index ns b v Hb (Hv v Hin)) as (i & Ei & _ & Hi). rewrite Ei. cbn [bind].
  assert (E : instances_column rows i = Ok (map (fun t => Z.of_nat (assignment ns t v)) rows)).
  { unfold instances_column. destruct rows as [|t0 rows']; [congruence|]. apply mapM_ok. intros t Hin'. rewrite (Hi t (Ht t Hin')). reflexivity. }
  rewrite E. cbn [bind]. rewrite map_length, Nat.eqb_refl. reflexivity.
Qed.
Lemma entry_collect (rows : list (list nat)) (f : list nat -> nat -> nat) vs r j : r < length rows -> j < length vs ->
  entry (SMat CSR (length (map (fun v => map (fun t => Z.of_nat (f t v)) rows) vs)) (rows_of_columns (length rows) (map (fun v => map (fun t => Z.of_nat (f t v)) rows) vs))) r j
  = Z.of_nat (f (nth r rows []) (nth j vs 0)).
Proof.
  intros Hr Hj. rewrite <- column_entry by (cbn [sm_rows]; unfold rows_of_columns; rewrite map_length, seq_length; exact Hr).
  rewrite (column_of_columns CSR (length rows) _ j (map (fun t => Z.of_nat (f t (nth j vs 0))) rows)).
  - rewrite (nth_indep _ 0%Z ((fun t => Z.of_nat (f t (nth j vs 0))) [])) by (rewrite map_length; exact Hr). apply (map_nth (fun t => Z.of_nat (f t (nth j vs 0)))).
  - apply (map_nth_error (fun v => map (fun t => Z.of_nat (f t v)) rows) j vs). apply nth_error_nth'. exact Hj.
  - apply map_length.
Qed.

(** [d] holds the samples [rows] of the network, the objectives in Y, all other variables in X:
    the entry of sample r for a variable is the index of the value that the sample gives it *)
Definition sampled_content (ns : list node) (show : nat -> text) (objectives : list nat) (rows : list (list nat)) (d : dmatrix) : Prop :=
  exists fs os, StronglySorted lt fs /\ StronglySorted le os /\ Permutation os objectives /\
    (forall v, In v fs <-> In v (map nname ns) /\ ~ In v objectives) /\
    dm_labels_X d = map show fs /\ dm_labels_Y d = map show os /\
    length (dm_row_labels d) = length rows /\ dm_row_labels d = map numbered (seq 0 (length rows)) /\ NoDup (dm_row_labels d) /\ aligned d /\
    (forall r j, r < length rows -> j < length fs -> entry (dm_X d) r j = Z.of_nat (assignment ns (nth r rows []) (nth j fs 0))) /\
    (forall r j, r < length rows -> j < length os -> entry (dm_Y d) r j = Z.of_nat (assignment ns (nth r rows []) (nth j os 0))).

Lemma content_ok ns b show label objectives rows k : final ns b -> rows <> [] -> length rows = Z.to_nat k -> (forall t, In t rows -> length t = length (names ns)) -> (forall v, In v objectives -> In v (map nname ns)) ->
  exists d, (let objective_names := sort_nat objectives in
     let feature_names := sort_nat (nodup Nat.eq_dec (filter (fun v => negb (mem v objective_names)) (variable_node_names b))) in
     X <- collect_columns b rows (Z.to_nat k) feature_names ;;
     Y <- collect_columns b rows (Z.to_nat k) objective_names ;;
     Ok (DMat label (SMat CSR (length X) (rows_of_columns (Z.to_nat k) X)) (SMat CSR (length Y) (rows_of_columns (Z.to_nat k) Y))
              (row_labels k) (map show feature_names) (map show objective_names) false)) = Ok d /\
    sampled_content ns show objectives rows d /\ dm_final d = false /\ dm_label d = label.
Proof.
  intros Hb Hne Hk Ht Ho. cbv zeta. rewrite (b_names ns b Hb). set (os := sort_nat objectives). set (fs := sort_nat _).
  assert (Hfs : forall v, In v fs <-> In v (map nname ns) /\ ~ In v objectives).
  { intros v. unfold fs. rewrite sort_in, nodup_In, filter_In, negb_true_iff, mem_false. unfold os, names. rewrite !sort_in. reflexivity. }
  assert (Hos : forall v, In v os -> In v (names ns)) by (intros v H; apply sort_in; apply Ho; apply sort_in; exact H).
  assert (Hfn : forall v, In v fs -> In v (names ns)) by (intros v H; apply sort_in; apply Hfs; exact H).
  rewrite <- Hk. rewrite (collect_ok ns b rows fs Hb Hne Ht Hfn), (collect_ok ns b rows os Hb Hne Ht Hos). cbn [bind]. eexists. split; [reflexivity|].
  split; [|split; reflexivity]. exists fs, os. split; [apply sort_strict, NoDup_nodup|]. split; [apply sort_sorted|]. split; [apply Permutation_sym, sort_perm|]. split; [exact Hfs|].
  cbn [dm_X dm_Y dm_labels_X dm_labels_Y dm_row_labels]. split; [reflexivity|]. split; [reflexivity|]. split; [rewrite row_labels_length, Hk; reflexivity|]. split; [rewrite Hk; apply row_labels_numbered|].
  split; [apply row_labels_NoDup|]. split.
  - unfold aligned. cbn [dm_X dm_Y dm_labels_X dm_labels_Y dm_row_labels]. rewrite row_labels_length, <- Hk, !map_length.
    rewrite <- (map_length (fun v => map (fun t => Z.of_nat (assignment ns t v)) rows) fs) at 2. rewrite <- (map_length (fun v => map (fun t => Z.of_nat (assignment ns t v)) rows) os) at 2.
    split; [rewrite <- (map_length (fun v => map (fun t => Z.of_nat (assignment ns t v)) rows) fs)|rewrite <- (map_length (fun v => map (fun t => Z.of_nat (assignment ns t v)) rows) os)]; apply rectangular_of_columns.
  - split; intros r j Hr Hj; apply entry_collect; assumption.
Qed.

(** Which rolls a source draws from: those that follow random.seed(k), k being the seed given with the
    call or the configured one, when the source is new or a seed other than its own is given;
    otherwise it goes on with the rolls of the generator as it is. *)
Inductive draws_from (seed : Z -> list R) (configured : Z) (is_new : bool) (other : Z) (rolls : list R) : list R -> Prop :=
| Given_seed : (other <> -1)%Z -> is_new = true \/ other <> configured -> draws_from seed configured is_new other rolls (seed other)
| Configured_seed : other = (-1)%Z -> is_new = true -> draws_from seed configured is_new other rolls (seed configured)
| Continue : is_new = false -> (other = -1)%Z \/ other = configured -> draws_from seed configured is_new other rolls rolls.

(** Random sampling: any source, on a network with distinct names and known parents and complete
    stochastic tables, with known objectives. *)
Theorem C48_sampled_random : forall ns b, fresh_network ns -> stochastic ns -> ns <> [] -> (exists fuel, finalize fuel (new_bn ns) = Ok b) ->
  forall seed exact show c is_new label other rolls used, sc_method c = Random -> (0 < sc_count c)%Z -> (forall v, In v (sc_objectives c) -> In v (map nname ns)) ->
  draws_from seed (sc_seed c) is_new other rolls used ->
  Z.to_nat (sc_count c) * length ns <= length used -> (forall r, In r used -> (r <= 1)%R) ->
  exists d rows, ssource_create seed exact show {| ss_conf := c; ss_bn := b; ss_reset := is_new |} label other rolls
      = (Ok (d, skipn (Z.to_nat (sc_count c) * length ns) used), {| ss_conf := c; ss_bn := b; ss_reset := false |}) /\
    length rows = Z.to_nat (sc_count c) /\ sampled_content ns show (sc_objectives c) rows d /\ dm_final d = false /\ dm_label d = label /\
    forall r, r < length rows -> In (nth r rows []) (tuples ns) /\
      rolls_select ns (order_nodes b) (firstn (length ns) (skipn (r * length ns) used)) (assignment ns (nth r rows [])).
Proof.
  intros ns b Hf Hst Hne Hfin seed exact show c is_new label other rolls used Hm Hc Ho Hdraw Hlen Hr.
  destruct (C21_sample_matrix ns b Hf Hst Hne Hfin (Z.to_nat (sc_count c)) used Hlen Hr) as (rows & E & Hrows & Hsel).
  pose proof (fresh_IDs ns Hf) as HI. pose proof Hf as (Hwf & Ht & Hun). destruct Hfin as (fuel0 & Efin). destruct (finalize_final ns Hwf Ht HI fuel0 b Efin) as (Hb & Hac).
  assert (Hne' : rows <> []) by (intros ->; cbn in Hrows; lia).
  assert (Htl : forall t, In t rows -> length t = length (names ns)).
  { intros t Hin. apply (In_nth _ _ []) in Hin as (j & Hj & <-). destruct (Hsel j ltac:(lia)) as [Hin _]. apply (tuple_length ns _ Hin). }
  destruct (content_ok ns b show label (sc_objectives c) rows (sc_count c) Hb Hne' Hrows Htl Ho) as (d & Ed & Hd & Hfd & Hlb).
  assert (Hci : create_random_instances seed {| ss_conf := c; ss_bn := b; ss_reset := is_new |} other rolls
                = (Ok (rows, skipn (Z.to_nat (sc_count c) * length ns) used), {| ss_conf := c; ss_bn := b; ss_reset := false |})).
  { unfold create_random_instances. cbn [ss_conf ss_bn ss_reset]. unfold guarded. rewrite (fin_final ns b Hb). rewrite <- E. destruct Hdraw as [H1 H2|H1 H2|H1 H2].
    - apply Z.eqb_neq in H1 as H1'. rewrite H1'. assert (Eq : is_new || (negb false && negb (other =? sc_seed c)%Z) = true).
      { destruct H2 as [-> |H2]; [reflexivity|]. apply Z.eqb_neq in H2. rewrite H2. apply orb_true_r. }
      rewrite Eq. reflexivity.
    - rewrite H1, H2. reflexivity.
    - rewrite H1. cbn [orb]. destruct H2 as [H2|H2]; rewrite H2; [reflexivity|]. rewrite Z.eqb_refl. rewrite andb_false_r. reflexivity. }
  exists d, rows. split; [|split; [exact Hrows|]; split; [exact Hd|]; split; [exact Hfd|]; split; [exact Hlb|]; intros r Hlt; apply Hsel; lia].
  unfold ssource_create. rewrite Hci. cbn [ss_conf ss_bn ss_reset]. rewrite Hm. cbn [bind]. assert (Hneg : (sc_count c <? 0)%Z = false) by (apply Z.ltb_ge; lia). rewrite Hneg.
  f_equal. revert Ed. cbv zeta. destruct (collect_columns b rows _ _) as [X|e]; cbn [bind]; [|discriminate]. destruct (collect_columns b rows _ _) as [Y|e]; cbn [bind]; [|discriminate].
  intros Ed. injection Ed as <-. reflexivity.
Qed.
Print Assumptions C48_sampled_random.

(** Exact instances: the same content if there are as many instances as sample_count says; a
    different number of instances is refused (C11 says when the number differs). *)
Theorem C48_sampled_exact : forall ns b, fresh_network ns -> ns <> [] -> (exists fuel, finalize fuel (new_bn ns) = Ok b) ->
  forall seed exact show c label other rolls rows, sc_method c = Exact -> exact = Ok rows -> rows <> [] -> (forall t, In t rows -> In t (tuples ns)) ->
  (forall v, In v (sc_objectives c) -> In v (map nname ns)) -> (0 <= sc_count c)%Z ->
  (length rows = Z.to_nat (sc_count c) ->
   exists d, ssource_create seed exact show (new_ssource c b) label other rolls = (Ok (d, rolls), new_ssource c b) /\ sampled_content ns show (sc_objectives c) rows d /\ dm_final d = false) /\
  (length rows <> Z.to_nat (sc_count c) -> ssource_create seed exact show (new_ssource c b) label other rolls = (Err ValueError, new_ssource c b)).
Proof.
  intros ns b Hf Hne Hfin seed exact show c label other rolls rows Hm -> Hne' Hin Ho Hc.
  pose proof (fresh_IDs ns Hf) as HI. pose proof Hf as (Hwf & Ht & Hun). destruct Hfin as (fuel0 & Efin). destruct (finalize_final ns Hwf Ht HI fuel0 b Efin) as (Hb & Hac).
  assert (Htl : forall t, In t rows -> length t = length (names ns)) by (intros t H; apply (tuple_length ns t (Hin t H))).
  unfold ssource_create. cbn [new_ssource ss_conf ss_bn ss_reset]. rewrite Hm. cbn [bind]. assert (Hneg : (sc_count c <? 0)%Z = false) by (apply Z.ltb_ge; lia). rewrite Hneg. split; intros Hl.
  - destruct (content_ok ns b show label (sc_objectives c) rows (sc_count c) Hb Hne' Hl Htl Ho) as (d & Ed & Hd & Hfd & _). exists d. split; [|split; assumption].
    f_equal. revert Ed. cbv zeta. destruct (collect_columns b rows _ _) as [X|e]; cbn [bind]; [|discriminate]. destruct (collect_columns b rows _ _) as [Y|e]; cbn [bind]; [|discriminate].
    intros Ed. injection Ed as <-. reflexivity.
  - assert (Hcol : forall vs v vs', vs = v :: vs' -> In v (names ns) -> collect_columns b rows (Z.to_nat (sc_count c)) vs = Err ValueError).
    { intros vs v vs' -> Hv. unfold collect_columns. cbn [mapM]. destruct (variable_index ns b v Hb Hv) as (i & Ei & _ & Hi). rewrite Ei. cbn [bind].
      assert (E : instances_column rows i = Ok (map (fun t => Z.of_nat (assignment ns t v)) rows)).
      { unfold instances_column. destruct rows as [|t0 rows']; [congruence|]. apply mapM_ok. intros t Hin'. rewrite (Hi t (Htl t Hin')). reflexivity. }
      rewrite E. cbn [bind]. rewrite map_length. apply Nat.eqb_neq in Hl. rewrite Hl. reflexivity. }
    f_equal. rewrite (b_names ns b Hb). set (os := sort_nat (sc_objectives c)). set (fs := sort_nat _).
    assert (Hos : forall v, In v os -> In v (names ns)) by (intros v H; apply sort_in; apply Ho; apply sort_in; exact H).
    assert (Hfs : forall v, In v fs <-> In v (names ns) /\ ~ In v os).
    { intros v. unfold fs. rewrite sort_in, nodup_In, filter_In, negb_true_iff, mem_false. reflexivity. }
    destruct fs as [|f fs'] eqn:Ef; [|rewrite (Hcol _ f fs' eq_refl) by (apply Hfs; left; reflexivity); reflexivity].
    destruct os as [|o os'] eqn:Eo; [|change (collect_columns b rows (Z.to_nat (sc_count c)) []) with (Ok (@nil (list Z))); cbn [bind]; rewrite (Hcol _ o os' eq_refl) by (apply Hos; left; reflexivity); reflexivity].
    exfalso. destruct ns as [|n ns']; [congruence|]. apply (proj2 (Hfs (nname n))). split; [apply sort_in; left; reflexivity|intros []].
Qed.

(** An unknown objective is refused, an unknown method fails. *)
Theorem C48_sampled_unknown_objective : forall ns b, fresh_network ns -> ns <> [] -> (exists fuel, finalize fuel (new_bn ns) = Ok b) ->
  forall seed exact show c label other rolls rows v, sc_method c = Exact -> exact = Ok rows -> rows <> [] -> (forall t, In t rows -> In t (tuples ns)) ->
  In v (sc_objectives c) -> ~ In v (map nname ns) -> (0 <= sc_count c)%Z ->
  exists s', ssource_create seed exact show (new_ssource c b) label other rolls = (Err ValueError, s').
Proof.
  intros ns b Hf Hne Hfin seed exact show c label other rolls rows v Hm -> Hne' Hin Hv Hnv Hc.
  pose proof (fresh_IDs ns Hf) as HI. pose proof Hf as (Hwf & Ht & Hun). destruct Hfin as (fuel0 & Efin). destruct (finalize_final ns Hwf Ht HI fuel0 b Efin) as (Hb & Hac).
  assert (Htl : forall t, In t rows -> length t = length (names ns)) by (intros t H; apply (tuple_length ns t (Hin t H))).
  unfold ssource_create. cbn [new_ssource ss_conf ss_bn ss_reset]. rewrite Hm. cbn [bind]. assert (Hneg : (sc_count c <? 0)%Z = false) by (apply Z.ltb_ge; lia). rewrite Hneg.
  eexists. f_equal. rewrite (b_names ns b Hb). set (os := sort_nat (sc_objectives c)). set (fs := sort_nat _).
  assert (Hcol : forall vs, (exists X, collect_columns b rows (Z.to_nat (sc_count c)) vs = Ok X /\ (forall w, In w vs -> In w (names ns))) \/ collect_columns b rows (Z.to_nat (sc_count c)) vs = Err ValueError).
  { intros vs. unfold collect_columns. induction vs as [|w vs IH]; cbn [mapM]; [left; eexists; split; [reflexivity|intros w []]|].
    destruct (in_dec Nat.eq_dec w (names ns)) as [Hw|Hw].
    - destruct (variable_index ns b w Hb Hw) as (i & Ei & _ & Hi). rewrite Ei. cbn [bind].
      assert (E : instances_column rows i = Ok (map (fun t => Z.of_nat (assignment ns t w)) rows)).
      { unfold instances_column. destruct rows as [|t0 rows']; [congruence|]. apply mapM_ok. intros t Hin'. rewrite (Hi t (Htl t Hin')). reflexivity. }
      rewrite E. cbn [bind]. destruct (_ =? _); [|right; reflexivity]. cbn [bind]. destruct IH as [(X & EX & HX)|EX]; rewrite EX; [left|right; reflexivity].
      eexists. split; [reflexivity|]. intros u [<- |Hu]; auto.
    - right. unfold variable_nodes_index. rewrite (b_names ns b Hb). assert (Ei : index_nat w (names ns) = None).
      { destruct (index_nat w (names ns)) as [i|] eqn:E; [|reflexivity]. apply index_nat_nth, nth_error_In in E. contradiction. }
      rewrite Ei. reflexivity. }
  destruct (Hcol fs) as [(X & EX & _)|EX]; rewrite EX; [|reflexivity]. cbn [bind]. destruct (Hcol os) as [(Y & EY & HY)|EY]; rewrite EY; [|reflexivity].
  exfalso. apply Hnv. assert (H : In v (names ns)) by (apply HY, sort_in; exact Hv). exact (proj1 (sort_in _ _) H).
Qed.
Theorem C48_sampled_unknown_method : forall seed exact show s label other rolls, sc_method (ss_conf s) = Other ->
  ssource_create seed exact show s label other rolls = (Err NameErr, s).
Proof. intros seed exact show s label other rolls H. unfold ssource_create. rewrite H. reflexivity. Qed.

Example C48_sampled_nonvacuous : exists b, finalize 3 (new_bn sprinkler) = Ok b /\
  (forall seed rolls, draws_from seed 0 true 5 rolls (seed 5%Z) /\ draws_from seed 0 true (-1) rolls (seed 0%Z) /\ draws_from seed 0 false 0 rolls rolls) /\
  let c := {| sc_method := Random; sc_count := 2; sc_seed := 0; sc_objectives := [1] |} in
  let seed := fun _ : Z => [1/2; 1/2; 1/2; 1/8; 1/2; 1]%R in
  (forall v, In v (sc_objectives c) -> In v (map nname sprinkler)) /\ Z.to_nat (sc_count c) * length sprinkler <= length (seed (sc_seed c)) /\ (forall r, In r (seed (sc_seed c)) -> (r <= 1)%R).
Proof.
  destruct (fresh_finalize sprinkler (proj1 sprinkler_fresh) sprinkler_acyclic) as (b & _ & E). exists b. split; [apply E; cbn; lia|]. split; [intros seed rolls; split; [|split]; [constructor 1|constructor 2|constructor 3]; auto; lia|]. cbv zeta. split; [|split].
  - intros v [<- |[]]. cbn. auto.
  - cbn. lia.
  - intros r H. cbn in H. repeat (destruct H as [<- |H]; [lra|]). destruct H.
Qed.

(** ** C51: reproducibility *)
(** A new source, and any source that is given a seed other than its configured one, produces a dataset
    that does not depend on the state of the random generator. *)
Theorem C51_binary_reproducible : forall (rng : Type) (seed : Z -> rng) shuffle product s label other g1 g2,
  bs_reset s = true \/ (other <> -1 /\ other <> bc_seed (bs_conf s))%Z ->
  bsource_create seed shuffle product s label other g1 = bsource_create seed shuffle product s label other g2.
Proof.
  intros rng seed shuffle product s label other g1 g2 H. unfold bsource_create.
  assert (E : bs_reset s || (negb (other =? -1)%Z && negb (other =? bc_seed (bs_conf s))%Z) = true).
  { destruct H as [-> |[H1 H2]]; [reflexivity|]. apply Z.eqb_neq in H1, H2. rewrite H1, H2. apply orb_true_r. }
  rewrite E. reflexivity.
Qed.
Theorem C51_sampled_reproducible : forall seed exact show s label other rolls1 rolls2, sc_method (ss_conf s) = Random ->
  ss_reset s = true \/ (other <> -1 /\ other <> sc_seed (ss_conf s))%Z ->
  ssource_create seed exact show s label other rolls1 = ssource_create seed exact show s label other rolls2.
Proof.
  intros seed exact show s label other rolls1 rolls2 Hm H. unfold ssource_create. rewrite Hm. unfold create_random_instances.
  assert (E : ss_reset s || (negb (other =? -1)%Z && negb (other =? sc_seed (ss_conf s))%Z) = true).
  { destruct H as [-> |[H1 H2]]; [reflexivity|]. apply Z.eqb_neq in H1, H2. rewrite H1, H2. apply orb_true_r. }
  rewrite E. reflexivity.
Qed.
(** Two new sources with the same configuration give the same dataset, whatever happened before. *)
Theorem C51_same_configuration : forall (rng : Type) (seed : Z -> rng) shuffle product c label g1 g2,
  bsource_create seed shuffle product (new_bsource c) label (-1) g1 = bsource_create seed shuffle product (new_bsource c) label (bc_seed c) g2.
Proof.
  intros rng seed shuffle product c label g1 g2. unfold bsource_create. cbn [new_bsource bs_conf bs_reset orb]. cbn [Z.eqb Pos.eqb].
  destruct (Z.eqb_spec (bc_seed c) (-1)); reflexivity.
Qed.
(** The dataset for an explicit seed, from a source in any state, is the one that a new source
    configured with this seed produces. *)
Definition with_seed (c : bconf) (k : Z) : bconf := {| bc_rows := bc_rows c; bc_seed := k; bc_features := bc_features c; bc_objectives := bc_objectives c |}.
Theorem C51_binary_other_seed : forall (rng : Type) (seed : Z -> rng) shuffle product s label other g1 g2,
  (other <> -1)%Z -> bs_reset s = true \/ other <> bc_seed (bs_conf s) ->
  fst (fst (bsource_create seed shuffle product s label other g1))
  = fst (fst (bsource_create seed shuffle product (new_bsource (with_seed (bs_conf s) other)) label (-1) g2)).
Proof.
  intros rng seed shuffle product s label other g1 g2 H1 H2. unfold bsource_create. cbn [new_bsource with_seed bs_conf bs_reset bc_rows bc_seed bc_features bc_objectives orb]. cbn [Z.eqb Pos.eqb].
  apply Z.eqb_neq in H1. rewrite H1. cbn [negb andb]. assert (Eq : bs_reset s || negb (other =? bc_seed (bs_conf s))%Z = true).
  { destruct H2 as [-> |H2]; [reflexivity|]. apply Z.eqb_neq in H2. rewrite H2. apply orb_true_r. }
  rewrite Eq. destruct (create_random_binary_matrix shuffle product (bc_rows (bs_conf s)) (bc_features (bs_conf s)) (seed other)) as [[[X l]|e] g']; [|reflexivity].
  destruct (create_random_binary_matrix shuffle product (bc_rows (bs_conf s)) (bc_objectives (bs_conf s)) g') as [ry g'']. reflexivity.
Qed.
Definition with_sseed (c : sconf) (k : Z) : sconf := {| sc_method := sc_method c; sc_count := sc_count c; sc_seed := k; sc_objectives := sc_objectives c |}.
Theorem C51_sampled_other_seed : forall seed exact show s label other rolls1 rolls2, sc_method (ss_conf s) = Random ->
  (other <> -1)%Z -> ss_reset s = true \/ other <> sc_seed (ss_conf s) ->
  fst (ssource_create seed exact show s label other rolls1)
  = fst (ssource_create seed exact show (new_ssource (with_sseed (ss_conf s) other) (ss_bn s)) label (-1) rolls2).
Proof.
  intros seed exact show s label other rolls1 rolls2 Hm H1 H2. unfold ssource_create. cbn [new_ssource with_sseed ss_conf ss_bn sc_method sc_count sc_objectives]. rewrite Hm. unfold create_random_instances.
  cbn [new_ssource with_sseed ss_conf ss_bn ss_reset sc_method sc_count sc_seed sc_objectives orb]. cbn [Z.eqb Pos.eqb].
  apply Z.eqb_neq in H1. rewrite H1. cbn [negb andb]. assert (Eq : ss_reset s || negb (other =? sc_seed (ss_conf s))%Z = true).
  { destruct H2 as [-> |H2]; [reflexivity|]. apply Z.eqb_neq in H2. rewrite H2. apply orb_true_r. }
  rewrite Eq. reflexivity.
Qed.
(** The datasets of a new source are those of its configured seed: they come from [seed (bc_seed c)] only. *)
Theorem C51_configured_seed : forall (rng : Type) (seed1 seed2 : Z -> rng) shuffle product c label g1 g2,
  seed1 (bc_seed c) = seed2 (bc_seed c) ->
  bsource_create seed1 shuffle product (new_bsource c) label (-1) g1 = bsource_create seed2 shuffle product (new_bsource c) label (-1) g2.
Proof. intros rng seed1 seed2 shuffle product c label g1 g2 E. unfold bsource_create. cbn [new_bsource bs_conf bs_reset orb]. cbn [Z.eqb Pos.eqb]. rewrite E. reflexivity. Qed.
Example C51_nonvacuous : exists d1 s1 g1 d2 s2 g2,
  bsource_create (fun k => Z.to_nat k) rotate exactly (new_bsource conf1) "d" (-1) 7 = (Ok d1, s1, g1) /\
  bsource_create (fun k => Z.to_nat k) rotate exactly s1 "d" 4 g1 = (Ok d2, s2, g2) /\ sm_rows (dm_X d1) <> sm_rows (dm_X d2).
Proof. eexists _, _, _, _, _, _. split; [reflexivity|]. split; [reflexivity|]. vm_compute. discriminate. Qed.
(** A source that was used once does not go back to its seed, not even when asked for exactly that
    seed: the second dataset differs from the first. *)
Theorem C51_second_dataset_refuted : exists c d1 s1 g1 d2 s2 g2,
  bsource_create (fun _ => 0) rotate exactly (new_bsource c) "d" (bc_seed c) 7 = (Ok d1, s1, g1) /\
  bsource_create (fun _ => 0) rotate exactly s1 "d" (bc_seed c) g1 = (Ok d2, s2, g2) /\ sm_rows (dm_X d1) <> sm_rows (dm_X d2).
Proof.
  exists conf1. eexists _, _, _, _, _, _. split; [reflexivity|]. split; [reflexivity|]. vm_compute. discriminate.
Qed.
