(** The probability tables that the G-tests work with. *)
From Coq Require Import Reals Lra.
From Verif Require Import Base AD_Model AD_Query_Model AD_Spec AD_Proofs AD_More_Proofs AD_Tables_Proofs Key_Model Key_Spec Key_Proofs PMF_Model PMF_Spec
  Prob_Spec Info_Spec Table_Spec Prob_Proofs PMF_Proofs PMF_Cond_Proofs Info_Proofs PMF_Data_Proofs Table_Proofs SameInfo_Proofs
  MB_Model GTest_Model GTest_Spec.
Open Scope Z_scope.

Lemma proj_length cols row : length (proj cols row) = length cols.
Proof. apply map_length. Qed.
Lemma proj_app c1 c2 row : proj (c1 ++ c2) row = proj c1 row ++ proj c2 row.
Proof. apply map_app. Qed.
Lemma map_nth_rows {A B} (g : A -> B) l d : map (fun i => g (nth i l d)) (seq 0 (length l)) = map g l.
Proof. rewrite <- (seq_map_nth l d) at 2. rewrite map_map. reflexivity. Qed.

(** components of a projection are projections *)
Lemma component_proj ids c row : In c ids -> component (map Z.of_nat ids) (proj ids row) (Z.of_nat c) = nth c row 0.
Proof.
  induction ids as [|i ids IH]; [contradiction|]. intros H. cbn [map proj component].
  destruct (Z.eqb_spec (Z.of_nat c) (Z.of_nat i)) as [E|E]; [apply Nat2Z.inj in E; subst; reflexivity|].
  destruct H as [-> | H]; [congruence|]. apply IH, H.
Qed.
Lemma components_proj ids cs row : incl cs ids -> components (map Z.of_nat ids) (map Z.of_nat cs) (proj ids row) = proj cs row.
Proof. intros H. unfold components. rewrite map_map. apply map_ext_in. intros c Hc. apply component_proj, H, Hc. Qed.
Lemma others_proj ids cs : others (map Z.of_nat ids) (map Z.of_nat cs) = map Z.of_nat (filter (fun c => negb (mem c cs)) ids).
Proof.
  unfold others. rewrite filter_map_comm. f_equal. apply filter_ext. intros c.
  destruct (in_dec Z.eq_dec (Z.of_nat c) (map Z.of_nat cs)) as [i|n].
  - apply in_map_iff in i as (c' & E & Hc). apply Nat2Z.inj in E. subst c'. rewrite (proj2 (mem_In c cs) Hc). reflexivity.
  - rewrite (proj2 (mem_false c cs)); [reflexivity|]. intros H. apply n, in_map, H.
Qed.
Lemma of_nat_NoDup l : NoDup l -> NoDup (map Z.of_nat l).
Proof. intros H. apply FinFun.Injective_map_NoDup; [intros a b; apply Nat2Z.inj|assumption]. Qed.
Lemma of_nat_incl l m : incl l m -> incl (map Z.of_nat l) (map Z.of_nat m).
Proof. intros H z Hz. apply in_map_iff in Hz as (c & <- & Hc). apply in_map, H, Hc. Qed.
Lemma to_of_nat l : map Z.to_nat (map Z.of_nat l) = l.
Proof. rewrite map_map. rewrite <- (map_id l) at 2. apply map_ext. intros. apply Nat2Z.id. Qed.
Lemma filter_not_mem (vars Z : list nat) : (forall v, In v vars -> ~ In v Z) -> filter (fun v => negb (mem v Z)) (vars ++ Z) = vars.
Proof.
  intros H. rewrite filter_app. replace (filter (fun v => negb (mem v Z)) Z) with (@nil nat).
  - rewrite app_nil_r. induction vars as [|v vars IH]; [reflexivity|]. cbn [filter]. rewrite (proj2 (mem_false v Z)) by (apply H; left; reflexivity).
    cbn [negb]. f_equal. apply IH. intros w Hw. apply H. right; assumption.
  - symmetry. clear H. enough (forall l, incl l Z -> filter (fun v => negb (mem v Z)) l = []) as E by (apply E, incl_refl).
    intros l. induction l as [|x l IH]; intros Hl; [reflexivity|]. cbn [filter]. rewrite (proj2 (mem_In x Z)) by (apply Hl; left; reflexivity). cbn [negb]. apply IH. intros y Hy. apply Hl. right; assumption.
Qed.

(** projections on the same set of columns carry the same information *)
Lemma proj_same cs ds l : (forall c, In c cs <-> In c ds) -> same_info l (proj cs) (proj ds).
Proof.
  intros H a b _ _. assert (forall cs ds, (forall c, In c cs <-> In c ds) -> proj cs a = proj cs b -> proj ds a = proj ds b) as K.
  { clear. intros cs ds H E. unfold proj in *. apply map_ext_in. intros c Hc. apply H in Hc. exact (map_eq_in _ _ _ E c Hc). }
  split; apply K; [assumption|intros; symmetry; apply H].
Qed.

Section Data.
  Variable D : dataset.
  Hypothesis WF : wf_dataset D.
  Hypothesis HR : rows D <> [].
  Notation S := (data_space D).
  Notation n := (length (rows D)).
  Lemma data_probability : is_probability S.
  Proof. apply uniform_probability. assumption. Qed.
  Lemma rows_pos : (0 < n)%nat.
  Proof. destruct (rows D); [congruence|simpl; lia]. Qed.
  Lemma row_width row c : In row (rows D) -> (c < ncols D)%nat -> (c < length row)%nat.
  Proof. intros Hr Hc. pose proof (wf_rect D WF) as H. rewrite Forall_forall in H. rewrite (H row Hr). assumption. Qed.
  Lemma pr1_rows T v : pr1 S T v <> 0%R <-> In v (map T (rows D)).
  Proof.
    split.
    - intros H. assert (Hp : (0 < pr1 S T v)%R) by (pose proof (pr1_nonneg S (proj1 data_probability) T v); lra).
      apply pr_witness in Hp as (row & Hin & _ & E); [|apply data_probability]. apply eqv_true in E. subst v. apply in_map. exact Hin.
    - intros H. apply in_map_iff in H as (row & <- & Hin). assert (0 < pr1 S T (T row))%R; [|lra].
      apply pr1_at; [apply data_probability|exact Hin|]. cbn. apply Rinv_0_lt_compat, lt_0_INR, rows_pos.
  Qed.
  Lemma pr2_rows T v Z z : pr2 S T v Z z <> 0%R <-> In v (map T (filter (fun row => eqv (Z row) z) (rows D))).
  Proof.
    split.
    - intros H. assert (Hp : (0 < pr2 S T v Z z)%R) by (pose proof (pr2_nonneg S (proj1 data_probability) T v Z z); lra).
      apply pr_witness in Hp as (row & Hin & _ & E); [|apply data_probability]. apply andb_prop in E as (E & E2). apply eqv_true in E. subst v. apply in_map, filter_In. split; assumption.
    - intros H. apply in_map_iff in H as (row & <- & Hin). apply filter_In in Hin as (Hin & E). apply eqv_true in E. subst z. assert (0 < pr2 S T (T row) Z (Z row))%R; [|lra].
      apply pr2_at; [apply data_probability|exact Hin|]. cbn. apply Rinv_0_lt_compat, lt_0_INR, rows_pos.
  Qed.

  (** ** tables computed from the columns *)
  Definition colvar (c : nat) : variable := {| vid := Z.of_nat c; insts := column D c; array := true; lazy := true |}.
  Definition of_cols (v : var) (cols : list nat) : Prop :=
    cols <> [] /\ (v = Joint (map colvar cols) \/ exists c, cols = [c] /\ v = Simple (colvar c)).
  Lemma of_cols_parts v cols : of_cols v cols -> parts v = map colvar cols.
  Proof. intros (_ & [-> | (c & -> & ->)]); reflexivity. Qed.
  Lemma of_cols_rows v cols : of_cols v cols -> has_rows v n.
  Proof.
    intros (Hne & [-> | (c & -> & ->)]); simpl.
    - split; [destruct cols; [congruence|discriminate]|]. apply Forall_forall. intros x Hx. apply in_map_iff in Hx as (c & <- & _). apply map_length.
    - apply map_length.
  Qed.
  Lemma column_nth c i : (i < n)%nat -> nth i (column D c) 0 = nth c (nth i (rows D) []) 0.
  Proof.
    intros Hi. unfold column. rewrite (nth_indep (map (fun row => nth c row 0) (rows D)) 0 (nth c [] 0)) by (rewrite map_length; assumption).
    exact (map_nth (fun row => nth c row 0) (rows D) [] i).
  Qed.
  Lemma of_cols_value v cols i : of_cols v cols -> (i < n)%nat -> value_at v i = proj cols (nth i (rows D) []).
  Proof.
    intros (Hne & [-> | (c & -> & ->)]) Hi; cbn [value_at proj map].
    - rewrite map_map. apply map_ext. intros c. cbn [colvar insts]. apply column_nth. assumption.
    - cbn [colvar insts]. rewrite column_nth by assumption. reflexivity.
  Qed.
  Lemma of_cols_IDs v cols : of_cols v cols -> var_IDs v = map Z.of_nat cols.
  Proof. intros (Hne & [-> | (c & -> & ->)]); cbn [var_IDs]; [rewrite map_map|]; reflexivity. Qed.
  Lemma of_cols_joint vs cols : cols <> [] -> flatten_variables vs = map colvar cols -> joint_variables vs = Ok (Joint (map colvar cols)).
  Proof. intros Hne E. unfold joint_variables. rewrite E. destruct cols as [|c cols]; [congruence|]. reflexivity. Qed.

  Lemma get_variable_ok c : (c < ncols D)%nat -> get_variable D c = Ok (colvar c).
  Proof. intros H. unfold get_variable. rewrite (proj2 (Nat.ltb_lt _ _) H). reflexivity. Qed.
  Lemma get_variables_set_ok cs : cs <> [] -> (forall c, In c cs -> (c < ncols D)%nat) ->
    get_variables_set D cs = Ok (Joint (map colvar cs)) /\ of_cols (Joint (map colvar cs)) cs.
  Proof.
    intros Hne Hc. unfold get_variables_set. rewrite (mapM_ok _ colvar) by (intros; apply get_variable_ok; auto). cbn [bind].
    split; [|split; [assumption|left; reflexivity]]. apply of_cols_joint; [assumption|]. clear. unfold flatten_variables. induction cs as [|c cs IH]; simpl; congruence.
  Qed.
  Lemma get_variables_ok cs : cs <> [] -> (forall c, In c cs -> (c < ncols D)%nat) ->
    exists v, get_variables D cs = Ok v /\ of_cols v cs /\ (length cs = 1%nat -> exists x, v = Simple x) /\ (length cs <> 1%nat -> v = Joint (map colvar cs)).
  Proof.
    intros Hne Hc. destruct cs as [|c [|c' cs]]; [congruence| |].
    - exists (Simple (colvar c)). cbn [get_variables]. rewrite get_variable_ok by auto with datatypes. split; [reflexivity|]. split; [|split; [eauto|simpl; congruence]].
      split; [discriminate|]. right. eauto.
    - destruct (get_variables_set_ok (c :: c' :: cs)) as (E & H); [assumption..|]. exists (Joint (map colvar (c :: c' :: cs))). repeat split; auto; try discriminate.
  Qed.

  Lemma plain_pmf v cols : of_cols v cols -> exists P, new_pmf v = Ok P /\
    is_table S (map Z.of_nat cols) (proj cols) P /\ (forall k r, In (k, r) (probabilities P) -> r <> 0%R) /\
    variable_IDs P = match v with Joint _ => Some (map Z.of_nat cols) | _ => None end.
  Proof.
    intros Hv. pose proof (of_cols_rows _ _ Hv) as Hh.
    destruct (new_pmf_ok v (rows D) (proj cols)) as (P & E & Hd & Hp & Hi & Hk & Hvi); [| |assumption|].
    - rewrite (instances_ok v n Hh). rewrite <- (map_nth_rows (fun row => as_key (proj cols row)) (rows D) []). apply map_ext_in.
      intros i Hin. apply in_seq in Hin. rewrite (of_cols_value v cols) by (auto; lia). reflexivity.
    - apply (var_len_ok _ _ Hh).
    - exists P. split; [assumption|]. split; [|split].
      + constructor.
        * rewrite Hi. apply of_cols_IDs. assumption.
        * intros row _. rewrite map_length. apply proj_length.
        * assumption.
        * split; [assumption|]. intros k r Hin. destruct (Hk _ _ Hin) as (_ & row & _ & ->). rewrite leaves_as_key, map_length. apply proj_length.
      + intros k r Hin. apply (Hk _ _ Hin).
      + rewrite Hvi. destruct Hv as (_ & [-> | (c & _ & ->)]); [rewrite map_map|]; reflexivity.
  Qed.
End Data.
