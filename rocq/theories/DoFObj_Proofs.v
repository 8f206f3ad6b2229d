From Coq Require Import Reals.
From Verif Require Import Base AD_Model AD_Spec AD_Proofs Key_Model Key_Proofs PMF_Model Prob_Spec Info_Spec Table_Spec MB_Model MB_Cache_Proofs GTest_Model GTest_Spec
  GTest_Tables_Proofs GTest_DoF_Proofs GTest_Cache_Proofs GTest_Impl_Proofs GTest_Proofs DoFObj_Model DoFObj_Spec.
Open Scope Z_scope.

Lemma run_app D calls1 calls2 : forall o, run D o (calls1 ++ calls2) = run D (run D o calls1) calls2.
Proof. induction calls1 as [|a l IH]; intros o; [reflexivity|]. apply IH. Qed.
Lemma structural_kind o : k_kind (fst (structural_calc o)) = k_kind o.
Proof.
  unfold structural_calc. destruct (k_PrZ o); [|reflexivity]. destruct (forallb _ _); [reflexivity|]. destruct (k_PrXcZ o); [|reflexivity]. destruct (k_PrYcZ o); [|reflexivity].
  destruct (structural_DoF _ _ _) as [[? ?] ?]. reflexivity.
Qed.
Lemma structural_cache o : k_cache (fst (structural_calc o)) = k_cache o.
Proof.
  unfold structural_calc. destruct (k_PrZ o); [|reflexivity]. destruct (forallb _ _); [reflexivity|]. destruct (k_PrXcZ o); [|reflexivity]. destruct (k_PrYcZ o); [|reflexivity].
  destruct (structural_DoF _ _ _) as [[? ?] ?]. reflexivity.
Qed.
Lemma step_kind D o a : k_kind (fst (step D o a)) = k_kind o.
Proof.
  destruct a; cbn [step]; try reflexivity; destruct (k_kind o) eqn:E; try (rewrite <- E; reflexivity).
  - destruct (cache_all _ _) as [c e]. cbn. exact E.
  - rewrite structural_kind. exact E.
Qed.
Lemma run_kind D calls : forall o, k_kind (run D o calls) = k_kind o.
Proof. induction calls as [|a l IH]; intros o; [reflexivity|]. cbn [run]. rewrite IH. apply step_kind. Qed.

(** ** Structural: the removed zeros make no difference *)
Definition rz_same (C C' : cpmf) : Prop := forall z, remove_zeros (given C [z]) = remove_zeros (given C' [z]).
Lemma rz_idem P : remove_zeros (remove_zeros P) = remove_zeros P.
Proof.
  unfold remove_zeros, with_probabilities. cbn [probabilities variableIDs variable_IDs]. f_equal. induction (probabilities P) as [|kv l IH]; cbn [filter]; [reflexivity|].
  destruct (Req_EM_T (snd kv) 0) eqn:E; [exact IH|]. cbn [filter]. rewrite E, IH. reflexivity.
Qed.
Lemma given_set C z P z' : given (assoc_set pyobj_eqb (process_pmf_key [z]) P C) [z'] =
  if pyobj_eqb (process_pmf_key [z']) (process_pmf_key [z]) then P else given C [z'].
Proof.
  unfold given. generalize (process_pmf_key [z']) (process_pmf_key [z]). intros k' k. induction C as [|[k0 P0] C IH]; cbn [assoc_set assoc].
  - destruct (pyobj_eqb k' k); reflexivity.
  - destruct (pyobj_eqb k k0) eqn:E.
    + apply pyobj_eqb_eq in E. subst k0. cbn [assoc]. destruct (pyobj_eqb k' k); reflexivity.
    + cbn [assoc]. destruct (pyobj_eqb k' k0) eqn:E1; [|exact IH]. destruct (pyobj_eqb k' k) eqn:E2; [|reflexivity].
      apply pyobj_eqb_eq in E1. apply pyobj_eqb_eq in E2. subst. rewrite (proj2 (pyobj_eqb_eq k0 k0) eq_refl) in E. discriminate.
Qed.
Lemma rz_put C z : rz_same (put_given C z (remove_zeros (given C [z]))) C.
Proof.
  intros z'. unfold put_given. destruct (assoc pyobj_eqb (process_pmf_key [z]) C) eqn:E; [|reflexivity].
  rewrite given_set. destruct (pyobj_eqb (process_pmf_key [z']) (process_pmf_key [z])) eqn:Ek; [|reflexivity].
  apply pyobj_eqb_eq in Ek. rewrite rz_idem. unfold given. rewrite Ek. reflexivity.
Qed.
Lemma rz_trans A B C : rz_same A B -> rz_same B C -> rz_same A C.
Proof. intros H1 H2 z. rewrite H1. apply H2. Qed.
Lemma structural_same l : forall d CX CY CX2 CY2, rz_same CX CX2 -> rz_same CY CY2 ->
  fst (fst (fold_left structural_step l (d, CX, CY))) = fst (fst (fold_left structural_step l (d, CX2, CY2))) /\
  rz_same (snd (fst (fold_left structural_step l (d, CX, CY)))) CX2 /\ rz_same (snd (fold_left structural_step l (d, CX, CY))) CY2.
Proof.
  induction l as [|zp l IH]; intros d CX CY CX2 CY2 HX HY; cbn [fold_left]; [auto|].
  unfold structural_step at 2 4 6 8. destruct (is_zero (snd zp)); [apply IH; assumption|]. rewrite (HX (fst zp)), (HY (fst zp)).
  assert (TX : rz_same (put_given CX (fst zp) (remove_zeros (given CX2 [fst zp]))) CX2) by (rewrite <- HX; eapply rz_trans; [apply rz_put|exact HX]).
  assert (TY : rz_same (put_given CY (fst zp) (remove_zeros (given CY2 [fst zp]))) CY2) by (rewrite <- HY; eapply rz_trans; [apply rz_put|exact HY]).
  match goal with |- context [fold_left structural_step l (?d', put_given CX ?z ?A, put_given CY ?z ?B)] =>
    destruct (IH d' (put_given CX z A) (put_given CY z B) CX2 CY2 TX TY) as (E1 & E2 & E3);
    destruct (IH d' (put_given CX2 z A) (put_given CY2 z B) CX2 CY2 (rz_put CX2 z) (rz_put CY2 z)) as (F1 & _) end.
  split; [congruence|]. split; assumption.
Qed.
Definition same_opt (a b : option cpmf) : Prop := match a, b with Some C, Some C' => rz_same C C' | None, None => True | _, _ => False end.
Lemma same_opt_refl a : same_opt a a.
Proof. destruct a; [intros z; reflexivity|exact Logic.I]. Qed.
(** an object whose tables agree up to zeros with a given context *)
Definition agrees (o : calc) (ctx : option cpmf * option cpmf * option pmf) : Prop :=
  same_opt (k_PrXcZ o) (fst (fst ctx)) /\ same_opt (k_PrYcZ o) (snd (fst ctx)) /\ k_PrZ o = snd ctx.
Lemma structural_agrees o ctx : agrees o ctx ->
  agrees (fst (structural_calc o)) ctx /\ snd (structural_calc o) = snd (structural_calc (with_context (new_calc StructuralDoF) (fst (fst ctx)) (snd (fst ctx)) (snd ctx))).
Proof.
  intros H0. pose proof H0 as (HX & HY & HZ). unfold structural_calc. cbn [with_context k_PrZ k_PrXcZ k_PrYcZ]. rewrite HZ. destruct ctx as [[CX2 CY2] PZ]. cbn [fst snd] in HX, HY, HZ |- *.
  destruct PZ as [PZ|]; [|split; [exact H0|reflexivity]]. destruct (forallb _ _); [split; [exact H0|reflexivity]|].
  destruct (k_PrXcZ o) as [CX|], CX2 as [CX2|]; try contradiction; [|split; [exact H0|reflexivity]].
  destruct (k_PrYcZ o) as [CY|], CY2 as [CY2|]; try contradiction; [|split; [exact H0|reflexivity]].
  cbn in HX, HY. destruct (structural_same (probabilities PZ) 0 CX CY CX2 CY2 HX HY) as (E1 & E2 & E3). unfold structural_DoF.
  destruct (fold_left structural_step (probabilities PZ) (0, CX, CY)) as [[d1 A1] B1]. destruct (fold_left structural_step (probabilities PZ) (0, CX2, CY2)) as [[d2 A2] B2].
  cbn [fst snd] in *. subst d2. split; [|reflexivity]. repeat split; cbn; assumption.
Qed.
Lemma structural_run D calls : forall o ctx, k_kind o = StructuralDoF -> agrees o ctx -> agrees (run D o calls) (last_context ctx calls).
Proof.
  induction calls as [|a calls IH]; intros o ctx Hk Ho; [exact Ho|].
  cbn [run]. assert (Hk' : k_kind (fst (step D o a)) = StructuralDoF) by (rewrite step_kind; exact Hk).
  destruct a; cbn [last_context]; apply IH; try exact Hk'; cbn [step]; try rewrite Hk.
  - repeat split.
  - exact Ho.
  - cbn [fst]. split; [apply same_opt_refl|]. split; [apply same_opt_refl|reflexivity].
  - destruct Ho as (A & B & C). cbn [fst]. split; [exact A|]. split; [exact B|reflexivity].
  - apply structural_agrees, Ho.
Qed.

(** ** Cached *)
Lemma cache_keeps c P c' P' k : cache_DoFs c P = Ok (c', P') -> assoc list_eqb k c <> None -> assoc list_eqb k c' = assoc list_eqb k c.
Proof.
  unfold cache_DoFs. destruct (variable_IDs P) as [ids|]; [|intros [= <- _] _; reflexivity].
  destruct (_ <=? _)%nat; [intros [= <- _] _; reflexivity|]. destruct (assoc list_eqb (frozenset (map Z.to_nat ids)) c) eqn:E; [intros [= <- _] _; reflexivity|].
  destruct (pairwise_DoFs _ _) as [t|e]; [|discriminate]. cbn [bind]. intros [= <- _] Hk. rewrite fset_get. destruct (list_eqb k (frozenset (map Z.to_nat ids))) eqn:Ek; [|reflexivity].
  apply list_eqb_eq in Ek. congruence.
Qed.
Lemma cache_all_keeps Ps : forall c k, assoc list_eqb k c <> None -> assoc list_eqb k (fst (cache_all c Ps)) = assoc list_eqb k c.
Proof.
  induction Ps as [|[P|] Ps IH]; intros c k Hk; cbn [cache_all]; [reflexivity| |apply IH; exact Hk].
  destruct (cache_DoFs c P) as [[c' P']|e] eqn:E; [|reflexivity]. rewrite IH; [apply (cache_keeps c P c' P' k E Hk)|rewrite (cache_keeps c P c' P' k E Hk); exact Hk].
Qed.
Lemma step_cache_keeps D o a k : assoc list_eqb k (k_cache o) <> None -> assoc list_eqb k (k_cache (fst (step D o a))) = assoc list_eqb k (k_cache o).
Proof.
  intros Hk. destruct a; cbn [step]; try reflexivity; destruct (k_kind o); try reflexivity.
  - pose proof (cache_all_keeps [PrXYZ; PrXZ; PrYZ; PrZ] (k_cache o) k Hk) as H. destruct (cache_all _ _) as [c e]. exact H.
  - rewrite structural_cache. reflexivity.
Qed.
Lemma run_cache_keeps D calls : forall o k, assoc list_eqb k (k_cache o) <> None -> assoc list_eqb k (k_cache (run D o calls)) = assoc list_eqb k (k_cache o).
Proof.
  induction calls as [|a l IH]; intros o k Hk; [reflexivity|]. cbn [run]. pose proof (step_cache_keeps D o a k Hk) as E. rewrite IH by congruence. exact E.
Qed.
Lemma cached_ext c c' X Y Z : assoc list_eqb (frozenset (X :: Y :: Z)) c = assoc list_eqb (frozenset (X :: Y :: Z)) c' -> cached_DoF c X Y Z = cached_DoF c' X Y Z.
Proof. intros H. unfold cached_DoF. rewrite H. reflexivity. Qed.

(** one table of data *)
Lemma cache_table D cols P c : table_of D cols P ->
  exists c' P', cache_DoFs c P = Ok (c', P') /\
    (forall k, assoc list_eqb k c <> None -> assoc list_eqb k c' = assoc list_eqb k c) /\
    (forall k, k <> frozenset cols -> assoc list_eqb k c' = assoc list_eqb k c) /\
    (assoc list_eqb (frozenset cols) c = None -> forall X Y Z, NoDup (X :: Y :: Z) -> same_columns cols (X :: Y :: Z) -> cached_DoF c' X Y Z = Ok (structural_dof D X Y Z)).
Proof.
  intros (HR & Hne & HN & Hc & v & Ev & EP). destruct (get_variables_ok D cols Hne Hc) as (v' & Ev' & Ov & Hs & Hj). rewrite Ev in Ev'. injection Ev' as <-.
  destruct (plain_pmf D HR v cols Ov) as (P' & EP' & HT & _ & HV). rewrite EP in EP'. injection EP' as <-.
  assert (Hcase : (length cols = 1%nat /\ variable_IDs P = None) \/ ((2 <= length cols)%nat /\ variable_IDs P = Some (map Z.of_nat cols))).
  { destruct cols as [|a [|b cols]]; [congruence|left|right].
    - split; [reflexivity|]. destruct (Hs eq_refl) as (x & ->). exact HV.
    - split; [cbn; lia|]. rewrite (Hj ltac:(discriminate)) in HV. exact HV. }
  destruct Hcase as [(H1 & H2)|(H1 & H2)].
  - exists c, P. unfold cache_DoFs. rewrite H2. split; [reflexivity|]. split; [auto|]. split; [auto|]. intros _ X Y Z HX Hsame.
    exfalso. pose proof (NoDup_same_length cols (X :: Y :: Z) HN HX Hsame) as El. cbn [length] in El. lia.
  - assert (HP : pmf_of D cols P) by (eapply pmf_of_table; [exact HT|apply map_length]).
    destruct (cache_DoFs_ok D HR [] P cols cols (fun X Y Z _ H => match H eq_refl with end) HP HN (or_introl eq_refl) (or_introl H2)) as (c0 & P0 & E0 & Hok & _ & _ & Hin & _).
    unfold cache_DoFs in *. rewrite H2 in *. rewrite map_length, to_of_nat in *. destruct (Nat.leb_spec (length cols) 1) as [Hle|_]; [lia|]. cbn [assoc] in E0.
    destruct (pairwise_DoFs (remove_zeros P) (length cols)) as [t|e]; [|discriminate]. cbn [bind] in *. injection E0 as <- <-.
    destruct (assoc list_eqb (frozenset cols) c) as [x|] eqn:Ea.
    + exists c, P. split; [reflexivity|]. split; [auto|]. split; [auto|]. discriminate.
    + eexists _, _. split; [reflexivity|]. split; [|split].
      * intros k Hk. rewrite fset_get. destruct (list_eqb k (frozenset cols)) eqn:Ek; [apply list_eqb_eq in Ek; congruence|reflexivity].
      * intros k Hk. rewrite fset_get. destruct (list_eqb k (frozenset cols)) eqn:Ek; [apply list_eqb_eq in Ek; congruence|reflexivity].
      * intros _ X Y Z HX Hsame. assert (Ek : frozenset (X :: Y :: Z) = frozenset cols) by (apply frozenset_eq; intros x; symmetry; apply Hsame).
        rewrite <- (Hok X Y Z HX) by (rewrite Ek; apply Hin; [discriminate|exact H1]).
        apply cached_ext. rewrite fset_get, Ek. cbn [assoc]. rewrite list_eqb_refl. reflexivity.
Qed.
(** the cache after tables of data, one after the other *)
Fixpoint cached_from (c : dcache) (Ps : list pmf) : dcache :=
  match Ps with [] => c | P :: Ps' => cached_from (match cache_DoFs c P with Ok (c', _) => c' | Err _ => c end) Ps' end.
Lemma cached_from_app A B : forall c, cached_from c (A ++ B) = cached_from (cached_from c A) B.
Proof. induction A as [|P A IH]; intros c; [reflexivity|]. apply IH. Qed.
Definition present (Ps : list (option pmf)) : list pmf := flat_map (fun o => match o with Some P => [P] | None => [] end) Ps.
Lemma cache_all_from Ps : forall c, Forall some_table (present Ps) -> cache_all c Ps = (cached_from c (present Ps), None).
Proof.
  induction Ps as [|[P|] Ps IH]; intros c H; cbn [cache_all present flat_map app] in *; [reflexivity| |apply IH; exact H].
  inversion H as [|? ? (D & cols & HP) H']; subst. destruct (cache_table D cols P c HP) as (c' & P' & E & _). rewrite E. cbn [cached_from]. rewrite E. apply IH. exact H'.
Qed.
Lemma run_cached D calls : forall o, k_kind o = CachedStructuralDoF -> Forall some_table (offered calls) -> k_cache (run D o calls) = cached_from (k_cache o) (offered calls).
Proof.
  induction calls as [|a calls IH]; intros o Hk H; [reflexivity|]. cbn [run]. assert (Hk' : k_kind (fst (step D o a)) = CachedStructuralDoF) by (rewrite step_kind; exact Hk).
  unfold offered in H. cbn [flat_map] in H. apply Forall_app in H as (H1 & H2). rewrite (IH _ Hk' H2).
  unfold offered. cbn [flat_map]. rewrite cached_from_app. f_equal. destruct a; cbn [step]; try rewrite Hk; try reflexivity.
  rewrite (cache_all_from [PrXYZ; PrXZ; PrYZ; PrZ] _ H1). reflexivity.
Qed.
Lemma cached_from_keeps Ps : forall c k, assoc list_eqb k c <> None -> assoc list_eqb k (cached_from c Ps) = assoc list_eqb k c.
Proof.
  induction Ps as [|P Ps IH]; intros c k Hk; [reflexivity|]. cbn [cached_from]. destruct (cache_DoFs c P) as [[c' P']|e] eqn:E; [|apply IH; exact Hk].
  pose proof (cache_keeps c P c' P' k E Hk) as E2. rewrite IH by congruence. exact E2.
Qed.
Lemma cached_from_others Ps : forall c k, Forall some_table Ps -> (forall P D cols, In P Ps -> table_of D cols P -> k <> frozenset cols) ->
  assoc list_eqb k (cached_from c Ps) = assoc list_eqb k c.
Proof.
  induction Ps as [|P Ps IH]; intros c k H Hk; [reflexivity|]. cbn [cached_from]. inversion H as [|? ? (D & cols & HP) H']; subst.
  destruct (cache_table D cols P c HP) as (c' & P' & E & _ & E2 & _). rewrite E. rewrite IH; [|exact H'|intros; eapply Hk; [right|]; eassumption].
  apply E2. eapply Hk; [left; reflexivity|exact HP].
Qed.

Lemma all_zero_fold l : forallb (fun zp => is_zero (snd zp)) l = true -> forall acc, fold_left structural_step l acc = acc.
Proof.
  induction l as [|zp l IH]; intros H acc; [reflexivity|]. cbn [forallb] in H. apply andb_prop in H as (H1 & H2). cbn [fold_left].
  unfold structural_step at 2. destruct acc as [[d CX] CY]. rewrite H1. apply IH, H2.
Qed.
Lemma structural_calc_full o CX CY PZ : k_PrXcZ o = Some CX -> k_PrYcZ o = Some CY -> k_PrZ o = Some PZ ->
  snd (structural_calc o) = Ok (Some (fst (fst (structural_DoF CX CY PZ)))).
Proof.
  intros EX EY EZ. unfold structural_calc. rewrite EZ, EX, EY. destruct (forallb _ _) eqn:E.
  - unfold structural_DoF. rewrite (all_zero_fold _ E). reflexivity.
  - destruct (structural_DoF CX CY PZ) as [[d A] B]. reflexivity.
Qed.
