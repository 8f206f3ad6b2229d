(** Theorems about calculators of degrees of freedom as objects of their own. *)
From Coq Require Import Reals Lra.
From Verif Require Import Base AD_Model AD_Spec AD_Proofs Key_Model Key_Proofs PMF_Model Prob_Spec Info_Spec Table_Spec MB_Model MB_Cache_Proofs SameInfo_Proofs SameInfo_Proofs GTest_Model GTest_Spec
  GTest_Tables_Proofs GTest_DoF_Proofs GTest_Cache_Proofs GTest_Impl_Proofs GTest_Proofs GTest_Properties Shared_Properties DoFObj_Model DoFObj_Spec DoFObj_Proofs.
Open Scope Z_scope.

(** C73: the unadjusted degrees of freedom depend on the declared values and the arguments alone,
    whatever was called before *)
Theorem C73_unadjusted_any_history : forall D calls X Y Z, wf_dataset D -> (forall c, In c (X :: Y :: Z) -> (c < ncols D)%nat) ->
  answer D UnadjustedDoF calls X Y Z = Ok (Some (unadjusted_dof D X Y Z)).
Proof.
  intros D calls X Y Z WF Hc. unfold answer. cbn [step]. rewrite run_kind. cbn [new_calc k_kind snd]. rewrite (unadjusted_ok D X Y Z WF Hc). reflexivity.
Qed.
Print Assumptions C73_unadjusted_any_history.

(** the structural ones depend on the tables last set alone: the same answer as on a new calculator
    that was given only these, with any arguments *)
Theorem C73_structural_last_tables : forall D calls X Y Z X' Y' Z' CX CY PZ, last_context (None, None, None) calls = (CX, CY, PZ) ->
  answer D StructuralDoF calls X Y Z = answer D StructuralDoF [SetCPMFs None CX CY PZ] X' Y' Z'.
Proof.
  intros D calls X Y Z X' Y' Z' CX CY PZ E. unfold answer.
  assert (H : agrees (run D (new_calc StructuralDoF) calls) (CX, CY, PZ)).
  { rewrite <- E. apply structural_run; [reflexivity|]. repeat split. }
  cbn [step]. rewrite run_kind. cbn [new_calc k_kind]. rewrite (proj2 (structural_agrees _ _ H)). reflexivity.
Qed.
Print Assumptions C73_structural_last_tables.

(** after a reset there is nothing to count *)
Theorem C73_structural_after_reset : forall D calls calls' X Y Z, Forall keeps_context calls' ->
  answer D StructuralDoF (calls ++ Reset :: calls') X Y Z = Err AttributeError /\ answer D StructuralDoF calls' X Y Z = Err AttributeError.
Proof.
  intros D calls calls' X Y Z Hk.
  assert (K : forall ctx, last_context ctx calls' = ctx).
  { induction Hk as [|a l Ha Hl IH]; intros ctx; [reflexivity|]. destruct a; try contradiction; apply IH. }
  assert (L : forall l ctx, last_context ctx (l ++ Reset :: calls') = (None, None, None)).
  { induction l as [|a l IH]; intros ctx; cbn [app last_context]; [apply K|]. destruct a; apply IH. }
  split; [rewrite (C73_structural_last_tables D (calls ++ Reset :: calls') X Y Z X Y Z None None None (L calls _))|rewrite (C73_structural_last_tables D calls' X Y Z X Y Z None None None (K _))]; reflexivity.
Qed.
Print Assumptions C73_structural_after_reset.

(** with the tables of a test of X, Y given Z the answer is that for X, Y given Z — however often it
    is asked, and whichever variables are named in the question *)
Theorem C73_structural_of_the_tables : forall D X Y Z, rows D <> [] -> wf_test D (X, Y, Z) ->
  exists CXY CX CY PZ c, plain_tables D StructuralDoF [] X Y Z = Ok (CXY, CX, CY, PZ, c) /\
    forall before after A B C, Forall keeps_context after ->
      answer D StructuralDoF (before ++ SetCPMFs (Some CXY) (Some CX) (Some CY) (Some PZ) :: after) A B C = Ok (Some (structural_dof D X Y Z)).
Proof.
  intros D X Y Z HR (HN & Hc). destruct (plain_tables_ok D HR StructuralDoF [] X Y Z HN Hc) as (CXY & CX & CY & PZ & c & E & Hg & Hd & _); [intros ? ? ? _ H; exfalso; apply H; reflexivity|].
  exists CXY, CX, CY, PZ, c. split; [exact E|]. intros before after A B C Hk.
  assert (K : forall ctx, last_context ctx after = ctx).
  { induction Hk as [|a l Ha Hl IH]; intros ctx; [reflexivity|]. destruct a; try contradiction; apply IH. }
  assert (L : forall l ctx, last_context ctx (l ++ SetCPMFs (Some CXY) (Some CX) (Some CY) (Some PZ) :: after) = (Some CX, Some CY, Some PZ)).
  { induction l as [|a l IH]; intros ctx; cbn [app last_context]; [apply K|]. destruct a; apply IH. }
  rewrite (C73_structural_last_tables _ _ A B C A B C _ _ _ (L before _)). unfold answer. cbn [run step fst new_calc with_context k_kind].
  match goal with |- snd (structural_calc ?o) = _ => rewrite (structural_calc_full o CX CY PZ eq_refl eq_refl eq_refl) end.
  destruct Hg as (zrv & Hs & _ & _ & H3 & H4 & H5). destruct (structural_DoF_ok D HR _ _ _ _ _ _ H3 H4 H5) as (CX' & CY' & Ed & _). rewrite Ed. cbn [fst].
  f_equal. f_equal. rewrite structural_dof_sdof. f_equal. apply sdof_same; [apply same_info_refl..|exact Hs].
Qed.
Print Assumptions C73_structural_of_the_tables.

(** the cached ones: the answer for X, Y given Z is that of the data behind the first table of
    exactly these variables that was ever handed over — resets and later tables, of whatever data, change
    nothing — and there is none before *)
Theorem C73_cached_first_table : forall D calls before P after D1 cols X Y Z, Forall some_table (offered calls) ->
  offered calls = before ++ P :: after -> table_of D1 cols P -> NoDup (X :: Y :: Z) -> same_columns cols (X :: Y :: Z) ->
  (forall P' D' cols', In P' before -> table_of D' cols' P' -> ~ same_columns cols' (X :: Y :: Z)) ->
  answer D CachedStructuralDoF calls X Y Z = Ok (Some (structural_dof D1 X Y Z)).
Proof.
  intros D calls before P after D1 cols X Y Z Hall E HP HN Hs Hno. unfold answer. cbn [step]. rewrite run_kind. cbn [new_calc k_kind snd].
  rewrite (run_cached D calls (new_calc CachedStructuralDoF) eq_refl Hall). cbn [new_calc k_cache]. rewrite E in *. rewrite cached_from_app. cbn [cached_from].
  apply Forall_app in Hall as (Hb & _). set (c := cached_from [] before).
  assert (Ek : frozenset (X :: Y :: Z) = frozenset cols) by (apply frozenset_eq; intros x; symmetry; apply Hs).
  assert (Ec : assoc list_eqb (frozenset cols) c = None).
  { unfold c. rewrite cached_from_others; [reflexivity|exact Hb|]. intros P' D' cols' Hin HP' Heq. apply (Hno P' D' cols' Hin HP').
    intros x. rewrite <- (Hs x). symmetry. apply frozenset_eq. exact Heq. }
  destruct (cache_table D1 cols P c HP) as (c' & P' & E1 & _ & _ & Hv). rewrite E1. specialize (Hv Ec X Y Z HN Hs).
  assert (Hin : assoc list_eqb (frozenset (X :: Y :: Z)) c' <> None).
  { intros Hn. unfold cached_DoF in Hv. rewrite Hn in Hv. discriminate. }
  rewrite (cached_ext _ c' X Y Z (cached_from_keeps after c' _ Hin)), Hv. reflexivity.
Qed.
Print Assumptions C73_cached_first_table.

Theorem C73_cached_unknown : forall D calls X Y Z, Forall some_table (offered calls) ->
  (forall P' D' cols', In P' (offered calls) -> table_of D' cols' P' -> ~ same_columns cols' (X :: Y :: Z)) ->
  answer D CachedStructuralDoF calls X Y Z = Err KeyError.
Proof.
  intros D calls X Y Z Hall Hno. unfold answer. cbn [step]. rewrite run_kind. cbn [new_calc k_kind snd].
  rewrite (run_cached D calls (new_calc CachedStructuralDoF) eq_refl Hall). cbn [new_calc k_cache]. unfold cached_DoF.
  rewrite cached_from_others; [reflexivity|exact Hall|]. intros P' D' cols' Hin HP' Heq. apply (Hno P' D' cols' Hin HP'). intros x. symmetry. apply (frozenset_eq (X :: Y :: Z) cols'). exact Heq.
Qed.
Print Assumptions C73_cached_unknown.

(** an answer once given is given forever, whatever tables follow *)
Theorem C73_cached_stable : forall D calls calls' X Y Z d, answer D CachedStructuralDoF calls X Y Z = Ok (Some d) ->
  answer D CachedStructuralDoF (calls ++ calls') X Y Z = Ok (Some d).
Proof.
  intros D calls calls' X Y Z d H. unfold answer in *. cbn [step] in *. rewrite run_kind in *. cbn [new_calc k_kind snd] in *. rewrite run_app. set (o := run D (new_calc CachedStructuralDoF) calls) in *.
  rewrite (cached_ext (k_cache (run D o calls')) (k_cache o) X Y Z); [exact H|]. apply run_cache_keeps. intros Hn. unfold cached_DoF in H. rewrite Hn in H. discriminate.
Qed.
Print Assumptions C73_cached_stable.

(** the calls that a G-test makes for one test, on a calculator with any past, give the degrees of
    freedom that the test uses (GTest_Model.v) *)
Theorem C73_as_a_G_test_calls : forall D o P1 P2 P3 P4 Ps' CXY CX CY PZ c' d CX' CY' X Y Z,
  set_context_pmfs (k_kind o) (k_cache o) (present [P1; P2; P3; P4]) = Ok (c', Ps') -> calculate_DoF D (k_kind o) c' X Y Z CX CY PZ = Ok (d, CX', CY') ->
  snd (step D (run D o ([Reset; SetPMFs P1 P2 P3 P4; SetVariables X Y Z] ++
                        (if requires_cpmfs (k_kind o) then [SetCPMFs (Some CXY) (Some CX) (Some CY) (Some PZ)] else []))) (Calculate X Y Z)) = Ok (Some d).
Proof.
  intros D o P1 P2 P3 P4 Ps' CXY CX CY PZ c' d CX' CY' X Y Z Hs Hd. rewrite run_app. set (o1 := run D o [Reset; SetPMFs P1 P2 P3 P4; SetVariables X Y Z]).
  assert (Hk : k_kind o1 = k_kind o) by apply run_kind.
  assert (Hc : k_kind o = CachedStructuralDoF -> k_cache o1 = c').
  { intros Ek. unfold o1. cbn [run step fst]. change (k_kind (with_context o None None None)) with (k_kind o). rewrite Ek.
    assert (G : forall l c Qs, set_context_pmfs CachedStructuralDoF c (present l) = Ok (c', Qs) -> fst (cache_all c l) = c').
    { induction l as [|[P|] l IH]; intros c Qs H; cbn [present flat_map app cache_all] in *; [cbn in H; injection H as -> _; reflexivity| |apply (IH c Qs H)].
      cbn [set_context_pmfs] in H. destruct (cache_DoFs c P) as [[c1 Q1]|e]; [|discriminate]. cbn [bind] in H.
      change (flat_map _ l) with (present l) in H. destruct (set_context_pmfs CachedStructuralDoF c1 (present l)) as [[c2 Q2]|e] eqn:E2; [|discriminate].
      cbn [bind] in H. injection H as -> _. exact (IH c1 Q2 E2). }
    rewrite Ek in Hs. specialize (G [P1; P2; P3; P4] (k_cache o) Ps' Hs). 
    change (k_cache (with_context o None None None)) with (k_cache o). destruct (cache_all (k_cache o) [P1; P2; P3; P4]) as [c e]. exact G. }
  clearbody o1. destruct (k_kind o) eqn:Ek; cbn [requires_cpmfs run step fst]; rewrite ?Hk.
  - cbn [calculate_DoF] in Hd. destruct (unadjusted_DoF D X Y Z); [|discriminate]. cbn [bind snd] in *. injection Hd as <- _ _. reflexivity.
  - cbn [with_context k_kind]. rewrite Hk. cbn [calculate_DoF] in Hd. injection Hd as Hd.
    rewrite (structural_calc_full (with_context o1 (Some CX) (Some CY) (Some PZ)) CX CY PZ eq_refl eq_refl eq_refl), Hd. reflexivity.
  - rewrite (Hc eq_refl). cbn [calculate_DoF] in Hd. destruct (cached_DoF c' X Y Z); [|discriminate]. cbn [bind snd] in *. injection Hd as <- _ _. reflexivity.
Qed.
Print Assumptions C73_as_a_G_test_calls.

(** ** Concrete cases *)
(** three columns, the first two equal, the third constant *)
Definition D3 : dataset := {| rows := [[0; 0; 5]; [1; 1; 5]; [2; 2; 5]]; ncols := 3; colvals := fun c => Some (if (c <? 2)%nat then [0; 1; 2] else [5; 6]); threshold := 0 |}.
Lemma D3_test X Y Z : NoDup (X :: Y :: Z) -> (forall c, In c (X :: Y :: Z) -> (c < 3)%nat) -> wf_test D3 (X, Y, Z).
Proof. intros H1 H2. exact (conj H1 H2). Qed.
Example C73_example : structural_dof D3 0 1 [] = 4 /\ structural_dof D3 0 2 [] = 1 /\ unadjusted_dof D3 0 1 [2%nat] = 8 /\ structural_dof D3 0 1 [2%nat] = 4 /\  structural_dof Dxy 0 1 [] = 1.
Proof. vm_compute. repeat split. Qed.

(** the variables named in the question do not matter: with the tables of the columns 0 and 1 set, the
    answer for the columns 0 and 2 is 4 instead of 1 *)
Theorem C73_asked_variables_refuted : ~ (forall D X Y Z X' Y' Z' CXY CX CY PZ c, rows D <> [] -> wf_test D (X, Y, Z) -> wf_test D (X', Y', Z') ->
  plain_tables D StructuralDoF [] X Y Z = Ok (CXY, CX, CY, PZ, c) ->
  answer D StructuralDoF [SetVariables X' Y' Z'; SetCPMFs (Some CXY) (Some CX) (Some CY) (Some PZ)] X' Y' Z' = Ok (Some (structural_dof D X' Y' Z'))).
Proof.
  intros H. assert (W1 : wf_test D3 (0%nat, 1%nat, [])) by (apply D3_test; [repeat constructor; cbn; intuition discriminate|intros c [<-|[<-|[]]]; lia]).
  assert (W2 : wf_test D3 (0%nat, 2%nat, [])) by (apply D3_test; [repeat constructor; cbn; intuition discriminate|intros c [<-|[<-|[]]]; lia]).
  assert (HR : rows D3 <> []) by discriminate.
  destruct (C73_structural_of_the_tables D3 0 1 [] HR W1) as (CXY & CX & CY & PZ & c & E & Ha).
  pose proof (H D3 0%nat 1%nat [] 0%nat 2%nat [] CXY CX CY PZ c HR W1 W2 E) as H1.
  pose proof (Ha [SetVariables 0 2 []] [] 0%nat 2%nat [] (Forall_nil _)) as H2. cbn [app] in H2. rewrite H2 in H1. clear -H1. vm_compute in H1. discriminate.
Qed.
Print Assumptions C73_asked_variables_refuted.

(** a table of other data for the same variables, handed over first, decides: 1 (of [Dxy]) instead of 4 *)
Lemma table_two D : ncols D <> O -> ncols D <> 1%nat -> rows D <> [] -> exists P, table_of D [0%nat; 1%nat] P.
Proof.
  intros H0 H1 HR. assert (Hc : forall c, In c [0%nat; 1%nat] -> (c < ncols D)%nat) by (intros c [<-|[<-|[]]]; lia).
  destruct (get_variables_ok D [0%nat; 1%nat]) as (v & Ev & Ov & _); [discriminate|exact Hc|]. destruct (plain_pmf D HR v _ Ov) as (P & EP & _).
  exists P. split; [exact HR|]. split; [discriminate|]. split; [repeat constructor; cbn; intuition discriminate|]. split; [exact Hc|]. exists v. auto.
Qed.
Theorem C73_latest_table_refuted : ~ (forall D P P' X Y cols, table_of D cols P -> some_table P' -> NoDup [X; Y] -> same_columns cols [X; Y] ->
  answer D CachedStructuralDoF [SetPMFs (Some P') None None None; Reset; SetPMFs (Some P) None None None] X Y [] = Ok (Some (structural_dof D X Y []))).
Proof.
  intros H. destruct (table_two D3) as (P & HP); try discriminate. destruct (table_two Dxy) as (P' & HP'); try discriminate.
  assert (HN : NoDup [0%nat; 1%nat]) by (repeat constructor; cbn; intuition discriminate). assert (Hs : same_columns [0%nat; 1%nat] [0%nat; 1%nat]) by (intros c; reflexivity).
  assert (HP2 : some_table P') by (exists Dxy, [0%nat; 1%nat]; exact HP').
  pose proof (H D3 P P' 0%nat 1%nat _ HP HP2 HN Hs) as H1.
  rewrite (C73_cached_first_table D3 _ [] P' [P] Dxy [0%nat; 1%nat] 0%nat 1%nat []) in H1; try assumption.
  - vm_compute in H1. discriminate.
  - apply Forall_cons; [exists Dxy, [0%nat; 1%nat]; exact HP'|]. apply Forall_cons; [exists D3, [0%nat; 1%nat]; exact HP|apply Forall_nil].
  - reflexivity.
  - intros ? ? ? [].
Qed.
Print Assumptions C73_latest_table_refuted.
