(** Theorems about processes that keep their AD-trees in files. *)
From Coq Require Import Reals Lra.
From Verif Require Import Base AD_Model AD_Query_Model AD_Spec AD_Proofs MB_Model GTest_Model GTest_Spec GTest_Proofs GTest_Properties
  Shared_Model Shared_Spec Shared_Proofs Shared_Properties ADFile_Model ADFile_Spec ADFile_Proofs.
Open Scope Z_scope.

(** C72: processes on one table, one after the other, with any classes and thresholds of tree, any
    kinds of degrees of freedom, any load and save paths, and killed anywhere: a process answers
    every test as it should, unless it is itself killed while it saves the tree that it built, or
    an earlier process was killed in the middle of a write to the path that it loads *)
Theorem C72_any_sequence_of_processes : forall D ps, table_ok D -> Forall (process_on D) ps ->
  length (fst (run_processes no_trees ps)) = length ps /\
  forall i p r, nth_error ps i = Some p -> nth_error (fst (run_processes no_trees ps)) i = Some r ->
    answers_for D p r \/
    (r = KilledBuilding /\ pr_save p <> None /\ (pr_writes p < 2)%nat) \/
    (r = CouldNotStart PickleErr /\ exists j q k, (j < i)%nat /\ nth_error ps j = Some q /\ pr_load p = Some k /\ may_tear k q).
Proof.
  intros D ps HD Hps. split; [apply run_processes_length|]. intros i p r Hp Hr.
  destruct (run_processes_ok D ps HD no_trees Hps (fun _ => Logic.I)) as (_ & _ & C).
  destruct (C i p r Hp Hr) as [H|[H|(H1 & k & Ek & [H2|(j & q & Hj & Hq & Hm)])]]; [auto|auto|discriminate|].
  right; right. split; [exact H1|]. exists j, q, k. auto.
Qed.
Print Assumptions C72_any_sequence_of_processes.

(** hence without kills in the middle of a write every process that is not itself killed answers *)
Theorem C72_without_torn_writes : forall D ps, table_ok D -> Forall (process_on D) ps -> (forall q k, In q ps -> ~ may_tear k q) ->
  forall i p r, nth_error ps i = Some p -> (2 <= pr_writes p)%nat -> nth_error (fst (run_processes no_trees ps)) i = Some r -> answers_for D p r.
Proof.
  intros D ps HD Hps Hno i p r Hp Hw Hr. destruct (C72_any_sequence_of_processes D ps HD Hps) as (_ & H).
  destruct (H i p r Hp Hr) as [H1|[(_ & _ & H1)|(_ & j & q & k & _ & Hq & _ & Hm)]]; [exact H1|lia|].
  exfalso. apply (Hno q k); [eapply nth_error_In; exact Hq|exact Hm].
Qed.
Print Assumptions C72_without_torn_writes.

(** a file that was cut off is never repaired when the processes load the tree from the path to
    which they save it: each one that loads it fails *)
Theorem C72_torn_file_stays : forall ps k fs, fs k = Torn -> Forall (fun p => pr_save p = Some k -> pr_load p = Some k) ps ->
  snd (run_processes fs ps) k = Torn /\
  forall i p, nth_error ps i = Some p -> pr_load p = Some k -> nth_error (fst (run_processes fs ps)) i = Some (CouldNotStart PickleErr).
Proof.
  induction ps as [|p ps IH]; intros k fs Hk Hps; [split; [exact Hk|intros [|i]; discriminate]|].
  inversion Hps as [|? ? Hp Hps']; subst. cbn [run_processes]. destruct (run_process fs p) as [fs1 r] eqn:E.
  assert (Hone : fs1 k = Torn /\ (pr_load p = Some k -> r = CouldNotStart PickleErr)).
  { unfold run_process in E. destruct (opened fs p) as [| |c] eqn:Eop.
    - assert (Hn : pr_save p <> Some k). { intros Hs. unfold opened in Eop. rewrite (Hp Hs), Hk in Eop. discriminate. }
      assert (Hl : pr_load p <> Some k). { intros Hl. unfold opened in Eop. rewrite Hl, Hk in Eop. discriminate. }
      assert (Hw : forall n c fs, do_writes n (save_steps (pr_save p) c) fs k = fs k).
      { intros n c fs0. rewrite writes_at. destruct (pr_save p) as [i|]; [|reflexivity]. destruct (Nat.eqb_spec k i); [subst; exfalso; apply Hn; reflexivity|reflexivity]. }
      split; [|intros Hl2; contradiction]. destruct (build_tree _ _) as [t|e]; [|injection E as <- <-; exact Hk].
      destruct (_ <? _)%nat; [injection E as <- <-; rewrite Hw; exact Hk|]. unfold use_tree in E. cbn [tc_data tc_dyn tc_root] in E.
      destruct (start _ _ _ _ _ _) as [st|e]; [|injection E as <- <-; rewrite Hw; exact Hk].
      destruct (tests_on_tree _ _ _ _ _ _ _) as [[os st']|e]; injection E as <- <-; rewrite !Hw; exact Hk.
    - injection E as <- <-. split; [exact Hk|reflexivity].
    - assert (Hl : pr_load p <> Some k). { intros Hl. unfold opened in Eop. rewrite Hl, Hk in Eop. discriminate. }
      assert (Hn : pr_save p <> Some k) by (intros Hs; apply Hl, Hp, Hs).
      assert (Hw : forall n c fs, do_writes n (save_steps (pr_save p) c) fs k = fs k).
      { intros n c0 fs0. rewrite writes_at. destruct (pr_save p) as [i|]; [|reflexivity]. destruct (Nat.eqb_spec k i); [subst; exfalso; apply Hn; reflexivity|reflexivity]. }
      split; [|intros Hl2; contradiction]. unfold use_tree in E.
      destruct (start _ _ _ _ _ _) as [st|e]; [|injection E as <- <-; exact Hk].
      destruct (tests_on_tree _ _ _ _ _ _ _) as [[os st']|e]; injection E as <- <-; rewrite ?Hw; exact Hk. }
  destruct Hone as (H1 & H2). destruct (IH k fs1 H1 Hps') as (A & B). destruct (run_processes fs1 ps) as [rs fs2]. cbn [fst snd] in *.
  split; [exact A|]. intros [|i] q Hq Hl; cbn [nth_error] in *; [injection Hq as <-; rewrite H2 by exact Hl; reflexivity|apply (B i q Hq Hl)].
Qed.
Print Assumptions C72_torn_file_stays.

(** a process that loads nothing and saves there replaces it, whatever happened before: the next
    one answers *)
Theorem C72_rebuilt : forall D ps p q k, table_ok D -> Forall (process_on D) (ps ++ [p; q]) ->
  pr_load p = None -> pr_save p = Some k -> (4 <= pr_writes p)%nat -> pr_load q = Some k ->
  exists r, nth_error (fst (run_processes no_trees (ps ++ [p; q]))) (Datatypes.S (length ps)) = Some r /\ answers_for D q r.
Proof.
  intros D ps p q k HD Hall Hl Hs Hw Hq. apply Forall_app in Hall as (Hps & Hpq). inversion Hpq as [|? ? Hp Hq']; subst. inversion Hq' as [|? ? Hqq _]; subst.
  destruct (run_processes_ok D ps HD no_trees Hps (fun _ => Logic.I)) as (A & _ & _).
  pose proof (run_processes_length ps no_trees) as Hlen. rewrite run_processes_app. destruct (run_processes no_trees ps) as [rs fs]. cbn [fst snd] in *.
  cbn [run_processes]. destruct (run_process_ok D fs p HD Hp A) as (fs1 & r1 & E1 & A1 & _ & _ & F1). rewrite E1.
  destruct F1 as (_ & F1); [unfold opened; rewrite Hl; discriminate|exact Hw|]. destruct (F1 k Hs) as (c & Ec).
  destruct (run_process_ok D fs1 q HD Hqq A1) as (fs2 & r2 & E2 & _ & R2 & _). rewrite E2. cbn [fst].
  exists r2. rewrite nth_error_app2 by lia. rewrite Hlen. replace (Datatypes.S (length ps) - length ps)%nat with 1%nat by lia. split; [reflexivity|].
  assert (Eo : opened fs1 q = Saved c) by (unfold opened; rewrite Hq; exact Ec).
  destruct R2 as [H|[(H & _ & _)|(_ & H & _)]]; [exact H| |congruence].
  exfalso. unfold run_process in E2. rewrite Eo in E2. unfold use_tree in E2. destruct (start _ _ _ _ _ _) as [st|e]; [|injection E2 as _ <-; discriminate].
  destruct (tests_on_tree _ _ _ _ _ _ _) as [[os st']|e]; injection E2 as _ <-; discriminate.
Qed.
Print Assumptions C72_rebuilt.

(** the same process with another class of tree and another threshold *)
Definition with_class (p : process) (dyn : bool) (th : Z) : process :=
  {| pr_data := pr_data p; pr_params := pr_params p; pr_kind := pr_kind p; pr_dynamic := dyn; pr_threshold := th;
     pr_load := pr_load p; pr_save := pr_save p; pr_tests := pr_tests p; pr_writes := pr_writes p |}.
(** once the file is there, the class and the threshold that the parameters ask for are ignored: the
    reports and the files are the same, and what is saved is again a tree of the file's class and
    threshold *)
Theorem C72_parameters_of_the_file : forall D ps p k c dyn th, table_ok D -> Forall (process_on D) ps -> process_on D p ->
  pr_load p = Some k -> snd (run_processes no_trees ps) k = Saved c ->
  run_process (snd (run_processes no_trees ps)) (with_class p dyn th) = run_process (snd (run_processes no_trees ps)) p /\
  forall j, pr_save p = Some j -> (2 <= pr_writes p)%nat ->
    exists c', fst (run_process (snd (run_processes no_trees ps)) p) j = Saved c' /\ tc_dyn c' = tc_dyn c /\ threshold (tc_data c') = threshold (tc_data c) /\ rows (tc_data c') = rows D.
Proof.
  intros D ps p k c dyn th HD Hps Hp Hl Ek. destruct (run_processes_ok D ps HD no_trees Hps (fun _ => Logic.I)) as (A & _ & _).
  set (fs := snd (run_processes no_trees ps)) in *. clearbody fs.
  assert (Eo : opened fs p = Saved c) by (unfold opened; rewrite Hl; exact Ek).
  split.
  - unfold run_process. change (opened fs (with_class p dyn th)) with (opened fs p). rewrite Eo. reflexivity.
  - intros j Hs Hw. unfold run_process. rewrite Eo. assert (Hc : tree_for D c) by (specialize (A k); rewrite Ek in A; exact A).
    destruct Hp as (E & Ho & _ & Ht). destruct (use_tree_ok D fs (pr_writes p) p c HD Hc Ho Ht) as (os & c' & Eu & Hc' & E1 & E2 & _); [intros _; rewrite E; reflexivity|].
    rewrite Eu. cbn [fst]. exists (pickled c'). rewrite writes_at, Hs, Nat.eqb_refl. destruct (pr_writes p) as [|[|n]]; [lia|lia|].
    split; [reflexivity|]. split; [exact E1|]. split; [cbn [pickled tc_data]; rewrite E2; reflexivity|]. cbn [pickled tc_data]. destruct Hc' as (th' & E3 & _). rewrite E3. reflexivity.
Qed.
Print Assumptions C72_parameters_of_the_file.

(** a process that finds no file builds the tree as the parameters ask, and that is what the file
    holds afterwards *)
Theorem C72_built_as_asked : forall D ps p k, table_ok D -> Forall (process_on D) ps -> process_on D p ->
  (forall j, pr_load p = Some j -> snd (run_processes no_trees ps) j = Absent) -> pr_save p = Some k -> (pr_writes p = 2 \/ 4 <= pr_writes p)%nat ->
  exists c, fst (run_process (snd (run_processes no_trees ps)) p) k = Saved c /\ tc_dyn c = pr_dynamic p /\ threshold (tc_data c) = pr_threshold p /\ rows (tc_data c) = rows D.
Proof.
  intros D ps p k HD Hps Hp Hl Hs Hw. set (fs := snd (run_processes no_trees ps)) in *. clearbody fs.
  assert (Eo : opened fs p = Absent) by (unfold opened; destruct (pr_load p) as [j|]; [apply Hl; reflexivity|reflexivity]).
  unfold run_process. rewrite Eo. destruct Hp as (E & Ho & Hth & Ht).
  assert (W : wf_for (with_threshold (pr_data p) (pr_threshold p)) (WithADTree (pr_dynamic p))) by (rewrite E; apply wf_threshold; assumption).
  destruct W as (W1 & W2 & W3 & W4). destruct (build_tree_ok _ W1 (pr_dynamic p) W4) as (t & Et & Hrt). rewrite Et.
  set (c := {| tc_data := with_threshold (pr_data p) (pr_threshold p); tc_dyn := pr_dynamic p; tc_root := t |}).
  assert (Hc : tree_for D c). { exists (pr_threshold p). subst c. cbn [tc_data tc_dyn tc_root]. rewrite E in *. auto. }
  rewrite save_length, Hs. destruct (Nat.ltb_spec (pr_writes p) 2) as [H|_]; [lia|].
  match goal with |- context [use_tree ?f ?n p c] => destruct (use_tree_ok D f n p c HD Hc Ho Ht) as (os & c' & Eu & Hc' & E1 & E2 & _) end; [intros _; rewrite E; reflexivity|].
  rewrite Eu. cbn [fst]. rewrite !writes_at, Hs, Nat.eqb_refl.
  destruct Hw as [-> | Hw]; [cbn [Nat.sub]; exists (pickled c)|destruct (pr_writes p) as [|[|[|[|n]]]]; try lia; cbn [Nat.sub]; exists (pickled c')].
  - split; [reflexivity|]. split; [reflexivity|]. split; [reflexivity|]. cbn [pickled tc_data c with_threshold rows]. rewrite E. reflexivity.
  - split; [reflexivity|]. cbn [pickled tc_data tc_dyn]. rewrite E1, E2. split; [reflexivity|]. split; [reflexivity|]. cbn [c tc_data with_threshold rows]. rewrite E. reflexivity.
Qed.
Print Assumptions C72_built_as_asked.

(** a process whose own table is [D] but which loads a file written by a process on [Dt] answers for
    [Dt]: nothing in the file or the process is compared *)
Theorem C72_file_of_another_dataset : forall Dt p q k, table_ok Dt -> process_on Dt p -> pr_load p = None -> pr_save p = Some k -> (4 <= pr_writes p)%nat ->
  pr_load q = Some k -> order_ok (pr_params q) -> Forall (wf_test Dt) (pr_tests q) -> (pr_kind q = UnadjustedDoF -> colvals (pr_data q) = colvals Dt) ->
  exists r1 r2, fst (run_processes no_trees [p; q]) = [r1; r2] /\ answers_for Dt q r2.
Proof.
  intros Dt p q k HD Hp Hl Hs Hw Hq Ho Ht Hk. cbn [run_processes].
  destruct (run_process_ok Dt no_trees p HD Hp (fun _ => Logic.I)) as (fs1 & r1 & E1 & A1 & _ & _ & F1). rewrite E1.
  destruct F1 as (_ & F1); [unfold opened; rewrite Hl; discriminate|exact Hw|]. destruct (F1 k Hs) as (c & Ec).
  unfold run_process. assert (Eo : opened fs1 q = Saved c) by (unfold opened; rewrite Hq; exact Ec). rewrite Eo.
  assert (Hc : tree_for Dt c) by (specialize (A1 k); rewrite Ec in A1; exact A1).
  destruct (use_tree_ok Dt fs1 (pr_writes q) q c HD Hc Ho Ht Hk) as (os & c' & Eu & _ & _ & _ & H2). rewrite Eu. cbn [fst].
  exists r1, (Answers os). split; [reflexivity|]. exists os. split; [reflexivity|exact H2].
Qed.
Print Assumptions C72_file_of_another_dataset.

(** ** Concrete cases *)
Definition proc (D : dataset) (kind : dof_kind) (dyn : bool) (th : Z) (load save : option nat) (tests : list test) (writes : nat) : process :=
  {| pr_data := D; pr_params := p_sh; pr_kind := kind; pr_dynamic := dyn; pr_threshold := th; pr_load := load; pr_save := save; pr_tests := tests; pr_writes := writes |}.
Lemma table_Dxy : table_ok Dxy.
Proof. destruct (Dxy_wf (WithADTree true)) as (A & B & C & _). exact (conj A (conj B C)). Qed.
Lemma table_Dind : table_ok Dind.
Proof. destruct (Dind_wf (WithADTree true)) as (A & B & C & _). exact (conj A (conj B C)). Qed.
Lemma proc_on D kind dyn th load save tests writes : th <= Z.of_nat (length (rows D)) -> Forall (wf_test D) tests -> process_on D (proc D kind dyn th load save tests writes).
Proof. intros H1 H2. split; [reflexivity|]. split; [exact p_sh_ok|]. split; [exact H1|exact H2]. Qed.

(** six processes on one table: one is killed while it writes the shared file at the end, the next
    cannot start, one that loads nothing replaces the file, the next answers *)
Definition ps_ex : list process :=
  [proc Dind StructuralDoF true 0 (Some 0%nat) (Some 0%nat) [(0%nat, 1%nat, [])] 4; proc Dind UnadjustedDoF false 2 (Some 0%nat) (Some 0%nat) [(1%nat, 0%nat, [])] 1;
   proc Dind CachedStructuralDoF false 1 (Some 0%nat) (Some 0%nat) [(0%nat, 1%nat, [])] 4; proc Dind StructuralDoF false 1 None (Some 0%nat) [(0%nat, 1%nat, [])] 4;
   proc Dind UnadjustedDoF true 0 (Some 0%nat) None [(0%nat, 1%nat, []); (1%nat, 0%nat, [])] 0; proc Dind StructuralDoF false 0 (Some 1%nat) (Some 1%nat) [(0%nat, 1%nat, [])] 1].
Example C72_example : table_ok Dind /\ Forall (process_on Dind) ps_ex /\ may_tear 0 (nth 1 ps_ex (nth 0 ps_ex (proc Dind StructuralDoF true 0 None None [] 0))) /\
  exists os0 os1 os3 os4, fst (run_processes no_trees ps_ex) = [Answers os0; Answers os1; CouldNotStart PickleErr; Answers os3; Answers os4; KilledBuilding] /\
    length os4 = 2%nat.
Proof.
  split; [exact table_Dind|].
  assert (Hps : Forall (process_on Dind) ps_ex).
  { assert (W1 : wf_test Dind (0%nat, 1%nat, [])) by (apply t01_wf; reflexivity).
    assert (W2 : wf_test Dind (1%nat, 0%nat, [])) by (split; [repeat constructor; cbn; intuition discriminate|intros c [<-|[<-|[]]]; cbn; lia]).
    unfold ps_ex. repeat (apply Forall_cons; [apply proc_on; [cbn; lia|repeat (apply Forall_cons; [assumption|]); apply Forall_nil]|]). apply Forall_nil. }
  split; [exact Hps|]. split; [split; [reflexivity|left; reflexivity]|].
  set (P := ps_ex) in *. unfold ps_ex in P. subst P.
  repeat match goal with H : Forall _ (_ :: _) |- _ => inversion H; clear H; subst end.
  assert (F0 : forall k, file_ok Dind (no_trees k)) by (intros; exact Logic.I).
  cbn [run_processes].
  match goal with |- context [run_process no_trees ?p] => destruct (run_process_ok Dind no_trees p table_Dind ltac:(assumption) F0) as (f1 & r1 & E1 & A1 & _ & _ & G1) end.
  rewrite E1. destruct G1 as ((o1 & -> & L1) & G1); [discriminate|cbn; lia|]. destruct (G1 0%nat eq_refl) as (c1 & C1). cbv iota beta.
  assert (T2 : forall q, process_on Dind q -> opened f1 q = Saved c1 -> pr_writes q = 1%nat -> pr_save q = Some 0%nat -> exists f os, run_process f1 q = (f, Answers os) /\ f 0%nat = Torn /\ forall k, file_ok Dind (f k)).
  { intros q (Eq & Ho & _ & Ht) Eo Ew Es. unfold run_process. rewrite Eo. assert (Hc : tree_for Dind c1) by (specialize (A1 0%nat); rewrite C1 in A1; exact A1).
    destruct (use_tree_ok Dind f1 (pr_writes q) q c1 table_Dind Hc Ho Ht) as (os & c' & Eu & Hc' & _); [intros _; rewrite Eq; reflexivity|].
    rewrite Eu. eexists _, _. split; [reflexivity|]. rewrite Ew, Es. split; [rewrite writes_at; reflexivity|apply writes_ok; assumption]. }
  match goal with |- context [run_process f1 ?p] => destruct (T2 p ltac:(assumption) C1 eq_refl eq_refl) as (f2 & o2 & E2 & Z2 & A2) end.
  rewrite E2. cbv iota beta.
  assert (T3 : forall q, pr_load q = Some 0%nat -> run_process f2 q = (f2, CouldNotStart PickleErr)).
  { intros q Hq. unfold run_process, opened. rewrite Hq, Z2. reflexivity. }
  rewrite T3 by reflexivity.
  match goal with |- context [run_process f2 ?p] => destruct (run_process_ok Dind f2 p table_Dind ltac:(assumption) A2) as (f4 & r4 & E4 & A4 & _ & _ & G4) end.
  rewrite E4. destruct G4 as ((o4 & -> & L4) & G4); [discriminate|cbn; lia|]. destruct (G4 0%nat eq_refl) as (c4 & C4). cbv iota beta.
  match goal with |- context [run_process f4 ?p] => destruct (run_process_ok Dind f4 p table_Dind ltac:(assumption) A4) as (f5 & r5 & E5 & A5 & HH5 & _ & _); set (q5 := p) in * end.
  rewrite E5. assert (R5 : answers_for Dind q5 r5).
  { destruct HH5 as [HH|[(_ & HH & _)|(_ & HH & _)]]; [exact HH|exfalso; apply HH; reflexivity|]. change (opened f4 q5) with (f4 0%nat) in HH. congruence. }
  destruct R5 as (o5 & -> & L5). cbv iota beta.
  assert (N1 : f5 1%nat = Absent).
  { assert (K : forall n c f, do_writes n (save_steps (Some 0%nat) c) f 1%nat = f 1%nat) by (intros; rewrite writes_at; reflexivity).
    assert (K0 : forall f q f' r, pr_save q = Some 0%nat \/ pr_save q = None -> run_process f q = (f', r) -> f' 1%nat = f 1%nat).
    { intros f q f' r Hs E. assert (K2 : forall n c f, do_writes n (save_steps (pr_save q) c) f 1%nat = f 1%nat) by (intros; rewrite writes_at; destruct Hs as [-> | ->]; reflexivity).
      unfold run_process, use_tree in E. destruct (opened f q); [| |].
      - destruct (build_tree _ _) as [t|e]; [|injection E as <- _; reflexivity]. destruct (_ <? _)%nat; [injection E as <- _; apply K2|].
        destruct (start _ _ _ _ _ _) as [st|e]; [|injection E as <- _; apply K2]. destruct (tests_on_tree _ _ _ _ _ _ _) as [[os st']|e]; injection E as <- _; rewrite ?K2; reflexivity.
      - injection E as <- _; reflexivity.
      - destruct (start _ _ _ _ _ _) as [st|e]; [|injection E as <- _; reflexivity]. destruct (tests_on_tree _ _ _ _ _ _ _) as [[os st']|e]; injection E as <- _; rewrite ?K2; reflexivity. }
    rewrite (K0 f4 q5 f5 _ (or_intror eq_refl) E5). rewrite (fun h => K0 f2 _ f4 _ h E4) by (left; reflexivity).
    rewrite (fun h => K0 f1 _ f2 _ h E2) by (left; reflexivity). rewrite (fun h => K0 no_trees _ f1 _ h E1) by (left; reflexivity). reflexivity. }
  assert (E6 : exists f6, run_process f5 (proc Dind StructuralDoF false 0 (Some 1%nat) (Some 1%nat) [(0%nat, 1%nat, [])] 1) = (f6, KilledBuilding)).
  { unfold run_process, opened. cbn [proc pr_load]. rewrite N1. destruct (Dind_wf (WithADTree false)) as (W1 & _ & _ & W4). 
    destruct (build_tree_ok Dind W1 false W4) as (t & Et & _). change (build_tree (with_threshold _ _) _) with (build_tree Dind false). rewrite Et. eexists. reflexivity. }
  destruct E6 as (f6 & E6). rewrite E6. cbn [fst]. exists o1, o2, o4, o5. split; [reflexivity|].
  assert (LL : forall (A B : Type) (R : A -> B -> Prop) l l', Forall2 R l l' -> length l = length l') by (intros A B R l l' H; induction H; cbn; congruence).
  rewrite <- (LL _ _ _ _ _ L5). reflexivity.
Qed.

(** the file of [Dxy], whose columns are equal, read by a process on [Dind], whose columns are
    independent: the answer is that they are dependent *)
Theorem C72_own_data_refuted : ~ (forall Dt D p q k, table_ok Dt -> table_ok D -> process_on Dt p -> process_on D q ->
  pr_load p = None -> pr_save p = Some k -> (4 <= pr_writes p)%nat -> pr_load q = Some k ->
  exists r1 r2, fst (run_processes no_trees [p; q]) = [r1; r2] /\ answers_for D q r2).
Proof.
  intros H. set (t := (0%nat, 1%nat, []) : test).
  set (p := proc Dxy StructuralDoF false 0 None (Some 0%nat) [t] 4). set (q := proc Dind StructuralDoF false 0 (Some 0%nat) None [t] 4).
  assert (Hp : process_on Dxy p) by (apply proc_on; [cbn; lia|apply Forall_cons; [apply t01_wf; reflexivity|apply Forall_nil]]).
  assert (Hq : process_on Dind q) by (apply proc_on; [cbn; lia|apply Forall_cons; [apply t01_wf; reflexivity|apply Forall_nil]]).
  destruct (H Dxy Dind p q 0%nat table_Dxy table_Dind Hp Hq eq_refl eq_refl ltac:(cbn; lia) eq_refl) as (r1 & r2 & E & (os & -> & Hos)).
  destruct (C72_file_of_another_dataset Dxy p q 0%nat table_Dxy Hp eq_refl eq_refl ltac:(cbn; lia) eq_refl p_sh_ok) as (r1' & r2' & E' & (os' & -> & Hos')).
  { apply Forall_cons; [apply t01_wf; reflexivity|apply Forall_nil]. }
  { discriminate. }
  rewrite E in E'. injection E' as _ <-. inversion Hos as [|? o ? ? A1 A2]; subst. inversion Hos' as [|? ? ? ? B1 B2]; subst.
  unfold t, expected_outcome in A1, B1. cbn in A1, B1. rewrite (proj2 C66_other_dataset_example) in A1. rewrite C13_nonzero in B1.
  destruct o as [b|]; [|discriminate]. destruct A1 as (_ & A1), B1 as (_ & B1).
  assert (Hb : b = true) by (apply A1; lra). apply B1 in Hb. pose proof ln_lt_2. lra.
Qed.
Print Assumptions C72_own_data_refuted.
