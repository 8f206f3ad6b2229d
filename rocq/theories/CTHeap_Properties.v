(** C65: contingency trees as objects: what is shared and what a call may change.  Statements only. *)
From Verif Require Import Base AD_Model AD_Query_Model AD_Spec AD_Properties AD_Examples CTHeap_Model CTHeap_Spec CTHeap_Proofs.
Open Scope Z_scope.

(** ** building trees *)

(** whatever contingency trees exist already, a sequence of counts, count tables and pickling round
    trips gives the exact answers and leaves every existing tree object as it is *)
Theorem C65_tables_exact_beside_existing_trees : forall D dyn, wf_dataset D -> no_minus_one D -> threshold_ok D ->
  exists t, build_tree D dyn = Ok t /\
    forall h calls, Forall (wf_call D) calls ->
      exists answers t' h', h_do_calls D dyn calls t h = Ok (answers, t', h') /\ Forall2 (answer_exact D) calls answers /\
        forall x, (x < length h)%nat -> nth_error h' x = nth_error h x.
Proof.
  intros D dyn W M T.
  assert (H : exists t, build_tree D dyn = Ok t /\ forall calls, Forall (wf_call D) calls ->
      exists answers t', do_calls D dyn calls t = Ok (answers, t') /\ Forall2 (answer_exact D) calls answers).
  { destruct dyn; [apply C02_dynamic_tree_history_exact | apply C04_pickled_tree_history_exact]; assumption. }
  destruct H as (t & E & H). exists t. split; [exact E |]. intros h calls WC. destruct (H calls WC) as (answers & t' & EC & A).
  pose proof (do_calls_ok D dyn calls t h) as S. rewrite EC in S. destruct S as (h' & Eh & G). exists answers, t', h'.
  split; [exact Eh |]. split; [exact A |]. intros x Hx. apply G; [exact Hx | intros []].
Qed.
Print Assumptions C65_tables_exact_beside_existing_trees.

(** the tree built is made of new objects, each used once *)
Theorem C65_built_tree_shares_nothing : forall D dyn cols node h h' l node',
  h_mct D dyn cols node h = Ok (h', l, node') ->
  exists t fp, reads h' l t fp /\ NoDup fp /\ (forall x, In x fp -> (length h <= x)%nat) /\
    mct D dyn cols node = Ok (t, node') /\ forall x, (x < length h)%nat -> nth_error h' x = nth_error h x.
Proof.
  intros D dyn cols node h h' l node' E. pose proof (mct_ok D dyn cols node h) as B. unfold builds2 in B.
  destruct (mct D dyn cols node) as [[t n']|e]; [|congruence]. destruct B as (h1 & l1 & fp & E1 & (R & N) & F & G).
  rewrite E in E1. inversion E1; subst. exists t, fp. split; [exact R |]. split; [exact N |]. split; [exact F |]. split; [reflexivity |].
  intros x Hx. apply G; [exact Hx | intros []].
Qed.
Print Assumptions C65_built_tree_shares_nothing.

(** ** sum_in_place and subtract_in_place *)
Theorem C65_in_place_changes_only_the_left_tree : forall op fuel h la a fpa lb b fpb,
  owns h la a fpa -> well_keyed a -> reads h lb b fpb -> disjoint fpa fpb -> (height a <= fuel)%nat ->
  let '(h', r) := h_combine_in_place fuel op h la lb in
  (combinable a b -> r = Ok tt /\ exists a', owns h' la a' fpa /\ combination op a b a') /\
  (~ combinable a b -> r = Err TypeError) /\
  length h' = length h /\ (forall x, ~ In x fpa -> nth_error h' x = nth_error h x) /\ reads h' lb b fpb.
Proof.
  intros op fuel h la a fpa lb b fpb (R & N) WK RB DJ HH.
  pose proof (combine_in_place_ok op fuel h la a fpa lb b fpb R N RB DJ HH) as (L & F & C).
  destruct (h_combine_in_place fuel op h la lb) as [h' r]. cbn [fst snd] in *.
  assert (RB' : reads h' lb b fpb) by (eapply reads_frame; [exact RB |]; intros x Hx; apply F; intros Hy; exact (DJ x Hy Hx)).
  destruct (in_place_outcome op a b WK) as [((a' & E) & Y) | (E & Y)]; rewrite E in C.
  - destruct C as (-> & R'). split; [intros _; split; [reflexivity |]; exists a'; split; [split; assumption | apply in_place_combination, E] |].
    split; [intros NC; contradiction | auto].
  - split; [intros; contradiction |]. split; [auto | auto].
Qed.
Print Assumptions C65_in_place_changes_only_the_left_tree.

(** ... also when both are the same tree: then every count [n] becomes [op n n] *)
Theorem C65_in_place_with_itself : forall op fuel h la a fpa, owns h la a fpa -> well_keyed a -> (height a <= fuel)%nat ->
  let '(h', r) := h_combine_in_place fuel op h la la in
  (combinable a a -> r = Ok tt /\ exists a', owns h' la a' fpa /\ combination op a a a') /\
  (~ combinable a a -> r = Err TypeError) /\
  length h' = length h /\ (forall x, ~ In x fpa -> nth_error h' x = nth_error h x).
Proof.
  intros op fuel h la a fpa O WK HH. pose proof (self_in_place_ok op fuel h la a fpa O WK HH) as (L & F & C).
  destruct (h_combine_in_place fuel op h la la) as [h' r]. cbn [fst snd] in *.
  destruct (in_place_outcome op a a WK) as [((a' & E) & Y) | (E & Y)]; rewrite E in C.
  - destruct C as (-> & R'). split; [intros _; split; [reflexivity |]; exists a'; split; [split; [exact R' | apply O] | apply in_place_combination, E] |].
    split; [intros NC; contradiction | auto].
  - split; [intros; contradiction |]. split; [auto | auto].
Qed.
Print Assumptions C65_in_place_with_itself.

(** ** sum and subtract *)

(** no object that existed before is changed, whatever the operands are and however the call ends *)
Theorem C65_sum_changes_no_object : forall op fuel h la lb x, (x < length h)%nat ->
  nth_error (fst (h_combine fuel op h la lb)) x = nth_error h x.
Proof. intros op fuel h la lb x Hx. apply combine_grows; [exact Hx | intros []]. Qed.
Print Assumptions C65_sum_changes_no_object.

(** the result, its objects, and exactly which objects it shares with the left operand *)
Theorem C65_sum_result : forall op fuel h la a fpa lb b fpb,
  owns h la a fpa -> well_keyed a -> reads h lb b fpb -> (height a <= fuel)%nat ->
  let '(h', r) := h_combine fuel op h la lb in
  (combinable a b -> exists l t fp, r = Ok l /\ (length h <= l)%nat /\ owns h' l t fp /\ combination op a b t /\
     (forall x, In x fp -> In x fpa \/ (length h <= x)%nat) /\ shares h la lb h' l) /\
  (~ combinable a b -> r = Err TypeError) /\
  owns h' la a fpa /\ reads h' lb b fpb.
Proof.
  intros op fuel h la a fpa lb b fpb O WK RB HH. pose proof (combine_ok op fuel h la a fpa lb b fpb O WK RB HH) as C.
  pose proof (combine_grows op fuel h la lb) as (_ & G). destruct (h_combine fuel op h la lb) as [h' r]. cbn [fst] in G.
  assert (RA' : owns h' la a fpa).
  { split; [|apply O]. eapply reads_frame; [apply O |]. intros x Hx. apply G; [eapply reads_lt; [apply O | exact Hx] | intros []]. }
  assert (RB' : reads h' lb b fpb).
  { eapply reads_frame; [exact RB |]. intros x Hx. apply G; [eapply reads_lt; [exact RB | exact Hx] | intros []]. }
  destruct (combine_outcome op a b WK) as [((t & E) & Y) | (E & Y)]; rewrite E in C.
  - destruct C as (h2 & l & fp & E2 & OL & LL & FR & SH). inversion E2; subst h2 r.
    split; [intros _; exists l, t, fp; split; [reflexivity |]; split; [exact LL |]; split; [exact OL |]; split; [apply combine_combination, E | auto] |].
    split; [intros NC; contradiction | auto].
  - destruct C as (h2 & E2). inversion E2; subst. split; [intros; contradiction | auto].
Qed.
Print Assumptions C65_sum_result.

(** so a later change in place of the result can reach the left operand: [r = a.sum(b)] and then
    [r.sum_in_place(c)] changes [a] *)
Definition ct_heap : heap :=
  [ CN (-1) (-1) None (Some [(0, 1%nat); (1, 2%nat)]); CN 0 0 (Some 3) None; CN 0 1 (Some 4) None;   (* a *)
    CN (-1) (-1) None (Some [(0, 4%nat)]); CN 0 0 (Some 10) None;                                    (* b *)
    CN (-1) (-1) None (Some [(1, 6%nat)]); CN 0 1 (Some 100) None ].                                 (* c *)
Definition tree_a := CT (-1) (-1) None (Some [(0, CT 0 0 (Some 3) None); (1, CT 0 1 (Some 4) None)]).
Definition tree_b := CT (-1) (-1) None (Some [(0, CT 0 0 (Some 10) None)]).
Definition tree_c := CT (-1) (-1) None (Some [(1, CT 0 1 (Some 100) None)]).
Theorem C65_result_of_sum_is_independent_refuted : exists h a b c fpa fpb fpc h1 r h2 a2 fpa2,
  owns h 0%nat a fpa /\ owns h 3%nat b fpb /\ owns h 5%nat c fpc /\ disjoint fpa fpb /\ disjoint fpa fpc /\ disjoint fpb fpc /\
  h_combine 5 Z.add h 0%nat 3%nat = (h1, Ok r) /\ owns h1 0%nat a fpa /\
  h_combine_in_place 5 Z.add h1 r 5%nat = (h2, Ok tt) /\ reads h2 0%nat a2 fpa2 /\ a2 <> a.
Proof.
  exists ct_heap, tree_a, tree_b, tree_c, [0; 1; 2]%nat, [3; 4]%nat, [5; 6]%nat.
  assert (RA : owns ct_heap 0%nat tree_a [0; 1; 2]%nat).
  { split; [|repeat constructor; cbn; intuition discriminate]. unfold tree_a. eapply reads_node; [reflexivity |].
    apply (reads_cons _ 0 1%nat _ _ _ [1%nat] [2%nat]); [constructor; reflexivity |].
    apply (reads_cons _ 1 2%nat _ _ _ [2%nat] []); [constructor; reflexivity | constructor]. }
  assert (RB : owns ct_heap 3%nat tree_b [3; 4]%nat).
  { split; [|repeat constructor; cbn; intuition discriminate]. unfold tree_b. eapply reads_node; [reflexivity |].
    apply (reads_cons _ 0 4%nat _ _ _ [4%nat] []); [constructor; reflexivity | constructor]. }
  assert (RC : owns ct_heap 5%nat tree_c [5; 6]%nat).
  { split; [|repeat constructor; cbn; intuition discriminate]. unfold tree_c. eapply reads_node; [reflexivity |].
    apply (reads_cons _ 1 6%nat _ _ _ [6%nat] []); [constructor; reflexivity | constructor]. }
  eexists. eexists. eexists. exists (CT (-1) (-1) None (Some [(0, CT 0 0 (Some 3) None); (1, CT 0 1 (Some 104) None)])), [0; 1; 2]%nat.
  split; [exact RA |]. split; [exact RB |]. split; [exact RC |].
  split; [intros x Hx Hy; cbn in Hx, Hy; intuition (subst; discriminate) |].
  split; [intros x Hx Hy; cbn in Hx, Hy; intuition (subst; discriminate) |].
  split; [intros x Hx Hy; cbn in Hx, Hy; intuition (subst; discriminate) |].
  split; [vm_compute; reflexivity |]. split.
  { split; [|apply RA]. eapply reads_frame; [apply RA |]. intros x Hx; cbn in Hx. intuition (subst; reflexivity). }
  split; [vm_compute; reflexivity |]. split; [|discriminate].
  eapply reads_node; [reflexivity |].
  apply (reads_cons _ 0 1%nat _ _ _ [1%nat] [2%nat]); [constructor; reflexivity |].
  apply (reads_cons _ 1 2%nat _ _ _ [2%nat] []); [constructor; reflexivity | constructor].
Qed.
Print Assumptions C65_result_of_sum_is_independent_refuted.

(** ** the hypotheses are met *)
Example C65_nonvacuous_tables : wf_dataset (Dex 3) /\ no_minus_one (Dex 3) /\ threshold_ok (Dex 3) /\ Forall (wf_call (Dex 3)) history_ex.
Proof. exact (conj (Dex_wf 3) (conj (Dex_no_minus_one 3) (conj Dex_threshold history_ex_wf))). Qed.
Example C65_nonvacuous_trees : owns ct_heap 0%nat tree_a [0; 1; 2]%nat /\ well_keyed tree_a /\ owns ct_heap 3%nat tree_b [3; 4]%nat /\
  disjoint [0; 1; 2]%nat [3; 4]%nat /\ combinable tree_a tree_b /\ combinable tree_a tree_a /\ (height tree_a <= 5)%nat /\
  ~ combinable tree_a (CT (-1) (-1) (Some 1) None) /\
  exists h' r, h_combine 5 Z.sub ct_heap 0%nat 3%nat = (h', Ok r) /\ nth_error h' r = Some (CN (-1) (-1) None (Some [(0, 8%nat); (1, 2%nat)])).
Proof.
  split; [split; [|repeat constructor; cbn; intuition discriminate]; unfold tree_a; eapply reads_node; [reflexivity |];
    apply (reads_cons _ 0 1%nat _ _ _ [1%nat] [2%nat]); [constructor; reflexivity |];
    apply (reads_cons _ 1 2%nat _ _ _ [2%nat] []); [constructor; reflexivity | constructor] |].
  assert (WL : forall k v n, well_keyed (CT k v n None)) by (intros; constructor; discriminate).
  split. { constructor. intros d E. inversion E; subst d. split; [discriminate |]. split; [repeat constructor; cbn; intuition discriminate |].
           repeat constructor; cbn; discriminate. }
  split; [split; [|repeat constructor; cbn; intuition discriminate]; unfold tree_b; eapply reads_node; [reflexivity |];
    apply (reads_cons _ 0 4%nat _ _ _ [4%nat] []); [constructor; reflexivity | constructor] |].
  split; [intros x Hx Hy; cbn in Hx, Hy; intuition (subst; discriminate) |].
  assert (OUT : forall b, (exists r, combine Z.add tree_a b = Ok r) -> combinable tree_a b).
  { intros b (r & E). assert (W : well_keyed tree_a).
    { constructor. intros d Ed. inversion Ed; subst d. split; [discriminate |]. split; [repeat constructor; cbn; intuition discriminate |]. repeat constructor; cbn; discriminate. }
    destruct (combine_outcome Z.add tree_a b W) as [(_ & C) | (E2 & _)]; [exact C | congruence]. }
  split; [apply OUT; eexists; reflexivity |]. split; [apply OUT; eexists; reflexivity |]. split; [cbn; lia |].
  split. { intros C. specialize (C [] _ _ eq_refl eq_refl). cbn in C. congruence. }
  eexists. eexists. split; vm_compute; reflexivity.
Qed.
