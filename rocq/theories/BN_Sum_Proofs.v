(** Sums over assignments. *)
From Coq Require Import Reals Relations Lra.
From Verif Require Import Base BN_Model Prob_Spec Prob_Proofs BN_Spec BN_Order_Proofs BN_Final_Proofs.
Open Scope nat_scope.

Definition env := nat -> nat.
Definition upd (e : env) (v i : nat) : env := fun u => if Nat.eqb u v then i else e u.
Lemma upd_same e v i : upd e v i v = i. Proof. unfold upd. rewrite Nat.eqb_refl. reflexivity. Qed.
Lemma upd_other e v i u : u <> v -> upd e v i u = e u.
Proof. intros H. unfold upd. destruct (Nat.eqb_spec u v); [contradiction|reflexivity]. Qed.

(** f depends only on the variables in D *)
Definition depends (D : list nat) (f : env -> R) : Prop := forall e e', (forall u, In u D -> e u = e' u) -> f e = f e'.
Definition extensional (f : env -> R) : Prop := forall e e', (forall u, e u = e' u) -> f e = f e'.
Lemma depends_ext D f : depends D f -> extensional f.
Proof. intros H e e' He. apply H. intros u _. apply He. Qed.

Section Sums.
  Context (ns : list node).
  Notation card := (card ns).
  Fixpoint envs (L : list nat) (e : env) : list env :=
    match L with [] => [e] | v :: L' => flat_map (fun i => envs L' (upd e v i)) (seq 0 (card v)) end.
  Definition bounded (L : list nat) (e : env) : Prop := forall u, In u L -> e u < card u.
  Definition sumover (L : list nat) (f : env -> R) (e : env) : R := SumOf f (envs L e).
  Lemma sumover_nil f e : sumover [] f e = f e.
  Proof. unfold sumover. cbn [envs]. rewrite SumOf_cons, SumOf_nil. lra. Qed.
  Lemma sumover_cons v L f e : sumover (v :: L) f e = SumOf (fun i => sumover L f (upd e v i)) (seq 0 (card v)).
  Proof. unfold sumover. cbn [envs]. apply SumOf_flat_map. Qed.
  Lemma envs_spec L : NoDup L -> forall e e', In e' (envs L e) -> (forall u, ~ In u L -> e' u = e u) /\ bounded L e'.
  Proof.
    induction L as [|v L IH]; intros HN e e' Hin; cbn [envs] in Hin.
    - destruct Hin as [<- |[]]. split; [reflexivity|intros u []].
    - inversion HN as [|? ? H1 H2]; subst. apply in_flat_map in Hin as (i & Hi & Hin). apply in_seq in Hi. apply IH in Hin as (Ha & Hb); [|assumption]. split.
      + intros u Hu. rewrite Ha by (intros H; apply Hu; right; assumption). apply upd_other. intros ->. apply Hu. left; reflexivity.
      + intros u [<- |Hu]; [|apply Hb; assumption]. rewrite Ha by assumption. rewrite upd_same. lia.
  Qed.
  Lemma envs_complete L : NoDup L -> forall e e', (forall u, ~ In u L -> e' u = e u) -> bounded L e' -> exists e'', In e'' (envs L e) /\ forall u, e'' u = e' u.
  Proof.
    induction L as [|v L IH]; intros HN e e' Ha Hb; cbn [envs].
    - exists e. split; [left; reflexivity|]. intros u. symmetry. apply Ha. intros [].
    - inversion HN as [|? ? H1 H2]; subst. destruct (IH H2 (upd e v (e' v)) e') as (e'' & Hin & He).
      + intros u Hu. unfold upd. destruct (Nat.eqb_spec u v) as [-> |E]; [reflexivity|]. apply Ha. intros [H|H]; [congruence|contradiction].
      + intros u Hu. apply Hb. right; assumption.
      + exists e''. split; [|assumption]. apply in_flat_map. exists (e' v). split; [|assumption]. apply in_seq. specialize (Hb v (or_introl eq_refl)). lia.
  Qed.
  Lemma sumover_agree L f g e : NoDup L -> (forall e', (forall u, ~ In u L -> e' u = e u) -> bounded L e' -> f e' = g e') -> sumover L f e = sumover L g e.
  Proof. intros HN H. apply SumOf_ext. intros e' Hin. apply envs_spec in Hin as (Ha & Hb); auto. Qed.
  Lemma sumover_ext L f : extensional f -> extensional (sumover L f).
  Proof.
    intros Hf. induction L as [|v L IH]; intros e e' He; [rewrite !sumover_nil; apply Hf; assumption|]. rewrite !sumover_cons. apply SumOf_ext. intros i _. apply IH.
    intros u. unfold upd. destruct (Nat.eqb u v); auto.
  Qed.
  Lemma sumover_perm L L' f : extensional f -> Permutation L L' -> forall e, sumover L f e = sumover L' f e.
  Proof.
    intros Hf HP. induction HP as [|v L L' HP IH|u v L|L1 L2 L3 HP1 IH1 HP2 IH2]; intros e.
    - reflexivity.
    - rewrite !sumover_cons. apply SumOf_ext. intros i _. apply IH.
    - destruct (Nat.eq_dec u v) as [-> |E]; [reflexivity|]. rewrite !sumover_cons.
      rewrite (SumOf_ext _ (fun i => SumOf (fun j => sumover L f (upd (upd e v i) u j)) (seq 0 (card u)))) by (intros; apply sumover_cons).
      rewrite (SumOf_ext (fun i => sumover (v :: L) f (upd e u i)) (fun i => SumOf (fun j => sumover L f (upd (upd e u i) v j)) (seq 0 (card v)))) by (intros; apply sumover_cons).
      rewrite SumOf_swap. apply SumOf_ext. intros i _. apply SumOf_ext. intros j _. apply sumover_ext; [assumption|].
      intros w. unfold upd. destruct (Nat.eqb_spec w u), (Nat.eqb_spec w v); congruence.
    - rewrite IH1. apply IH2.
  Qed.
  Lemma sumover_app L M f e : sumover (L ++ M) f e = sumover L (fun e' => sumover M f e') e.
  Proof. revert e; induction L as [|v L IH]; intros e; cbn [app]; [rewrite sumover_nil; reflexivity|]. rewrite !sumover_cons. apply SumOf_ext. intros i _. apply IH. Qed.
  Lemma sumover_scal L c f e : sumover L (fun e' => (c * f e')%R) e = (c * sumover L f e)%R.
  Proof. apply SumOf_scal. Qed.
  Lemma sumover_cartesian L : NoDup L -> forall g e, SumOf g (cartesian (map card L)) = sumover L (fun e' => g (map e' L)) e.
  Proof.
    induction L as [|v L IH]; intros HN g e; cbn [map cartesian].
    - rewrite sumover_nil, SumOf_cons, SumOf_nil. lra.
    - inversion HN as [|? ? H1 H2]; subst. rewrite sumover_cons, SumOf_flat_map. apply SumOf_ext. intros i _. rewrite SumOf_map.
      rewrite (IH H2 (fun t => g (i :: t)) (upd e v i)). apply sumover_agree; [assumption|]. intros e' Ha _. cbn [map]. rewrite (Ha v H1), upd_same. reflexivity.
  Qed.

  (** ** Conditional probabilities *)
  Definition cp (v : nat) (e : env) : R := match find_node ns v with Some n => cond_prob ns n e | None => 0%R end.
  Definition parents (v : nat) : list nat := match find_node ns v with Some n => nparents n | None => [] end.
  Lemma cp_depends v : depends (v :: parents v) (cp v).
  Proof.
    intros e e' He. unfold cp, parents in *. destruct (find_node ns v) as [n|] eqn:Ef; [|reflexivity]. apply find_node_In in Ef as (_ & En).
    unfold cond_prob, row_of. rewrite En. rewrite (He v (or_introl eq_refl)). do 2 f_equal.
    assert (Em : map (fun p => value_at_index ns p (e p)) (nparents n) = map (fun p => value_at_index ns p (e' p)) (nparents n)).
    { apply map_ext_in. intros p Hp. rewrite (He p (or_intror Hp)). reflexivity. } rewrite Em. reflexivity.
  Qed.
  Lemma Prod_perm l m : Permutation l m -> Prod l = Prod m.
  Proof. induction 1; cbn [Prod]; try congruence; lra. Qed.
  Lemma Prod_app l m : Prod (l ++ m) = (Prod l * Prod m)%R.
  Proof. induction l as [|x l IH]; cbn [app Prod]; [lra|]. rewrite IH. lra. Qed.
  Definition product (L : list nat) (e : env) : R := Prod (map (fun v => cp v e) L).
  Lemma product_depends L D : (forall v, In v L -> incl (v :: parents v) D) -> depends D (product L).
  Proof.
    intros H e e' He. unfold product. f_equal. apply map_ext_in. intros v Hv. apply cp_depends. intros u Hu. apply He. eapply H; eassumption.
  Qed.
  Lemma product_app L M e : product (L ++ M) e = (product L e * product M e)%R.
  Proof. unfold product. rewrite map_app. apply Prod_app. Qed.
  Lemma product_perm L M e : Permutation L M -> product L e = product M e.
  Proof. intros H. apply Prod_perm. apply Permutation_map. assumption. Qed.
  Lemma joint_product e : NoDup (map nname ns) -> joint ns e = product (map nname ns) e.
  Proof.
    intros HN. unfold joint, product. rewrite map_map. f_equal. apply map_ext_in. intros n Hn. unfold cp. rewrite (find_node_self ns n HN Hn). reflexivity.
  Qed.

  Context (Hwf : well_formed ns) (Ht : complete_tables ns).
  Lemma value_in v i : i < card v -> In (value_at_index ns v i) (values_of ns v).
  Proof. intros H. apply nth_In. exact H. Qed.
  Lemma key_eqb_ok a b : key_eqb a b = true <-> a = b.
  Proof.
    assert (H : forall x y, nats_eqb x y = true <-> x = y).
    { induction x as [|i x IH]; intros [|j y]; cbn [nats_eqb]; try (split; congruence). rewrite andb_true_iff, Nat.eqb_eq, IH. split; [intros (-> & ->); reflexivity|intros E; injection E as -> ->; auto]. }
    destruct a as [x|], b as [y|]; cbn [key_eqb]; try (split; congruence). rewrite H. split; congruence.
  Qed.
  Lemma assoc_key (d : list (key * list R)) k r : NoDup (map fst d) -> (assoc key_eqb k d = Some r <-> In (k, r) d).
  Proof.
    induction d as [|[k' r'] d IH]; intros HN; cbn [assoc]; [split; [discriminate|intros []]|]. inversion HN as [|? ? H1 H2]; subst. destruct (key_eqb k k') eqn:E.
    - apply key_eqb_ok in E. subst k'. split; [intros H; injection H as ->; left; reflexivity|]. intros [H|H]; [congruence|]. exfalso. apply H1. apply (in_map fst) in H. exact H.
    - rewrite (IH H2). split; [intros H; right; assumption|]. intros [H|H]; [|assumption]. injection H as -> ->. exfalso. rewrite (proj2 (key_eqb_ok k k) eq_refl) in E. discriminate.
  Qed.
  (* the row of a variable's table that applies *)
  Lemma row_ok v n e : find_node ns v = Some n -> (forall p, In p (nparents n) -> e p < card p) ->
    exists row, assoc key_eqb (row_key n (map (fun p => value_at_index ns p (e p)) (nparents n))) (nprobs n) = Some row /\
      row_of ns n e = row /\ length row = length (nvalues n) /\ In (row_key n (map (fun p => value_at_index ns p (e p)) (nparents n)), row) (nprobs n).
  Proof.
    intros Ef Hp. apply find_node_In in Ef as (Hn & _). destruct (Ht n Hn) as (_ & _ & _ & HN & Hrow & _).
    destruct (Hrow (map (fun p => value_at_index ns p (e p)) (nparents n))) as (row & Hin & Hl).
    { unfold parents_take. clear -Hp. induction (nparents n) as [|p ps IH]; cbn [map]; constructor; [apply value_in; apply Hp; left; reflexivity|apply IH; intros q Hq; apply Hp; right; assumption]. }
    exists row. pose proof (proj2 (assoc_key _ _ _ HN) Hin) as Ea. split; [assumption|]. split; [unfold row_of; rewrite Ea; reflexivity|]. auto.
  Qed.
  Lemma Sum_nth_seq row : SumOf (fun i => nth i row 0%R) (seq 0 (length row)) = Sum row.
  Proof.
    induction row as [|x row IH]; [reflexivity|]. cbn [length seq]. rewrite SumOf_cons. cbn [nth Sum]. f_equal. rewrite <- seq_shift, SumOf_map. cbn [nth]. exact IH.
  Qed.
  Lemma card_find v n : find_node ns v = Some n -> card v = length (nvalues n).
  Proof. intros H. unfold BN_Spec.card. rewrite (values_of_find _ _ _ H). reflexivity. Qed.
  Lemma not_own_parent v n : acyclic ns -> find_node ns v = Some n -> ~ In v (nparents n).
  Proof. intros Hac Hf Hin. apply (Hac v). apply t_step. apply (parent_iff ns v n (proj1 Hwf) Hf). assumption. Qed.
  Lemma parents_parent v p : In p (parents v) <-> parent_of ns p v.
  Proof.
    unfold parents. destruct (find_node ns v) as [n|] eqn:Ef; [rewrite (parent_iff ns v n (proj1 Hwf) Ef); reflexivity|].
    split; [intros []|]. intros (m & Hm & <- & _). apply find_node_unknown in Ef. apply Ef. apply in_map. assumption.
  Qed.
  Lemma cp_total v e : stochastic ns -> acyclic ns -> In v (map nname ns) -> (forall p, In p (parents v) -> e p < card p) ->
    SumOf (fun i => cp v (upd e v i)) (seq 0 (card v)) = 1%R.
  Proof.
    intros Hst Hac Hv Hp. destruct (find_node_known ns v Hv) as (n & Ef). unfold parents in Hp. rewrite Ef in Hp.
    destruct (row_ok v n e Ef Hp) as (row & _ & Er & Hl & Hin). pose proof (find_node_In _ _ _ Ef) as (Hn & En).
    rewrite (SumOf_ext _ (fun i => nth i row 0%R)).
    - rewrite (card_find v n Ef), <- Hl, Sum_nth_seq. apply (Hst n _ row Hn Hin).
    - intros i _. unfold cp. rewrite Ef. unfold cond_prob. rewrite En, upd_same. f_equal. rewrite <- Er. unfold row_of.
      assert (Em : map (fun p => value_at_index ns p (upd e v i p)) (nparents n) = map (fun p => value_at_index ns p (e p)) (nparents n)).
      { apply map_ext_in. intros p Hpp. rewrite upd_other; [reflexivity|]. intros ->. eapply not_own_parent; eassumption. } rewrite Em. reflexivity.
  Qed.
  Lemma cp_nonneg v e : stochastic ns -> In v (map nname ns) -> (forall p, In p (parents v) -> e p < card p) -> (0 <= cp v e)%R.
  Proof.
    intros Hst Hv Hp. destruct (find_node_known ns v Hv) as (n & Ef). unfold parents in Hp. rewrite Ef in Hp.
    destruct (row_ok v n e Ef Hp) as (row & _ & Er & Hl & Hin). pose proof (find_node_In _ _ _ Ef) as (Hn & En).
    unfold cp. rewrite Ef. unfold cond_prob. rewrite Er. destruct (nth_in_or_default (e (nname n)) row 0%R) as [H|H]; [apply (Hst n _ row Hn Hin); assumption|rewrite H; lra].
  Qed.

  (** Variables whose parents are among D or earlier in L sum out. *)
  Lemma sum_out (Hst : stochastic ns) (Hac : acyclic ns) : forall L D e, NoDup L -> incl L (map nname ns) -> (forall u, In u D -> ~ In u L) ->
    (forall u, In u D -> e u < card u) -> (forall l1 v l2, L = l1 ++ v :: l2 -> forall p, In p (parents v) -> In p (l1 ++ D)) ->
    sumover L (product L) e = 1%R.
  Proof.
    induction L as [|v L IH]; intros D e HN Hk Hd Hb Hp.
    - rewrite sumover_nil. reflexivity.
    - inversion HN as [|? ? H1 H2]; subst.
      assert (HpD : forall p, In p (parents v) -> In p D) by (intros p Hpp; apply (Hp [] v L eq_refl p Hpp)).
      rewrite sumover_cons. rewrite <- (cp_total v e Hst Hac); [|apply Hk; left; reflexivity|intros p Hpp; apply Hb, HpD; assumption].
      apply SumOf_ext. intros i Hi. apply in_seq in Hi.
      rewrite (sumover_agree L _ (fun e' => (cp v (upd e v i) * product L e')%R)); [|assumption|].
      + rewrite sumover_scal, (IH (v :: D)); [lra|assumption|intros u Hu; apply Hk; right; assumption| | |].
        * intros u [<- |Hu]; [assumption|]. intros Hin. apply (Hd u Hu). right; assumption.
        * intros u Hu. unfold upd. destruct (Nat.eqb_spec u v) as [-> |E]; [lia|]. destruct Hu as [Hu|Hu]; [congruence|auto].
        * intros l1 w l2 E p Hpp. specialize (Hp (v :: l1) w l2). rewrite E in Hp. specialize (Hp eq_refl p Hpp). cbn [app] in Hp.
          destruct Hp as [<- |Hp]; [apply in_or_app; right; left; reflexivity|]. apply in_app_or in Hp as [Hp|Hp]; apply in_or_app; [left; assumption|right; right; assumption].
      + intros e' Ha _. unfold product. cbn [map Prod]. f_equal. apply cp_depends. intros u [<- |Hu]; [apply Ha; assumption|]. apply Ha.
        intros Hin. apply (Hd u); [apply HpD; assumption|right; assumption].
  Qed.
End Sums.
