(** flatten terminates and lists the leaves; keys have decidable equality. *)
From Verif Require Import Base Key_Model Key_Spec.
Open Scope Z_scope.

Section PyInd.
  Variable P : pyobj -> Prop.
  Hypothesis H1 : forall z, P (PInt z).
  Hypothesis H2 : forall l, (forall x, In x l -> P x) -> P (PTup l).
  Fixpoint pyobj_ind' (p : pyobj) : P p :=
    match p with
    | PInt z => H1 z
    | PTup l => H2 l ((fix go l : forall x, In x l -> P x :=
        match l with
        | [] => fun x H => match H with end
        | y :: l' => fun x H => match H with or_introl E => eq_ind y P (pyobj_ind' y) x E | or_intror H' => go l' x H' end
        end) l)
    end.
End PyInd.

Lemma pyobj_eqb_tup l m : pyobj_eqb (PTup l) (PTup m) =
  match l, m with [], [] => true | x :: l', y :: m' => (pyobj_eqb x y && pyobj_eqb (PTup l') (PTup m'))%bool | _, _ => false end.
Proof. destruct l, m; reflexivity. Qed.
Lemma pyobj_eqb_eq a : forall b, pyobj_eqb a b = true <-> a = b.
Proof.
  induction a as [z|l IH] using pyobj_ind'; intros [y|m].
  - simpl. rewrite Z.eqb_eq. split; congruence.
  - simpl. split; congruence.
  - simpl. split; congruence.
  - revert m. induction l as [|x l IHl]; intros [|y m]; rewrite pyobj_eqb_tup; try (split; congruence).
    rewrite andb_true_iff, (IH x) by (simpl; auto). rewrite IHl by (intros; apply IH; simpl; auto).
    split; [intros [-> E]; injection E as ->; reflexivity|]. intros E; injection E as -> ->. split; reflexivity.
Qed.
Lemma pyobj_eqb_refl a : pyobj_eqb a a = true.
Proof. apply pyobj_eqb_eq; reflexivity. Qed.
Lemma pyobj_eqb_neq a b : pyobj_eqb a b = false <-> a <> b.
Proof. rewrite <- pyobj_eqb_eq. destruct (pyobj_eqb a b); intuition congruence. Qed.
Lemma pyobj_eqb_spec a b : reflect (a = b) (pyobj_eqb a b).
Proof. destruct (pyobj_eqb a b) eqn:E; constructor; [apply pyobj_eqb_eq|apply pyobj_eqb_neq]; assumption. Qed.
Lemma pyobj_eq_dec (a b : pyobj) : {a = b} + {a <> b}.
Proof. destruct (pyobj_eqb a b) eqn:E; [left; apply pyobj_eqb_eq|right; apply pyobj_eqb_neq]; assumption. Qed.

Lemma leaves_tup l : leaves (PTup l) = leaves_list l.
Proof. induction l as [|x l IH]; simpl; reflexivity. Qed.
Lemma nodes_tup l : nodes (PTup l) = S (nodes_list l).
Proof. simpl. f_equal. Qed.
Lemma nodes_list_app l m : nodes_list (l ++ m) = (nodes_list l + nodes_list m)%nat.
Proof. induction l as [|x l IH]; simpl; [reflexivity|]. rewrite IH. lia. Qed.
Lemma leaves_list_app l m : leaves_list (l ++ m) = leaves_list l ++ leaves_list m.
Proof. apply flat_map_app. Qed.

Lemma flatten_loop_ok : forall fuel done rest, (nodes_list rest < fuel)%nat ->
  flatten_loop fuel done rest = Ok (rev done ++ map PInt (leaves_list rest)).
Proof.
  induction fuel as [|fuel IH]; intros done rest Hf; [lia|]. destruct rest as [|[z|[|x l]] rest]; cbn [flatten_loop].
  - simpl. rewrite app_nil_r. reflexivity.
  - simpl in Hf. rewrite IH by lia. simpl. rewrite <- app_assoc. reflexivity.
  - simpl in Hf. rewrite IH by lia. reflexivity.
  - cbn [nodes_list] in Hf. rewrite nodes_tup in Hf. rewrite IH by (rewrite nodes_list_app; lia).
    rewrite leaves_list_app. change (leaves_list (PTup (x :: l) :: rest)) with (leaves (PTup (x :: l)) ++ leaves_list rest).
    rewrite leaves_tup. reflexivity.
Qed.
Lemma flatten_leaves l : flatten l = map PInt (leaves_list l).
Proof. unfold flatten. rewrite flatten_loop_ok by lia. reflexivity. Qed.
Lemma flatten_terminates l : evaluates (fun n => flatten_loop n [] l) (Ok (map PInt (leaves_list l))).
Proof. split; [discriminate|]. exists (S (nodes_list l)). intros n Hn. rewrite flatten_loop_ok by lia. reflexivity. Qed.
Lemma leaves_list_ints l : leaves_list (map PInt l) = l.
Proof. induction l as [|x l IH]; simpl; [reflexivity|]. rewrite IH. reflexivity. Qed.

Lemma process_key l : process_pmf_key l = as_key (leaves_list l).
Proof. unfold process_pmf_key. rewrite flatten_leaves. destruct (leaves_list l) as [|x [|y m]]; reflexivity. Qed.
Lemma leaves_as_key l : leaves (as_key l) = l.
Proof. destruct l as [|x [|y m]]; try reflexivity. unfold as_key. rewrite leaves_tup. apply leaves_list_ints. Qed.
Lemma as_key_inj l m : as_key l = as_key m -> l = m.
Proof. intros E. rewrite <- (leaves_as_key l), <- (leaves_as_key m), E. reflexivity. Qed.

(** dictionaries with such keys *)
Section Dict.
  Context {V : Type}.
  Notation lk := (@assoc pyobj V pyobj_eqb).
  Notation upd := (@assoc_set pyobj V pyobj_eqb).
  Lemma kassoc_In k d v : lk k d = Some v -> In (k, v) d.
  Proof.
    induction d as [|[k' v'] d IH]; simpl; [discriminate|]. destruct (pyobj_eqb_spec k k'); [intros E; injection E as ->; subst; auto|auto].
  Qed.
  Lemma kassoc_NoDup k d v : NoDup (map fst d) -> In (k, v) d -> lk k d = Some v.
  Proof.
    induction d as [|[k' v'] d IH]; simpl; [tauto|]. intros HN [E|H]; inversion HN; subst.
    - injection E as -> ->. rewrite pyobj_eqb_refl. reflexivity.
    - destruct (pyobj_eqb_spec k k'); [|auto]. subst. exfalso. apply H2. apply (in_map fst) in H. exact H.
  Qed.
  Lemma kassoc_None k d : lk k d = None <-> ~ In k (map fst d).
  Proof.
    induction d as [|[k' v'] d IH]; simpl; [tauto|]. destruct (pyobj_eqb_spec k k'); [subst; split; [discriminate|tauto]|].
    rewrite IH. split; [intros H [E|E]; [congruence|tauto]|tauto].
  Qed.
  Lemma kset_same k v d : lk k (upd k v d) = Some v.
  Proof.
    induction d as [|[k' v'] d IH]; simpl; [rewrite pyobj_eqb_refl; reflexivity|].
    destruct (pyobj_eqb k k') eqn:E; simpl; rewrite E; auto.
  Qed.
  Lemma kset_other k k1 v d : k <> k1 -> lk k (upd k1 v d) = lk k d.
  Proof.
    intros Hne. induction d as [|[k' v'] d IH]; simpl.
    - destruct (pyobj_eqb_spec k k1); [contradiction|reflexivity].
    - destruct (pyobj_eqb_spec k1 k'); simpl; destruct (pyobj_eqb_spec k k'); subst; try contradiction; auto.
  Qed.
  Lemma kset_keys k v d x : In x (map fst (upd k v d)) <-> x = k \/ In x (map fst d).
  Proof.
    induction d as [|[k' v'] d IH]; simpl; [intuition congruence|]. destruct (pyobj_eqb_spec k k'); simpl; [subst; intuition congruence|].
    rewrite IH. intuition congruence.
  Qed.
  Lemma kset_NoDup k v d : NoDup (map fst d) -> NoDup (map fst (upd k v d)).
  Proof.
    induction d as [|[k' v'] d IH]; simpl; [repeat constructor; simpl; tauto|]. intros HN; inversion HN; subst.
    destruct (pyobj_eqb_spec k k'); simpl; constructor; auto. rewrite kset_keys. intros [E|E]; [congruence|tauto].
  Qed.
End Dict.
