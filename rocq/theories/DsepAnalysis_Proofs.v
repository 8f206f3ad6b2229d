(** Lemmas for C81. *)
From Coq Require Import Reals Lra String Sorted Permutation.
From Verif Require Import Base Matrix_Model Sources_Model PMF_Model GTest_Model CIResult_Model DsepAnalysis_Model.
Open Scope nat_scope.

(** *** counters: a weighted sum over the entries is a sum over what was counted *)
Definition wsum (f : nat -> nat) (c : counter) : nat := list_sum (map (fun kn => f (fst kn) * snd kn) c).
Lemma wsum_cons f kn c : wsum f (kn :: c) = f (fst kn) * snd kn + wsum f c.
Proof. reflexivity. Qed.
Lemma wsum_add f k n c : wsum f (counter_add k n c) = wsum f c + f k * n.
Proof.
  induction c as [|(k', m) c IH]; cbn [counter_add]; [rewrite wsum_cons; cbn [fst snd]; unfold wsum; cbn; lia|].
  destruct (Nat.eqb_spec k k') as [->|_]; rewrite !wsum_cons; cbn [fst snd]; [|rewrite IH]; nia.
Qed.
Lemma wsum_update f d : forall c, wsum f (counter_update c d) = wsum f c + wsum f d.
Proof.
  unfold counter_update. induction d as [|(k, n) d IH]; intros c; cbn [fold_left]; [unfold wsum at 3; cbn; lia|].
  rewrite IH, wsum_add, wsum_cons. cbn [fst snd]. lia.
Qed.
Lemma wsum_of f l : wsum f (counter_of l) = list_sum (map f l).
Proof.
  unfold counter_of. assert (G : forall c, wsum f (fold_left (fun c k => counter_add k 1 c) l c) = wsum f c + list_sum (map f l)).
  { induction l as [|k l IH]; intros c; cbn [fold_left]; [cbn; lia|]. rewrite IH, wsum_add. change (list_sum (map f (k :: l))) with (f k + list_sum (map f l)). lia. }
  rewrite G. reflexivity.
Qed.
(** the keys are distinct and the counts positive *)
Definition good (c : counter) : Prop := NoDup (map fst c) /\ forall kn, In kn c -> 0 < snd kn.
Lemma add_keys k n c x : In x (map fst (counter_add k n c)) <-> x = k \/ In x (map fst c).
Proof.
  induction c as [|(k', m) c IH]; cbn [counter_add map fst In]; [intuition|].
  destruct (Nat.eqb_spec k k') as [->|N]; cbn [map fst In]; [intuition|]. rewrite IH. intuition.
Qed.
Lemma good_add k n c : 0 < n -> good c -> good (counter_add k n c).
Proof.
  intros Hn (N & P). induction c as [|(k', m) c IH]; cbn [counter_add].
  - split; [repeat constructor; intros []|]. intros kn [<- |[]]. exact Hn.
  - cbn [map fst] in N. inversion N as [|? ? N1 N2]; subst. destruct (Nat.eqb_spec k k') as [->|K].
    + split; [exact N|]. intros kn [<- |H]; [cbn; lia|]. apply P. right. exact H.
    + destruct IH as (I1 & I2); [exact N2|intros kn H; apply P; right; exact H|]. split.
      * cbn [map fst]. constructor; [|exact I1]. rewrite add_keys. intros [E|E]; [congruence|contradiction].
      * intros kn [<- |H]; [apply (P (k', m)); left; reflexivity|apply I2, H].
Qed.
Lemma good_of l : good (counter_of l).
Proof.
  unfold counter_of. assert (G : forall c, good c -> good (fold_left (fun c k => counter_add k 1 c) l c)).
  { induction l as [|k l IH]; intros c H; cbn [fold_left]; [exact H|]. apply IH, good_add; [lia|exact H]. }
  apply G. split; [constructor|intros ? []].
Qed.
Lemma good_update d : forall c, (forall kn, In kn d -> 0 < snd kn) -> good c -> good (counter_update c d).
Proof.
  unfold counter_update. induction d as [|kn d IH]; intros c P H; cbn [fold_left]; [exact H|].
  apply IH; [intros x Hx; apply P; right; exact Hx|]. apply good_add; [apply P; left; reflexivity|exact H].
Qed.
Definition delta (k x : nat) : nat := if Nat.eqb x k then 1 else 0.
Lemma get_wsum c k : good c -> counter_get c k = wsum (delta k) c.
Proof.
  intros (N & _). unfold counter_get. induction c as [|(k', m) c IH]; [reflexivity|]. cbn [find fst]. cbn [map fst] in N. inversion N as [|? ? N1 N2]; subst.
  rewrite wsum_cons. cbn [fst snd]. unfold delta at 1. destruct (Nat.eqb_spec k' k) as [->|K].
  - assert (Z : wsum (delta k) c = 0).
    { clear - N1. induction c as [|(j, i) c IH]; [reflexivity|]. rewrite wsum_cons. cbn [fst snd]. unfold delta at 1. cbn [map fst In] in N1.
      destruct (Nat.eqb_spec j k) as [->|_]; [exfalso; apply N1; left; reflexivity|]. rewrite IH; [lia|]. intros H. apply N1. right. exact H. }
    rewrite Z. lia.
  - rewrite IH by exact N2. lia.
Qed.
Lemma key_iff c k : good c -> In k (map fst c) <-> 0 < wsum (delta k) c.
Proof.
  intros (N & P). induction c as [|(k', m) c IH]; [cbn; split; [intros []|unfold wsum; cbn; lia]|].
  cbn [map fst] in N. inversion N as [|? ? N1 N2]; subst. rewrite wsum_cons. cbn [map fst snd In].
  assert (M : 0 < m) by (apply (P (k', m)); left; reflexivity). rewrite IH; [|exact N2|intros kn H; apply P; right; exact H].
  unfold delta at 2. destruct (Nat.eqb_spec k' k) as [->|K]; [split; [lia|left; reflexivity]|]. split; [intros [E|E]; [congruence|lia]|intros E; right; lia].
Qed.

(** *** sorting *)
Lemma insert_in k l x : In x (insert_size k l) <-> x = k \/ In x l.
Proof.
  induction l as [|y l IH]; cbn [insert_size]; [cbn; intuition|]. destruct (k <=? y); cbn [In]; [intuition|]. rewrite IH. intuition.
Qed.
Lemma sort_in l x : In x (sort_sizes l) <-> In x l.
Proof. unfold sort_sizes. induction l as [|y l IH]; cbn [fold_right]; [reflexivity|]. rewrite insert_in, IH. cbn [In]. intuition. Qed.
Lemma insert_sorted k l : ~ In k l -> StronglySorted lt l -> StronglySorted lt (insert_size k l).
Proof.
  intros N S. induction S as [|y l S IH F]; cbn [insert_size]; [repeat constructor|]. cbn [In] in N. destruct (Nat.leb_spec k y) as [L|L].
  - constructor; [constructor; assumption|]. constructor; [lia|]. rewrite Forall_forall in F |- *. intros x Hx. specialize (F x Hx). lia.
  - constructor; [apply IH; intuition|]. rewrite Forall_forall in F |- *. intros x Hx. apply insert_in in Hx. destruct Hx as [-> |Hx]; [exact L|apply F, Hx].
Qed.
Lemma sort_sorted l : NoDup l -> StronglySorted lt (sort_sizes l).
Proof.
  induction 1 as [|x l N D IH]; [constructor|]. change (sort_sizes (x :: l)) with (insert_size x (sort_sizes l)). apply insert_sorted; [rewrite sort_in; exact N|exact IH].
Qed.
Lemma sorted_same l : forall l', StronglySorted lt l -> StronglySorted lt l' -> (forall x, In x l <-> In x l') -> l = l'.
Proof.
  induction l as [|a l IH]; intros [|b l'] S S' H.
  - reflexivity.
  - destruct (proj2 (H b)); left; reflexivity.
  - destruct (proj1 (H a)); left; reflexivity.
  - inversion S as [|? ? S1 F1]; inversion S' as [|? ? S2 F2]; subst. rewrite Forall_forall in F1, F2.
    assert (E : a = b).
    { destruct (proj1 (H a)) as [E|E]; [left; reflexivity|congruence|]. destruct (proj2 (H b)) as [E'|E']; [left; reflexivity|congruence|].
      specialize (F1 b E'). specialize (F2 a E). lia. }
    subst b. f_equal. apply IH; [exact S1|exact S2|]. intros x. split; intros Hx.
    + destruct (proj1 (H x)) as [E|E]; [right; exact Hx|subst x; specialize (F1 a Hx); lia|exact E].
    + destruct (proj2 (H x)) as [E|E]; [right; exact Hx|subst x; specialize (F2 a Hx); lia|exact E].
Qed.
Lemma histogram_same c c' : good c -> good c' -> (forall k, wsum (delta k) c = wsum (delta k) c') -> render_condset_size_histogram c = render_condset_size_histogram c'.
Proof.
  intros G G' E. unfold render_condset_size_histogram. f_equal.
  assert (S : sort_sizes (map fst c) = sort_sizes (map fst c')).
  { apply sorted_same; [apply sort_sorted, G|apply sort_sorted, G'|]. intros x. rewrite !sort_in, (key_iff c), (key_iff c') by assumption. rewrite E. reflexivity. }
  rewrite S. apply flat_map_ext. intros k. rewrite !get_wsum by assumption. rewrite E. reflexivity.
Qed.

(** *** sums *)
Lemma Rsum_app l l' : Rsum (l ++ l') = (Rsum l + Rsum l')%R.
Proof. induction l as [|x l IH]; cbn [app Rsum]; [lra|]. rewrite IH. lra. Qed.
Lemma Rsum_perm l l' : Permutation l l' -> Rsum l = Rsum l'.
Proof. induction 1; cbn [Rsum]; lra. Qed.
Lemma list_sum_perm l l' : Permutation l l' -> list_sum l = list_sum l'.
Proof.
  induction 1 as [|x l l' P IH|x y l|l l' l'' P1 IH1 P2 IH2]; [reflexivity| | |congruence].
  - change (x + list_sum l = x + list_sum l'). lia.
  - change (y + (x + list_sum l) = x + (y + list_sum l)). lia.
Qed.
Lemma mapM_map {A B} (f : A -> res B) (g : A -> B) l : (forall x, In x l -> f x = Ok (g x)) -> mapM f l = Ok (map g l).
Proof.
  induction l as [|x l IH]; intros H; [reflexivity|]. cbn [mapM map]. rewrite (H x) by (left; reflexivity). cbn [bind]. rewrite IH; [reflexivity|].
  intros y Hy. apply H. right. exact Hy.
Qed.
