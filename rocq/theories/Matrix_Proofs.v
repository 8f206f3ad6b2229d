(** Lemmas about the dataset-matrix operations. *)
From Coq Require Import String.
From Verif Require Import Base Matrix_Model Matrix_Spec.

(** ** indexing *)
Lemma py_index_means n z i : py_index n z = Ok i <-> means n z i.
Proof.
  unfold py_index, means.
  destruct (0 <=? z)%Z eqn:E1; destruct (z <? Z.of_nat n)%Z eqn:E2; simpl;
  destruct (- Z.of_nat n <=? z)%Z eqn:E3; destruct (z <? 0)%Z eqn:E4; simpl;
  try apply Z.leb_le in E1; try apply Z.leb_gt in E1; try apply Z.ltb_lt in E2; try apply Z.ltb_ge in E2;
  try apply Z.leb_le in E3; try apply Z.leb_gt in E3; try apply Z.ltb_lt in E4; try apply Z.ltb_ge in E4;
  (split; [intros H; inversion H; subst; clear H; split; lia | intros [H1 [H2|H2]]; try (f_equal; lia); lia ]).
Qed.
Lemma py_index_err n z e : py_index n z = Err e -> e = IndexError.
Proof. unfold py_index. destruct (_ && _); [discriminate|]. destruct (_ && _); [discriminate|]. congruence. Qed.

Definition res_map {A B} (f : A -> B) (r : res A) : res B := match r with Ok a => Ok (f a) | Err e => Err e end.

Lemma py_get_map {A B} (f : A -> B) l z : py_get (map f l) z = res_map f (py_get l z).
Proof.
  unfold py_get. rewrite map_length. destruct (py_index (length l) z) as [k|e]; simpl; [|reflexivity].
  rewrite nth_error_map. destruct (nth_error l k); reflexivity.
Qed.
Lemma mapM_res_map {A B C} (g : A -> res B) (f : B -> C) l :
  mapM (fun x => res_map f (g x)) l = res_map (map f) (mapM g l).
Proof.
  induction l as [|x l IH]; simpl; [reflexivity|]. destruct (g x); simpl; [|reflexivity].
  rewrite IH. destruct (mapM g l); reflexivity.
Qed.
Lemma mapM_ext {A B} (f g : A -> res B) l : (forall x, In x l -> f x = g x) -> mapM f l = mapM g l.
Proof.
  induction l as [|x l IH]; simpl; intros H; [reflexivity|]. rewrite (H x) by auto. rewrite IH by auto. reflexivity.
Qed.
Lemma py_gather_map {A B} (f : A -> B) l zs : py_gather (map f l) zs = res_map (map f) (py_gather l zs).
Proof.
  unfold py_gather. rewrite <- mapM_res_map. apply mapM_ext. intros z _. apply py_get_map.
Qed.
Lemma py_get_picked {A} (l : list A) z x : py_get l z = Ok x -> exists i, means (length l) z i /\ nth_error l i = Some x.
Proof.
  unfold py_get. intros H. apply bind_ok in H as (k & Hk & H). exists k. split; [apply py_index_means; assumption|].
  unfold of_option in H. destruct (nth_error l k); [congruence|discriminate].
Qed.
Lemma py_gather_picked {A} (l : list A) zs l' : py_gather l zs = Ok l' -> picked l zs l'.
Proof.
  intros H. apply mapM_Forall2 in H. unfold picked. induction H; constructor; [|assumption].
  apply py_get_picked; assumption.
Qed.
Lemma py_get_err {A} (l : list A) z e : py_get l z = Err e -> e = IndexError.
Proof.
  unfold py_get. destruct (py_index (length l) z) eqn:E; simpl.
  - unfold of_option. destruct (nth_error l a); congruence.
  - intros H. inversion H; subst. eapply py_index_err; eassumption.
Qed.
Lemma py_index_length {A B} (l : list A) (l' : list B) z : length l = length l' -> py_index (length l) z = py_index (length l') z.
Proof. intros ->. reflexivity. Qed.

(** ** dropping positions *)
Definition drop_from {A} (ps : list nat) (k : nat) (l : list A) : list A :=
  map snd (filter (fun ix => negb (mem (fst ix) ps)) (combine (seq k (length l)) l)).
Lemma drop_from_0 {A} ps (l : list A) : drop_positions ps l = drop_from ps 0 l.
Proof. reflexivity. Qed.
Lemma drop_from_cons {A} ps k (x : A) l :
  drop_from ps k (x :: l) = (if mem k ps then [] else [x]) ++ drop_from ps (S k) l.
Proof. unfold drop_from. simpl. destruct (mem k ps); reflexivity. Qed.
Lemma drop_from_map {A B} (f : A -> B) ps k l : drop_from ps k (map f l) = map f (drop_from ps k l).
Proof.
  revert k; induction l as [|x l IH]; intros k; [reflexivity|]. simpl map at 1. rewrite !drop_from_cons, map_app, IH.
  destruct (mem k ps); reflexivity.
Qed.
Lemma drop_map {A B} (f : A -> B) ps l : drop_positions ps (map f l) = map f (drop_positions ps l).
Proof. apply drop_from_map. Qed.
Lemma drop_from_ext {A} ps ps' k (l : list A) :
  (forall i, k <= i < k + length l -> mem i ps = mem i ps') -> drop_from ps k l = drop_from ps' k l.
Proof.
  revert k; induction l as [|x l IH]; intros k H; [reflexivity|]. rewrite !drop_from_cons.
  simpl in H. rewrite (H k) by lia. f_equal. apply IH. intros; apply H; lia.
Qed.
Lemma drop_from_nil {A} k (l : list A) : drop_from [] k l = l.
Proof. revert k; induction l as [|x l IH]; intros k; [reflexivity|]. rewrite drop_from_cons, IH. reflexivity. Qed.
Lemma drop_nil {A} (l : list A) : drop_positions [] l = l.
Proof. apply drop_from_nil. Qed.
Lemma drop_from_length {A B} ps k (l : list A) (l' : list B) :
  length l = length l' -> length (drop_from ps k l) = length (drop_from ps k l').
Proof.
  revert k l'; induction l as [|x l IH]; intros k [|y l'] H; simpl in H; try discriminate; [reflexivity|].
  rewrite !drop_from_cons, !app_length. rewrite (IH (S k) l') by congruence. destruct (mem k ps); reflexivity.
Qed.
Lemma drop_from_in {A} ps k (l : list A) x : In x (drop_from ps k l) -> In x l.
Proof.
  revert k; induction l as [|y l IH]; intros k H; [destruct H|]. rewrite drop_from_cons in H.
  apply in_app_iff in H as [H|H]; [destruct (mem k ps); [destruct H|destruct H as [->|[]]; left; reflexivity]|right; eauto].
Qed.
Lemma drop_from_single {A} k (a : list A) x b :
  drop_from [k + length a] k (a ++ x :: b) = a ++ b.
Proof.
  revert k; induction a as [|y a IH]; intros k.
  - simpl app. rewrite drop_from_cons. simpl length. rewrite Nat.add_0_r.
    unfold mem at 1. simpl. rewrite Nat.eqb_refl. simpl.
    rewrite (drop_from_ext _ [] (S k)); [apply drop_from_nil|]. intros i Hi. unfold mem. simpl.
    destruct (Nat.eqb_spec i k); [lia|reflexivity].
  - simpl app. rewrite drop_from_cons. simpl length.
    unfold mem at 1. simpl existsb. destruct (Nat.eqb_spec k (k + S (length a))); [lia|]. simpl.
    f_equal. replace (k + S (length a)) with (S k + length a) by lia. apply IH.
Qed.
Lemma py_del_without {A} (l l' : list A) z : py_del l z = Ok l' -> without l z l'.
Proof.
  unfold py_del. intros H. apply bind_ok in H as (k & Hk & H). inversion H; subst; clear H.
  apply py_index_means in Hk as Hm. destruct Hm as [Hlt _].
  destruct (nth_error l k) as [x|] eqn:Ex; [|apply nth_error_None in Ex; lia].
  apply nth_error_split in Ex as (a & b & -> & Hl).
  exists a, x, b. split; [reflexivity|]. split.
  - rewrite drop_from_0. rewrite <- Hl. apply (drop_from_single 0).
  - rewrite Hl. apply py_index_means. assumption.
Qed.

Lemma drop_from_Forall2 {A} ps (l : list A) : forall k pre, length pre = k ->
  Forall2 (fun i x => nth_error (pre ++ l) i = Some x) (filter (fun i => negb (mem i ps)) (seq k (length l))) (drop_from ps k l).
Proof.
  induction l as [|x l IH]; intros k pre Hk; [constructor|].
  rewrite drop_from_cons. simpl seq.
  assert (IH' : Forall2 (fun i y => nth_error (pre ++ x :: l) i = Some y)
            (filter (fun i => negb (mem i ps)) (seq (S k) (length l))) (drop_from ps (S k) l)).
  { specialize (IH (S k) (pre ++ [x])). rewrite <- app_assoc in IH. simpl in IH. apply IH. rewrite app_length; simpl; lia. }
  simpl filter. destruct (mem k ps); simpl; [exact IH'|]. constructor; [|exact IH'].
  rewrite nth_error_app2 by lia. rewrite Hk, Nat.sub_diag. reflexivity.
Qed.
Lemma drop_Forall2 {A} ps (l : list A) :
  Forall2 (fun i x => nth_error l i = Some x) (filter (fun i => negb (mem i ps)) (seq 0 (length l))) (drop_positions ps l).
Proof. apply (drop_from_Forall2 ps l 0 []). reflexivity. Qed.

(** ** integer sorting *)
Lemma insert_Z_perm x l : Permutation (x :: l) (insert_Z x l).
Proof.
  induction l as [|y l IH]; simpl; [auto|]. destruct (x <=? y)%Z; [auto|].
  eapply perm_trans; [apply perm_swap|]. constructor. assumption.
Qed.
Lemma sort_Z_perm l : Permutation l (sort_Z l).
Proof.
  induction l as [|x l IH]; simpl; [auto|]. eapply perm_trans; [|apply insert_Z_perm]. constructor; assumption.
Qed.
Lemma insert_Z_sorted x l : StronglySorted Z.le l -> StronglySorted Z.le (insert_Z x l).
Proof.
  induction 1 as [|y l Hs IH Hf]; simpl; [repeat constructor|].
  destruct (Z.leb_spec x y).
  - constructor; [constructor; assumption|]. constructor; [assumption|].
    eapply Forall_impl; [|exact Hf]. intros; simpl in *; lia.
  - constructor; [assumption|]. apply Forall_forall. intros z Hz.
    apply (Permutation_in _ (Permutation_sym (insert_Z_perm x l))) in Hz as [->|Hz]; [lia|].
    rewrite Forall_forall in Hf. auto.
Qed.
Lemma sort_Z_ssorted l : StronglySorted Z.le (sort_Z l).
Proof. induction l; simpl; [constructor|]. apply insert_Z_sorted; assumption. Qed.
Lemma sort_Z_sorted l : Sorted Z.le (sort_Z l).
Proof. apply StronglySorted_Sorted, sort_Z_ssorted. Qed.
Lemma mem_Z_In z l : mem_Z z l = true <-> In z l.
Proof.
  unfold mem_Z. rewrite existsb_exists. split.
  - intros (y & H & E). apply Z.eqb_eq in E. subst; assumption.
  - intros H. exists z. split; [assumption|apply Z.eqb_refl].
Qed.
Lemma mem_Z_sort z l : mem_Z z (sort_Z l) = mem_Z z l.
Proof.
  destruct (mem_Z z l) eqn:E.
  - apply mem_Z_In. apply mem_Z_In in E. apply (Permutation_in _ (sort_Z_perm l)). assumption.
  - destruct (mem_Z z (sort_Z l)) eqn:E'; [|reflexivity]. apply mem_Z_In in E'.
    apply (Permutation_in _ (Permutation_sym (sort_Z_perm l))) in E'. apply mem_Z_In in E'. congruence.
Qed.
Lemma sort_Z_nil l : sort_Z l = [] -> l = [].
Proof. intros H. pose proof (sort_Z_perm l) as P. rewrite H in P. apply Permutation_sym, Permutation_nil in P. assumption. Qed.

(** ** deletion from a matrix *)
Lemma delete_rows_eq m rs : sm_format m = CSR ->
  delete_rows_cols m rs [] = res_map (fun ps => SMat CSR (sm_ncols m) (drop_positions ps (sm_rows m))) (mapM (py_index (sm_nrows m)) rs).
Proof.
  intros Hf. unfold delete_rows_cols. rewrite Hf. destruct rs as [|r rs].
  - simpl. rewrite drop_nil. destruct m; simpl in *; subst; reflexivity.
  - destruct (mapM (py_index (sm_nrows m)) (r :: rs)); reflexivity.
Qed.
Lemma delete_cols_eq m cs : sm_format m = CSR ->
  delete_rows_cols m [] cs =
  res_map (fun ps => SMat CSR (length (drop_positions ps (repeat tt (sm_ncols m)))) (map (drop_positions ps) (sm_rows m)))
          (mapM (py_index (sm_ncols m)) cs).
Proof.
  intros Hf. unfold delete_rows_cols. rewrite Hf. destruct cs as [|c cs].
  - simpl. rewrite drop_nil, repeat_length. destruct m as [f nc rows]; simpl in *; subst. f_equal. f_equal.
    rewrite <- (map_id rows) at 1. apply map_ext. intros; rewrite drop_nil; reflexivity.
  - destruct (mapM (py_index (sm_ncols m)) (c :: cs)); reflexivity.
Qed.
Lemma delete_csc m rs cs : sm_format m = CSC -> delete_rows_cols m rs cs = Err ValueError.
Proof. intros H. unfold delete_rows_cols. rewrite H. reflexivity. Qed.

Lemma shows_drop_rows m0 m rows cols ps : shows m0 m rows cols ->
  shows m0 (SMat CSR (sm_ncols m) (drop_positions ps (sm_rows m))) (drop_positions ps rows) cols.
Proof. intros [H1 H2]. split; simpl; [assumption|]. rewrite H2, drop_map. reflexivity. Qed.
Lemma shows_drop_cols m0 m rows cols ps : shows m0 m rows cols ->
  shows m0 (SMat CSR (length (drop_positions ps (repeat tt (sm_ncols m)))) (map (drop_positions ps) (sm_rows m))) rows (drop_positions ps cols).
Proof.
  intros [H1 H2]. split; simpl.
  - apply drop_from_length. rewrite repeat_length. assumption.
  - rewrite H2, map_map. apply map_ext. intros r. apply drop_map.
Qed.
Lemma shows_nrows m0 m rows cols : shows m0 m rows cols -> sm_nrows m = length rows.
Proof. intros [_ H]. unfold sm_nrows. rewrite H. apply map_length. Qed.
Lemma shows_format m0 f m rows cols : shows m0 m rows cols -> shows m0 (to_format f m) rows cols.
Proof. intros [H1 H2]. split; assumption. Qed.

Lemma Forall_drop {A} (P : A -> Prop) ps l : Forall P l -> Forall P (drop_positions ps l).
Proof. rewrite !Forall_forall. intros H x Hx. apply H. eapply drop_from_in. exact Hx. Qed.

(** positions meant by non-negative indices *)
Lemma mapM_index_mem n zs ps : mapM (py_index n) zs = Ok ps -> Forall (fun z => (0 <= z)%Z) zs ->
  forall i, mem i ps = mem_Z (Z.of_nat i) zs.
Proof.
  intros H HF i. apply mapM_Forall2 in H.
  induction H as [|z p zs ps Hz H IH]; [reflexivity|]. inversion HF; subst.
  change (mem i (p :: ps)) with (Nat.eqb i p || mem i ps).
  change (mem_Z (Z.of_nat i) (z :: zs)) with (Z.eqb (Z.of_nat i) z || mem_Z (Z.of_nat i) zs).
  rewrite IH by assumption. f_equal. apply py_index_means in Hz as [Hlt Hz].
  destruct (Nat.eqb_spec i p); destruct (Z.eqb_spec (Z.of_nat i) z); try reflexivity; lia.
Qed.
Lemma labels_not_in_drop labels zs ps n : mapM (py_index n) zs = Ok ps -> Forall (fun z => (0 <= z)%Z) zs ->
  labels_not_in labels zs = drop_positions ps labels.
Proof.
  intros H HF. unfold labels_not_in, drop_positions. f_equal. apply filter_ext. intros [i x]. simpl.
  rewrite (mapM_index_mem _ _ _ H HF). reflexivity.
Qed.
Lemma drop_without_all {A} (l : list A) zs ps n : mapM (py_index n) zs = Ok ps -> Forall (fun z => (0 <= z)%Z) zs ->
  without_all l zs (drop_positions ps l).
Proof.
  intros H HF. unfold without_all. erewrite filter_ext; [apply (drop_Forall2 ps)|].
  intros i. simpl. rewrite (mapM_index_mem _ _ _ H HF). reflexivity.
Qed.
Lemma without_all_perm {A} (l l' : list A) zs : without_all l (sort_Z zs) l' -> without_all l zs l'.
Proof.
  unfold without_all. intros H. erewrite filter_ext; [exact H|]. intros i. simpl.
  change (negb (mem_Z (Z.of_nat i) zs) = negb (mem_Z (Z.of_nat i) (sort_Z zs))). rewrite mem_Z_sort. reflexivity.
Qed.

(** strictly increasing lists with the same elements are equal *)
Lemma ssorted_lt_unique (l l' : list nat) : StronglySorted lt l -> StronglySorted lt l' -> (forall x, In x l <-> In x l') -> l = l'.
Proof.
  intros H. revert l'. induction H as [|x l Hs IH Hf]; intros l' H' E.
  - destruct l' as [|y l']; [reflexivity|]. destruct (proj2 (E y)). left; reflexivity.
  - destruct H' as [|y l' Hs' Hf']; [destruct (proj1 (E x)); left; reflexivity|].
    rewrite Forall_forall in Hf, Hf'.
    assert (x = y).
    { destruct (proj1 (E x)) as [->|H1]; [left; reflexivity|reflexivity|].
      destruct (proj2 (E y)) as [->|H2]; [left; reflexivity|reflexivity|].
      specialize (Hf _ H2). specialize (Hf' _ H1). lia. }
    subst y. f_equal. apply IH; [assumption|]. intros z. split; intros Hz.
    + destruct (proj1 (E z)) as [->|]; [right; assumption| |assumption]. specialize (Hf _ Hz). lia.
    + destruct (proj2 (E z)) as [->|]; [right; assumption| |assumption]. specialize (Hf' _ Hz). lia.
Qed.
Lemma seq_ssorted k n : StronglySorted lt (seq k n).
Proof.
  revert k; induction n as [|n IH]; intros k; simpl; constructor; [apply IH|].
  apply Forall_forall. intros x Hx. apply in_seq in Hx. lia.
Qed.
Lemma filter_ssorted {A} (R : A -> A -> Prop) f l : StronglySorted R l -> StronglySorted R (filter f l).
Proof.
  induction 1 as [|x l Hs IH Hf]; simpl; [constructor|]. destruct (f x); [|assumption].
  constructor; [assumption|]. rewrite Forall_forall in *. intros y Hy. apply filter_In in Hy as [Hy _]. auto.
Qed.

Lemma to_nat_ssorted zs : Sorted Z.lt zs -> Forall (fun z => (0 <= z)%Z) zs -> StronglySorted lt (map Z.to_nat zs).
Proof.
  intros H. apply Sorted_StronglySorted in H; [|intros x y z; lia].
  induction H as [|z zs Hs IH Hf]; intros HF; simpl; [constructor|]. inversion HF; subst.
  constructor; [auto|]. rewrite Forall_forall in *. intros i Hi. apply in_map_iff in Hi as (w & <- & Hw).
  specialize (Hf _ Hw). lia.
Qed.

(** the rows that keep_rows deletes, as positions *)
Definition to_delete (n : nat) (zs : list Z) : list Z :=
  filter (fun r => negb (mem_Z r zs)) (map Z.of_nat (seq 0 n)).
Lemma to_delete_ok n zs : exists ps, mapM (py_index n) (to_delete n zs) = Ok ps /\
  forall i, i < n -> mem i ps = negb (mem_Z (Z.of_nat i) zs).
Proof.
  exists (map Z.to_nat (to_delete n zs)). split.
  - apply mapM_ok. intros z Hz. apply py_index_means. unfold to_delete in Hz. apply filter_In in Hz as [Hz _].
    apply in_map_iff in Hz as (i & <- & Hi). apply in_seq in Hi. split; [lia|]. left. lia.
  - intros i Hi. destruct (mem_Z (Z.of_nat i) zs) eqn:E; simpl.
    + apply mem_false. intros H. apply in_map_iff in H as (z & <- & Hz). unfold to_delete in Hz.
      apply filter_In in Hz as [Hz1 Hz2]. apply in_map_iff in Hz1 as (j & <- & Hj).
      rewrite Nat2Z.id in E. rewrite E in Hz2. discriminate.
    + apply mem_In. apply in_map_iff. exists (Z.of_nat i). split; [apply Nat2Z.id|].
      apply filter_In. split; [apply in_map, in_seq; lia|]. rewrite E. reflexivity.
Qed.

(** fetching by positions *)
Definition fetch {A} (l : list A) (is : list nat) (l' : list A) : Prop := Forall2 (fun i x => nth_error l i = Some x) is l'.
Lemma fetch_fun {A} (l : list A) is l1 l2 : fetch l is l1 -> fetch l is l2 -> l1 = l2.
Proof.
  intros H. revert l2. induction H as [|i x is l1 Hx H IH]; intros l2 H2; inversion H2; subst; [reflexivity|].
  f_equal; [congruence|auto].
Qed.
Lemma gather_fetch {A} (l : list A) zs : Forall (fun z => (0 <= z < Z.of_nat (length l))%Z) zs ->
  exists l', py_gather l zs = Ok l' /\ fetch l (map Z.to_nat zs) l'.
Proof.
  induction 1 as [|z zs Hz HF IH]; [exists []; split; [reflexivity|constructor]|].
  destruct IH as (l' & E & F). destruct (nth_error l (Z.to_nat z)) as [x|] eqn:Ex.
  - exists (x :: l'). split; [|constructor; assumption]. unfold py_gather in *. simpl. unfold py_get at 1.
    assert (Ei : py_index (length l) z = Ok (Z.to_nat z)) by (apply py_index_means; split; lia).
    rewrite Ei. simpl. rewrite Ex. simpl. rewrite E. reflexivity.
  - apply nth_error_None in Ex. lia.
Qed.

(** keep_rows on increasing rows: dropping the others is picking these *)
Lemma keep_increasing {A} (l : list A) zs ps : Sorted Z.lt zs -> Forall (fun z => (0 <= z < Z.of_nat (length l))%Z) zs ->
  (forall i, i < length l -> mem i ps = negb (mem_Z (Z.of_nat i) zs)) ->
  py_gather l zs = Ok (drop_positions ps l).
Proof.
  intros Hs HF Hps. destruct (gather_fetch l zs HF) as (l' & E & F). rewrite E. f_equal.
  eapply fetch_fun; [exact F|]. pose proof (drop_Forall2 ps l) as D. unfold fetch.
  replace (map Z.to_nat zs) with (filter (fun i => negb (mem i ps)) (seq 0 (length l))); [exact D|].
  apply ssorted_lt_unique.
  - apply filter_ssorted, seq_ssorted.
  - apply to_nat_ssorted; [assumption|]. eapply Forall_impl; [|exact HF]. simpl; intros; lia.
  - intros i. rewrite filter_In, in_seq. split.
    + intros [Hi Hm]. rewrite Hps in Hm by lia. rewrite negb_involutive in Hm. apply mem_Z_In in Hm.
      apply in_map_iff. exists (Z.of_nat i). split; [apply Nat2Z.id|assumption].
    + intros Hi. apply in_map_iff in Hi as (z & <- & Hz). rewrite Forall_forall in HF. specialize (HF _ Hz).
      split; [lia|]. rewrite Hps by lia. rewrite negb_involutive. apply mem_Z_In. rewrite Z2Nat.id by lia. assumption.
Qed.

Lemma picked_incl {A} (l : list A) zs l' : picked l zs l' -> forall x, In x l' -> In x l.
Proof.
  intros H x Hx. induction H as [|z y zs l' (i & _ & Hi) H IH]; [destruct Hx|].
  destruct Hx as [->|Hx]; [eapply nth_error_In; eassumption|auto].
Qed.

(** selection from a matrix *)
Lemma take_rows_shows m0 m rows cols zs : shows m0 m rows cols ->
  take_rows m zs = res_map (fun rows' => SMat (sm_format m) (sm_ncols m) (map (fun r => map (fun c => entry m0 r c) cols) rows')) (py_gather rows zs).
Proof.
  intros [H1 H2]. unfold take_rows. rewrite H2, py_gather_map. destruct (py_gather rows zs); reflexivity.
Qed.
Lemma mapM_nth_map {A B} (f : A -> B) (cols : list A) ps cols' :
  mapM (fun p => of_option IndexError (nth_error cols p)) ps = Ok cols' ->
  mapM (fun p => of_option IndexError (nth_error (map f cols) p)) ps = Ok (map f cols').
Proof.
  intros H. rewrite (mapM_ext _ (fun p => res_map f (of_option IndexError (nth_error cols p)))).
  - rewrite mapM_res_map, H. reflexivity.
  - intros p _. rewrite nth_error_map. destruct (nth_error cols p); reflexivity.
Qed.
Lemma gather_split {A} (l : list A) zs l' : py_gather l zs = Ok l' ->
  exists ps, mapM (py_index (length l)) zs = Ok ps /\ mapM (fun p => of_option IndexError (nth_error l p)) ps = Ok l'.
Proof.
  revert l'. induction zs as [|z zs IH]; intros l' H.
  - inversion H; subst. exists []. split; reflexivity.
  - unfold py_gather in H. simpl in H. apply bind_ok in H as (x & Hx & H). apply bind_ok in H as (xs & Hxs & H).
    inversion H; subst. destruct (IH _ Hxs) as (ps & Hps & Hl). unfold py_get in Hx. apply bind_ok in Hx as (p & Hp & Hx).
    exists (p :: ps). split; simpl; [rewrite Hp; simpl; rewrite Hps; reflexivity|rewrite Hx; simpl; rewrite Hl; reflexivity].
Qed.
Lemma gather_err_split {A} (l : list A) zs e : py_gather l zs = Err e -> exists e', mapM (py_index (length l)) zs = Err e'.
Proof.
  revert e; induction zs as [|z zs IH]; intros e H; [discriminate|]. unfold py_gather in H. simpl in *.
  destruct (py_index (length l) z) as [p|e'] eqn:Ep; [|eexists; reflexivity]. simpl.
  assert (E : exists x, py_get l z = Ok x).
  { unfold py_get. rewrite Ep. simpl. apply py_index_means in Ep as [Hlt _].
    destruct (nth_error l p) eqn:En; [eexists; reflexivity|]. apply nth_error_None in En. lia. }
  destruct E as (x & Ex). rewrite Ex in H. simpl in H. destruct (mapM (py_get l) zs) eqn:Em; [discriminate|].
  destruct (IH _ Em) as (e'' & ->). eexists; reflexivity.
Qed.
Lemma take_cols_shows m0 m rows cols zs cols' : shows m0 m rows cols -> py_gather cols zs = Ok cols' ->
  exists m', take_cols m zs = Ok m' /\ shows m0 m' rows cols' /\ sm_format m' = sm_format m.
Proof.
  intros [H1 H2] H. destruct (gather_split _ _ _ H) as (ps & Hps & Hc).
  unfold take_cols. rewrite H1, Hps. simpl. rewrite H2.
  rewrite (mapM_ok _ (fun row => match mapM (fun p => of_option IndexError (nth_error row p)) ps with Ok r => r | Err _ => [] end)).
  - simpl. eexists. split; [reflexivity|]. split; [|reflexivity]. split; simpl.
    + rewrite (mapM_length _ _ _ Hc). reflexivity.
    + rewrite map_map. apply map_ext. intros r. rewrite (mapM_nth_map _ _ _ _ Hc). reflexivity.
  - intros row Hrow. apply in_map_iff in Hrow as (r & <- & _). rewrite (mapM_nth_map _ _ _ _ Hc). reflexivity.
Qed.
Lemma take_cols_err m0 m rows cols zs e : shows m0 m rows cols -> py_gather cols zs = Err e -> exists e', take_cols m zs = Err e'.
Proof.
  intros [H1 H2] H. apply gather_err_split in H as (e' & H). unfold take_cols. rewrite H1, H. eexists; reflexivity.
Qed.
