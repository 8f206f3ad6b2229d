(** Shared vocabulary: Python exceptions as values, small list/dict helpers.
    No property is stated here. *)
From Coq Require Export List Arith ZArith Bool Lia Permutation Sorted.
Export ListNotations.

(** Python exceptions that the modelled code can raise (or let escape).
    [OutOfFuel] is not a Python exception: it marks a loop/recursion whose explicit
    fuel was too small; theorems always exclude it. *)
Inductive pyerr :=
| TypeError | AttributeError | KeyError | IndexError | ValueError
| ZeroDivisionError | RuntimeError | AssertionError | NotImplementedError
| InsufficientSamples      (* mbtk/math/Exceptions.py: InsufficientSamplesForCITest *)
| MatrixFinalized          (* mbtk/dataset/Exceptions.py *)
| MatrixNotFinalized
| ExperimentalDatasetErr   (* mbtk/dataset/Exceptions.py *)
| LockedErr                (* LockablePath / experiment locks *)
| UnequalCount             (* mbtk/math/Exceptions.py: VariableInstancesOfUnequalCount *)
| OSErr                    (* FileNotFoundError, FileExistsError, IsADirectoryError, NotADirectoryError *)
| NameErr                  (* NameError *)
| PickleErr                (* reading a file whose writing was interrupted (EOFError, UnpicklingError) *)
| OutOfFuel.

Inductive res (A : Type) := Ok (a : A) | Err (e : pyerr).
Arguments Ok {A} a.
Arguments Err {A} e.

Definition bind {A B} (x : res A) (f : A -> res B) : res B :=
  match x with Ok a => f a | Err e => Err e end.
Notation "x <- a ;; b" := (bind a (fun x => b)) (at level 61, a at next level, right associativity).
Notation "' p <- a ;; b" := (bind a (fun p => b)) (at level 61, p pattern, a at next level, right associativity).

Definition of_option {A} (e : pyerr) (o : option A) : res A :=
  match o with Some a => Ok a | None => Err e end.

(** Monadic map, left to right, stopping at the first exception. *)
Fixpoint mapM {A B} (f : A -> res B) (l : list A) : res (list B) :=
  match l with
  | [] => Ok []
  | x :: l' => y <- f x ;; ys <- mapM f l' ;; Ok (y :: ys)
  end.

Fixpoint foldM {A B} (f : B -> A -> res B) (l : list A) (b : B) : res B :=
  match l with
  | [] => Ok b
  | x :: l' => b' <- f b x ;; foldM f l' b'
  end.

Fixpoint zsum (l : list Z) : Z := match l with [] => 0%Z | x :: l' => (x + zsum l')%Z end.

(** Association lists stand for Python dicts (insertion ordered).  [assoc] is lookup,
    [assoc_set] is [d[k] = v]: overwrites in place, or appends. *)
Section Assoc.
  Context {K V : Type} (eqb : K -> K -> bool).
  Fixpoint assoc (k : K) (d : list (K * V)) : option V :=
    match d with
    | [] => None
    | (k', v) :: d' => if eqb k k' then Some v else assoc k d'
    end.
  Fixpoint assoc_set (k : K) (v : V) (d : list (K * V)) : list (K * V) :=
    match d with
    | [] => [(k, v)]
    | (k', v') :: d' => if eqb k k' then (k', v) :: d' else (k', v') :: assoc_set k v d'
    end.
End Assoc.

Lemma bind_ok {A B} (x : res A) (f : A -> res B) b :
  bind x f = Ok b -> exists a, x = Ok a /\ f a = Ok b.
Proof. destruct x; simpl; intros H; [eauto | discriminate]. Qed.

Lemma mapM_length {A B} (f : A -> res B) l ys : mapM f l = Ok ys -> length ys = length l.
Proof.
  revert ys; induction l as [|x l IH]; simpl; intros ys H.
  - inversion H; reflexivity.
  - apply bind_ok in H as (y & _ & H). apply bind_ok in H as (ys' & Hys & H).
    inversion H; subst; simpl. f_equal; auto.
Qed.

Lemma mapM_Forall2 {A B} (f : A -> res B) l ys :
  mapM f l = Ok ys -> Forall2 (fun x y => f x = Ok y) l ys.
Proof.
  revert ys; induction l as [|x l IH]; simpl; intros ys H.
  - inversion H; constructor.
  - apply bind_ok in H as (y & Hy & H). apply bind_ok in H as (ys' & Hys & H).
    inversion H; subst. constructor; auto.
Qed.

Lemma mapM_ok {A B} (f : A -> res B) (g : A -> B) l :
  (forall x, In x l -> f x = Ok (g x)) -> mapM f l = Ok (map g l).
Proof.
  induction l as [|x l IH]; simpl; intros H; [reflexivity|].
  rewrite (H x) by auto. simpl. rewrite IH by auto. reflexivity.
Qed.

Lemma mapM_exists {A B} (f : A -> res B) (P : A -> B -> Prop) l :
  (forall x, In x l -> exists y, f x = Ok y /\ P x y) ->
  exists ys, mapM f l = Ok ys /\ Forall2 P l ys.
Proof.
  induction l as [|x l IH]; simpl; intros H.
  - exists []; split; [reflexivity | constructor].
  - destruct (H x) as (y & Hy & HP); auto.
    destruct IH as (ys & Hys & HF); auto.
    rewrite Hy; simpl; rewrite Hys; simpl. eauto using Forall2_cons.
Qed.

(** insertion sort stands for `sorted` on integers *)
Fixpoint insert_nat (x : nat) (l : list nat) : list nat :=
  match l with
  | [] => [x]
  | y :: l' => if (x <=? y)%nat then x :: l else y :: insert_nat x l'
  end.
Definition sort_nat (l : list nat) : list nat := fold_right insert_nat [] l.

(** ** sorting *)
Lemma insert_perm x l : Permutation (x :: l) (insert_nat x l).
Proof.
  induction l as [|y l IH]; simpl; [auto|]. destruct (x <=? y)%nat; [auto|].
  eapply perm_trans; [apply perm_swap|]. constructor. assumption.
Qed.
Lemma sort_perm l : Permutation l (sort_nat l).
Proof.
  induction l as [|x l IH]; simpl; [auto|]. eapply perm_trans; [|apply insert_perm]. constructor; assumption.
Qed.
Lemma insert_sorted x l : StronglySorted le l -> StronglySorted le (insert_nat x l).
Proof.
  induction 1 as [|y l Hs IH Hf]; simpl; [repeat constructor|].
  destruct (Nat.leb_spec x y).
  - constructor; [constructor; assumption|]. constructor; [assumption|].
    eapply Forall_impl; [|exact Hf]. intros; simpl in *; lia.
  - constructor; [assumption|]. apply Forall_forall. intros z Hz.
    apply (Permutation_in _ (Permutation_sym (insert_perm x l))) in Hz as [->|Hz]; [lia|].
    rewrite Forall_forall in Hf. auto.
Qed.
Lemma sort_sorted l : StronglySorted le (sort_nat l).
Proof. induction l; simpl; [constructor|]. apply insert_sorted; assumption. Qed.
Lemma sort_strict l : NoDup l -> StronglySorted lt (sort_nat l).
Proof.
  intros HN. pose proof (sort_sorted l) as Hs. apply (Permutation_NoDup (sort_perm l)) in HN.
  induction Hs as [|x l' Hs IH Hf]; [constructor|].
  inversion HN; subst. constructor; [auto|]. rewrite Forall_forall in *. intros y Hy. specialize (Hf y Hy).
  assert (x <> y) by (intros ->; contradiction). lia.
Qed.


Lemma sort_in l x : In x (sort_nat l) <-> In x l.
Proof.
  split; intros H; [apply (Permutation_in _ (Permutation_sym (sort_perm l)))|apply (Permutation_in _ (sort_perm l))]; assumption.
Qed.

(** A computation that needs explicit fuel: [evaluates f r] says that the Python computation it
    stands for terminates with [r]; [diverges f] that it never does. *)
Definition evaluates {A} (f : nat -> res A) (r : res A) : Prop :=
  r <> Err OutOfFuel /\ exists N, forall n, (N <= n)%nat -> f n = r.
Definition diverges {A} (f : nat -> res A) : Prop := forall n, f n = Err OutOfFuel.

(** `x in l` *)
Definition mem (x : nat) (l : list nat) : bool := existsb (Nat.eqb x) l.
Lemma mem_In x l : mem x l = true <-> In x l.
Proof.
  unfold mem. rewrite existsb_exists. split.
  - intros (y & H & E). apply Nat.eqb_eq in E. subst; assumption.
  - intros H. exists x. split; [assumption|apply Nat.eqb_refl].
Qed.
Lemma mem_false x l : mem x l = false <-> ~ In x l.
Proof. rewrite <- mem_In. destruct (mem x l); intuition congruence. Qed.

Lemma assoc_set_same {V} k (v : V) d : assoc Nat.eqb k (assoc_set Nat.eqb k v d) = Some v.
Proof.
  induction d as [|[k' v'] d IH]; simpl; [rewrite Nat.eqb_refl; reflexivity|].
  destruct (Nat.eqb_spec k k'); simpl; [subst; rewrite Nat.eqb_refl; reflexivity|].
  destruct (Nat.eqb_spec k k'); [contradiction|assumption].
Qed.
Lemma assoc_set_other {V} k k1 (v : V) d : k <> k1 -> assoc Nat.eqb k (assoc_set Nat.eqb k1 v d) = assoc Nat.eqb k d.
Proof.
  intros Hne. induction d as [|[k' v'] d IH]; simpl.
  - destruct (Nat.eqb_spec k k1); [contradiction|reflexivity].
  - destruct (Nat.eqb_spec k1 k'); simpl; destruct (Nat.eqb_spec k k'); subst; try contradiction; auto.
Qed.
