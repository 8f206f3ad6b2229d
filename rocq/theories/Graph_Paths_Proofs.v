(** The recursive path search enumerates exactly the simple paths. *)
From Verif Require Import Base Graph_Model Graph_Spec.

Lemma foldM_mono {A B} (f g : B -> A -> res B) l b r :
  (forall b x r, In x l -> f b x = Ok r -> g b x = Ok r) -> foldM f l b = Ok r -> foldM g l b = Ok r.
Proof.
  revert b. induction l as [|x l IH]; simpl; intros b H E; [assumption|].
  apply bind_ok in E as (b' & E1 & E2). rewrite (H b x b'); auto. simpl. apply IH; auto.
Qed.

Lemma fapr_mono n m g s e path r : (n <= m)%nat ->
  find_all_paths_recursive n g s e path = Ok r -> find_all_paths_recursive m g s e path = Ok r.
Proof.
  revert m s path r. induction n as [|n IH]; simpl; intros m s path r Hle E; [discriminate|].
  destruct m as [|m]; [lia|]. simpl. destruct (s =? e); [exact E|]. destruct (gget g s) as [ns|]; [|exact E].
  eapply foldM_mono; [|exact E]. cbv beta. intros b x r' _ E'. destruct (mem x (path ++ [s])); [exact E'|].
  apply bind_ok in E' as (np & E1 & E2). rewrite (IH m x _ np); [exact E2|lia|exact E1].
Qed.

Lemma foldM_concat {P} (f : nat -> res (list P)) (skip : nat -> bool) (Q : nat -> list P -> Prop) ns acc :
  (forall n, In n ns -> skip n = false -> exists r, f n = Ok r /\ Q n r) ->
  exists rs, foldM (fun paths node => if skip node then Ok paths else (np <- f node ;; Ok (paths ++ np))) ns acc
             = Ok (acc ++ concat rs) /\ Forall2 Q (filter (fun n => negb (skip n)) ns) rs.
Proof.
  revert acc. induction ns as [|n ns IH]; simpl; intros acc H.
  - exists []. simpl. rewrite app_nil_r. split; [reflexivity|constructor].
  - destruct (skip n) eqn:Es; simpl.
    + apply IH. intros; apply H; auto.
    + destruct (H n (or_introl eq_refl) Es) as (r & E & HQ). rewrite E. simpl.
      destruct (IH (acc ++ r)) as (rs & E2 & HF); [intros; apply H; auto|].
      exists (r :: rs). simpl. rewrite E2, app_assoc. split; [reflexivity|]. constructor; assumption.
Qed.

Lemma path_from_head E x p y : path_from E x p y -> exists q, p = x :: q.
Proof. destruct 1; eauto. Qed.
Lemma path_from_mono (E F : nat -> nat -> Prop) x p y : (forall a b, E a b -> F a b) -> path_from E x p y -> path_from F x p y.
Proof. intros H. induction 1; econstructor; eauto. Qed.

Lemma In_concat_F2 {A B} (Q : A -> list B -> Prop) l rs x :
  Forall2 Q l rs -> In x (concat rs) <-> exists n r, In (n, r) (combine l rs) /\ In x r.
Proof.
  induction 1 as [|n r l rs HQ HF IH]; simpl.
  - split; [intros []|intros (? & ? & [] & _)].
  - rewrite in_app_iff, IH. split.
    + intros [H|(n' & r' & H & H')]; eauto 6.
    + intros (n' & r' & [E|H] & H'); [inversion E; subst; auto|right; eauto].
Qed.
Lemma F2_combine {A B} (Q : A -> B -> Prop) l rs n r : Forall2 Q l rs -> In (n, r) (combine l rs) -> In n l /\ Q n r.
Proof.
  induction 1 as [|a b l rs HQ HF IH]; simpl; [intros []|].
  intros [E|H]; [inversion E; subst; auto|]. destruct (IH H); auto.
Qed.
Lemma F2_combine_l {A B} (Q : A -> B -> Prop) l rs n : Forall2 Q l rs -> In n l -> exists r, In (n, r) (combine l rs) /\ Q n r.
Proof.
  induction 1 as [|a b l rs HQ HF IH]; simpl; [intros []|].
  intros [->|H]; [eauto|]. destruct (IH H) as (r & H1 & H2); eauto.
Qed.

Lemma filter_NoDup {A} f (l : list A) : NoDup l -> NoDup (filter f l).
Proof.
  induction 1 as [|x l H HN IH]; simpl; [constructor|]. destruct (f x); [|assumption].
  constructor; [rewrite filter_In; tauto|assumption].
Qed.

Section Paths.
  Variable g : graph.
  Variable stop : nat.
  Let E := edge_of g.
  Variable V : list nat.
  Hypothesis closed : forall u l v, gget g u = Some l -> In v l -> In v V.

  Definition extends (path : list nat) (s : nat) (p : list nat) :=
    exists q, p = path ++ q /\ path_from E s q stop /\ NoDup (path ++ q).

  (** the recursion visits every simple continuation of [path] from [s] *)
  Lemma fapr_ok : forall fuel path s,
    NoDup (path ++ [s]) -> incl (path ++ [s]) V -> (length V - length path < fuel)%nat ->
    exists ps, find_all_paths_recursive fuel g s stop path = Ok ps /\
      (forall p, In p ps <-> extends path s p) /\
      ((forall u l, gget g u = Some l -> NoDup l) -> NoDup ps).
  Proof.
    induction fuel as [|fuel IH]; intros path s HN HI Hf; [lia|]. simpl.
    destruct (Nat.eqb_spec s stop) as [->|Hne].
    { exists [path ++ [stop]]. split; [reflexivity|]. split; [|intros _; constructor; [intros []|constructor]].
      intros p. split.
      - intros [<-|[]]. exists [stop]. split; [reflexivity|]. split; [constructor|assumption].
      - intros (q & -> & Hq & HNq). left. f_equal. inversion Hq as [|? z q' ? He Hq']; subst; [reflexivity|].
        exfalso. clear - Hq' HNq.
        assert (In stop q').
        { clear HNq. remember stop as y eqn:Ey. assert (H : path_from E z q' stop) by (rewrite <- Ey; exact Hq').
          clear Hq'. rewrite Ey. clear Ey. induction H; simpl; auto. }
        apply NoDup_remove_2 in HNq. apply HNq. apply in_or_app. right. assumption. }
    destruct (gget g s) as [ns|] eqn:Eg.
    2:{ exists []. split; [reflexivity|]. split; [|intros; constructor].
        intros p. split; [intros []|]. intros (q & -> & Hq & _). inversion Hq as [|? z q' ? He Hq']; subst; [congruence|].
        destruct He as (l & El & _). unfold gget in Eg. congruence. }
    destruct (foldM_concat (fun n => find_all_paths_recursive fuel g n stop (path ++ [s]))
                (fun n => mem n (path ++ [s]))
                (fun n ps => (forall p, In p ps <-> extends (path ++ [s]) n p) /\
                             ((forall u l, gget g u = Some l -> NoDup l) -> NoDup ps)) ns []) as (rs & Ers & HF).
    { intros n Hn Hm. apply mem_false in Hm.
      destruct (IH (path ++ [s]) n) as (ps & Eps & Hps & Hnd).
      - apply NoDup_rev in HN. rewrite <- (rev_involutive ((path ++ [s]) ++ [n])). apply NoDup_rev.
        rewrite rev_unit. constructor; [|assumption]. rewrite <- in_rev. assumption.
      - intros x Hx. apply in_app_or in Hx as [Hx|[<-|[]]]; [auto|]. eapply closed; eauto.
      - rewrite app_length. simpl.
        assert (length (path ++ [s]) <= length V)%nat by (apply NoDup_incl_length; assumption).
        rewrite app_length in H. simpl in H. lia.
      - eauto. }
    exists (concat rs). split; [exact Ers|].
    assert (Hkey : forall p, In p (concat rs) <-> extends path s p).
    { intros p. rewrite (In_concat_F2 _ _ _ _ HF). split.
      - intros (n & r & Hc & Hp). destruct (F2_combine _ _ _ _ _ HF Hc) as (Hn & (HQ & _)).
        apply filter_In in Hn as (Hn & _). apply HQ in Hp as (q & -> & Hq & HNq).
        exists (s :: q). rewrite <- app_assoc in *. split; [reflexivity|]. split; [|assumption].
        econstructor; [|exact Hq]. exists ns. split; assumption.
      - intros (q & -> & Hq & HNq). inversion Hq as [|? z q' ? He Hq']; subst; [congruence|].
        destruct He as (l & El & Hz). assert (l = ns) by (unfold gget in Eg; congruence). subst l.
        destruct (path_from_head _ _ _ _ Hq') as (q'' & ->).
        destruct (F2_combine_l _ _ _ z HF) as (r & Hc & HQ & _).
        + apply filter_In. split; [assumption|]. apply negb_true_iff, mem_false. intros Hin.
          replace (path ++ s :: z :: q'') with ((path ++ [s]) ++ z :: q'') in HNq by (rewrite <- app_assoc; reflexivity).
          apply NoDup_remove_2 in HNq. apply HNq. apply in_or_app. left; assumption.
        + exists z, r. split; [assumption|]. apply HQ. exists (z :: q''). rewrite <- app_assoc. auto. }
    split; [exact Hkey|]. intros Hnd.
    (* no path is listed twice: paths through different successors differ *)
    assert (HNf : NoDup (filter (fun n => negb (mem n (path ++ [s]))) ns)) by (apply filter_NoDup; eauto).
    clear Ers Hkey. induction HF as [|n r l rs (HQ & HD) HF IHF]; simpl; [constructor|].
    inversion HNf; subst.
    assert (Hdis : forall p, In p r -> ~ In p (concat rs)).
    { intros p Hp Hp'. apply (In_concat_F2 _ _ _ _ HF) in Hp' as (n' & r' & Hc & Hp').
      destruct (F2_combine _ _ _ _ _ HF Hc) as (Hn' & (HQ' & _)).
      apply HQ in Hp as (q & -> & Hq & _). apply HQ' in Hp' as (q' & Eq & Hq' & _).
      apply app_inv_head in Eq. subst q'. apply path_from_head in Hq as (q1 & ->). apply path_from_head in Hq' as (q2 & Eq).
      inversion Eq; subst. contradiction. }
    specialize (HD Hnd). specialize (IHF H2). revert HD Hdis. clear - IHF.
    induction r as [|p r IHr]; simpl; intros HD Hdis; [assumption|]. inversion HD; subst. constructor.
    - intros H. apply in_app_or in H as [H|H]; [contradiction|]. apply (Hdis p); auto.
    - apply IHr; [assumption|]. intros. apply Hdis; auto.
  Qed.
End Paths.

Definition vertices (g : graph) (s : nat) : list nat := nodup Nat.eq_dec (s :: all_nodes g).
Lemma vertices_closed g s u l v : gget g u = Some l -> In v l -> In v (vertices g s).
Proof.
  intros Hl Hv. apply nodup_In. right. unfold all_nodes. apply in_flat_map.
  unfold gget in Hl. induction g as [|[k l'] g' IH]; simpl in *; [discriminate|].
  destruct (Nat.eqb_spec u k); [|destruct IH as (x & H1 & H2); eauto].
  injection Hl as ->. exists (k, l). simpl. auto.
Qed.

Definition fuel_for (g : graph) (s : nat) : nat := S (length (vertices g s)).

Lemma fapr_top g s stop : exists ps,
  (forall n, (fuel_for g s <= n)%nat -> find_all_paths_recursive n g s stop [] = Ok ps) /\
  (forall p, In p ps <-> simple_path (edge_of g) s p stop) /\
  ((forall u l, gget g u = Some l -> NoDup l) -> NoDup ps).
Proof.
  destruct (fapr_ok g stop (vertices g s) (vertices_closed g s) (fuel_for g s) [] s) as (ps & E & H & HN).
  - simpl. constructor; [intros []|constructor].
  - intros x [<-|[]]. apply nodup_In. left; reflexivity.
  - simpl. unfold fuel_for. lia.
  - exists ps. split; [|split; [|assumption]].
    + intros n Hn. eapply fapr_mono; eauto.
    + intros p. rewrite H. unfold extends, simple_path. simpl. split.
      * intros (q & -> & H1 & H2); auto.
      * intros (H1 & H2); eauto.
Qed.
