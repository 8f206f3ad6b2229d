(** d_separated computes the children-only rule; its relation to Pearl's criterion. *)
From Verif Require Import Base Graph_Model Graph_Spec Graph_Paths_Proofs Graph_Search_Proofs Graph_Build_Proofs.

(** ** facts about paths *)
Lemma path_from_snoc E x p y z : path_from E x p y -> E y z -> path_from E x (p ++ [z]) z.
Proof. induction 1; simpl; intros H1; econstructor; eauto. constructor. Qed.
Lemma path_rev (E : nat -> nat -> Prop) x p y : (forall a b, E a b -> E b a) -> path_from E x p y -> path_from E y (rev p) x.
Proof.
  intros Hs. induction 1; simpl; [constructor|]. eapply path_from_snoc; eauto.
Qed.
Lemma simple_path_rev E x p y : simple_path (adjacent E) x p y -> simple_path (adjacent E) y (rev p) x.
Proof.
  intros (H1 & H2). split; [|apply NoDup_rev; assumption]. apply path_rev; [|assumption]. intros a b [H|H]; [right|left]; assumption.
Qed.
Lemma blocked1_rev E Z p : blocked1 E Z p -> blocked1 E Z (rev p).
Proof.
  intros (p1 & a & b & c & p2 & -> & H). exists (rev p2), c, b, a, (rev p1). split.
  - rewrite rev_app_distr. simpl. rewrite <- !app_assoc. reflexivity.
  - unfold collider in *. tauto.
Qed.
Lemma blocked_rev E Z p : blocked E Z p -> blocked E Z (rev p).
Proof.
  intros (p1 & a & b & c & p2 & -> & H). exists (rev p2), c, b, a, (rev p1). split.
  - rewrite rev_app_distr. simpl. rewrite <- !app_assoc. reflexivity.
  - unfold collider in *. tauto.
Qed.
Lemma d_sep1_sym E x Z y : d_sep1 E x Z y -> d_sep1 E y Z x.
Proof. intros H p Hp. rewrite <- (rev_involutive p). apply blocked1_rev, H, simple_path_rev; assumption. Qed.
Lemma d_sep_sym E x Z y : d_sep E x Z y -> d_sep E y Z x.
Proof. intros H p Hp. rewrite <- (rev_involutive p). apply blocked_rev, H, simple_path_rev; assumption. Qed.

Lemma blocked_blocked1 E Z p : blocked E Z p -> blocked1 E Z p.
Proof.
  intros (p1 & a & b & c & p2 & -> & H). exists p1, a, b, c, p2. split; [reflexivity|].
  destruct H as [(H1 & H2)|H]; [left|right; assumption]. split; [assumption|]. split.
  - apply H2. apply rt_refl.
  - intros d Hd. apply H2. apply rt_step. assumption.
Qed.
Lemma d_sep_d_sep1 E x Z y : d_sep E x Z y -> d_sep1 E x Z y.
Proof. intros H p Hp. apply blocked_blocked1, H; assumption. Qed.

Lemma adjacent_not_sep1 E x Z y : x <> y -> adjacent E x y -> ~ d_sep1 E x Z y.
Proof.
  intros Hne Ha H. specialize (H [x; y]). destruct H as (p1 & a & b & c & p2 & Eq & _).
  - split; [econstructor; [exact Ha|constructor]|]. constructor; [intros [E'|[]]; congruence|]. constructor; [intros []|constructor].
  - apply (f_equal (@length nat)) in Eq. rewrite app_length in Eq. simpl in Eq. lia.
Qed.
Lemma self_not_sep1 E x Z : ~ d_sep1 E x Z x.
Proof.
  intros H. specialize (H [x]). destruct H as (p1 & a & b & c & p2 & Eq & _).
  - split; [constructor|]. constructor; [intros []|constructor].
  - apply (f_equal (@length nat)) in Eq. rewrite app_length in Eq. simpl in Eq. lia.
Qed.
Lemma blocked1_ext E Z Z' p : (forall z, Z z <-> Z' z) -> blocked1 E Z p -> blocked1 E Z' p.
Proof.
  intros HZ (p1 & a & b & c & p2 & -> & H). exists p1, a, b, c, p2. split; [reflexivity|].
  destruct H as [(H1 & H2 & H3)|(H1 & H2)]; [left|right].
  - split; [assumption|]. split; [rewrite <- HZ; assumption|]. intros d Hd. rewrite <- HZ. auto.
  - split; [assumption|apply HZ; assumption].
Qed.
Lemma d_sep1_ext E Z Z' x y : (forall z, Z z <-> Z' z) -> d_sep1 E x Z y -> d_sep1 E x Z' y.
Proof. intros HZ H p Hp. eapply blocked1_ext; eauto. Qed.
Lemma blocked_ext E Z Z' p : (forall z, Z z <-> Z' z) -> blocked E Z p -> blocked E Z' p.
Proof.
  intros HZ (p1 & a & b & c & p2 & -> & H). exists p1, a, b, c, p2. split; [reflexivity|].
  destruct H as [(H1 & H2)|(H1 & H2)]; [left|right].
  - split; [assumption|]. intros d Hd. rewrite <- HZ. auto.
  - split; [assumption|apply HZ; assumption].
Qed.
Lemma d_sep_ext E Z Z' x y : (forall z, Z z <-> Z' z) -> d_sep E x Z y -> d_sep E x Z' y.
Proof. intros HZ H p Hp. eapply blocked_ext; eauto. Qed.

(** ** graphs of an edge relation *)
Record represents (E : nat -> nat -> Prop) (N : list nat) (gd gu : graph) : Prop := {
  rep_nodes : forall u v, E u v -> In u N /\ In v N;
  rep_d : forall u, In u N -> exists l, gget gd u = Some l /\ forall v, In v l <-> E u v;
  rep_u : forall u, In u N -> exists l, gget gu u = Some l /\ NoDup l /\ forall v, In v l <-> adjacent E u v;
  rep_out : forall u, ~ In u N -> gget gd u = None /\ gget gu u = None }.

Section Dsep.
  Variables (E : nat -> nat -> Prop) (N : list nat) (gd gu : graph).
  Hypothesis R : represents E N gd gu.

  Lemma gu_edge u v : edge_of gu u v <-> adjacent E u v.
  Proof.
    unfold edge_of. fold (gget gu u). destruct (in_dec Nat.eq_dec u N) as [Hu|Hu].
    - destruct (rep_u _ _ _ _ R u Hu) as (l & El & _ & Hl). rewrite El. rewrite <- Hl. split; [intros (l' & E' & H); congruence|eauto].
    - destruct (rep_out _ _ _ _ R u Hu) as (_ & El). rewrite El. split; [intros (l & E' & _); discriminate|].
      intros [H|H]; apply (rep_nodes _ _ _ _ R) in H; tauto.
  Qed.
  Lemma gu_nodup u l : gget gu u = Some l -> NoDup l.
  Proof.
    intros El. destruct (in_dec Nat.eq_dec u N) as [Hu|Hu].
    - destruct (rep_u _ _ _ _ R u Hu) as (l' & El' & H & _). congruence.
    - destruct (rep_out _ _ _ _ R u Hu). congruence.
  Qed.
  Lemma gu_simple x p y : simple_path (edge_of gu) x p y <-> simple_path (adjacent E) x p y.
  Proof.
    split; intros (H1 & H2); (split; [|assumption]); eapply path_from_mono; try exact H1; intros a b H; apply gu_edge; assumption.
  Qed.

  Lemma collider_ok a b c : In a N -> In c N -> exists r, is_node_collider gd a b c = Ok r /\ (r = true <-> collider E a b c).
  Proof.
    intros Ha Hc. unfold is_node_collider, collider.
    destruct (rep_d _ _ _ _ R a Ha) as (la & Ea & Hla). destruct (rep_d _ _ _ _ R c Hc) as (lc & Ec & Hlc).
    rewrite Ea. simpl. specialize (Hla b). specialize (Hlc b). destruct (mem b la) eqn:Em.
    - rewrite Ec. simpl. exists (mem b lc). split; [reflexivity|]. apply mem_In in Em. rewrite mem_In. tauto.
    - exists false. split; [reflexivity|]. apply mem_false in Em. split; [discriminate|tauto].
  Qed.

  Lemma path_nodes_in x z p y : path_from (adjacent E) x (x :: z :: p) y -> forall n, In n (x :: z :: p) -> In n N.
  Proof.
    intros Hp. remember (x :: z :: p) as q eqn:Eq. revert z p Eq.
    induction Hp as [w|a b q y Hab Hq IH]; intros z p Eq; [discriminate|].
    inversion Eq; subst. assert (In a N /\ In b N) by (destruct Hab as [H|H]; apply (rep_nodes _ _ _ _ R) in H; tauto).
    destruct (path_from_head _ _ _ _ Hq) as (q' & E'). inversion E'; subst.
    intros n [<-|Hn]; [tauto|]. destruct q' as [|d q']; [destruct Hn as [<-|[]]; tauto|]. eapply IH; eauto.
  Qed.

  Lemma blocked_loop_ok (S : list nat) : forall l a,
    (forall n, In n (a :: l) -> In n N) ->
    exists r, blocked_loop gd S a l = Ok r /\ (r = true <-> blocked1 E (fun z => In z S) (a :: l)).
  Proof.
    induction l as [|b l IH]; intros a Hin.
    { exists false. split; [reflexivity|]. split; [discriminate|].
      intros (p1 & ? & ? & ? & p2 & Eq & _). apply (f_equal (@length nat)) in Eq. rewrite app_length in Eq. simpl in Eq. lia. }
    destruct l as [|c l].
    { exists false. split; [reflexivity|]. split; [discriminate|].
      intros (p1 & ? & ? & ? & p2 & Eq & _). apply (f_equal (@length nat)) in Eq. rewrite app_length in Eq. simpl in Eq. lia. }
    cbn [blocked_loop].
    destruct (rep_d _ _ _ _ R b) as (lb & Eb & Hlb); [apply Hin; simpl; auto|].
    destruct (collider_ok a b c) as (col & Ecol & Hcol); [apply Hin; simpl; auto|apply Hin; simpl; auto|].
    rewrite Eb. cbn [of_option bind]. rewrite Ecol. cbn [bind].
    set (here := if col then negb (mem b S) && negb (existsb (fun d => mem d S) lb) else mem b S).
    assert (Hhere : here = true <->
      (collider E a b c /\ ~ In b S /\ forall d, E b d -> ~ In d S) \/ (~ collider E a b c /\ In b S)).
    { subst here. rewrite <- Hcol. destruct col.
      - rewrite andb_true_iff, !negb_true_iff, mem_false. split.
        + intros (H1 & H2). left. split; [reflexivity|]. split; [assumption|]. intros d Hd Hs. apply Hlb in Hd.
          assert (existsb (fun d => mem d S) lb = true) by (apply existsb_exists; exists d; rewrite mem_In; auto). congruence.
        + intros [(_ & H1 & H2)|(H & _)]; [|congruence]. split; [assumption|]. destruct (existsb _ lb) eqn:Ex; [|reflexivity].
          apply existsb_exists in Ex as (d & Hd & Hm). apply mem_In in Hm. apply Hlb in Hd. exfalso; eapply H2; eauto.
      - rewrite mem_In. split; [intros H; right; split; [discriminate|assumption]|intros [(H & _)|(_ & H)]; [discriminate|assumption]]. }
    destruct here eqn:Eh.
    - exists true. split; [reflexivity|]. split; [|reflexivity]. intros _. exists [], a, b, c, l. split; [reflexivity|]. apply Hhere; reflexivity.
    - destruct (IH b) as (r & Er & Hr); [intros n Hn; apply Hin; right; assumption|].
      exists r. split; [exact Er|]. rewrite Hr. split.
      + intros (p1 & a' & b' & c' & p2 & Eq & H). exists (a :: p1), a', b', c', p2. split; [rewrite Eq; reflexivity|assumption].
      + intros (p1 & a' & b' & c' & p2 & Eq & H). destruct p1 as [|a1 p1]; simpl in Eq; inversion Eq; subst.
        * exfalso. assert (false = true) by (apply Hhere; assumption). discriminate.
        * exists p1, a', b', c', p2. auto.
  Qed.

  Lemma path_blocked_ok (S : list nat) x p y : path_from (adjacent E) x p y ->
    exists r, is_path_blocked_by_nodes gd p S = Ok r /\ (r = true <-> blocked1 E (fun z => In z S) p).
  Proof.
    intros Hp. destruct p as [|a [|b p]].
    - inversion Hp.
    - exists false. split; [reflexivity|]. split; [discriminate|].
      intros (p1 & ? & ? & ? & p2 & Eq & _). apply (f_equal (@length nat)) in Eq. rewrite app_length in Eq. simpl in Eq. lia.
    - assert (a = x) by (destruct (path_from_head _ _ _ _ Hp) as (q & Eq); congruence). subst a.
      apply blocked_loop_ok. eapply path_nodes_in; eauto.
  Qed.

  Lemma dsep_loop_ok (S : list nat) x y ps : (forall p, In p ps -> path_from (adjacent E) x p y) ->
    exists r, dsep_loop gd S ps = Ok r /\ (r = true <-> forall p, In p ps -> blocked1 E (fun z => In z S) p).
  Proof.
    induction ps as [|p ps IH]; intros H.
    - exists true. split; [reflexivity|]. split; [intros _ p []|reflexivity].
    - destruct (path_blocked_ok S x p y) as (r & Er & Hr); [apply H; left; reflexivity|].
      destruct IH as (r' & Er' & Hr'); [intros; apply H; right; assumption|].
      simpl. rewrite Er. simpl. destruct r.
      + exists r'. split; [assumption|]. rewrite Hr'. split; [intros H' q [<-|Hq]; [apply Hr; reflexivity|auto]|auto].
      + exists false. split; [reflexivity|]. split; [discriminate|]. intros H'. apply Hr. apply H'. left; reflexivity.
  Qed.
End Dsep.

(** an object whose graphs represent E and whose memo is consistent with them *)
Definition good_bn E N (b : bn) := represents E N (graph_d b) (graph_u b) /\ cache_ok (graph_u b) (memo b).

Lemma undirected_paths_ok E N b x y : good_bn E N b ->
  exists ps b', (forall n, (fuel_for (graph_u b) x <= n)%nat -> find_all_undirected_paths x y b n = Ok (ps, b')) /\
    good_bn E N b' /\ graph_d b' = graph_d b /\ graph_u b' = graph_u b /\
    NoDup ps /\ (forall p, In p ps <-> simple_path (adjacent E) x p y) /\
    (forall n, (fuel_for (graph_u b) x <= n)%nat -> find_all_paths_recursive n (graph_u b) x y [] = Ok ps) /\
    cache_keeps (memo b) (memo b') /\ cache_get (x, y, None) (memo b') = Some ps.
Proof.
  intros (HR & Hc). destruct (fapr_top (graph_u b) x y) as (ps & Eps & Hps & HN).
  set (f0 := fuel_for (graph_u b) x) in *.
  destruct (fapc_ok (graph_u b) y f0 x None (memo b) ps Hc (Eps f0 (le_n _))) as (c' & Ec & Hc' & Hk & Hg).
  exists ps, {| graph_d := graph_d b; graph_u := graph_u b; memo := c' |}.
  split.
  { (* the resulting memo does not depend on the fuel *)
    intros n Hn. unfold find_all_undirected_paths.
    assert (Hm : forall n m s e path c r, (n <= m)%nat -> find_all_paths_cached n (graph_u b) s e path c = Ok r ->
              find_all_paths_cached m (graph_u b) s e path c = Ok r).
    { clear. induction n as [|n IH]; intros m s e path c r Hle E; [discriminate|]. destruct m as [|m]; [lia|].
      cbn [find_all_paths_cached] in *. destruct (cache_get (s, e, path) c); [exact E|].
      apply bind_ok in E as ((v & c1) & E1 & E2). destruct (s =? e); [inversion E1; subst; exact E2|].
      destruct (gget (graph_u b) s) as [ns|]; [|inversion E1; subst; exact E2].
      erewrite foldM_mono; [|clear E1 E2|exact E1]; [exact E2|].
      cbv beta. intros pc x r' _ E'. destruct (mem x _); [exact E'|]. apply bind_ok in E' as ((np & c2) & E3 & E4).
      rewrite (IH m _ _ _ _ _ (le_S_n _ _ Hle) E3). exact E4. }
    rewrite (Hm f0 n x y None (memo b) _ Hn Ec). reflexivity. }
  split; [split; [exact HR|exact Hc']|]. split; [reflexivity|]. split; [reflexivity|].
  split; [apply HN; intros u l; apply (gu_nodup E N (graph_d b)); exact HR|].
  split; [intros p; rewrite Hps; apply (gu_simple E N (graph_d b)); exact HR|].
  split; [exact Eps|]. split; assumption.
Qed.

Lemma d_separated_ok E N b x S y : good_bn E N b ->
  exists r b', (forall n, (fuel_for (graph_u b) x <= n)%nat -> d_separated x S y b n = Ok (r, b')) /\
    good_bn E N b' /\ graph_d b' = graph_d b /\ graph_u b' = graph_u b /\
    (r = true <-> d_sep1 E x (fun z => In z S) y).
Proof.
  intros Hb. destruct (undirected_paths_ok E N b x y Hb) as (ps & b' & Ep & Hb' & Ed & Eu & _ & Hps & _ & _ & _).
  destruct (dsep_loop_ok E N (graph_d b) (graph_u b) (proj1 Hb) S x y ps) as (r & Er & Hr).
  { intros p Hp. apply Hps in Hp. apply Hp. }
  exists r, b'. split; [|split; [assumption|split; [assumption|split; [assumption|]]]].
  - intros n Hn. unfold d_separated. rewrite (Ep n Hn). simpl. rewrite Er. reflexivity.
  - rewrite Hr. unfold d_sep1. split; intros H p Hp; apply H, Hps; assumption.
Qed.

(** ** objects made by the library *)
Lemma cache_ok_nil g : cache_ok g []. Proof. intros s e p v E. discriminate. Qed.

Lemma from_directed_represents g order : NoDup (map fst g) -> NoDup order -> (forall n, In n order <-> In n (all_nodes g)) ->
  good_bn (edge_of g) (all_nodes g) (new_bn order g).
Proof.
  intros HN HO Ho. unfold new_bn. destruct (from_directed_graph order g) as (gd & gu) eqn:Ef.
  pose proof (from_directed_ok g order gd gu HN HO Ho Ef) as H.
  split; [|apply cache_ok_nil]. simpl. constructor.
  - intros u v Huv. split; apply all_nodes_in; [left|right; exists u; apply graph_edges_in; assumption].
    destruct Huv as (l & El & _). apply gget_key. unfold gget. congruence.
  - intros u Hu. destruct (H u) as (H1 & _). destruct (H1 Hu) as ((l & El & _ & Hp) & _). exists l. split; [assumption|].
    intros v. split.
    + intros Hv. apply (Permutation_in _ Hp) in Hv. destruct (gget g u) as [l0|] eqn:Eg; [exists l0; auto|contradiction].
    + intros (l0 & El0 & Hv). apply (Permutation_in _ (Permutation_sym Hp)). fold (gget g u) in El0. rewrite El0. assumption.
  - intros u Hu. destruct (H u) as (H1 & _). destruct (H1 Hu) as (_ & (l & El & Hs & Hl)). exists l. split; [assumption|].
    split; [apply strict_nodup; assumption|assumption].
  - intros u Hu. apply (H u). assumption.
Qed.

Lemma net_represents net : NoDup (map fst net) -> Forall (fun node => NoDup (snd node)) net ->
  (forall u v, net_edge net u v -> In u (map fst net)) ->
  good_bn (net_edge net) (map fst net) {| graph_d := as_directed_graph net; graph_u := as_undirected_graph net; memo := [] |}.
Proof.
  intros HN HF Hcl. split; [|apply cache_ok_nil]. simpl. constructor.
  - intros u v H. split; [eapply Hcl; eauto|]. destruct H as (ps & H & _). apply in_map_iff. exists (v, ps). auto.
  - intros u Hu. destruct (as_directed_ok net HN HF Hcl u) as (H & _). destruct (H Hu) as (l & El & _ & Hl). eauto.
  - intros u Hu. destruct (as_undirected_ok net Hcl u) as (H & _). destruct (H Hu) as (l & El & Hs & Hl). exists l. split; [assumption|].
    split; [apply strict_nodup; assumption|assumption].
  - intros u Hu. split; [apply (as_directed_ok net HN HF Hcl u)|apply (as_undirected_ok net Hcl u)]; assumption.
Qed.

(** ** Pearl *)
Lemma agree_when_children_suffice (E : nat -> nat -> Prop) x (Z : nat -> Prop) y :
  (forall b d, (exists a c, collider E a b c) -> descendant E b d -> Z d -> Z b \/ exists c, E b c /\ Z c) ->
  d_sep1 E x Z y -> d_sep E x Z y.
Proof.
  intros Hc H p Hp. destruct (H p Hp) as (p1 & a & b & c & p2 & -> & [(H1 & H2 & H3)|H1]); exists p1, a, b, c, p2; (split; [reflexivity|]); [left|right; assumption].
  split; [assumption|]. intros d Hd HZ. destruct (Hc b d) as [?|(k & Hk & HZk)]; [eauto|assumption|assumption|contradiction|]. apply (H3 k); assumption.
Qed.
