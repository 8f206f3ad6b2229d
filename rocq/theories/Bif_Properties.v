(** C55 (the network that a BIF file describes) and C56 (the cache beside a BIF file). *)
From Coq Require Import Reals Relations Lra.
From Verif Require Import Base Key_Model Key_Spec PMF_Model Prob_Spec BN_Model BN_Spec BN_Order_Proofs BN_Final_Proofs BN_Sum_Proofs BN_Partial_Proofs BN_Properties Bif_Model.
Open Scope nat_scope.

(** ** specification *)
(** [i] is the last element of [items] for which [P] holds *)
Definition last_such {A} (P : A -> Prop) (items : list A) (i : A) : Prop :=
  exists before after, items = before ++ i :: after /\ P i /\ forall j, In j after -> ~ P j.
Definition declares (v : nat) (i : item) : Prop := exists c vals, i = VariableBlock v c vals.
Definition distributes (v : nat) (i : item) : Prop := exists g l, i = ProbabilityBlock v g l.
Definition declared (items : list item) (v : nat) : Prop := exists i, In i items /\ declares v i.
(** the names that a block refers to *)
Definition refers (i : item) (v : nat) : Prop :=
  match i with ProbabilityBlock n g _ => v = n \/ In v g | _ => False end.
(** each name once, in the order of their first occurrences *)
Definition first_occurrences (l l' : list nat) : Prop :=
  NoDup l' /\ (forall x, In x l' <-> In x l) /\
  forall x y, In x l -> (exists a b c, l' = a ++ x :: b ++ y :: c) -> exists a c, l = a ++ x :: c /\ ~ In y a.
(** a table row by row: the last line for a key counts *)
Definition table_of_lines (lines table : list (key * list R)) : Prop :=
  NoDup (map fst table) /\ forall k row, In (k, row) table <-> last_such (fun l => fst l = k) lines (k, row).

(** ** lemmas *)
Lemma last_such_unique {A} (P : A -> Prop) items i j : last_such P items i -> last_such P items j -> i = j.
Proof.
  revert i j. induction items as [|x items IH]; intros i j (a & b & E & Pi & Hi) (a' & b' & E' & Pj & Hj); [destruct a; discriminate|].
  destruct a as [|y a], a' as [|y' a']; cbn in E, E'.
  - congruence.
  - exfalso. assert (b = a' ++ j :: b') by congruence. apply (Hi j); [subst b; apply in_or_app; right; left; reflexivity|exact Pj].
  - exfalso. assert (b' = a ++ i :: b) by congruence. apply (Hj i); [subst b'; apply in_or_app; right; left; reflexivity|exact Pi].
  - apply IH; [exists a, b|exists a', b']; (split; [congruence|auto]).
Qed.
Lemma last_such_snoc {A} (P : A -> Prop) items i x : last_such P (items ++ [x]) i <-> (P x /\ i = x) \/ (~ P x /\ last_such P items i).
Proof.
  split.
  - intros (a & b & E & Pi & H). destruct b as [|b0 b1 ] using rev_ind.
    + apply app_inj_tail in E as [-> ->]. left. auto.
    + rewrite app_comm_cons, app_assoc in E. apply app_inj_tail in E as [-> ->]. right. split; [apply H, in_or_app; right; left; reflexivity|].
      exists a, b1. split; [reflexivity|]. split; [exact Pi|]. intros j Hj. apply H, in_or_app; auto.
  - intros [[Px ->]|[Nx (a & b & -> & Pi & H)]].
    + exists items, []. split; [reflexivity|]. split; [exact Px|intros j []].
    + exists a, (b ++ [x]). split; [rewrite <- app_assoc; reflexivity|]. split; [exact Pi|]. intros j Hj. apply in_app_or in Hj as [Hj|[<- |[]]]; auto.
Qed.
Lemma last_such_In {A} (P : A -> Prop) items i : last_such P items i -> In i items /\ P i.
Proof. intros (a & b & -> & Pi & _). split; [apply in_or_app; right; left; reflexivity|exact Pi]. Qed.

Lemma key_eqb_eq a b : key_eqb a b = true <-> a = b.
Proof.
  assert (G : forall x y, nats_eqb x y = true <-> x = y).
  { induction x as [|p x IH]; intros [|q y]; cbn; split; intros H; try discriminate; try reflexivity.
    - apply andb_true_iff in H as [H1 H2]. apply Nat.eqb_eq in H1. apply IH in H2. congruence.
    - injection H as -> ->. rewrite Nat.eqb_refl. apply IH. reflexivity. }
  destruct a as [a|], b as [b|]; cbn; split; intros H; try discriminate; try reflexivity; [apply G in H; congruence|injection H as ->; apply G; reflexivity].
Qed.
Lemma assoc_set_keys_k {V} k (v : V) d x : In x (map fst (assoc_set key_eqb k v d)) <-> x = k \/ In x (map fst d).
Proof.
  induction d as [|[k' y] d IH]; cbn [assoc_set map fst In]; [firstorder|]. destruct (key_eqb k k') eqn:E; cbn [map fst In].
  - apply key_eqb_eq in E. subst k'. split; intros H; firstorder.
  - rewrite IH. split; intros H; firstorder.
Qed.
Lemma assoc_set_NoDup_k {V} k (v : V) d : NoDup (map fst d) -> NoDup (map fst (assoc_set key_eqb k v d)).
Proof.
  induction d as [|[k' y] d IH]; intros H; cbn [assoc_set map fst]; [repeat constructor; intros []|]. inversion H as [|? ? Hn HN]; subst.
  destruct (key_eqb k k') eqn:E; cbn [map fst]; [exact H|]. constructor; [|auto]. intros Hin. apply assoc_set_keys_k in Hin as [-> |Hin]; [|contradiction].
  assert (key_eqb k k = true) by (apply key_eqb_eq; reflexivity). congruence.
Qed.
Lemma assoc_set_In_k {V} k (v : V) d k' v' : NoDup (map fst d) ->
  In (k', v') (assoc_set key_eqb k v d) <-> (k' = k /\ v' = v) \/ (k' <> k /\ In (k', v') d).
Proof.
  induction d as [|[k0 y] d IH]; intros HN; cbn [assoc_set].
  - cbn. split; [intros [E|[]]; injection E as <- <-; auto|intros [[-> ->]|[_ []]]; auto].
  - inversion HN as [|? ? Hn HN']; subst. destruct (key_eqb k k0) eqn:E.
    + apply key_eqb_eq in E. subst k0. cbn [In]. split.
      * intros [E|H]; [injection E as <- <-; auto|]. right. split; [|auto]. intros ->. apply Hn. apply (in_map fst) in H. exact H.
      * intros [[-> ->]|[N [H|H]]]; [auto|injection H as -> ->; congruence|auto].
    + assert (k <> k0) by (intros ->; assert (key_eqb k0 k0 = true) by (apply key_eqb_eq; reflexivity); congruence).
      cbn [In]. rewrite IH by exact HN'. split.
      * intros [E'|[H'|[N H']]]; [injection E' as <- <-; right; split; [congruence|auto]|auto|auto].
      * intros [H'|[N [E'|H']]]; auto.
Qed.
Lemma dict_table lines : table_of_lines lines (dict_of_lines lines).
Proof.
  unfold table_of_lines, dict_of_lines. induction lines as [|[k row] lines IH] using rev_ind.
  - cbn. split; [constructor|]. intros k row. split; [intros []|]. intros (a & b & E & _). destruct a; discriminate.
  - rewrite fold_left_app. cbn [fold_left fst snd]. destruct IH as [HN IH]. split; [apply assoc_set_NoDup_k, HN|].
    intros k' row'. rewrite assoc_set_In_k by exact HN. rewrite last_such_snoc. cbn [fst]. rewrite IH. split.
    + intros [[-> ->]|[N H]]; [left; auto|right; split; [congruence|exact H]].
    + intros [[-> E]|[N H]]; [injection E as ->; auto|right; split; [congruence|exact H]].
Qed.

Lemma from_keys_first l : first_occurrences l (from_keys l).
Proof.
  unfold first_occurrences, from_keys. induction l as [|y l IH] using rev_ind.
  - split; [constructor|]. split; [reflexivity|]. intros x y _ ([|? ?] & b & c & E); discriminate.
  - rewrite fold_left_app. cbn [fold_left]. destruct IH as (HN & Hin & Hord). set (l' := fold_left _ l []) in *.
    destruct (mem y l') eqn:Em.
    + apply mem_In in Em. apply Hin in Em. split; [exact HN|]. split.
      * intros x. rewrite Hin, in_app_iff. cbn. split; [auto|intros [H|[<- |[]]]; auto].
      * intros x z Hx Hz. assert (Hx' : In x l) by (apply in_app_or in Hx as [Hx|[<- |[]]]; auto). destruct (Hord x z Hx' Hz) as (a & c & -> & Hn). exists a, (c ++ [y]). split; [rewrite <- app_assoc; reflexivity|exact Hn].
    + assert (Hn : ~ In y l') by (intros H; apply mem_In in H; congruence). split; [|split].
      * apply NoDup_rev in HN. rewrite <- (rev_involutive (l' ++ [y])). apply NoDup_rev. rewrite rev_app_distr. cbn. constructor; [rewrite <- in_rev; exact Hn|exact HN].
      * intros x. rewrite !in_app_iff, Hin. reflexivity.
      * intros x z Hx (a & b & c & E). destruct c as [|c0 c1] using rev_ind.
        -- rewrite app_comm_cons, app_assoc in E. apply app_inj_tail in E as [E ->]. assert (Hx' : In x l) by (apply Hin; rewrite E; apply in_or_app; right; left; reflexivity).
           apply in_split in Hx' as (p & q & ->). exists p, (q ++ [z]). split; [rewrite <- app_assoc; reflexivity|]. intros Hz. apply Hn. apply Hin. apply in_or_app; auto.
        -- replace (a ++ x :: b ++ z :: c1 ++ [c0]) with ((a ++ x :: b ++ z :: c1) ++ [c0]) in E by (rewrite <- app_assoc; cbn; rewrite <- app_assoc; reflexivity).
           apply app_inj_tail in E as [E _].
           assert (Hx' : In x l) by (apply Hin; rewrite E; apply in_or_app; right; left; reflexivity).
           destruct (Hord x z Hx') as (p & q & -> & Hp); [exists a, b, c1; exact E|]. exists p, (q ++ [y]). split; [rewrite <- app_assoc; reflexivity|exact Hp].
Qed.

(** the first loop *)
Definition declared_names (items : list item) : list nat := flat_map (fun i => match i with VariableBlock v _ _ => [v] | _ => [] end) items.
Lemma declared_names_In items v : In v (declared_names items) <-> declared items v.
Proof.
  unfold declared_names, declared. rewrite in_flat_map. split.
  - intros (i & Hi & Hv). exists i. split; [exact Hi|]. destruct i as [|n c vals|]; cbn in Hv; try contradiction. destruct Hv as [<- |[]]. exists c, vals. reflexivity.
  - intros (i & Hi & c & vals & ->). exists (VariableBlock v c vals). split; [exact Hi|left; reflexivity].
Qed.
Lemma declare_names ns n : map r_name (declare ns n) = if mem (r_name n) (map r_name ns) then map r_name ns else map r_name ns ++ [r_name n].
Proof.
  induction ns as [|m ns IH]; [reflexivity|]. cbn [declare map mem]. destruct (Nat.eqb_spec (r_name n) (r_name m)) as [E|N]; cbn [map orb].
  - cbn. rewrite E, Nat.eqb_refl. reflexivity.
  - rewrite IH. unfold mem at 2. cbn [existsb]. destruct (Nat.eqb_spec (r_name n) (r_name m)); [contradiction|]. cbn [orb]. unfold mem. destruct (existsb _ (map r_name ns)); reflexivity.
Qed.
Lemma declare_In ns n r : NoDup (map r_name ns) -> In r (declare ns n) <-> r = n \/ (In r ns /\ r_name r <> r_name n).
Proof.
  induction ns as [|m ns IH]; intros HN; cbn [declare]; [cbn; firstorder|]. inversion HN as [|? ? Hn HN']; subst.
  destruct (Nat.eqb_spec (r_name n) (r_name m)) as [E|N]; cbn [In].
  - split.
    + intros [<- |H]; [auto|]. right. split; [auto|]. intros E'. apply Hn. rewrite <- E, <- E'. apply in_map, H.
    + intros [-> |[[<- |H] N]]; [auto|congruence|auto].
  - rewrite IH by exact HN'. split; [intros [<- |[-> |[H H']]]; auto|intros [-> |[[<- |H] H']]; auto].
Qed.
Lemma first_loop items : let rs := fold_left first_pass items [] in
  map r_name rs = from_keys (declared_names items) /\
  forall r, In r rs -> r_dist r = None /\ exists c, last_such (declares (r_name r)) items (VariableBlock (r_name r) c (r_values r)).
Proof.
  induction items as [|i items IH] using rev_ind; cbn zeta; [split; [reflexivity|intros r []]|].
  cbn zeta in IH. destruct IH as [En Hr]. rewrite fold_left_app. cbn [fold_left]. set (rs := fold_left first_pass items []) in *.
  assert (HN : NoDup (map r_name rs)) by (rewrite En; apply from_keys_first).
  unfold declared_names in *. rewrite flat_map_app. cbn [flat_map]. destruct i as [n|v c vals|n g l]; cbn [first_pass app].
  - rewrite app_nil_r. split; [exact En|]. intros r H. destruct (Hr r H) as [A (c & B)]. split; [exact A|]. exists c. apply last_such_snoc. right. split; [|exact B]. intros (? & ? & E); discriminate.
  - split.
    + rewrite declare_names. cbn [r_name]. unfold from_keys at 1. rewrite fold_left_app. cbn [fold_left]. fold (from_keys (flat_map (fun i => match i with VariableBlock v _ _ => [v] | _ => [] end) items)).
      rewrite <- En. reflexivity.
    + intros r H. apply (declare_In rs (Raw v vals None) r HN) in H as [-> |[H N]]; cbn [r_name r_values r_dist] in *.
      * split; [reflexivity|]. exists c. apply last_such_snoc. left. split; [exists c, vals; reflexivity|reflexivity].
      * destruct (Hr r H) as [A (c' & B)]. split; [exact A|]. exists c'. apply last_such_snoc. right. split; [|exact B]. intros (c2 & v2 & E). injection E as E _ _. congruence.
  - rewrite app_nil_r. split; [exact En|]. intros r H. destruct (Hr r H) as [A (c & B)]. split; [exact A|]. exists c. apply last_such_snoc. right. split; [|exact B]. intros (? & ? & E); discriminate.
Qed.

(** the second loop *)
Lemma foldM_snoc {A B} (f : B -> A -> res B) l x b : foldM f (l ++ [x]) b = (b' <- foldM f l b ;; f b' x).
Proof. revert b; induction l as [|y l IH]; intros b; cbn [app foldM bind]; [destruct (f b x); reflexivity|]. destruct (f b y); [apply IH|reflexivity]. Qed.
Lemma known_In ns v : known ns v = true <-> In v (map r_name ns).
Proof.
  unfold known. rewrite existsb_exists, in_map_iff. split; intros (m & A & B); exists m; [apply Nat.eqb_eq in B; auto|subst v; split; [exact B|apply Nat.eqb_refl]].
Qed.
Lemma set_dist_names ns v d : map r_name (set_dist ns v d) = map r_name ns.
Proof. unfold set_dist. rewrite map_map. apply map_ext. intros m. destruct (Nat.eqb v (r_name m)); reflexivity. Qed.
Definition distribution_of (items : list item) (r : raw_node) : Prop :=
  match r_dist r with
  | Some (parents, table) => exists g l, last_such (distributes (r_name r)) items (ProbabilityBlock (r_name r) g l) /\ parents = from_keys g /\ table = dict_of_lines l
  | None => forall i, In i items -> ~ distributes (r_name r) i
  end.
Lemma second_loop ns0 items : (forall r, In r ns0 -> r_dist r = None) -> (forall i v, In i items -> refers i v -> In v (map r_name ns0)) ->
  exists ns, foldM second_pass items ns0 = Ok ns /\ map r_name ns = map r_name ns0 /\
    forall r, In r ns -> (exists r0, In r0 ns0 /\ r_name r0 = r_name r /\ r_values r0 = r_values r) /\ distribution_of items r.
Proof.
  intros H0. induction items as [|i items IH] using rev_ind; intros Href.
  - exists ns0. split; [reflexivity|]. split; [reflexivity|]. intros r Hr. split; [exists r; auto|]. unfold distribution_of. rewrite (H0 r Hr). intros i [].
  - destruct IH as (ns & E & En & Hr); [intros j v Hj; apply Href, in_or_app; auto|]. rewrite foldM_snoc, E. cbn [bind].
    assert (Hno : forall v, ~ distributes v i -> forall r, r_name r = v -> distribution_of items r -> distribution_of (items ++ [i]) r).
    { intros v Hv r Er Hd. unfold distribution_of in *. destruct (r_dist r) as [[ps tb]|].
      - destruct Hd as (g & l & A & B). exists g, l. split; [|exact B]. apply last_such_snoc. right. rewrite Er. rewrite Er in A. auto.
      - intros j Hj. apply in_app_or in Hj as [Hj|[<- |[]]]; [auto|rewrite Er; exact Hv]. }
    destruct i as [n|v c vals|n g l]; cbn [second_pass].
    1,2: exists ns; split; [reflexivity|]; split; [exact En|]; intros r H; destruct (Hr r H) as [A B]; split; [exact A|]; apply (Hno (r_name r)); [intros (? & ? & E'); discriminate|reflexivity|exact B].
    assert (Hn : known ns n = true) by (apply known_In; rewrite En; apply (Href (ProbabilityBlock n g l)); [apply in_or_app; right; left; reflexivity|left; reflexivity]).
    assert (Hg : forallb (known ns) (from_keys g) = true).
    { apply forallb_forall. intros x Hx. apply known_In. rewrite En. apply (Href (ProbabilityBlock n g l)); [apply in_or_app; right; left; reflexivity|right]. apply from_keys_first, Hx. }
    rewrite Hn, Hg. eexists. split; [reflexivity|]. split; [rewrite set_dist_names; exact En|]. intros r H. unfold set_dist in H. apply in_map_iff in H as (m & Em & Hm).
    destruct (Hr m Hm) as [(r0 & A1 & A2 & A3) B]. destruct (Nat.eqb_spec n (r_name m)) as [En'|N]; subst r.
    + cbn [r_name r_values]. split; [exists r0; auto|]. unfold distribution_of. cbn [r_dist r_name]. exists g, l. split; [|auto]. apply last_such_snoc. left. split; [exists g, l; rewrite En'; reflexivity|rewrite En'; reflexivity].
    + split; [exists r0; auto|]. apply (Hno (r_name m)); [|reflexivity|exact B]. intros (g' & l' & E'). injection E' as E' _ _. congruence.
Qed.
Lemma second_loop_unknown ns0 items : (exists i v, In i items /\ refers i v /\ ~ In v (map r_name ns0)) -> foldM second_pass items ns0 = Err KeyError.
Proof.
  intros (i & v & Hi & Hv & Hn). revert ns0 Hn. induction items as [|j items IH]; intros ns0 Hn; [destruct Hi|]. cbn [foldM].
  assert (G : second_pass ns0 j = Err KeyError \/ exists ns, second_pass ns0 j = Ok ns /\ map r_name ns = map r_name ns0).
  { destruct j as [n|w c vals|n g l]; cbn [second_pass]; [eauto|eauto|]. destruct (known ns0 n); [|auto]. destruct (forallb (known ns0) (from_keys g)); [|auto].
    right. eexists. split; [reflexivity|apply set_dist_names]. }
  destruct Hi as [-> |Hi].
  - destruct i as [n|w c vals|n g l]; cbn in Hv; try contradiction. cbn [second_pass]. destruct (known ns0 n) eqn:Ek; [|reflexivity].
    destruct Hv as [-> |Hv]; [apply known_In in Ek; contradiction|].
    destruct (forallb (known ns0) (from_keys g)) eqn:Ef; [|reflexivity]. rewrite forallb_forall in Ef. exfalso. apply Hn, known_In, Ef, from_keys_first, Hv.
  - destruct G as [-> |(ns & -> & En)]; [reflexivity|]. cbn [bind]. apply IH; [exact Hi|]. rewrite En. exact Hn.
Qed.

(** ** C55 *)
(** what any list of blocks means: a KeyError if a block refers to a variable that is declared
    nowhere; otherwise the declared variables, each with the values of its last declaration and the
    distribution of its last probability block, wherever these blocks are in the file *)
Theorem C55_meaning_of_blocks : forall items,
  (forall i v, In i items -> refers i v -> declared items v) ->
  exists rs, network_definition items = Ok rs /\
    first_occurrences (declared_names items) (map r_name rs) /\
    forall r, In r rs ->
      (exists c, last_such (declares (r_name r)) items (VariableBlock (r_name r) c (r_values r))) /\
      match r_dist r with
      | Some (parents, table) => exists g l, last_such (distributes (r_name r)) items (ProbabilityBlock (r_name r) g l) /\
                                   first_occurrences g parents /\ table_of_lines l table
      | None => forall i, In i items -> ~ distributes (r_name r) i
      end.
Proof.
  intros items H. destruct (first_loop items) as [En Hr]. cbn zeta in *. set (ns0 := fold_left first_pass items []) in *.
  destruct (second_loop ns0 items) as (rs & E & Ers & Hrs).
  { intros r Hin. apply (Hr r Hin). }
  { intros i v Hi Hv. rewrite En. apply from_keys_first, declared_names_In, (H i v Hi Hv). }
  exists rs. split; [exact E|]. split; [rewrite Ers, En; apply from_keys_first|]. intros r Hin. destruct (Hrs r Hin) as [(r0 & A & B & C) D]. split.
  - destruct (Hr r0 A) as [_ (c & G)]. rewrite B, C in G. eauto.
  - unfold distribution_of in D. destruct (r_dist r) as [[ps tb]|]; [|exact D]. destruct D as (g & l & D1 & -> & ->). exists g, l. split; [exact D1|]. split; [apply from_keys_first|apply dict_table].
Qed.
Theorem C55_undeclared_variable : forall items,
  (exists i v, In i items /\ refers i v /\ ~ declared items v) -> network_definition items = Err KeyError.
Proof.
  intros items (i & v & Hi & Hv & Hn). unfold network_definition. apply second_loop_unknown. exists i, v. split; [exact Hi|]. split; [exact Hv|].
  destruct (first_loop items) as [En _]. cbn zeta in En. rewrite En. intros H. apply Hn, declared_names_In, from_keys_first, H.
Qed.

(** ** the file of a given network, its blocks in any order *)
Definition variable_block (count : node -> nat) (n : node) : item := VariableBlock (nname n) (count n) (nvalues n).
Definition probability_block (n : node) : item := ProbabilityBlock (nname n) (nparents n) (nprobs n).
(** one declaration (with any number of values announced) and one distribution for each variable *)
Definition file_of (ns : list node) (items : list item) : Prop :=
  exists titles count, Permutation items (map NetworkBlock titles ++ map (variable_block count) ns ++ map probability_block ns).

Lemma from_keys_id l : NoDup l -> from_keys l = l.
Proof.
  unfold from_keys. induction l as [|x l IH] using rev_ind; intros H; [reflexivity|]. rewrite fold_left_app. cbn [fold_left].
  apply NoDup_rev in H. rewrite rev_app_distr in H. cbn in H. inversion H as [|? ? Hn HN]; subst. apply NoDup_rev in HN. rewrite rev_involutive in HN. rewrite IH by exact HN.
  destruct (mem x l) eqn:E; [|reflexivity]. apply mem_In in E. exfalso. apply Hn. rewrite <- in_rev. exact E.
Qed.
Lemma assoc_set_fresh {V} k (v : V) d : ~ In k (map fst d) -> assoc_set key_eqb k v d = d ++ [(k, v)].
Proof.
  induction d as [|[k' y] d IH]; intros H; [reflexivity|]. cbn [assoc_set]. destruct (key_eqb k k') eqn:E; [apply key_eqb_eq in E; exfalso; apply H; left; symmetry; exact E|].
  rewrite IH by (intros Hin; apply H; right; exact Hin). reflexivity.
Qed.
Lemma dict_id l : NoDup (map fst l) -> dict_of_lines l = l.
Proof.
  unfold dict_of_lines. induction l as [|[k r] l IH] using rev_ind; intros H; [reflexivity|]. rewrite fold_left_app. cbn [fold_left fst snd].
  rewrite map_app in H. apply NoDup_rev in H. rewrite rev_app_distr in H. cbn in H. inversion H as [|? ? Hn HN]; subst. apply NoDup_rev in HN. rewrite rev_involutive in HN.
  rewrite IH by exact HN. apply assoc_set_fresh. rewrite in_rev. exact Hn.
Qed.
Section File.
  Context (ns : list node) (items : list item) (Hfile : file_of ns items) (Hfresh : fresh_network ns).
  Lemma file_variable n : In n ns -> exists c, In (VariableBlock (nname n) c (nvalues n)) items.
  Proof.
    destruct Hfile as (ts & c & HP). intros Hn. exists (c n). apply (Permutation_in _ (Permutation_sym HP)). apply in_or_app. right. apply in_or_app. left. apply in_map_iff. exists n. auto.
  Qed.
  Lemma file_probability n : In n ns -> In (ProbabilityBlock (nname n) (nparents n) (nprobs n)) items.
  Proof.
    destruct Hfile as (ts & c & HP). intros Hn. apply (Permutation_in _ (Permutation_sym HP)). apply in_or_app. right. apply in_or_app. right. apply in_map_iff. exists n. auto.
  Qed.
  Lemma file_inv i : In i items -> match i with
    | NetworkBlock _ => True
    | VariableBlock v _ vals => exists n, In n ns /\ v = nname n /\ vals = nvalues n
    | ProbabilityBlock v g l => exists n, In n ns /\ v = nname n /\ g = nparents n /\ l = nprobs n
    end.
  Proof.
    destruct Hfile as (ts & c & HP). intros Hi. apply (Permutation_in _ HP) in Hi. apply in_app_or in Hi as [Hi|Hi]; [apply in_map_iff in Hi as (t & <- & _); exact Logic.I|].
    apply in_app_or in Hi as [Hi|Hi]; apply in_map_iff in Hi as (n & <- & Hn); cbn; exists n; auto.
  Qed.
  Lemma same_name n m : In n ns -> In m ns -> nname n = nname m -> n = m.
  Proof.
    intros A B E. pose proof (find_node_self ns n (proj1 (proj1 Hfresh)) A) as E1. pose proof (find_node_self ns m (proj1 (proj1 Hfresh)) B) as E2. rewrite E in E1. congruence.
  Qed.
  Lemma file_read : exists rs, network_definition items = Ok rs /\ Permutation ns (map node_of rs) /\ (forall r, In r rs -> r_dist r <> None).
  Proof.
    destruct (first_loop items) as [En Hr]. cbn zeta in *. set (ns0 := fold_left first_pass items []) in *.
    assert (Hdecl : forall v, declared items v <-> In v (map nname ns)).
    { intros v. split.
      - intros (i & Hi & c & vals & ->). apply file_inv in Hi as (n & Hn & -> & _). apply in_map, Hn.
      - intros Hv. apply in_map_iff in Hv as (n & <- & Hn). destruct (file_variable n Hn) as (c & Hc). eexists. split; [exact Hc|exists c, (nvalues n); reflexivity]. }
    destruct (second_loop ns0 items) as (rs & E & Ers & Hrs).
    { intros r Hin. apply (Hr r Hin). }
    { intros i v Hi Hv. rewrite En. apply from_keys_first, declared_names_In, Hdecl. destruct i as [t|w c vals|w g l]; cbn in Hv; try contradiction.
      apply file_inv in Hi as (n & Hn & -> & -> & ->). destruct Hv as [-> |Hv]; [apply in_map, Hn|]. apply (proj2 (proj1 Hfresh) v (nname n)). exists n. auto. }
    assert (Hnode : forall r, In r rs -> exists n, In n ns /\ node_of r = n /\ r_dist r <> None).
    { intros r Hin. destruct (Hrs r Hin) as [(r0 & A & B & C) D]. destruct (Hr r0 A) as [_ (c & G)]. rewrite B, C in G. apply last_such_In in G as [G _].
      apply file_inv in G as (n & Hn & Ename & Evals). exists n. split; [exact Hn|].
      unfold distribution_of in D. unfold node_of. destruct (r_dist r) as [[ps tb]|] eqn:Ed.
      - destruct D as (g & l & D1 & -> & ->). apply last_such_In in D1 as [D1 _]. apply file_inv in D1 as (m & Hm & Em & -> & ->).
        assert (m = n) by (apply same_name; [exact Hm|exact Hn|congruence]). subst m. destruct (proj1 (proj2 Hfresh) n Hn) as (_ & _ & HN1 & HN2 & _).
        cbn [fst snd]. rewrite (from_keys_id _ HN1), (dict_id _ HN2), Ename, Evals. split; [|discriminate]. pose proof (proj2 (proj2 Hfresh) n Hn) as Hid. destruct n; cbn in *. rewrite Hid. reflexivity.
      - exfalso. apply (D _ (file_probability n Hn)). exists (nparents n), (nprobs n). rewrite Ename. reflexivity. }
    exists rs. split; [exact E|]. split.
    - assert (Enames : map nname (map node_of rs) = map r_name rs) by (rewrite map_map; reflexivity).
      assert (HNrs : NoDup (map nname (map node_of rs))) by (rewrite Enames, Ers, En; apply from_keys_first).
      apply NoDup_Permutation; [apply (NoDup_map_inv nname), (proj1 (proj1 Hfresh))|apply (NoDup_map_inv nname), HNrs|].
      intros n. split.
      + intros Hn. assert (Hin : In (nname n) (map nname (map node_of rs))).
        { rewrite Enames, Ers, En. apply from_keys_first, declared_names_In, Hdecl. apply in_map, Hn. }
        apply in_map_iff in Hin as (m & Em & Hm). pose proof Hm as Hm'. apply in_map_iff in Hm as (r & Er & Hrin). destruct (Hnode r Hrin) as (n' & Hn' & En' & _). assert (m = n') by congruence. subst n'.
        assert (m = n) by (apply same_name; [rewrite H; exact Hn'|exact Hn|congruence]). congruence.
      + intros Hn. apply in_map_iff in Hn as (r & <- & Hrin). destruct (Hnode r Hrin) as (n' & Hn' & En' & _). rewrite En'. exact Hn'.
    - intros r Hin. destruct (Hnode r Hin) as (n & _ & _ & Hd). exact Hd.
  Qed.
End File.

Lemma mapM_map {A B C} (f : B -> res C) (g : A -> B) l : mapM f (map g l) = mapM (fun x => f (g x)) l.
Proof. induction l as [|x l IH]; [reflexivity|]. cbn [map mapM]. rewrite IH. reflexivity. Qed.
Lemma mapM_ext_in {A B} (f g : A -> res B) l : (forall x, In x l -> f x = g x) -> mapM f l = mapM g l.
Proof. induction l as [|x l IH]; intros H; [reflexivity|]. cbn [mapM]. rewrite (H x (or_introl eq_refl)), IH by (intros y Hy; apply H; right; exact Hy). reflexivity. Qed.
Lemma finalize_read_all fuel rs : (forall r, In r rs -> r_dist r <> None) -> finalize_read fuel rs = finalize fuel (new_bn (map node_of rs)).
Proof.
  intros H. unfold finalize_read. rewrite (mapM_ext_in _ (fun r => index_conditioning (map node_of rs) (node_of r)) rs).
  2: { intros r Hr. specialize (H r Hr). destruct (r_dist r); [reflexivity|congruence]. }
  unfold finalize. cbn [variable_nodes new_bn]. rewrite (mapM_map (index_conditioning (map node_of rs)) node_of rs).
  destruct (mapM (fun r => index_conditioning (map node_of rs) (node_of r)) rs); reflexivity.
Qed.

(** reading the file of a network gives that network, whatever the order of the blocks and whatever
    numbers of values are announced *)
Theorem C55_reads_the_network : forall ns items, fresh_network ns -> file_of ns items ->
  exists rs ns', network_definition items = Ok rs /\ Permutation ns ns' /\ map node_of rs = ns' /\
    forall fuel, finalize_read fuel rs = finalize fuel (new_bn ns').
Proof.
  intros ns items Hf Hfile. destruct (file_read ns items Hfile Hf) as (rs & E & HP & Hd). exists rs, (map node_of rs). split; [exact E|]. split; [exact HP|]. split; [reflexivity|]. intros fuel. apply finalize_read_all, Hd.
Qed.

(** ** the order of the variables does not matter *)
Section Reorder.
  Context (ns ns' : list node) (HP : Permutation ns ns') (Hwf : well_formed ns).
  Lemma reorder_NoDup : NoDup (map nname ns').
  Proof. eapply Permutation_NoDup; [apply Permutation_map, HP|apply Hwf]. Qed.
  Lemma reorder_find v : find_node ns' v = find_node ns v.
  Proof.
    destruct (find_node ns v) as [n|] eqn:E.
    - apply find_node_In in E as (Hn & <-). apply find_node_self; [apply reorder_NoDup|apply (Permutation_in _ HP Hn)].
    - apply find_node_unknown in E. destruct (find_node ns' v) as [m|] eqn:E'; [|reflexivity]. apply find_node_In in E' as (Hm & <-). exfalso. apply E. apply in_map. apply (Permutation_in _ (Permutation_sym HP) Hm).
  Qed.
  Lemma reorder_values v : values_of ns' v = values_of ns v.
  Proof. pose proof (reorder_find v) as E. unfold find_node in E. unfold values_of. rewrite E. reflexivity. Qed.
  Lemma reorder_parent p c : parent_of ns' p c <-> parent_of ns p c.
  Proof. unfold parent_of. split; intros (n & Hn & R); exists n; (split; [|exact R]); [apply (Permutation_in _ (Permutation_sym HP) Hn)|apply (Permutation_in _ HP Hn)]. Qed.
  Lemma reorder_wf : well_formed ns'.
  Proof.
    split; [apply reorder_NoDup|]. intros p c H. apply reorder_parent in H. apply (Permutation_in _ (Permutation_map nname HP)). apply (proj2 Hwf p c H).
  Qed.
  Lemma clos_trans_impl {A} (P Q : A -> A -> Prop) : (forall a b, P a b -> Q a b) -> forall a b, clos_trans A P a b -> clos_trans A Q a b.
  Proof. intros H a b. induction 1; [apply t_step; auto|eapply t_trans; eassumption]. Qed.
  Lemma reorder_acyclic : acyclic ns -> acyclic ns'.
  Proof. intros H v Hv. apply (H v). revert Hv. apply clos_trans_impl. intros a b. apply reorder_parent. Qed.
  Lemma reorder_cyclic : cyclic ns -> cyclic ns'.
  Proof. intros (v & Hv). exists v. revert Hv. apply clos_trans_impl. intros a b. apply reorder_parent. Qed.
  Lemma reorder_take n vals : parents_take ns' n vals <-> parents_take ns n vals.
  Proof. unfold parents_take. split; intros H; (induction H as [|p v l l' Hv H IH]; constructor; [|exact IH]); [rewrite <- reorder_values|rewrite reorder_values]; exact Hv. Qed.
  Lemma reorder_tables : complete_tables ns -> complete_tables ns'.
  Proof.
    intros H n Hn. destruct (H n (Permutation_in _ (Permutation_sym HP) Hn)) as (A & B & C & D & E & F). split; [exact A|]. split; [exact B|]. split; [exact C|]. split; [exact D|]. split.
    - intros vals Hv. apply E. apply reorder_take, Hv.
    - intros k row Hk. destruct (F k row Hk) as (vals & V1 & V2). exists vals. split; [apply reorder_take, V1|exact V2].
  Qed.
  Lemma reorder_fresh : fresh_network ns -> fresh_network ns'.
  Proof.
    intros (A & B & C). split; [apply reorder_wf|]. split; [apply reorder_tables, B|]. intros n Hn. apply C. apply (Permutation_in _ (Permutation_sym HP) Hn).
  Qed.
  Lemma reorder_stochastic : stochastic ns -> stochastic ns'.
  Proof. intros H n k row Hn. apply H. apply (Permutation_in _ (Permutation_sym HP) Hn). Qed.
  Lemma sorted_unique (l l' : list nat) : StronglySorted le l -> StronglySorted le l' -> Permutation l l' -> l = l'.
  Proof.
    intros H. revert l'. induction H as [|x l Hl IH Hx]; intros l' H' P; [apply Permutation_nil in P; symmetry; exact P|].
    destruct H' as [|y l' Hl' Hy]; [apply Permutation_sym, Permutation_nil in P; discriminate|].
    assert (x = y).
    { rewrite Forall_forall in Hx, Hy. assert (In x (y :: l')) by (apply (Permutation_in _ P); left; reflexivity). assert (In y (x :: l)) by (apply (Permutation_in _ (Permutation_sym P)); left; reflexivity).
      destruct H as [-> |A]; [reflexivity|]. destruct H0 as [-> |B]; [reflexivity|]. specialize (Hx y B). specialize (Hy x A). lia. }
    subst y. f_equal. apply IH; [exact Hl'|]. apply Permutation_cons_inv in P. exact P.
  Qed.
  Lemma reorder_names : names ns' = names ns.
  Proof.
    unfold names. apply sorted_unique; [apply sort_sorted|apply sort_sorted|]. rewrite <- !sort_perm. apply Permutation_map, Permutation_sym, HP.
  Qed.
  Lemma reorder_tuples : tuples ns' = tuples ns.
  Proof. unfold tuples. rewrite reorder_names. f_equal. apply map_ext. intros v. unfold card. rewrite reorder_values. reflexivity. Qed.
  Lemma reorder_assignment t : assignment ns' t = assignment ns t.
  Proof. unfold assignment. rewrite reorder_names. reflexivity. Qed.
  Lemma reorder_values_at t : values_at ns' t = values_at ns t.
  Proof. unfold values_at. rewrite reorder_names, reorder_assignment. apply map_ext. intros v. unfold value_at_index. rewrite reorder_values. reflexivity. Qed.
  Lemma reorder_joint e : joint ns' e = joint ns e.
  Proof.
    unfold joint. rewrite (Prod_perm _ (map (fun n => cond_prob ns' n e) ns)) by (apply Permutation_map, Permutation_sym, HP). f_equal. apply map_ext. intros n. unfold cond_prob, row_of.
    assert (Em : map (fun p => value_at_index ns' p (e p)) (nparents n) = map (fun p => value_at_index ns p (e p)) (nparents n)) by (apply map_ext; intros p; unfold value_at_index; rewrite reorder_values; reflexivity).
    rewrite Em. reflexivity.
  Qed.
End Reorder.

(** the network that is read can be finalised if and only if it has no cycle, and then its joint
    distribution is the product of the tables in the file *)
Theorem C55_joint_distribution : forall ns items, fresh_network ns -> acyclic ns -> file_of ns items -> forall as_indices,
  exists rs b P, network_definition items = Ok rs /\
    (forall fuel, length ns <= fuel -> finalize_read fuel rs = Ok b) /\
    (forall fuel, length ns < fuel -> create_joint_pmf fuel b as_indices = Ok P) /\
    variableIDs P = map Z.of_nat (seq 0 (length ns)) /\
    (forall k r, In (k, r) (probabilities P) <->
       exists t, In t (tuples ns) /\ k = tuple_key (if as_indices then t else values_at ns t) /\ r = joint ns (assignment ns t)).
Proof.
  intros ns items Hf Hac Hfile ai. destruct (C55_reads_the_network ns items Hf Hfile) as (rs & ns' & E & HP & Ens & Hfin). pose proof (proj1 Hf) as Hwf.
  destruct (C19_joint_pmf ns' (reorder_fresh ns ns' HP Hwf Hf) (reorder_acyclic ns ns' HP Hac) ai) as (b & P & F1 & F2 & F3 & _ & _ & F4 & _).
  rewrite <- (Permutation_length HP) in F1, F2, F3. exists rs, b, P. split; [exact E|]. split; [intros fuel Hl; rewrite Hfin; apply F1, Hl|]. split; [exact F2|]. split; [exact F3|].
  intros k r. rewrite F4, (reorder_tuples ns ns' HP Hwf). split; intros (t & Ht & -> & ->); exists t; (split; [exact Ht|]);
    rewrite ?(reorder_values_at ns ns' HP Hwf), ?(reorder_assignment ns ns' HP), ?(reorder_joint ns ns' HP Hwf); auto.
Qed.
Theorem C55_cyclic_file : forall ns items, fresh_network ns -> cyclic ns -> file_of ns items ->
  exists rs, network_definition items = Ok rs /\ forall fuel, finalize_read fuel rs = Err OutOfFuel.
Proof.
  intros ns items Hf Hc Hfile. destruct (C55_reads_the_network ns items Hf Hfile) as (rs & ns' & E & HP & Ens & Hfin). pose proof (proj1 Hf) as Hwf. exists rs. split; [exact E|]. intros fuel. rewrite Hfin.
  apply (C18_finalize ns' (reorder_fresh ns ns' HP Hwf Hf)). apply (reorder_cyclic ns ns' HP Hc).
Qed.

(** a variable without a probability block: the file is read, but the network cannot be finalised *)
Theorem C55_missing_distribution : forall items rs r, network_definition items = Ok rs -> In r rs -> r_dist r = None ->
  forall fuel b, finalize_read fuel rs <> Ok b.
Proof.
  intros items rs r _ Hin Hr fuel b E. unfold finalize_read in E. apply bind_ok in E as (ys & E & _). apply mapM_Forall2 in E. revert E. generalize (index_conditioning (map node_of rs)) at 1. intros f E.
  clear - Hin Hr E. induction E as [|x y l l' Hx E IH]; [destruct Hin|]. destruct Hin as [-> |Hin]; [rewrite Hr in Hx; discriminate|auto].
Qed.
(** ... and AttributeError is raised if the tables of the other variables are in order *)
Theorem C55_missing_distribution_error : forall rs r, In r rs -> r_dist r = None ->
  (forall r', In r' rs -> r_dist r' <> None -> exists ys, index_conditioning (map node_of rs) (node_of r') = Ok ys) ->
  forall fuel, finalize_read fuel rs = Err AttributeError.
Proof.
  intros rs r Hin Hr Hok fuel. unfold finalize_read. revert Hok. generalize (index_conditioning (map node_of rs)) as f. intros f Hok.
  assert (G : mapM (fun r0 => match r_dist r0 with None => Err AttributeError | Some _ => f (node_of r0) end) rs = Err AttributeError); [|rewrite G; reflexivity].
  revert Hin Hok. generalize rs as l. induction l as [|x l IH]; intros Hin Hok; [destruct Hin|]. cbn [mapM]. destruct (r_dist x) as [d|] eqn:Ed; [|reflexivity].
  destruct (Hok x (or_introl eq_refl)) as (ys & Ey); [congruence|]. rewrite Ey. cbn [bind]. destruct Hin as [-> |Hin]; [congruence|]. rewrite IH; [reflexivity|exact Hin|]. intros r' H'. apply Hok. right. exact H'.
Qed.

(** the sprinkler network, its blocks in disorder and its announced counts wrong *)
Example C55_nonvacuous : fresh_network sprinkler /\ acyclic sprinkler /\
  file_of sprinkler [probability_block n1; NetworkBlock 5; variable_block (fun _ => 7) n2; variable_block (fun _ => 7) n0; probability_block n2; variable_block (fun _ => 7) n1; probability_block n0].
Proof.
  split; [apply sprinkler_fresh|]. split; [apply sprinkler_fresh|]. exists [5], (fun _ => 7). unfold sprinkler. cbn [map app].
  apply NoDup_Permutation_bis.
  - assert (G : forall (f : item -> nat) l, NoDup (map f l) -> NoDup l) by (intros f l; apply NoDup_map_inv).
    apply (G (fun i => match i with NetworkBlock _ => 0 | VariableBlock n _ _ => 10 + n | ProbabilityBlock n _ _ => 20 + n end)). cbn. repeat constructor; cbn; intuition lia.
  - cbn. lia.
  - intros i Hi. cbn [In] in *. intuition.
Qed.
Example C55_undeclared_nonvacuous : network_definition [VariableBlock 0 2 [1; 2]; ProbabilityBlock 0 [3] []] = Err KeyError.
Proof. reflexivity. Qed.
