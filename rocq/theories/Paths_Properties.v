(** C75: the paths of an experimental setup, and how they are shown. *)
From Coq Require Import String Permutation Sorted.
From Verif Require Import Base Matrix_Model Sources_Model Sources_Proofs Render_Model Render_Proofs BNObj_Proofs Paths_Model Paths_Spec.
Open Scope nat_scope.
Open Scope list_scope.

(** ** paths *)
Lemma strip_parts_iff pre l r : strip_parts pre l = Some r <-> l = pre ++ r.
Proof.
  revert l; induction pre as [|x pre IH]; intros l; cbn [strip_parts app].
  - split; [intros E; injection E as <-; reflexivity|intros ->; reflexivity].
  - destruct l as [|y l]; [split; [discriminate|discriminate]|]. destruct (text_eqb x y) eqn:E.
    + apply text_eqb_eq in E. subst y. rewrite IH. split; [intros ->; reflexivity|intros H; injection H as ->; reflexivity].
    + split; [discriminate|]. intros H. injection H as <- _. rewrite (proj2 (text_eqb_eq y y) eq_refl) in E. discriminate.
Qed.
Lemma relative_to_iff p a r : relative_to p a = Ok r <-> names_from a p r.
Proof.
  unfold relative_to, names_from, joined. destruct p as [bp lp], a as [ba la], r as [br lr]. cbn [absolute parts]. split.
  - destruct (Bool.eqb bp ba) eqn:E; [|discriminate]. apply Bool.eqb_prop in E. subst ba. destruct (strip_parts la lp) as [l|] eqn:E; [|discriminate].
    apply strip_parts_iff in E. intros H. injection H as <- <-. split; [reflexivity|]. subst lp. reflexivity.
  - intros [-> H]. injection H as <- <-. rewrite Bool.eqb_reflx. rewrite (proj2 (strip_parts_iff la (la ++ lr) lr) eq_refl). reflexivity.
Qed.
Lemma relative_to_fails p a e : relative_to p a = Err e -> forall r, ~ names_from a p r.
Proof. intros H r N. apply relative_to_iff in N. congruence. Qed.
Lemma holds_parent b a : holds b a <-> b = parent_of a.
Proof.
  unfold holds, parent_of, joined. destruct a as [ba la], b as [bb lb]. cbn [absolute parts]. split.
  - intros [[-> ->]|[n H]]; [reflexivity|]. injection H as -> <-. rewrite removelast_last. reflexivity.
  - intros H. injection H as -> ->. destruct la as [|x la] using rev_ind; [left; split; reflexivity|]. right. exists x. rewrite removelast_last. reflexivity.
Qed.
(** every path is shown in exactly one way *)
Lemma shorten_shown s root k p : assoc text_eqb root_key s = Some root -> assoc text_eqb k s = Some p -> k <> root_key ->
  exists shown, shorten_path s k = Ok shown /\ shown_as root p shown.
Proof.
  intros Hr Hp N. unfold shorten_path, attribute. destruct (text_eqb k root_key) eqn:E; [apply text_eqb_eq in E; contradiction|].
  rewrite Hp, Hr. cbn [of_option bind]. destruct (relative_to p root) as [r|e] eqn:E1.
  - exists r. split; [reflexivity|]. left. apply relative_to_iff. exact E1.
  - pose proof (relative_to_fails _ _ _ E1) as N1. destruct (relative_to p (parent_of root)) as [r|e2] eqn:E2.
    + exists r. split; [reflexivity|]. right. left. split; [exact N1|]. exists (parent_of root). split; [apply holds_parent; reflexivity|apply relative_to_iff; exact E2].
    + exists p. split; [reflexivity|]. right. right. split; [exact N1|]. split; [|reflexivity]. intros b r H. apply holds_parent in H. subst b. exact (relative_to_fails _ _ _ E2 r).
Qed.
Lemma names_from_fun a p r1 r2 : names_from a p r1 -> names_from a p r2 -> r1 = r2.
Proof. intros H1 H2. apply relative_to_iff in H1, H2. congruence. Qed.
Lemma shown_as_fun root p a b : shown_as root p a -> shown_as root p b -> a = b.
Proof.
  intros [H1|[[N1 (h & Hh & H1)]|(N1 & M1 & ->)]] [H2|[[N2 (h2 & Hh2 & H2)]|(N2 & M2 & ->)]]; try (exfalso; eapply N2; eassumption); try (exfalso; eapply N1; eassumption).
  - exact (names_from_fun _ _ _ _ H1 H2).
  - apply holds_parent in Hh, Hh2. subst. exact (names_from_fun _ _ _ _ H1 H2).
  - exfalso. exact (M2 _ _ Hh H1).
  - exfalso. exact (M1 _ _ Hh2 H2).
  - reflexivity.
Qed.
(** a shown path can be found from the root, from its folder, or as it stands *)
Theorem C75_shown_path_leads_there : forall root p shown, shown_as root p shown ->
  joined root shown = p \/ (exists b, holds b root /\ joined b shown = p) \/ shown = p.
Proof. intros root p shown [[_ H]|[[_ (b & Hb & [_ H])]|(_ & _ & ->)]]; eauto. Qed.

(** ** the printed form *)
Lemma max_width_ok keys : keys <> [] -> exists w, max_width keys = Ok w /\ (forall k, In k keys -> length k <= w) /\ exists k, In k keys /\ length k = w.
Proof.
  intros N. unfold max_width. destruct keys as [|k keys]; [contradiction|]. eexists. split; [reflexivity|]. clear N. revert k; induction keys as [|k' keys IH]; intros k.
  - cbn. rewrite Nat.max_0_r. split; [intros x [<- |[]]; lia|exists k; auto].
  - destruct (IH k') as (H1 & m & Hm & Em). change (map (@length nat) (k :: k' :: keys)) with (length k :: map (@length nat) (k' :: keys)). cbn [fold_right]. set (M := fold_right Nat.max 0 (map (@length nat) (k' :: keys))) in *. split.
    + intros x [<- |Hx]; [lia|]. specialize (H1 x Hx). lia.
    + destruct (le_lt_dec (length k) M) as [L|L]; [exists m; split; [right; exact Hm|lia]|exists k; split; [left; reflexivity|lia]].
Qed.
Lemma join_break_lines l : join_break l = as_lines l.
Proof. induction l as [|x l IH]; [reflexivity|]. cbn [join_break as_lines]. destruct l; [reflexivity|]. rewrite IH. reflexivity. Qed.
Lemma assoc_text_in (k : text) (s : path_set) : In k (map fst s) -> exists p, assoc text_eqb k s = Some p /\ In (k, p) s.
Proof.
  induction s as [|[k' p] s IH]; [contradiction|]. intros H. cbn [assoc]. destruct (text_eqb k k') eqn:E.
  - apply text_eqb_eq in E. subst. exists p. split; [reflexivity|left; reflexivity].
  - destruct H as [H|H]; [cbn in H; subst; rewrite (proj2 (text_eqb_eq k k) eq_refl) in E; discriminate|]. destruct (IH H) as (q & Eq & Hq). exists q. split; [exact Eq|right; exact Hq].
Qed.
Lemma assoc_text_none (k : text) (s : path_set) : ~ In k (map fst s) -> assoc text_eqb k s = None.
Proof.
  induction s as [|[k' p] s IH]; [reflexivity|]. intros H. cbn [assoc]. destruct (text_eqb k k') eqn:E; [apply text_eqb_eq in E; subst; exfalso; apply H; left; reflexivity|].
  apply IH. intros C. apply H. right. exact C.
Qed.
Lemma in_assoc_text (k : text) p (s : path_set) : NoDup (map fst s) -> In (k, p) s -> assoc text_eqb k s = Some p.
Proof.
  induction s as [|[k' q] s IH]; [contradiction|]. intros N H. inversion N as [|? ? N1 N2]; subst. cbn [assoc]. destruct H as [H|H].
  - injection H as -> ->. rewrite (proj2 (text_eqb_eq k k) eq_refl). reflexivity.
  - destruct (text_eqb k k') eqn:E; [|exact (IH N2 H)]. apply text_eqb_eq in E. subst. exfalso. apply N1. apply in_map_iff. exists (k', p). auto.
Qed.
Lemma filter_sorted {A} (R : A -> A -> Prop) f l : StronglySorted R l -> StronglySorted R (filter f l).
Proof.
  induction 1 as [|x l H IH F]; [constructor|]. cbn [filter]. destruct (f x); [|exact IH]. constructor; [exact IH|]. rewrite Forall_forall in *. intros y Hy. apply filter_In in Hy. apply F, Hy.
Qed.
Lemma filter_out (l : list text) x : NoDup l -> In x l -> Permutation l (x :: filter (fun k => negb (text_eqb k x)) l).
Proof.
  induction l as [|y l IH]; [contradiction|]. intros N H. inversion N as [|? ? N1 N2]; subst. cbn [filter]. destruct (text_eqb y x) eqn:E; cbn [negb].
  - apply text_eqb_eq in E. subst y. constructor. assert (F : filter (fun k => negb (text_eqb k x)) l = l); [|rewrite F; reflexivity].
    clear - N1. induction l as [|z l IH]; [reflexivity|]. cbn [filter]. destruct (text_eqb z x) eqn:E; [apply text_eqb_eq in E; subst; exfalso; apply N1; left; reflexivity|]. cbn [negb]. f_equal. apply IH. intros C. apply N1. right. exact C.
  - destruct H as [H|H]; [subst; rewrite (proj2 (text_eqb_eq x x) eq_refl) in E; discriminate|]. rewrite perm_swap. constructor. exact (IH N2 H).
Qed.
(** Every attribute is shown once: the root first, the others in alphabetical order, the names aligned to the longest *)
Theorem C75_what_is_shown : forall s root, NoDup (map fst s) -> In (root_key, root) s ->
  exists w entries,
    str_paths s = Ok (as_lines (map (fun e => row w (fst e) (str_path (snd e))) ((root_key, root) :: entries))) /\
    Permutation (root_key :: map fst entries) (map fst s) /\ StronglySorted before (map fst entries) /\
    (forall k, In k (map fst s) -> length k <= w) /\ (exists k, In k (map fst s) /\ length k = w) /\
    Forall (fun e => exists p, In (fst e, p) s /\ shown_as root p (snd e)) entries.
Proof.
  intros s root N Hr. assert (Er : assoc text_eqb root_key s = Some root) by (apply in_assoc_text; assumption).
  assert (Hk : In root_key (map fst s)) by (apply in_map_iff; exists (root_key, root); auto).
  destruct (max_width_ok (map fst s)) as (w & Ew & Hw & Hm); [intros E; rewrite E in Hk; contradiction|].
  set (others := filter (fun key => negb (text_eqb key root_key)) (sort_text (map fst s))).
  pose proof (sort_text_perm (map fst s)) as HP.
  assert (HN : NoDup (sort_text (map fst s))) by (eapply Permutation_NoDup; [exact HP|exact N]).
  assert (HO : Permutation (root_key :: others) (map fst s)).
  { apply Permutation_sym. eapply Permutation_trans; [exact HP|]. apply filter_out; [exact HN|]. eapply Permutation_in; [exact HP|exact Hk]. }
  assert (HE : exists entries, map fst entries = others /\ Forall (fun e => exists p, In (fst e, p) s /\ shown_as root p (snd e)) entries /\
    mapM (fun key => p <- shorten_path s key ;; Ok (path_line w key p)) others = Ok (map (fun e => row w (fst e) (str_path (snd e))) entries)).
  { assert (HI : forall k, In k others -> In k (map fst s) /\ k <> root_key).
    { intros k H. apply filter_In in H as [H1 H2]. split; [eapply Permutation_in; [apply Permutation_sym; exact HP|exact H1]|]. intros ->. rewrite (proj2 (text_eqb_eq root_key root_key) eq_refl) in H2. discriminate. }
    clearbody others. clear HO. induction others as [|k l IH]; [exists []; repeat constructor|].
    destruct IH as (es & E1 & E2 & E3); [intros k' H'; apply HI; right; exact H'|]. destruct (HI k (or_introl eq_refl)) as [Hin Hne].
    destruct (assoc_text_in k s Hin) as (p & Ep & Hp). destruct (shorten_shown s root k p Er Ep Hne) as (shown & Es & Hs).
    exists ((k, shown) :: es). split; [cbn [map fst]; rewrite E1; reflexivity|]. split; [constructor; [exists p; auto|exact E2]|].
    cbn [mapM]. rewrite Es. cbn [bind]. rewrite E3. cbn [bind map fst snd]. unfold path_line, row, pad_left. rewrite <- app_assoc. reflexivity. }
  destruct HE as (entries & E1 & E2 & E3). exists w, entries. split; [|split; [rewrite E1; exact HO|split; [rewrite E1; apply filter_sorted, sort_text_sorted, N|split; [exact Hw|split; [exact Hm|exact E2]]]]].
  unfold str_paths. rewrite Ew. cbn [bind]. unfold attribute. rewrite Er. cbn [of_option bind]. fold others. rewrite E3. cbn [bind]. rewrite join_break_lines. unfold path_line, row, pad_left. cbn [map fst snd]. rewrite <- app_assoc. reflexivity.
Qed.
Print Assumptions C75_what_is_shown.
(** only a set without its root cannot be shown *)
Theorem C75_when_it_fails : forall s, NoDup (map fst s) ->
  ((exists t, str_paths s = Ok t) <-> In root_key (map fst s)) /\ (str_paths s = Err ValueError <-> s = []) /\
  (str_paths s = Err AttributeError <-> s <> [] /\ ~ In root_key (map fst s)).
Proof.
  intros s N.
  assert (D : In root_key (map fst s) \/ ~ In root_key (map fst s)) by (destruct (in_dec (list_eq_dec Nat.eq_dec) root_key (map fst s)); auto).
  assert (G : In root_key (map fst s) -> exists t, str_paths s = Ok t).
  { intros H. destruct (assoc_text_in _ _ H) as (p & _ & Hp). destruct (C75_what_is_shown s p N Hp) as (w & es & E & _). eauto. }
  assert (B : s <> [] -> ~ In root_key (map fst s) -> str_paths s = Err AttributeError).
  { intros Hs H. unfold str_paths. destruct (max_width_ok (map fst s)) as (w & -> & _); [destruct s; [contradiction|discriminate]|]. cbn [bind]. unfold attribute. rewrite (assoc_text_none _ _ H). reflexivity. }
  assert (E : s = [] -> str_paths s = Err ValueError) by (intros ->; reflexivity).
  assert (DE : s = [] \/ s <> []) by (destruct s; [left; reflexivity|right; discriminate]).
  split; [|split].
  - split; [|exact G]. intros (t & Et). destruct D as [D|D]; [exact D|]. destruct DE as [De|De]; [rewrite (E De) in Et; discriminate|]. rewrite (B De D) in Et. discriminate.
  - split; [|exact E]. intros H. destruct DE as [De|De]; [exact De|]. exfalso. destruct D as [D|D]; [destruct (G D) as (t & Et); congruence|rewrite (B De D) in H; discriminate].
  - split; [|intros [H1 H2]; exact (B H1 H2)]. intros H. destruct DE as [De|De]; [rewrite (E De) in H; discriminate|]. split; [exact De|]. intros D1. destruct (G D1) as (t & Et). congruence.
Qed.

(** ** reading it back *)
Lemma cut_at (c : nat) a b u v : ~ In c a -> ~ In c b -> a ++ c :: u = b ++ c :: v -> a = b /\ u = v.
Proof.
  revert b; induction a as [|x a IH]; intros [|y b] Na Nb H; cbn [app] in H.
  - injection H as ->. auto.
  - injection H as <- _. exfalso. apply Nb. left. reflexivity.
  - injection H as -> _. exfalso. apply Na. left. reflexivity.
  - injection H as -> H. destruct (IH b) as [-> ->]; auto; intros C; [apply Na|apply Nb]; right; exact C.
Qed.
Lemma join_inj c (j : list text -> text) (J1 : forall x, j [x] = x) (J2 : forall x y l, j (x :: y :: l) = x ++ c :: j (y :: l)) :
  forall l m, l <> [] -> m <> [] -> Forall (fun x => ~ In c x) l -> Forall (fun x => ~ In c x) m -> j l = j m -> l = m.
Proof.
  induction l as [|x l IH]; [contradiction|]. intros [|y m] _ Nm Fl Fm H; [contradiction|]. inversion Fl as [|? ? Fx Fl']; subst. inversion Fm as [|? ? Fy Fm']; subst.
  destruct l as [|x2 l], m as [|y2 m]; rewrite ?J1, ?J2 in H.
  - subst. reflexivity.
  - exfalso. apply Fx. rewrite H. apply in_or_app. right. left. reflexivity.
  - exfalso. apply Fy. rewrite <- H. apply in_or_app. right. left. reflexivity.
  - apply cut_at in H; [|assumption|assumption]. destruct H as [-> H]. f_equal. apply IH; auto; discriminate.
Qed.
Lemma as_lines_inj l m : l <> [] -> m <> [] -> Forall (fun x => ~ In 10 x) l -> Forall (fun x => ~ In 10 x) m -> as_lines l = as_lines m -> l = m.
Proof. apply (join_inj 10 as_lines); reflexivity. Qed.
Lemma join_slash_first l : l <> [] -> Forall (fun x => x <> [] /\ ~ In 47 x) l -> forall u, join_slash l <> 47 :: u.
Proof.
  intros N F u E. destruct l as [|x l]; [contradiction|]. inversion F as [|? ? [Hx Nx] _]; subst. destruct x as [|c x]; [contradiction|].
  assert (c = 47) by (destruct l; cbn in E; injection E; auto). subst c. apply Nx. left. reflexivity.
Qed.
Lemma join_slash_in l c : In c (join_slash l) -> c = 47 \/ exists x, In x l /\ In c x.
Proof.
  induction l as [|x l IH]; [contradiction|]. destruct l as [|y l]; [intros H; right; exists x; split; [left; reflexivity|exact H]|].
  change (join_slash (x :: y :: l)) with (x ++ 47 :: join_slash (y :: l)). intros H. apply in_app_or in H as [H|[H|H]].
  - right. exists x. split; [left; reflexivity|exact H].
  - left. congruence.
  - destruct (IH H) as [E|(z & Hz & Hc)]; [left; exact E|right; exists z; split; [right; exact Hz|exact Hc]].
Qed.
Lemma proper_clean p : proper p -> Forall (fun x => x <> [] /\ ~ In 47 x) (parts p) /\ Forall (fun x => ~ In 47 x) (parts p).
Proof. intros H. split; eapply Forall_impl; try exact H; cbv beta; tauto. Qed.
Lemma single_dot l : Forall (fun x => x <> [] /\ x <> [46] /\ ~ In 47 x /\ ~ In 10 x) l -> l <> [] -> join_slash l <> [46].
Proof.
  intros F N E. destruct l as [|x [|y l]]; [contradiction| |].
  - inversion F as [|? ? H _]; subst. cbn in E. tauto.
  - inversion F as [|? ? H _]; subst. change (x ++ 47 :: join_slash (y :: l) = [46]) in E. destruct x as [|c [|d x]]; [tauto| |]; cbn in E; discriminate.
Qed.
(** proper paths are told apart by their text *)
Theorem C75_path_text : forall p q, proper p -> proper q -> str_path p = str_path q -> p = q.
Proof.
  intros [bp lp] [bq lq] Hp Hq. destruct (proper_clean _ Hp) as [Cp Sp]. destruct (proper_clean _ Hq) as [Cq Sq]. unfold proper in Hp, Hq. cbn [parts] in *.
  assert (J : forall l m, l <> [] -> m <> [] -> Forall (fun x => ~ In 47 x) l -> Forall (fun x => ~ In 47 x) m -> join_slash l = join_slash m -> l = m) by (apply (join_inj 47 join_slash); reflexivity).
  assert (J0 : forall l, Forall (fun x => x <> [] /\ ~ In 47 x) l -> join_slash l = [] -> l = []).
  { intros l F E. destruct l as [|x [|y l]]; [reflexivity| |]; inversion F as [|? ? [Hx _] _]; subst; [cbn in E; contradiction|]. change (x ++ 47 :: join_slash (y :: l) = []) in E. destruct x; discriminate. }
  unfold str_path. cbn [absolute parts]. destruct bp, bq.
  - intros E. injection E as E. destruct lp as [|x lp]; [symmetry in E; apply J0 in E; [subst; reflexivity|exact Cq]|].
    destruct lq as [|y lq]; [apply J0 in E; [discriminate E|exact Cp]|]. f_equal. apply J; auto; discriminate.
  - intros E. exfalso. destruct lq as [|y lq]; [discriminate E|]. symmetry in E. revert E. apply join_slash_first; [discriminate|exact Cq].
  - intros E. exfalso. destruct lp as [|y lp]; [discriminate E|]. revert E. apply join_slash_first; [discriminate|exact Cp].
  - destruct lp as [|x lp], lq as [|y lq]; [reflexivity| | |].
    + intros E. exfalso. symmetry in E. revert E. apply single_dot; [exact Hq|discriminate].
    + intros E. exfalso. revert E. apply single_dot; [exact Hp|discriminate].
    + intros E. f_equal. apply J; auto; discriminate.
Qed.
Lemma str_path_no_break p : proper p -> ~ In 10 (str_path p).
Proof.
  destruct p as [b l]. intros H Hin. unfold proper in H. cbn [parts] in H. rewrite Forall_forall in H.
  assert (Hj : In 10 (join_slash l) -> False) by (intros C; apply join_slash_in in C as [C|(x & Hx & Hc)]; [discriminate|apply (H x Hx); exact Hc]).
  unfold str_path in Hin. cbn [absolute parts] in Hin. destruct b; [destruct Hin as [Hin|Hin]; [discriminate|auto]|]. destruct l; [destruct Hin as [Hin|[]]; discriminate|auto].
Qed.
Lemma row_no_break w k t : identifier k -> ~ In 10 t -> ~ In 10 (row w k t).
Proof.
  intros (_ & _ & _ & Hk) Ht Hin. unfold row in Hin. rewrite !in_app_iff in Hin. destruct Hin as [Hin|[Hin|[Hin|Hin]]]; auto.
  - apply repeat_spec in Hin. discriminate.
  - destruct Hin as [Hin|[Hin|[]]]; discriminate.
Qed.
Lemma row_inj w1 w2 k1 k2 t1 t2 : identifier k1 -> identifier k2 -> row w1 k1 t1 = row w2 k2 t2 -> k1 = k2 /\ t1 = t2.
Proof.
  intros (A1 & B1 & C1 & _) (A2 & B2 & C2 & _). unfold row. generalize (w1 - length k1) (w2 - length k2). intros n1 n2.
  assert (H : k1 ++ [58; 32] ++ t1 = k2 ++ [58; 32] ++ t2 -> k1 = k2 /\ t1 = t2) by (intros E; cbn [app] in E; apply cut_at in E; [destruct E as [-> E]; injection E as ->; auto|assumption|assumption]).
  revert n2; induction n1 as [|n1 IH]; intros [|n2]; cbn [repeat app]; intros E.
  - exact (H E).
  - exfalso. destruct k1 as [|c k1]; [contradiction|]. cbn [app] in E. injection E as -> _. apply B1. left. reflexivity.
  - exfalso. destruct k2 as [|c k2]; [contradiction|]. cbn [app] in E. injection E as <- _. apply B2. left. reflexivity.
  - injection E as E. exact (IH _ E).
Qed.
Lemma shown_proper root p shown : proper p -> shown_as root p shown -> proper shown.
Proof.
  intros Hp H. destruct (C75_shown_path_leads_there _ _ _ H) as [E|[(b & _ & E)| ->]]; [| |exact Hp]; unfold joined in E; destruct (absolute shown); subst; try exact Hp;
    unfold proper in *; cbn [parts] in Hp; apply Forall_app in Hp; tauto.
Qed.
(** Path sets (with identifiers as names and proper paths) that print the same text have the same root, the same names, and
    under each name paths that are shown alike *)
Theorem C75_can_be_read_back : forall s1 s2 r1 r2 t, NoDup (map fst s1) -> NoDup (map fst s2) -> In (root_key, r1) s1 -> In (root_key, r2) s2 ->
  Forall (fun e => identifier (fst e) /\ proper (snd e)) s1 -> Forall (fun e => identifier (fst e) /\ proper (snd e)) s2 ->
  str_paths s1 = Ok t -> str_paths s2 = Ok t ->
  r1 = r2 /\ (forall k, In k (map fst s1) <-> In k (map fst s2)) /\
  (forall k p1 p2, k <> root_key -> In (k, p1) s1 -> In (k, p2) s2 -> exists shown, shown_as r1 p1 shown /\ shown_as r1 p2 shown).
Proof.
  intros s1 s2 r1 r2 t N1 N2 R1 R2 F1 F2 E1 E2.
  destruct (C75_what_is_shown s1 r1 N1 R1) as (w1 & es1 & T1 & P1 & _ & _ & _ & S1). destruct (C75_what_is_shown s2 r2 N2 R2) as (w2 & es2 & T2 & P2 & _ & _ & _ & S2).
  rewrite Forall_forall in F1, F2, S1, S2.
  assert (K1 : forall e, In e ((root_key, r1) :: es1) -> identifier (fst e) /\ proper (snd e)).
  { intros e [<- |He]; [exact (F1 _ R1)|]. destruct (S1 _ He) as (p & Hp & Hs). destruct (F1 _ Hp) as [Hi Hq]. cbn [fst snd] in *. split; [exact Hi|exact (shown_proper _ _ _ Hq Hs)]. }
  assert (K2 : forall e, In e ((root_key, r2) :: es2) -> identifier (fst e) /\ proper (snd e)).
  { intros e [<- |He]; [exact (F2 _ R2)|]. destruct (S2 _ He) as (p & Hp & Hs). destruct (F2 _ Hp) as [Hi Hq]. cbn [fst snd] in *. split; [exact Hi|exact (shown_proper _ _ _ Hq Hs)]. }
  assert (EL : (root_key, r1) :: es1 = (root_key, r2) :: es2).
  { assert (E : map (fun e => row w1 (fst e) (str_path (snd e))) ((root_key, r1) :: es1) = map (fun e => row w2 (fst e) (str_path (snd e))) ((root_key, r2) :: es2)).
    { apply as_lines_inj; [discriminate|discriminate| | |congruence]; rewrite Forall_forall; intros x Hx; apply in_map_iff in Hx as (e & <- & He).
      - destruct (K1 e He) as [Hi Hp]. apply row_no_break; [exact Hi|apply str_path_no_break, Hp].
      - destruct (K2 e He) as [Hi Hp]. apply row_no_break; [exact Hi|apply str_path_no_break, Hp]. }
    revert K1 K2 E. generalize ((root_key, r1) :: es1) ((root_key, r2) :: es2). clear. induction l as [|[k p] l IH]; intros [|[k2 p2] l2] K1 K2 E; try discriminate; [reflexivity|].
    cbn [map fst snd] in E. assert (Er : row w1 k (str_path p) = row w2 k2 (str_path p2)) by congruence.
    destruct (K1 (k, p) (or_introl eq_refl)) as [I1 Q1]. destruct (K2 (k2, p2) (or_introl eq_refl)) as [I2 Q2]. cbn [fst snd] in *.
    destruct (row_inj _ _ _ _ _ _ I1 I2 Er) as [-> Et]. rewrite (C75_path_text p p2 Q1 Q2 Et). f_equal.
    apply IH; [intros e He; apply K1; right; exact He|intros e He; apply K2; right; exact He|congruence]. }
  assert (Er : r1 = r2) by congruence. assert (Ee : es1 = es2) by congruence. subst r2 es2. split; [reflexivity|]. split.
  - intros k. split; intros H.
    + apply (Permutation_in _ P2), (Permutation_in _ (Permutation_sym P1)). exact H.
    + apply (Permutation_in _ P1), (Permutation_in _ (Permutation_sym P2)). exact H.
  - intros k p1 p2 Nk H1 H2. assert (Hk : In k (map fst es1)).
    { assert (Hk : In k (root_key :: map fst es1)) by (apply (Permutation_in _ (Permutation_sym P1)); apply in_map_iff; exists (k, p1); auto). destruct Hk as [Hk|Hk]; [congruence|exact Hk]. }
    apply in_map_iff in Hk as ([k' shown] & Ek & He). cbn [fst] in Ek. subst k'. exists shown.
    destruct (S1 _ He) as (q1 & Hq1 & Hs1). destruct (S2 _ He) as (q2 & Hq2 & Hs2). cbn [fst snd] in *.
    pose proof (in_assoc_text _ _ _ N1 H1) as A1. pose proof (in_assoc_text _ _ _ N1 Hq1) as A2. pose proof (in_assoc_text _ _ _ N2 H2) as A3. pose proof (in_assoc_text _ _ _ N2 Hq2) as A4.
    assert (q1 = p1) by congruence. assert (q2 = p2) by congruence. subst. split; assumption.
Qed.
Print Assumptions C75_can_be_read_back.
Lemma from_root_from_parent root p r : names_from root p r -> exists b r', holds b root /\ names_from b p r'.
Proof.
  intros [A H]. exists (parent_of root). destruct root as [br lr], r as [b l]. cbn [absolute] in A. subst b. unfold joined in H. cbn [absolute parts] in H. subst p.
  destruct lr as [|x lr] using rev_ind.
  - exists (PP false l). split; [apply holds_parent; reflexivity|]. split; reflexivity.
  - exists (PP false (x :: l)). split; [apply holds_parent; reflexivity|]. split; [reflexivity|]. unfold joined, parent_of. cbn [absolute parts]. rewrite removelast_last, <- app_assoc. reflexivity.
Qed.
(** so that sets whose paths are all below the root, or elsewhere than in its folder, can be read back completely *)
Theorem C75_unambiguous_sets : forall s1 s2 r1 r2 t, NoDup (map fst s1) -> NoDup (map fst s2) -> In (root_key, r1) s1 -> In (root_key, r2) s2 ->
  Forall (fun e => identifier (fst e) /\ proper (snd e) /\ (fst e <> root_key -> unambiguous r1 (snd e))) s1 ->
  Forall (fun e => identifier (fst e) /\ proper (snd e) /\ (fst e <> root_key -> unambiguous r2 (snd e))) s2 ->
  str_paths s1 = Ok t -> str_paths s2 = Ok t -> Permutation s1 s2.
Proof.
  intros s1 s2 r1 r2 t N1 N2 R1 R2 F1 F2 E1 E2. rewrite Forall_forall in F1, F2.
  destruct (C75_can_be_read_back s1 s2 r1 r2 t N1 N2 R1 R2) as (<- & HK & HS); [rewrite Forall_forall; intros e He; destruct (F1 e He) as (A & B & _); auto|rewrite Forall_forall; intros e He; destruct (F2 e He) as (A & B & _); auto|exact E1|exact E2|].
  assert (D : forall x shown, unambiguous r1 x -> shown_as r1 x shown -> names_from r1 x shown \/ (absolute shown = true /\ shown = x)).
  { intros x shown [(r & Hr)|[Ha Hn]] [H|[[H H']|(H & _ & ->)]].
    - left. exact H.
    - exfalso. exact (H r Hr).
    - exfalso. exact (H r Hr).
    - exfalso. destruct (from_root_from_parent _ _ _ H) as (b & r' & Hb & Hr'). exact (Hn _ _ Hb Hr').
    - exfalso. destruct H' as (b & Hb & Hr'). exact (Hn _ _ Hb Hr').
    - right. split; [exact Ha|reflexivity]. }
  assert (U : forall p q shown, unambiguous r1 p -> unambiguous r1 q -> shown_as r1 p shown -> shown_as r1 q shown -> p = q).
  { intros p q shown Up Uq Sp Sq. destruct (D _ _ Up Sp) as [[A1 B1]|[A1 B1]], (D _ _ Uq Sq) as [[A2 B2]|[A2 B2]]; congruence. }
  assert (G : forall k p, In (k, p) s1 <-> In (k, p) s2).
  { assert (W : forall sa sb : path_set, NoDup (map fst sa) -> NoDup (map fst sb) -> In (root_key, r1) sa -> In (root_key, r1) sb -> (forall k, In k (map fst sa) -> In k (map fst sb)) ->
      (forall k p q, k <> root_key -> In (k, p) sa -> In (k, q) sb -> p = q) -> forall k p, In (k, p) sa -> In (k, p) sb).
    { intros sa sb Na Nb Ra Rb HKab HSab k p Hin. destruct (list_eq_dec Nat.eq_dec k root_key) as [-> |Nk].
      - pose proof (in_assoc_text _ _ _ Na Hin) as A1. pose proof (in_assoc_text _ _ _ Na Ra) as A2. assert (p = r1) by congruence. subst p. exact Rb.
      - destruct (assoc_text_in k sb) as (q & _ & Hq); [apply HKab; apply in_map_iff; exists (k, p); auto|]. rewrite (HSab k p q Nk Hin Hq). exact Hq. }
    assert (V : forall k p q, k <> root_key -> In (k, p) s1 -> In (k, q) s2 -> p = q).
    { intros k p q Nk Hp Hq. destruct (HS k p q Nk Hp Hq) as (shown & S1 & S2). destruct (F1 _ Hp) as (_ & _ & U1). destruct (F2 _ Hq) as (_ & _ & U2). exact (U p q shown (U1 Nk) (U2 Nk) S1 S2). }
    intros k p. split; apply W; auto; intros; [apply HK; assumption|apply HK; assumption|symmetry; eapply V; eassumption]. }
  apply NoDup_Permutation; [exact (NoDup_map_inv _ _ N1)|exact (NoDup_map_inv _ _ N2)|]. intros [k p]. apply G.
Qed.
(** ... and others cannot: two different path sets, one text *)
Theorem C75_ambiguous_refuted : exists s1 s2 t, str_paths s1 = Ok t /\ str_paths s2 = Ok t /\ ~ Permutation s1 s2 /\
  NoDup (map fst s1) /\ NoDup (map fst s2) /\ Forall (fun e => identifier (fst e) /\ proper (snd e)) (s1 ++ s2).
Proof.
  set (root := PP true [[97]; [98]]).
  exists [(root_key, root); ([88], PP true [[97]; [98]; [99]])], [(root_key, root); ([88], PP true [[97]; [99]])]. eexists.
  split; [vm_compute; reflexivity|]. split; [vm_compute; reflexivity|]. split.
  - intros P. apply (Permutation_in ([88], PP true [[97]; [98]; [99]])) in P; [|right; left; reflexivity]. destruct P as [P|[P|[]]]; discriminate.
  - assert (N : NoDup [root_key; [88]]) by (constructor; [intros [H|[]]; discriminate|repeat constructor; intros []]).
    split; [exact N|]. split; [exact N|].
    assert (G : forall l : list nat, forallb (fun x => negb (Nat.eqb x 32) && negb (Nat.eqb x 58) && negb (Nat.eqb x 10) && negb (Nat.eqb x 47)) l = true -> ~ In 32 l /\ ~ In 58 l /\ ~ In 10 l /\ ~ In 47 l).
    { intros l H. rewrite forallb_forall in H. repeat split; intros C; apply H in C; discriminate. }
    assert (I : forall k, k <> [] -> forallb (fun x => negb (Nat.eqb x 32) && negb (Nat.eqb x 58) && negb (Nat.eqb x 10) && negb (Nat.eqb x 47)) k = true -> identifier k) by (intros k Nk Hk; destruct (G _ Hk) as (A & B & C & _); repeat split; assumption).
    assert (Q : forall p, forallb (fun k => negb (text_eqb k []) && negb (text_eqb k [46]) && forallb (fun x => negb (Nat.eqb x 32) && negb (Nat.eqb x 58) && negb (Nat.eqb x 10) && negb (Nat.eqb x 47)) k) (parts p) = true -> proper p).
    { intros p H. unfold proper. rewrite Forall_forall. rewrite forallb_forall in H. intros x Hx. specialize (H x Hx). apply andb_prop in H as [H H3]. apply andb_prop in H as [H1 H2]. destruct (G _ H3) as (_ & _ & C & B).
      repeat split; auto; intros ->; [discriminate H1|discriminate H2]. }
    assert (X : forall (k : text) p, identifier k -> proper p -> identifier (fst (k, p)) /\ proper (snd (k, p))) by (intros k p Hk Hp; exact (conj Hk Hp)).
    cbn [app]. repeat (apply Forall_cons; [apply X; [apply I; [discriminate|vm_compute; reflexivity]|apply Q; vm_compute; reflexivity]|]). apply Forall_nil.
Qed.

(** ** a new path set *)
Theorem C75_new_path_set : forall root, exists shown_exds shown_runs,
  joined root (PP false [lit "exds_repository"]) = shown_exds /\ joined root (PP false [lit "exprun_repository"]) = shown_runs /\
  new_paths root = [(lit "Root", root); (lit "ExDsRepository", shown_exds); (lit "ExpRunRepository", shown_runs)] /\
  str_paths (new_paths root) = Ok (as_lines [row 16 (lit "Root") (str_path root); row 16 (lit "ExDsRepository") (lit "exds_repository"); row 16 (lit "ExpRunRepository") (lit "exprun_repository")]).
Proof.
  intros root. do 2 eexists. split; [reflexivity|]. split; [reflexivity|]. split; [reflexivity|].
  assert (S : forall n, relative_to (child root n) root = Ok (PP false [n])) by (intros n; apply relative_to_iff; split; reflexivity).
  unfold str_paths. change (max_width (map fst (new_paths root))) with (Ok 16). cbn [bind].
  change (attribute (new_paths root) root_key) with (Ok root). cbn [bind].
  change (filter _ _) with [lit "ExDsRepository"; lit "ExpRunRepository"]. cbn [mapM].
  change (shorten_path (new_paths root) (lit "ExDsRepository")) with (match relative_to (child root (lit "exds_repository")) root with Ok p => Ok p | Err _ => match relative_to (child root (lit "exds_repository")) (parent_of root) with Ok p => Ok p | Err _ => Ok (child root (lit "exds_repository")) end end).
  change (shorten_path (new_paths root) (lit "ExpRunRepository")) with (match relative_to (child root (lit "exprun_repository")) root with Ok p => Ok p | Err _ => match relative_to (child root (lit "exprun_repository")) (parent_of root) with Ok p => Ok p | Err _ => Ok (child root (lit "exprun_repository")) end end).
  rewrite !S. cbn [bind]. rewrite join_break_lines. reflexivity.
Qed.

(** ** update_paths *)
(** It needs an experiment definition and a path set; otherwise AttributeError, and nothing is changed *)
Theorem C75_update_refused : forall su, ps_exp su = None \/ ps_paths su = None -> update_paths su = (su, Err AttributeError).
Proof. intros su [H|H]; unfold update_paths; rewrite H; [reflexivity|]. destruct (ps_exp su); reflexivity. Qed.
(** With them, Experiment is the folder of the experiment, ExDs that of the dataset if there is one and as before if
    there is none, and no other path is touched *)
Theorem C75_update : forall su e s, ps_exp su = Some e -> ps_paths su = Some s -> exists s',
  update_paths su = (PSetup (Some e) (ps_exds su) (Some s'), Ok tt) /\
  attribute s' (lit "Experiment") = Ok e /\
  attribute s' (lit "ExDs") = match ps_exds su with Some d => Ok d | None => attribute s (lit "ExDs") end /\
  (forall k, k <> lit "Experiment" -> k <> lit "ExDs" -> attribute s' k = attribute s k) /\
  (NoDup (map fst s) -> NoDup (map fst s')).
Proof.
  intros su e s He Hs. unfold update_paths. rewrite He, Hs. eexists. split; [reflexivity|]. unfold attribute, set_attribute.
  assert (NE : lit "Experiment" <> lit "ExDs") by (vm_compute; discriminate).
  assert (T : forall a b : text, a <> b -> text_eqb a b = false) by (intros a b H; destruct (text_eqb a b) eqn:E; [apply text_eqb_eq in E; contradiction|reflexivity]).
  assert (T' : forall a : text, text_eqb a a = true) by (intros a; apply text_eqb_eq; reflexivity).
  assert (N : forall k v (s : path_set), NoDup (map fst s) -> NoDup (map fst (assoc_set text_eqb k v s))).
  { clear. intros k v s. induction s as [|[k' v'] s IH]; intros H; [repeat constructor; intros []|]. cbn [assoc_set]. destruct (text_eqb k k') eqn:E; [apply text_eqb_eq in E; subst; exact H|].
    inversion H as [|? ? H1 H2]; subst. cbn [map fst]. constructor; [|exact (IH H2)]. intros C. apply H1. clear - C E. induction s as [|[k2 v2] s IH]; cbn in C.
    - destruct C as [C|[]]. subst. rewrite (proj2 (text_eqb_eq _ _) eq_refl) in E. discriminate.
    - destruct (text_eqb k k2) eqn:E2; cbn in C; [apply text_eqb_eq in E2; subst; cbn; exact C|]. destruct C as [C|C]; [left; exact C|right; exact (IH C)]. }
  generalize dependent (lit "Experiment"). intros ke NE. generalize dependent (lit "ExDs"). intros kd NE.
  destruct (ps_exds su) as [d|]; rewrite ?(d_set text_eqb text_eqb_eq), ?T', ?(T _ _ NE).
  - split; [reflexivity|]. split; [reflexivity|]. split; [|intros H; apply N, N, H]. intros k H1 H2. rewrite !(d_set text_eqb text_eqb_eq), (T _ _ H1), (T _ _ H2). reflexivity.
  - split; [reflexivity|]. split; [rewrite (T _ _ (not_eq_sym NE)); reflexivity|]. split; [|intros H; apply N, H]. intros k H1 H2. rewrite (d_set text_eqb text_eqb_eq), (T _ _ H1). reflexivity.
Qed.
Print Assumptions C75_update.
(** A setup whose dataset definition is taken away keeps showing the old folder: after update_paths, ExDs need not be the
    folder of the dataset of the setup *)
Theorem C75_stale_dataset_refuted : exists ops e d root,
  let su := paths_run ops in
  ops = [SetPaths root; SetExperiment e; SetExDs (Some d); UpdatePaths; SetExDs None; UpdatePaths] /\ ps_exds su = None /\
  exists s, ps_paths su = Some s /\ attribute s (lit "ExDs") = Ok d.
Proof.
  exists [SetPaths (PP true [[97]]); SetExperiment (PP true [[97]; [98]]); SetExDs (Some (PP true [[97]; [99]])); UpdatePaths; SetExDs None; UpdatePaths],
    (PP true [[97]; [98]]), (PP true [[97]; [99]]), (PP true [[97]]).
  split; [reflexivity|]. split; [vm_compute; reflexivity|]. eexists. split; [vm_compute; reflexivity|vm_compute; reflexivity].
Qed.

(** ** any script *)
Lemma last_root_snoc ops o : last_root (ops ++ [o]) = match o with SetPaths r => Some r | _ => last_root ops end.
Proof. induction ops as [|x ops IH]; [destruct o; reflexivity|]. cbn [app last_root]. rewrite IH. destruct o; try reflexivity. Qed.
Lemma last_experiment_snoc ops o : last_experiment (ops ++ [o]) = match o with SetExperiment r => Some r | _ => last_experiment ops end.
Proof. induction ops as [|x ops IH]; [destruct o; reflexivity|]. cbn [app last_experiment]. rewrite IH. destruct o; try reflexivity. Qed.
(** Whatever a script does, the root and the two repositories are those of the root given last, and update_paths right
    after it is accepted exactly if a root and an experiment were given *)
Theorem C75_any_script : forall ops, let su := paths_run ops in
  ps_exp su = last_experiment ops /\
  match last_root ops with
  | None => ps_paths su = None
  | Some root => exists s, ps_paths su = Some s /\ NoDup (map fst s) /\ attribute s (lit "Root") = Ok root /\
      attribute s (lit "ExDsRepository") = Ok (joined root (PP false [lit "exds_repository"])) /\
      attribute s (lit "ExpRunRepository") = Ok (joined root (PP false [lit "exprun_repository"]))
  end.
Proof.
  intros ops. cbv zeta. induction ops as [|o ops IH] using rev_ind; [split; reflexivity|].
  unfold paths_run in *. rewrite fold_left_app. cbn [fold_left]. set (su := fold_left paths_step ops (PSetup None None None)) in *. clearbody su.
  rewrite last_root_snoc, last_experiment_snoc. destruct IH as [IH1 IH2]. destruct o as [p|d|root|]; cbn [paths_step ps_exp ps_exds ps_paths].
  - split; [reflexivity|exact IH2].
  - split; [exact IH1|exact IH2].
  - split; [exact IH1|]. exists (new_paths root). split; [reflexivity|]. split; [|repeat split; reflexivity].
    assert (B : forall l : list text, (fix nd (l : list text) : bool := match l with [] => true | x :: l' => negb (existsb (text_eqb x) l') && nd l' end) l = true -> NoDup l).
    { induction l as [|x l IH]; [constructor|]. intros H. apply andb_prop in H as [H1 H2]. constructor; [|exact (IH H2)]. intros C. apply Bool.negb_true_iff in H1.
      assert (existsb (text_eqb x) l = true) by (apply existsb_exists; exists x; split; [exact C|apply text_eqb_eq; reflexivity]). congruence. }
    apply B. vm_compute. reflexivity.
  - destruct (last_root ops) as [root|].
    + destruct IH2 as (s & Es & N & A1 & A2 & A3). destruct (ps_exp su) as [e|] eqn:Ee.
      * destruct (C75_update su e s Ee Es) as (s' & -> & _ & _ & Ho & Hn). cbn [fst ps_exp ps_paths]. split; [congruence|]. exists s'. split; [reflexivity|]. split; [exact (Hn N)|].
        split; [rewrite Ho; [exact A1|vm_compute; discriminate|vm_compute; discriminate]|]. split; rewrite Ho; try assumption; vm_compute; discriminate.
      * rewrite C75_update_refused by (left; exact Ee). cbn [fst]. rewrite Ee. split; [exact IH1|]. exists s. auto.
    + rewrite C75_update_refused by (right; exact IH2). cbn [fst]. split; [exact IH1|exact IH2].
Qed.
(** so that the command that shows the paths never fails *)
Theorem C75_show_never_fails : forall ops, exists t, paths_show (paths_run ops) = Ok t /\
  (last_root ops = None -> t = lit "None").
Proof.
  intros ops. destruct (C75_any_script ops) as [_ H]. unfold paths_show. destruct (last_root ops) as [root|].
  - destruct H as (s & -> & N & A & _). destruct (proj2 (proj1 (C75_when_it_fails s N))) as (t & ->); [|exists t; split; [reflexivity|discriminate]].
    change (lit "Root") with root_key in A. unfold attribute in A. destruct (in_dec (list_eq_dec Nat.eq_dec) root_key (map fst s)) as [Hi|Hi]; [exact Hi|]. rewrite (assoc_text_none _ _ Hi) in A. discriminate.
  - rewrite H. exists (lit "None"). auto.
Qed.
Print Assumptions C75_any_script.
Print Assumptions C75_show_never_fails.
Print Assumptions C75_unambiguous_sets.

(** a setup as in the examples of mbtk: what is printed *)
Example c75_printed :
  let root := PP true [lit "home"; lit "me"; lit "experiments"] in
  paths_show (paths_run [SetPaths root; SetExperiment (child (child root (lit "exprun_repository")) (lit "E1"));
    SetExDs (Some (PP true [lit "home"; lit "me"; lit "data"])); UpdatePaths]) =
  Ok (as_lines [lit "            Root: /home/me/experiments"; lit "            ExDs: data"; lit "  ExDsRepository: exds_repository";
    lit "ExpRunRepository: exprun_repository"; lit "      Experiment: exprun_repository/E1"]).
Proof. vm_compute. reflexivity. Qed.
(** paths below the root and far away are unambiguous *)
Example c75_unambiguous : unambiguous (PP true [[97]; [98]]) (PP true [[97]; [98]; [99]]) /\ unambiguous (PP true [[97]; [98]]) (PP true [[100]]).
Proof.
  split; [left; exists (PP false [[99]]); split; reflexivity|]. right. split; [reflexivity|]. intros b r Hb Hr. apply holds_parent in Hb. subst b. apply relative_to_iff in Hr. discriminate.
Qed.
(** the root itself is given in full *)
Theorem C75_root_in_full : forall s root, NoDup (map fst s) -> In (root_key, root) s -> shorten_path s (lit "Root") = Ok root.
Proof.
  intros s root HN Hin. change (lit "Root") with root_key. unfold shorten_path. rewrite (proj2 (text_eqb_eq root_key root_key) eq_refl). unfold attribute.
  assert (E : assoc text_eqb root_key s = Some root); [|rewrite E; reflexivity].
  clear - HN Hin. induction s as [|[k p] s IH]; [destruct Hin|]. inversion HN as [|? ? H1 H2]; subst. cbn [assoc].
  destruct (text_eqb root_key k) eqn:E.
  - apply text_eqb_eq in E. subst k. destruct Hin as [H|H]; [injection H as ->; reflexivity|]. exfalso. apply H1. apply in_map_iff. exists (root_key, root). auto.
  - destruct Hin as [H|H]; [injection H as -> ->; rewrite (proj2 (text_eqb_eq root_key root_key) eq_refl) in E; discriminate|]. apply IH; assumption.
Qed.
(** the dataset definition is the one given last: no other step touches it *)
Theorem C75_dataset_kept : forall ops, ps_exds (paths_run ops) = match last_dataset ops with Some d => d | None => None end.
Proof.
  intros ops. unfold paths_run.
  assert (G : forall su, ps_exds (fold_left paths_step ops su) = match last_dataset ops with Some d => d | None => ps_exds su end); [|apply G].
  induction ops as [|o ops IH]; intros su; [reflexivity|]. cbn [fold_left last_dataset]. rewrite IH. destruct (last_dataset ops) as [d|]; [reflexivity|].
  destruct o as [p|d|r|]; try reflexivity. unfold paths_step, update_paths. destruct (ps_exp su), (ps_paths su); reflexivity.
Qed.
