(** make_counts, call histories, pickling, conditional probabilities, failure cases. *)
From Coq Require Import Reals Lra.
From Verif Require Import Base AD_Model AD_Query_Model AD_Spec AD_Proofs AD_CT_Proofs AD_PMF_Proofs.
Open Scope Z_scope.

(** ** make_counts *)
Lemma make_counts_ok D dyn vars t : wf_dataset D -> no_minus_one D -> threshold_ok D ->
  ok_root D dyn t -> vars <> [] -> NoDup vars -> (forall c, In c vars -> (c < ncols D)%nat) ->
  exists d t', make_counts D dyn vars t = Ok (d, t') /\ ok_root D dyn t' /\ counts_exact D (sort_nat vars) d.
Proof.
  intros WF NM Hthr (Hok & Hv & Hc) Hne HN Hin. unfold make_counts.
  destruct (mct_ok D WF dyn NM (sort_nat vars) (seq 0 (nrows D)) 0%nat t Hok (inrange_all D))
    as (ct & t' & Hm & Hok' & Hv' & Hc' & Hl' & Hct & Htv & Hnm & Hlook).
  { intros Hleaf. exfalso. inversion Hok as [? ? cnt ? ? leaf ? ? H1 H2]; subst. simpl in Hleaf.
    apply Z.ltb_lt in Hleaf. rewrite seq_length in Hleaf. unfold threshold_ok, nrows in *. lia. }
  { apply sort_strict; assumption. }
  { intros k Hk. split; [lia|]. apply Hin. eapply Permutation_in; [apply Permutation_sym, sort_perm|assumption]. }
  rewrite Hm. cbn [bind].
  assert (Hlen : exists L, length (sort_nat vars) = S L).
  { rewrite <- (Permutation_length (sort_perm vars)). destruct vars; [congruence|]. simpl; eauto. }
  destruct Hlen as (L & HL). rewrite HL in Hct, Hlook.
  inversion Hct as [|? k v n d HNd HF]; subst. simpl in Htv. subst v. rewrite Hv in *.
  rewrite (convert_root L k n d Hct Hnm). cbn [bind].
  eexists _, t'. split; [reflexivity|]. split; [unfold ok_root; repeat split; congruence || assumption|].
  destruct (paths_spec (S L) _ Hct) as (HP1 & HP2).
  split; [assumption|]. split.
  - intros key m Hkm. apply HP2 in Hkm as (Hl & Hk & Hn). split; [congruence|].
    specialize (Hlook key Hl). unfold look0 in Hlook. rewrite Hk in Hlook. destruct m as [m|]; [|congruence].
    rewrite Hlook. f_equal. apply nmatch_all.
  - intros key Hl Hni. rewrite HL in Hl. specialize (Hlook key Hl). rewrite nmatch_all in Hlook.
    unfold tuple_query. rewrite <- Hlook. unfold look0. destruct (look _ key) as [m|] eqn:E; [|reflexivity].
    exfalso. apply Hni. change key with (fst (key, Some m)). apply in_map. apply HP2. repeat split; [assumption|assumption|discriminate].
Qed.

(** ** pickling *)
Section AdInd.
  Variable P : adnode -> Prop.
  Hypothesis H : forall cnt col v leaf sel vs,
    (forall vy n, In vy vs -> In (Some n) (v_children vy) -> P n) -> P (AD cnt col v leaf sel vs).
  Fixpoint adnode_ind' (n : adnode) : P n :=
    match n with
    | AD cnt col v leaf sel vs =>
      H cnt col v leaf sel vs
        ((fix go (vs : list varynode) : forall vy n, In vy vs -> In (Some n) (v_children vy) -> P n :=
            match vs with
            | [] => fun vy n Hin => match Hin with end
            | w :: vs' => fun vy n Hin Hn =>
               match Hin with
               | or_introl E =>
                 (match w as w0 return w0 = vy -> In (Some n) (v_children vy) -> P n with
                  | Vary c vals m ch => fun E =>
                    match E in _ = vy0 return In (Some n) (v_children vy0) -> P n with
                    | eq_refl =>
                      (fix goc (ch : list (option adnode)) : In (Some n) ch -> P n :=
                         match ch with
                         | [] => fun Hn => match Hn with end
                         | o :: ch' => fun Hn =>
                           match Hn with
                           | or_introl Eo =>
                             (match o as o0 return o0 = Some n -> P n with
                              | Some m0 => fun Eo => match (f_equal (fun x => match x with Some y => y | None => m0 end) Eo) in _ = n0 return P n0 with eq_refl => adnode_ind' m0 end
                              | None => fun Eo => match eq_ind None (fun x => match x with None => True | Some _ => False end) I _ Eo with end
                              end) Eo
                           | or_intror Hn' => goc ch' Hn'
                           end
                         end) ch
                    end
                  end) E Hn
               | or_intror Hin' => go vs' vy n Hin' Hn
               end
            end) vs)
    end.
End AdInd.

Lemma find_vary_map c f vs : (forall v, v_col (f v) = v_col v) ->
  find_vary c (map f vs) = option_map f (find_vary c vs).
Proof.
  intros Hf. induction vs as [|v vs IH]; simpl; [reflexivity|]. rewrite Hf. destruct (v_col v =? c)%nat; auto.
Qed.
Lemma pickle_col v : v_col (pickle_static_vary v) = v_col v.
Proof. destruct v; reflexivity. Qed.
Lemma pickle_value n : ad_value (pickle_static n) = ad_value n /\ ad_col (pickle_static n) = ad_col n
   /\ ad_count (pickle_static n) = ad_count n /\ ad_leaf (pickle_static n) = ad_leaf n.
Proof. destruct n; auto. Qed.
Lemma find_vary_In c vs vy : find_vary c vs = Some vy -> In vy vs.
Proof. induction vs as [|w vs IH]; simpl; [discriminate|]. destruct (v_col w =? c)%nat; [intros E; inversion E; auto|auto]. Qed.

Lemma pickle_ok D : forall n S c, ok_ad D false S c n -> ok_ad D false S c (pickle_static n).
Proof.
  intros n. induction n as [cnt col v leaf sel vs IH] using adnode_ind'. intros S c Hok.
  inversion Hok as [? ? ? ? ? ? ? ? H1 H2 H3 H4 H5 H6 H7]; subst. cbn [pickle_static].
  econstructor; eauto.
  - intros Hl. rewrite Hl. auto.
  - discriminate.
  - intros Hl Hd c' Hc'. destruct (H5 Hl Hd c' Hc') as (vy & Hvy). exists (pickle_static_vary vy).
    rewrite find_vary_map by apply pickle_col. rewrite Hvy. reflexivity.
  - intros Hl c' vy Hc' Hvy. rewrite find_vary_map in Hvy by apply pickle_col.
    destruct (find_vary c' vs) as [w|] eqn:Ew; [|discriminate]. inversion Hvy; subst; clear Hvy.
    pose proof (H6 Hl c' w Hc' Ew) as Hw. apply find_vary_In in Ew.
    inversion Hw as [? ? vals mcv ch G1 G2 G3 G4]; subst. cbn [pickle_static_vary]. constructor; auto.
    assert (HH : forall n0, In (Some n0) ch -> forall S0 c1, ok_ad D false S0 c1 n0 -> ok_ad D false S0 c1 (pickle_static n0)).
    { intros n0 Hn0. eapply IH; eauto. }
    clear -G4 HH. induction G4 as [|x o vals ch Ho G4 IHG]; simpl; constructor.
    + inversion Ho as [|? ? ? ? m0 A1 A2 A3 A4 A5]; subst; simpl; [constructor; assumption|].
      destruct (pickle_value m0) as (B1 & B2 & _ & _). constructor; [congruence|congruence|congruence|congruence|].
      apply HH; [left; reflexivity|assumption].
    + apply IHG. intros n0 Hn0. apply HH; right; assumption.
  - intros c' vy Hvy. rewrite find_vary_map in Hvy by apply pickle_col. destruct (find_vary c' vs) as [w|] eqn:Ew; [eauto|discriminate].
Qed.

(** ** call histories *)
Lemma do_call_ok D dyn c t : wf_dataset D -> no_minus_one D -> threshold_ok D -> ok_root D dyn t -> wf_call D c ->
  exists a t', do_call D dyn c t = Ok (a, t') /\ answer_exact D c a /\ ok_root D dyn t'.
Proof.
  intros WF NM Hthr Hok Hc. destruct c as [q|vars|]; simpl in *.
  - destruct (query_count_ok D WF dyn t q Hok Hc) as (t' & E & Hok'). rewrite E. cbn [bind]. eexists _, _; split; [reflexivity|]. split; [reflexivity|assumption].
  - destruct Hc as (H1 & H2 & H3). destruct (make_counts_ok D dyn vars t) as (d & t' & E & Hok' & Hex); auto.
    rewrite E. cbn [bind]. eexists _, _; split; [reflexivity|]. split; [|assumption].
    exists (sort_nat vars). split; [apply sort_perm|]. split; [apply sort_strict; assumption|assumption].
  - eexists _, _; split; [reflexivity|]. split; [exact I|]. destruct dyn; [assumption|]. simpl.
    destruct Hok as (H1 & H2 & H3). destruct (pickle_value t) as (B1 & B2 & _ & _).
    split; [apply pickle_ok; assumption|]. split; congruence.
Qed.

Lemma do_calls_ok D dyn cs : wf_dataset D -> no_minus_one D -> threshold_ok D -> Forall (wf_call D) cs ->
  forall t, ok_root D dyn t ->
  exists l t', do_calls D dyn cs t = Ok (l, t') /\ Forall2 (answer_exact D) cs l /\ ok_root D dyn t'.
Proof.
  intros WF NM Hthr. induction 1 as [|c cs Hc Hcs IH]; intros t Hok; simpl.
  - eexists _, _; split; [reflexivity|]. split; [constructor|assumption].
  - destruct (do_call_ok D dyn c t) as (a & t1 & E & Ha & Hok1); auto. rewrite E. cbn [bind].
    destruct (IH t1 Hok1) as (l & t2 & E2 & Hl & Hok2). rewrite E2. cbn [bind].
    eexists _, _; split; [reflexivity|]. split; [constructor; assumption|assumption].
Qed.

(** counts alone do not need the "-1" restriction *)
Definition counts_only (c : call) : Prop := match c with CCounts _ => False | _ => True end.
Lemma do_calls_counts_ok D dyn cs : wf_dataset D -> threshold_ok D -> Forall (fun c => wf_call D c /\ counts_only c) cs ->
  forall t, ok_root D dyn t ->
  exists l t', do_calls D dyn cs t = Ok (l, t') /\ Forall2 (answer_exact D) cs l /\ ok_root D dyn t'.
Proof.
  intros WF Hthr. induction 1 as [|c cs (Hc & Hco) Hcs IH]; intros t Hok; simpl.
  - eexists _, _; split; [reflexivity|]. split; [constructor|assumption].
  - assert (HH : exists a t', do_call D dyn c t = Ok (a, t') /\ answer_exact D c a /\ ok_root D dyn t').
    { destruct c as [q|vars|]; simpl in *; [|contradiction|].
      - destruct (query_count_ok D WF dyn t q Hok Hc) as (t' & E & Hok'). rewrite E. cbn [bind]. eexists _, _; split; [reflexivity|]. split; [reflexivity|assumption].
      - eexists _, _; split; [reflexivity|]. split; [exact I|]. destruct dyn; [assumption|]. simpl.
        destruct Hok as (H1 & H2 & H3). destruct (pickle_value t) as (B1 & B2 & _ & _).
        split; [apply pickle_ok; assumption|]. split; congruence. }
    destruct HH as (a & t1 & E & Ha & Hok1). rewrite E. cbn [bind].
    destruct (IH t1 Hok1) as (l & t2 & E2 & Hl & Hok2). rewrite E2. cbn [bind].
    eexists _, _; split; [reflexivity|]. split; [constructor; assumption|assumption].
Qed.

(** ** conditional probabilities *)
Lemma assoc_set_nat_keys x (v : Z) (d : query) c : In c (map fst (assoc_set Nat.eqb x v d)) <-> c = x \/ In c (map fst d).
Proof.
  induction d as [|[y w] d IH]; simpl; [intuition|]. destruct (Nat.eqb_spec x y); simpl; [subst; intuition|].
  rewrite IH. intuition.
Qed.
Lemma assoc_set_nat_NoDup x (v : Z) (d : query) : NoDup (map fst d) -> NoDup (map fst (assoc_set Nat.eqb x v d)).
Proof.
  induction d as [|[y w] d IH]; simpl; intros HN; [constructor; [auto|constructor]|].
  inversion HN; subst. destruct (Nat.eqb_spec x y); simpl; [constructor; assumption|].
  constructor; [|auto]. rewrite assoc_set_nat_keys. intros [E|E]; [congruence|contradiction].
Qed.
Lemma dict_update_wf D d1 d2 : wf_query D d1 -> wf_query D d2 -> wf_query D (dict_update d1 d2).
Proof.
  unfold dict_update. intros H1 (HN2 & H2). clear HN2. revert d1 H1.
  induction d2 as [|[c v] d2 IH]; simpl; intros d1 (HN & Hc); [split; assumption|].
  apply IH.
  - intros c' v' Hin; apply (H2 c' v'); right; assumption.
  - split; [apply assoc_set_nat_NoDup; assumption|]. intros c' v' Hin.
    assert (Hk : In c' (map fst (assoc_set Nat.eqb c v d1))) by (change c' with (fst (c', v')); apply in_map; assumption).
    apply assoc_set_nat_keys in Hk as [->|Hk]; [apply (H2 c v); left; reflexivity|].
    apply in_map_iff in Hk as ([a b] & E & Hk). simpl in E; subst. eapply Hc; eauto.
Qed.

Definition cell_is (row : list Z) (kv : nat * Z) : bool :=
  match nth_error row (fst kv) with Some x => x =? snd kv | None => false end.
Lemma row_agrees_app q1 q2 row : row_agrees (q1 ++ q2) row = (row_agrees q1 row && row_agrees q2 row)%bool.
Proof. unfold row_agrees. apply forallb_app. Qed.
Lemma row_agrees_iff q row : row_agrees q row = true <-> forall c v, In (c, v) q -> nth_error row c = Some v.
Proof.
  unfold row_agrees. rewrite forallb_forall. split.
  - intros H c v Hin. specialize (H _ Hin). simpl in H. destruct (nth_error row c); [|discriminate].
    apply Z.eqb_eq in H. congruence.
  - intros H [c v] Hin. simpl. rewrite (H c v Hin). apply Z.eqb_refl.
Qed.

Lemma dict_update_agrees d1 d2 row : consistent d1 d2 -> NoDup (map fst d2) ->
  row_agrees (dict_update d1 d2) row = (row_agrees d1 row && row_agrees d2 row)%bool.
Proof.
  unfold dict_update. revert d1. induction d2 as [|[c v] d2 IH]; simpl; intros d1 Hc HN; [rewrite andb_true_r; reflexivity|].
  inversion HN as [|? ? Hni HN']; subst.
  assert (Hset : forall d : query, (forall w, In (c, w) d -> w = v) ->
    row_agrees (assoc_set Nat.eqb c v d) row = (row_agrees d row && cell_is row (c, v))%bool).
  { clear. induction d as [|[k w] d IHd]; simpl; intros H.
    - unfold row_agrees; simpl. rewrite andb_true_r. reflexivity.
    - destruct (Nat.eqb_spec c k).
      + subst. assert (w = v) by (apply H; left; reflexivity). subst. unfold row_agrees, cell_is. simpl.
        destruct (match nth_error row k with Some x => x =? v | None => false end); simpl; [rewrite andb_true_r; reflexivity|reflexivity].
      + unfold row_agrees in *. simpl. rewrite IHd by (intros w' Hw'; apply H; right; assumption).
        rewrite andb_assoc. reflexivity. }
  rewrite IH.
  - rewrite Hset by (intros w Hw; eapply Hc; [exact Hw|left; reflexivity]).
    unfold row_agrees, cell_is. simpl. rewrite andb_assoc. reflexivity.
  - intros c' v' w' H1 H2.
    destruct (Nat.eq_dec c' c) as [->|Hne].
    + exfalso. apply Hni. change c with (fst (c, w')). apply in_map; assumption.
    + apply (Hc c' v' w'); [|right; assumption].
      clear -H1 Hne. induction d1 as [|[k w] d1 IHd]; simpl in *; [destruct H1 as [E|[]]; inversion E; congruence|].
      destruct (Nat.eqb_spec c k); simpl in *.
      * destruct H1 as [E|H1]; [inversion E; subst; congruence|auto].
      * destruct H1 as [E|H1]; [auto|auto].
  - assumption.
Qed.

Lemma query_prob_ok D dyn t values given : wf_dataset D -> ok_root D dyn t -> wf_query D values -> wf_query D given ->
  consistent given values ->
  let both := Z.of_nat (length (filter (fun row => row_agrees given row && row_agrees values row)%bool (rows D))) in
  let cond := count_matching D given in
  (cond <> 0 -> exists t', query_prob D dyn values given t = Ok ((IZR both / IZR cond)%R, t') /\ ok_root D dyn t' /\ (0 <= IZR both / IZR cond <= 1)%R) /\
  (cond = 0 -> query_prob D dyn values given t = Err ZeroDivisionError).
Proof.
  intros WF Hok Hv Hg Hcons both cond. unfold query_prob.
  assert (Hnil : wf_query D []) by (split; [constructor|simpl; contradiction]).
  assert (Hg' : wf_query D (dict_update [] given)) by (apply dict_update_wf; assumption).
  destruct (query_count_ok D WF dyn t (dict_update (dict_update [] given) values) Hok) as (t1 & E1 & Hok1);
    [apply dict_update_wf; assumption|].
  destruct (query_count_ok D WF dyn t1 given Hok1 Hg) as (t2 & E2 & Hok2).
  rewrite E1. cbn [bind]. rewrite E2. cbn [bind].
  assert (Hid : forall d d0 : query, NoDup (map fst d) -> (forall c, In c (map fst d) -> ~ In c (map fst d0)) -> dict_update d0 d = d0 ++ d).
  { clear. unfold dict_update. induction d as [|[c v] d IH]; intros d0 HN Hd; [simpl; rewrite app_nil_r; reflexivity|].
    simpl. inversion HN; subst.
    assert (Es : assoc_set Nat.eqb c v d0 = d0 ++ [(c, v)]).
    { specialize (Hd c (or_introl eq_refl)). clear -Hd. induction d0 as [|[k w] d0 IH]; simpl; [reflexivity|].
      destruct (Nat.eqb_spec c k); [subst; exfalso; apply Hd; left; reflexivity|]. f_equal. apply IH. intros Hin; apply Hd; right; assumption. }
    rewrite Es, IH; [rewrite <- app_assoc; reflexivity|assumption|].
    intros c' Hc' Hin. rewrite map_app in Hin. apply in_app_or in Hin as [Hin|[E|[]]].
    - apply (Hd c'); [right; assumption|assumption].
    - simpl in E; subst. contradiction. }
  rewrite (Hid given [] (proj1 Hg)) by (simpl; auto). cbn [app].
  assert (Hboth : count_matching D (dict_update given values) = both).
  { unfold count_matching, both. do 2 f_equal. apply filter_ext. intros row.
    apply dict_update_agrees; [assumption|apply Hv]. }
  rewrite Hboth. fold cond. split.
  - intros Hne. destruct (Z.eqb_spec cond 0); [contradiction|]. exists t2. split; [reflexivity|]. split; [assumption|].
    assert (0 <= both <= cond).
    { unfold both, cond, count_matching. split; [lia|]. apply inj_le.
      clear. induction (rows D) as [|row l IH]; simpl; [lia|]. destruct (row_agrees given row); simpl; [|lia].
      destruct (row_agrees values row); simpl; lia. }
    assert (0 < IZR cond)%R by (apply (IZR_lt 0); lia).
    assert (0 <= IZR both <= IZR cond)%R by (split; [apply (IZR_le 0)|apply IZR_le]; lia).
    split; [apply Rmult_le_pos; [lra|left; apply Rinv_0_lt_compat; assumption]|].
    apply (Rmult_le_reg_r (IZR cond)); [assumption|]. unfold Rdiv. rewrite Rmult_assoc, Rinv_l by lra. lra.
  - intros E. destruct (Z.eqb_spec cond 0); [reflexivity|contradiction].
Qed.

(** ** the root as a leaf-list node *)
Lemma root_leaf_fails D dyn : Z.of_nat (length (rows D)) < threshold D ->
  exists t, build_tree D dyn = Ok t /\
    (forall q, q <> [] -> query_count D dyn q t = Err TypeError) /\
    (forall vars, vars <> [] -> (forall c, In c vars -> (c < ncols D)%nat) -> make_counts D dyn vars t = Err TypeError).
Proof.
  intros Hthr. unfold build_tree, mk_ad, is_leaf, node_count, nrows.
  destruct (Z.ltb_spec (Z.of_nat (length (rows D))) (threshold D)); [|lia].
  eexists; split; [reflexivity|]. split.
  - intros [|[c v] q] Hq; [congruence|]. reflexivity.
  - intros vars Hne Hc. unfold make_counts.
    destruct (sort_nat vars) as [|c cols] eqn:E.
    { pose proof (Permutation_length (sort_perm vars)) as Hl. rewrite E in Hl. destruct vars; [congruence|discriminate]. }
    cbn [mct ad_leaf]. unfold ct_from_leaf.
    destruct (existsb (fun c0 => (ncols D <=? c0)%nat) (c :: cols)) eqn:Ee; [|reflexivity].
    apply existsb_exists in Ee as (x & Hx & Hx'). apply Nat.leb_le in Hx'. rewrite <- E in Hx.
    apply (Permutation_in _ (Permutation_sym (sort_perm vars))) in Hx. apply Hc in Hx. lia.
Qed.

(** ** static trees do not change and, without leaf lists, do not need the dataset *)
Lemma put_vary_same c vs vy : find_vary c vs = Some vy -> put_vary vy vs = vs.
Proof.
  intros Hf. assert (Hc : v_col vy = c).
  { clear -Hf. induction vs as [|w vs IH]; simpl in Hf; [discriminate|].
    destruct (Nat.eqb_spec (v_col w) c); [congruence|auto]. }
  rewrite <- Hc in Hf. clear Hc c. induction vs as [|w vs IH]; simpl in *; [discriminate|].
  destruct (Nat.eqb_spec (v_col w) (v_col vy)); [congruence|]. f_equal; auto.
Qed.
Lemma put_child_same v ch n : find_child v ch = Some n -> put_child v n ch = ch.
Proof.
  induction ch as [|[m|] ch IH]; simpl; [discriminate| |].
  - destruct (ad_value m =? v); [congruence|]. intros; f_equal; auto.
  - intros; f_equal; auto.
Qed.
Lemma set_varys_same n : set_varys n (ad_varys n) = n.
Proof. destruct n; reflexivity. Qed.
Lemma set_children_same v : set_children v (v_children v) = v.
Proof. destruct v; reflexivity. Qed.
Lemma visit_sum_same f ch s ch' : (forall n x n', f n = Ok (x, n') -> n' = n) -> visit_sum f ch = Ok (s, ch') -> ch' = ch.
Proof.
  intros Hf. revert s ch'. induction ch as [|[n|] ch IH]; simpl; intros s ch' E.
  - inversion E; reflexivity.
  - apply bind_ok in E as ([x n'] & E1 & E). apply bind_ok in E as ([y r] & E2 & E). inversion E; subst.
    f_equal; [f_equal; eauto|eauto].
  - apply bind_ok in E as ([y r] & E2 & E). inversion E; subst. f_equal; eauto.
Qed.
Lemma qc_static_same D fuel : forall q n x n', qc D false fuel q n = Ok (x, n') -> n' = n.
Proof.
  induction fuel as [|fuel IH]; intros q n x n' E; destruct q as [|[c0 v0] q]; simpl in E.
  - inversion E; reflexivity.
  - destruct (ad_leaf n); [|discriminate]. apply bind_ok in E as (y & _ & E). inversion E; reflexivity.
  - inversion E; reflexivity.
  - destruct (ad_leaf n); [apply bind_ok in E as (y & _ & E); inversion E; reflexivity|].
    remember (min_key ((c0, v0) :: q) c0) as c eqn:Ec. cbn [assoc] in E.
    destruct (if (c =? c0)%nat then Some v0 else assoc Nat.eqb c q) as [v|]; [|discriminate].
    change (negb (c0 =? c)%nat) with (negb (fst (c0, v0) =? c)%nat) in E.
    match type of E with context [qc D false fuel ?nx] => set (next := nx) in * end. clearbody next.
    unfold get_vary in E. destruct (find_vary c (ad_varys n)) as [vy|] eqn:Ef; [|discriminate]. cbn [bind] in E.
    destruct (find_child v (v_children vy)) as [child|] eqn:Efc.
    + apply bind_ok in E as ([y child'] & E1 & E). apply IH in E1. subst child'. inversion E; subst.
      rewrite (put_child_same _ _ _ Efc), set_children_same, (put_vary_same _ _ _ Ef), set_varys_same. reflexivity.
    + destruct (negb (v_mcv vy =? v)); [inversion E; reflexivity|].
      destruct next as [|kv next]; [inversion E; reflexivity|].
      apply bind_ok in E as ([s ch'] & E1 & E). apply visit_sum_same in E1; [|intros; eapply IH; eauto]. subst ch'.
      apply bind_ok in E as ([p n3] & E2 & E). apply IH in E2. subst n3. inversion E; subst.
      rewrite set_children_same, (put_vary_same _ _ _ Ef), set_varys_same. reflexivity.
Qed.

Inductive no_leaf : adnode -> Prop :=
| NL cnt col v sel vs : (forall vy n, In vy vs -> In (Some n) (v_children vy) -> no_leaf n) -> no_leaf (AD cnt col v false sel vs).

Lemma find_child_In v ch n : find_child v ch = Some n -> In (Some n) ch.
Proof.
  induction ch as [|[m|] ch IH]; simpl; [discriminate| |]; [destruct (ad_value m =? v); [intros E; inversion E; auto|auto]|auto].
Qed.
Lemma visit_sum_ext f g ch : (forall n, In (Some n) ch -> f n = g n) -> visit_sum f ch = visit_sum g ch.
Proof.
  induction ch as [|[n|] ch IH]; simpl; intros H; [reflexivity| |].
  - rewrite H by (left; reflexivity). rewrite IH by (intros; apply H; right; assumption). reflexivity.
  - rewrite IH by (intros; apply H; right; assumption). reflexivity.
Qed.
Lemma qc_no_data D D' fuel : forall q n, no_leaf n -> qc D false fuel q n = qc D' false fuel q n.
Proof.
  induction fuel as [|fuel IH]; intros q n Hn; destruct q as [|[c0 v0] q]; simpl; try reflexivity.
  - inversion Hn; subst; reflexivity.
  - inversion Hn as [cnt col w sel vs Hch]; subst. cbn [ad_leaf ad_varys].
    remember (min_key ((c0, v0) :: q) c0) as c eqn:Ec.
    destruct (if (c =? c0)%nat then Some v0 else assoc Nat.eqb c q) as [v|]; [|reflexivity].
    match goal with |- context [qc D false fuel ?nx] => set (next := nx) in * end. clearbody next.
    unfold get_vary. cbn [ad_varys]. destruct (find_vary c vs) as [vy|] eqn:Ef; [|reflexivity]. cbn [bind].
    pose proof (find_vary_In _ _ _ Ef) as Hvy.
    destruct (find_child v (v_children vy)) as [child|] eqn:Efc.
    + rewrite (IH next child) by (eapply Hch; eauto; eapply find_child_In; eauto). reflexivity.
    + destruct (negb (v_mcv vy =? v)); [reflexivity|]. destruct next as [|kv next]; [reflexivity|].
      rewrite (visit_sum_ext (qc D false fuel (kv :: next)) (qc D' false fuel (kv :: next))) by (intros n Hin; apply IH; eapply Hch; eauto).
      destruct (visit_sum (qc D' false fuel (kv :: next)) (v_children vy)) as [[s ch']|] eqn:Ev; cbn [bind]; [|reflexivity].
      apply visit_sum_same in Ev; [|intros; eapply qc_static_same; eauto]. subst ch'.
      rewrite set_children_same. cbn [ad_varys]. rewrite (put_vary_same _ _ _ Ef).
      rewrite (IH (kv :: next) (set_varys (AD cnt col w false sel vs) vs)) by (simpl; assumption). reflexivity.
Qed.

Lemma mapM_In {A B} (f : A -> res B) l ys y : mapM f l = Ok ys -> In y ys -> exists x, In x l /\ f x = Ok y.
Proof.
  intros H Hin. apply mapM_Forall2 in H. induction H as [|x y' l ys Hx H IH]; [contradiction|].
  destruct Hin as [->|Hin]; [exists x; split; [left; reflexivity|assumption]|].
  destruct (IH Hin) as (x' & H1 & H2). exists x'. split; [right; assumption|assumption].
Qed.
Lemma make_vary_child D mk sel c vy n : make_vary D mk sel c = Ok vy -> In (Some n) (v_children vy) ->
  exists v s, mk v s = Ok n.
Proof.
  unfold make_vary. destruct (ncols D <=? c)%nat; [discriminate|]. intros E Hin.
  apply bind_ok in E as (vals & _ & E). apply bind_ok in E as (mcv & _ & E). apply bind_ok in E as (ch & Hch & E).
  inversion E; subst. simpl in Hin. destruct (mapM_In _ _ _ _ Hch Hin) as (v & _ & Hv). cbv zeta in Hv.
  destruct (_ && _)%bool; [|discriminate]. apply bind_ok in Hv as (m & Hm & Hv). inversion Hv; subst. eauto.
Qed.
Lemma build_no_leaf D : threshold D <= 0 -> forall k sel vs, build_varys D k sel = Ok vs ->
  forall vy n, In vy vs -> In (Some n) (v_children vy) -> no_leaf n.
Proof.
  intros Hthr. assert (Hl : forall sel, is_leaf D sel = false).
  { intros sel. unfold is_leaf, node_count. apply Z.ltb_ge. destruct sel; lia. }
  induction k as [|k IH]; intros sel vs E vy n Hvy Hn; cbn [build_varys] in E; [inversion E; subst; contradiction|].
  apply bind_ok in E as (w & Hw & E). apply bind_ok in E as (vs' & Hvs' & E). inversion E; subst; clear E.
  destruct Hvy as [->|Hvy]; [|eapply IH; eauto].
  destruct (make_vary_child _ _ _ _ _ _ Hw Hn) as (v & s & Hmk). unfold mk_ad in Hmk. rewrite Hl in Hmk.
  apply bind_ok in Hmk as (vs2 & Hvs2 & Hmk). inversion Hmk; subst. constructor. eapply IH; eauto.
Qed.
Lemma pickle_no_leaf n : no_leaf n -> no_leaf (pickle_static n).
Proof.
  induction n as [cnt col v leaf sel vs IH] using adnode_ind'. intros Hn. inversion Hn as [? ? ? ? ? Hch]; subst.
  cbn [pickle_static]. constructor. intros vy m Hvy Hm. apply in_map_iff in Hvy as (w & <- & Hw).
  destruct w as [c vals mcv ch]. cbn [pickle_static_vary v_children] in Hm.
  apply in_map_iff in Hm as ([m0|] & E & Hm0); [|discriminate]. inversion E; subst. eapply IH; eauto. 
Qed.

Lemma no_dataset_needed D D' t q : threshold D <= 0 -> build_tree D false = Ok t ->
  query_count D' false q (pickle_static t) = query_count D false q (pickle_static t).
Proof.
  intros Hthr E. unfold query_count. apply qc_no_data. apply pickle_no_leaf.
  unfold build_tree, mk_ad in E. destruct (is_leaf D None) eqn:El.
  - unfold is_leaf, node_count in El. apply Z.ltb_lt in El. lia.
  - apply bind_ok in E as (vs & Hvs & E). inversion E; subst. constructor. eapply build_no_leaf; eauto.
Qed.
