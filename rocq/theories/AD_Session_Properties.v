(** C77: calls on an AD-tree that raise leave the tree intact. *)
From Verif Require Import Base AD_Model AD_Query_Model AD_Session_Model AD_Spec AD_Proofs AD_CT_Proofs AD_PMF_Proofs AD_More_Proofs AD_Examples AD_Unknown_Properties.
Open Scope Z_scope.

(** the outcome as AD_Model.v gives it *)
Definition forget {A} (p : res A * adnode) : res (A * adnode) :=
  match p with (Ok a, n) => Ok (a, n) | (Err e, _) => Err e end.

Section Agree.
Variable D : dataset.
Variable dyn : bool.

Lemma get_vary_agree c n : get_vary D dyn c n = forget (get_vary_s D dyn c n).
Proof.
  unfold get_vary, get_vary_s. destruct (find_vary c (ad_varys n)); [reflexivity|]. destruct dyn; [|reflexivity].
  destruct (make_vary D _ (ad_sel n) c); reflexivity.
Qed.
Lemma visit_sum_agree f g : (forall n, f n = forget (g n)) -> forall ch,
  visit_sum f ch = match visit_sum_s g ch with (Ok s, l) => Ok (s, l) | (Err e, _) => Err e end.
Proof.
  intros H. induction ch as [|[n|] ch IH]; cbn [visit_sum visit_sum_s]; [reflexivity| |].
  - rewrite H. destruct (g n) as [[x|e] n']; cbn [forget bind]; [|reflexivity]. rewrite IH. destruct (visit_sum_s g ch) as [[s|e] l]; reflexivity.
  - rewrite IH. destruct (visit_sum_s g ch) as [[s|e] l]; reflexivity.
Qed.
Lemma qc_agree fuel : forall q n, qc D dyn fuel q n = forget (qc_s D dyn fuel q n).
Proof.
  induction fuel as [|fuel IH]; intros [|[c0 v0] q] n; try reflexivity; cbn [qc qc_s]; destruct (ad_leaf n); try reflexivity; try (destruct (count_leaf D ((c0, v0) :: q) (ad_sel n)); reflexivity).
  remember ((c0, v0) :: q) as qq. cbv zeta. destruct (assoc Nat.eqb (min_key qq c0) qq) as [v|]; [|reflexivity].
  rewrite get_vary_agree. destruct (get_vary_s D dyn (min_key qq c0) n) as [[vary|e] node1]; cbn [forget bind]; [|reflexivity].
  destruct (find_child v (v_children vary)) as [child|].
  - rewrite IH. destruct (qc_s D dyn fuel (qremove (min_key qq c0) qq) child) as [[x|e] child']; reflexivity.
  - destruct (negb (v_mcv vary =? v)); [reflexivity|]. destruct (qremove (min_key qq c0) qq) as [|kv next] eqn:En; [reflexivity|]. rewrite <- En.
    rewrite (visit_sum_agree _ _ (IH (qremove (min_key qq c0) qq))). destruct (visit_sum_s _ (v_children vary)) as [[s|e] ch']; cbn [bind]; [|reflexivity].
    rewrite IH. destruct (qc_s D dyn fuel (qremove (min_key qq c0) qq) _) as [[p|e] node3]; reflexivity.
Qed.
Lemma visit_values_agree f g : (forall n, f n = forget (g n)) -> forall mcv vals ch acc,
  visit_values f mcv vals ch acc = match visit_values_s g mcv vals ch acc with (Ok s, l) => Ok (s, l) | (Err e, _) => Err e end.
Proof.
  intros H mcv. induction vals as [|v vals IH]; intros ch acc; cbn [visit_values visit_values_s]; [reflexivity|].
  destruct (v =? mcv); [apply IH|]. destruct (find_child v ch) as [n|]; [|apply IH].
  rewrite H. destruct (g n) as [[x|e] n']; cbn [forget bind]; [apply IH|reflexivity].
Qed.
Lemma mct_agree cols : forall n, mct D dyn cols n = forget (mct_s D dyn cols n).
Proof.
  induction cols as [|c cols IH]; intros n; [reflexivity|]. cbn [mct mct_s]. destruct (ad_leaf n); [destruct (ct_from_leaf D (c :: cols) n); reflexivity|].
  rewrite get_vary_agree. destruct (get_vary_s D dyn c n) as [[vary|e] node1]; cbn [forget bind]; [|reflexivity].
  rewrite (visit_values_agree _ _ IH). destruct (visit_values_s _ _ _ _ _) as [[s|e] ch']; cbn [bind]; [|reflexivity]. cbv zeta.
  rewrite IH. destruct (mct_s D dyn cols _) as [[own|e] node3]; cbn [forget bind]; [|reflexivity].
  match goal with |- bind ?a _ = _ => destruct a end; reflexivity.
Qed.
Lemma do_call_agree c t : do_call D dyn c t = forget (do_call_s D dyn c t).
Proof.
  destruct c as [q|vars|]; cbn [do_call do_call_s]; [|unfold make_counts, make_counts_s|reflexivity].
  - unfold query_count. rewrite qc_agree. destruct (qc_s D dyn (length q) q t) as [[x|e] t']; reflexivity.
  - rewrite mct_agree. destruct (mct_s D dyn (sort_nat vars) t) as [[x|e] t']; cbn [forget bind]; [|reflexivity]. destruct (convert x [] []) as [[k d]|e]; reflexivity.
Qed.
End Agree.

Section Keep.
Variable D : dataset.
Hypothesis WF : wf_dataset D.
Variable dyn : bool.

(** the same node of the same tree, still correct *)
Definition kept (S : list nat) (c : nat) (n n' : adnode) : Prop :=
  ok_ad D dyn S c n' /\ ad_value n' = ad_value n /\ ad_col n' = ad_col n /\ ad_leaf n' = ad_leaf n.
Lemma kept_refl S c n : ok_ad D dyn S c n -> kept S c n n. Proof. intros H. split; [exact H|auto]. Qed.
Lemma kept_trans S c n1 n2 n3 : kept S c n1 n2 -> kept S c n2 n3 -> kept S c n1 n3.
Proof. intros (_ & A & B & C) (H & A' & B' & C'). split; [exact H|]. repeat split; congruence. Qed.

(** a Vary node for a column that was already decided above is never looked at by a correct call *)
Lemma ok_put_low S c node vy : ok_ad D dyn S c node -> (v_col vy < c)%nat -> (v_col vy < ncols D)%nat ->
  ok_ad D dyn S c (set_varys node (put_vary vy (ad_varys node))).
Proof.
  intros Hok Hc Hn. inversion Hok as [? ? cnt col v leaf sel vs H1 H2 H3 H4 H5 H6 H7]; subst. cbn [set_varys ad_varys]. constructor; auto.
  - intros L E c' Hc'. rewrite find_put_other by lia. apply H5; auto.
  - intros L c' w Hc'. rewrite find_put_other by lia. apply H6; auto.
  - intros c' w Hw. destruct (Nat.eq_dec c' (v_col vy)) as [->|Hne]; [exact Hn|]. rewrite find_put_other in Hw by exact Hne. eapply H7; eauto.
Qed.
Lemma ok_add_low S c node vy : ok_ad D dyn S c node -> (v_col vy < c)%nat -> (v_col vy < ncols D)%nat ->
  ok_ad D dyn S c (set_varys node (ad_varys node ++ [vy])).
Proof.
  intros Hok Hc Hn. inversion Hok as [? ? cnt col v leaf sel vs H1 H2 H3 H4 H5 H6 H7]; subst. cbn [set_varys ad_varys]. 
  assert (G : forall c', (c <= c')%nat -> find_vary c' (vs ++ [vy]) = find_vary c' vs).
  { intros c' Hc'. rewrite find_vary_app. destruct (find_vary c' vs); [reflexivity|]. cbn [find_vary]. destruct (Nat.eqb_spec (v_col vy) c'); [lia|reflexivity]. }
  constructor; auto.
  - intros L E c' Hc'. rewrite G by lia. apply H5; auto.
  - intros L c' w Hc'. rewrite G by lia. apply H6; auto.
  - intros c' w. rewrite find_vary_app. destruct (find_vary c' vs) as [w'|] eqn:E; [intros _; eapply H7; eauto|]. cbn [find_vary].
    destruct (Nat.eqb_spec (v_col vy) c'); [lia|discriminate].
Qed.
Lemma find_vary_col c vs vy : find_vary c vs = Some vy -> v_col vy = c.
Proof. induction vs as [|w vs IH]; [discriminate|]. cbn [find_vary]. destruct (Nat.eqb_spec (v_col w) c); [intros [= <-]; assumption|exact IH]. Qed.
Lemma make_vary_col mk sel c vy : make_vary D mk sel c = Ok vy -> v_col vy = c /\ (c < ncols D)%nat.
Proof.
  unfold make_vary. destruct (ncols D <=? c)%nat eqn:E; [discriminate|]. apply Nat.leb_gt in E. destruct (colvals D c) as [vals|]; [|discriminate]. cbn [of_option bind].
  destruct (py_max _ vals) as [m|]; [|discriminate]. cbn [bind]. destruct (mapM _ vals); [|discriminate]. cbn [bind]. intros [= <-]. auto.
Qed.
Lemma set_varys_kept S c n vs : ok_ad D dyn S c (set_varys n vs) -> kept S c n (set_varys n vs).
Proof. intros H. split; [exact H|]. destruct n; auto. Qed.

Lemma get_vary_keeps S c node k : ok_ad D dyn S c node -> ad_leaf node = false ->
  let (r, node1) := get_vary_s D dyn k node in kept S c node node1 /\
  forall vy, r = Ok vy -> v_col vy = k /\ (k < ncols D)%nat /\ find_vary k (ad_varys node1) = Some vy /\ ((c <= k)%nat -> ok_vary D dyn S vy).
Proof.
  intros Hok Hl. destruct (le_lt_dec c k) as [Hck|Hck], (le_lt_dec (ncols D) k) as [Hk|Hk].
  - unfold get_vary_s. rewrite (find_vary_unknown D dyn S c node k Hok Hk). destruct dyn eqn:Ed.
    + unfold make_vary. rewrite (proj2 (Nat.leb_le _ _) Hk). rewrite <- Ed in *. split; [apply kept_refl, Hok|discriminate].
    + rewrite <- Ed in *. split; [apply kept_refl, Hok|discriminate].
  - destruct (get_vary_ok D WF dyn S c node k Hok Hl (conj Hck Hk)) as (vy & node1 & Hgv & Hvcol & Hvok & Hok1 & Hfind & Hcnt1 & Hval1 & Hcol1 & Hleaf1).
    rewrite get_vary_agree in Hgv. destruct (get_vary_s D dyn k node) as [[w|e] n1]; [|discriminate]. cbn [forget] in Hgv. injection Hgv as -> ->.
    split; [split; [exact Hok1|]; repeat split; congruence|]. intros w [= <-]. auto.
  - unfold get_vary_s. rewrite (find_vary_unknown D dyn S c node k Hok Hk). destruct dyn eqn:Ed.
    + unfold make_vary. rewrite (proj2 (Nat.leb_le _ _) Hk). rewrite <- Ed in *. split; [apply kept_refl, Hok|discriminate].
    + rewrite <- Ed in *. split; [apply kept_refl, Hok|discriminate].
  - unfold get_vary_s. destruct (find_vary k (ad_varys node)) as [w|] eqn:Ef.
    + split; [apply kept_refl, Hok|]. intros vy [= <-]. split; [eapply find_vary_col; eauto|]. split; [exact Hk|]. split; [exact Ef|lia].
    + destruct dyn eqn:Ed; rewrite <- Ed in *; [|split; [apply kept_refl, Hok|discriminate]].
      destruct (make_vary D _ (ad_sel node) k) as [vy|e] eqn:Em; [|split; [apply kept_refl, Hok|discriminate]].
      destruct (make_vary_col _ _ _ _ Em) as [Hc1 Hc2]. split; [apply set_varys_kept, ok_add_low; [exact Hok|lia|lia]|].
      intros w [= <-]. split; [exact Hc1|]. split; [exact Hc2|]. split; [|lia].
      destruct node; cbn [set_varys ad_varys] in *. rewrite find_vary_app, Ef. cbn [find_vary]. rewrite Hc1, Nat.eqb_refl. reflexivity.
Qed.

(** a visit of the children by something that keeps every correct child keeps all of them *)
Lemma visit_sum_keeps S k mcv (g : adnode -> res Z * adnode) :
  (forall S0 n, ok_ad D dyn S0 (Datatypes.S k) n -> inrange D S0 -> kept S0 (Datatypes.S k) n (snd (g n))) -> inrange D S ->
  forall vals ch, Forall2 (ok_child D dyn S k mcv) vals ch -> Forall2 (ok_child D dyn S k mcv) vals (snd (visit_sum_s g ch)).
Proof.
  intros H HS vals ch HF. induction HF as [|v o vals ch Ho HF IH]; cbn [visit_sum_s]; [constructor|]. destruct o as [n|].
  - inversion Ho as [|? ? ? ? ? Hne Hnn Hv Hcol Hok]; subst. specialize (H _ n Hok (subsel_inrange D S k _ HS)) as (K1 & K2 & K3 & K4).
    assert (Hn : ok_child D dyn S k mcv (ad_value n) (Some (snd (g n)))) by (constructor; auto; congruence).
    destruct (g n) as [[x|e] n']; cbn [snd] in *; [|constructor; assumption]. destruct (visit_sum_s g ch) as [[s|e] l]; cbn [snd] in *; constructor; assumption.
  - destruct (visit_sum_s g ch) as [r l]. cbn [snd] in *. constructor; assumption.
Qed.
Lemma visit_values_keeps S k mcv (g : adnode -> res ctnode * adnode) :
  (forall S0 n, ok_ad D dyn S0 (Datatypes.S k) n -> inrange D S0 -> kept S0 (Datatypes.S k) n (snd (g n))) -> inrange D S ->
  forall all, NoDup all -> forall vals ch acc, Forall2 (ok_child D dyn S k mcv) all ch -> Forall2 (ok_child D dyn S k mcv) all (snd (visit_values_s g mcv vals ch acc)).
Proof.
  intros H HS all HN. induction vals as [|v vals IH]; intros ch acc HF; cbn [visit_values_s]; [exact HF|].
  destruct (v =? mcv); [apply IH, HF|]. destruct (find_child v ch) as [n|] eqn:Ef; [|apply IH, HF].
  pose proof (ok_find_child D dyn S k mcv all ch v HF HN) as Hc. rewrite Ef in Hc. destruct Hc as [_ Hc].
  inversion Hc as [|? ? ? ? ? Hne Hnn Hv Hcol Hok]; subst. specialize (H _ n Hok (subsel_inrange D S k _ HS)) as (K1 & K2 & K3 & K4).
  assert (Hn : ok_child D dyn S k mcv (ad_value n) (Some (snd (g n)))) by (constructor; auto; congruence).
  destruct (g n) as [[x|e] n']; cbn [snd] in *; [apply IH|]; eapply ok_put_child; eauto.
Qed.

(** replacing the children of the Vary node of one column *)
Lemma put_keeps S c node node1 k vy ch' : kept S c node node1 -> v_col vy = k -> (k < ncols D)%nat -> find_vary k (ad_varys node1) = Some vy ->
  ((c <= k)%nat -> ok_vary D dyn S (set_children vy ch')) ->
  kept S c node (set_varys node1 (put_vary (set_children vy ch') (ad_varys node1))).
Proof.
  intros K Hv Hk Hf Hok. apply (kept_trans S c node node1 _ K). apply set_varys_kept. destruct K as (K & _).
  assert (Hc : v_col (set_children vy ch') = k) by (destruct vy; exact Hv). destruct (le_lt_dec c k) as [H|H].
  - apply (ok_put_vary D dyn S c node1 _ k); [exact K|exact Hc|exact H|eauto|auto].
  - apply ok_put_low; [exact K|lia|lia].
Qed.

Lemma qc_keeps fuel : forall q S c node, ok_ad D dyn S c node -> inrange D S -> (forall k v, In (k, v) q -> (c <= k)%nat) ->
  kept S c node (snd (qc_s D dyn fuel q node)).
Proof.
  induction fuel as [|fuel IH]; intros [|[c0 v0] q0] S c node Hok HS Hq; try (apply kept_refl; exact Hok); cbn [qc_s]; destruct (ad_leaf node) eqn:Eleaf; try (apply kept_refl; exact Hok).
  assert (Hkin : In (min_key ((c0, v0) :: q0) c0) (map fst ((c0, v0) :: q0))) by apply min_key_in.
  remember ((c0, v0) :: q0) as q eqn:Eq. clear Eq. cbv zeta. set (k := min_key q c0) in *. 
  destruct (assoc_in k q Hkin) as (v & Hv & Hkv). rewrite Hv.
  assert (Hck : (c <= k)%nat) by (eapply Hq; eauto).
  assert (Hnext : forall k' v', In (k', v') (qremove k q) -> (Datatypes.S k <= k')%nat).
  { intros k' v' Hin. apply filter_In in Hin as (Hin & Hne). cbn [fst] in Hne. apply Bool.negb_true_iff, Nat.eqb_neq in Hne. assert (k <= k')%nat by (eapply min_key_le; eauto). lia. }
  set (next := qremove k q) in *. clearbody next k. clear Hkin Hv Hkv.
  assert (REC : forall S0 n, ok_ad D dyn S0 (Datatypes.S k) n -> inrange D S0 -> kept S0 (Datatypes.S k) n (snd (qc_s D dyn fuel next n))) by (intros; apply IH; auto).
  pose proof (get_vary_keeps S c node k Hok Eleaf) as G. destruct (get_vary_s D dyn k node) as [[vy|e] node1]; destruct G as [K G]; [|exact K].
  destruct (G vy eq_refl) as (Hvc & Hk & Hf & Hvok). specialize (Hvok Hck). clear G.
  inversion Hvok as [? ? vals mcv ch Hkc Hvals Hmcv HF]; subst. cbn [v_col] in *. 
  destruct (wf_vals D WF c1 Hkc) as (vals' & Hvals' & HNv & _ & _). rewrite Hvals in Hvals'; inversion Hvals'; subst vals'; clear Hvals'. cbn [v_children v_mcv].
  destruct (find_child v ch) as [child|] eqn:Efc.
  - pose proof (ok_find_child D dyn S c1 mcv vals ch v HF HNv) as Hc. rewrite Efc in Hc. destruct Hc as [_ Hc].
    inversion Hc as [|? ? ? ? ? Hne Hnn Hcv Hcol Hcok]; subst. specialize (REC _ child Hcok (subsel_inrange D S c1 _ HS)) as (K1 & K2 & K3 & K4).
    destruct (qc_s D dyn fuel next child) as [r child']. cbn [snd] in *. eapply put_keeps; [exact K|reflexivity|exact Hk|exact Hf|]. intros _. cbn [set_children]. constructor; auto.
    eapply ok_put_child; eauto. constructor; auto; congruence.
  - destruct (negb (mcv =? v)); [exact K|]. destruct next as [|kv next0] eqn:En; [exact K|]. rewrite <- En in *. clear kv next0 En.
    pose proof (visit_sum_keeps S c1 mcv _ REC HS vals ch HF) as HF'. destruct (visit_sum_s (qc_s D dyn fuel next) ch) as [r ch']. cbn [snd] in HF'.
    assert (K2 : kept S c node (set_varys node1 (put_vary (set_children (Vary c1 vals mcv ch) ch') (ad_varys node1)))).
    { eapply put_keeps; [exact K|reflexivity|exact Hk|exact Hf|]. intros _. cbn [set_children]. constructor; auto. }
    destruct r as [s|e]; [|exact K2]. assert (K3 := IH next S c _ (proj1 K2) HS). destruct (qc_s D dyn fuel next _) as [[p|e] node3]; cbn [snd] in *; (eapply kept_trans; [exact K2|apply K3; intros k' v' Hin; specialize (Hnext _ _ Hin); lia]).
Qed.

Lemma mct_keeps cols : forall S c node, ok_ad D dyn S c node -> inrange D S -> kept S c node (snd (mct_s D dyn cols node)).
Proof.
  induction cols as [|k cols IH]; intros S c node Hok HS; cbn [mct_s]; [apply kept_refl, Hok|]. destruct (ad_leaf node) eqn:Eleaf; [apply kept_refl, Hok|].
  pose proof (get_vary_keeps S c node k Hok Eleaf) as G. destruct (get_vary_s D dyn k node) as [[vy|e] node1]; destruct G as [K G]; [|exact K].
  destruct (G vy eq_refl) as (Hvc & Hk & Hf & Hvok). clear G.
  destruct (visit_values_s _ _ _ _ _) as [r ch'] eqn:Ev.
  assert (K2 : kept S c node (set_varys node1 (put_vary (set_children vy ch') (ad_varys node1)))).
  { eapply put_keeps; [exact K|exact Hvc|exact Hk|exact Hf|]. intros Hck. specialize (Hvok Hck). inversion Hvok as [? ? vals mcv ch Hkc Hvals Hmcv HF]; subst. cbn [set_children v_mcv v_values v_children v_col] in *.
    destruct (wf_vals D WF c0 Hkc) as (vals' & Hvals' & HNv & _ & _). rewrite Hvals in Hvals'; inversion Hvals'; subst vals'; clear Hvals'.
    constructor; auto. change ch' with (snd (r, ch')). rewrite <- Ev. apply visit_values_keeps; auto. }
  destruct r as [non|e]; [|exact K2]. assert (K3 := IH S c _ (proj1 K2) HS). destruct (mct_s D dyn cols _) as [[own|e] node3]; cbn [snd] in *; eapply kept_trans; eauto.
Qed.

Lemma do_call_keeps c t : threshold_ok D -> ok_root D dyn t -> ok_root D dyn (snd (do_call_s D dyn c t)).
Proof.
  intros Hthr (Hok & Hv & Hc). destruct c as [q|vars|]; cbn [do_call_s].
  - pose proof (qc_keeps (length q) q _ _ t Hok (inrange_all D)) as K. destruct (qc_s D dyn (length q) q t) as [r t']. cbn [snd] in *.
    destruct K as (K1 & K2 & K3 & _); [intros; lia|]. split; [exact K1|split; congruence].
  - unfold make_counts_s. pose proof (mct_keeps (sort_nat vars) _ _ t Hok (inrange_all D)) as K. destruct (mct_s D dyn (sort_nat vars) t) as [r t']. cbn [snd] in *.
    destruct K as (K1 & K2 & K3 & _). split; [exact K1|split; congruence].
  - cbn [snd]. assert (R : forall b, ok_root D b t -> ok_root D b (pickle_roundtrip b t)); [|apply R; split; auto].
    intros [|] (H1 & H2 & H3); cbn [pickle_roundtrip]; [split; auto|]. destruct (pickle_value t) as (B1 & B2 & _ & _).
    split; [apply pickle_ok; auto|]. split; congruence.
Qed.
End Keep.

(** what a call may come to, whatever was asked of the tree before *)
Definition outcome_ok (D : dataset) (c : call) (o : res answer) : Prop :=
  (* a well-formed call is answered, exactly *)
  (wf_call D c -> exists a, o = Ok a /\ answer_exact D c a) /\
  (* a query that mentions a column the dataset does not have is refused, or answered by 0 when no row agrees with the rest of it *)
  (forall q, c = CCount q -> NoDup (map fst q) -> (exists k v, In (k, v) q /\ (ncols D <= k)%nat) ->
     o = Err AttributeError \/ o = Err IndexError \/
     (o = Ok (ACount 0) /\ count_matching D (filter (fun kv => (fst kv <? ncols D)%nat) q) = 0)).

Lemma session_ok D dyn : wf_dataset D -> no_minus_one D -> threshold_ok D -> forall cs t, ok_root D dyn t ->
  Forall2 (outcome_ok D) cs (fst (session D dyn cs t)) /\ ok_root D dyn (snd (session D dyn cs t)).
Proof.
  intros WF NM Hthr. induction cs as [|c cs IH]; intros t Hok; cbn [session]; [split; [constructor|exact Hok]|].
  pose proof (do_call_keeps D WF dyn c t Hthr Hok) as K. pose proof (do_call_agree D dyn c t) as A.
  destruct (do_call_s D dyn c t) as [o t1]. cbn [snd] in K. destruct (IH t1 K) as [I1 I2]. destruct (session D dyn cs t1) as [os t2]. cbn [fst snd] in *.
  split; [|exact I2]. constructor; [|exact I1]. split.
  - intros Hc. destruct (do_call_ok D dyn c t WF NM Hthr Hok Hc) as (a & t' & E & Ha & _). rewrite E in A. destruct o as [b|e]; [|discriminate]. cbn [forget] in A. injection A as <- _. eauto.
  - intros q -> HN Hu. cbn [do_call] in A. unfold query_count in A. destruct Hok as [Hok _].
    destruct (qc_unknown D WF dyn (length q) q _ 0%nat t eq_refl Hok (inrange_all D)) as [(e & E & He)|(node' & E & _ & _ & _ & Hz)]; auto.
    + intros L C. inversion Hok as [? ? cnt col v leaf sel vs H1 H2]; subst. cbn [ad_leaf] in L. rewrite C in L. apply Z.ltb_lt in L. unfold threshold_ok in Hthr.
      assert (length (rows D) = 0)%nat by (change (length (rows D)) with (nrows D); rewrite <- (seq_length (nrows D) 0), C; reflexivity). cbn in L. lia.
    + intros; lia.
    + rewrite E in A. destruct o as [b|e']; [discriminate|]. cbn [bind forget] in A. injection A as <-. destruct He as [-> | ->]; auto.
    + rewrite E in A. destruct o as [b|e']; [|discriminate]. cbn [bind forget] in A. injection A as <- _. right. right. split; [reflexivity|]. rewrite <- nmatch_all. exact Hz.
Qed.

(** The tree object survives refused calls: in a program that catches the exceptions and goes on, with any calls at all in any
    order (queries and count tables about known, unknown, repeated or no columns, and pickling), every well-formed call gets
    the exact answer *)
Theorem C77_refused_calls_do_no_harm : forall D dyn, wf_dataset D -> no_minus_one D -> threshold_ok D ->
  exists t, build_tree D dyn = Ok t /\
    forall calls outcomes t', session D dyn calls t = (outcomes, t') -> Forall2 (outcome_ok D) calls outcomes.
Proof.
  intros D dyn WF NM Hthr. destruct (build_tree_ok D WF dyn Hthr) as (t & Et & Hroot). exists t. split; [exact Et|].
  intros calls outs t' E. pose proof (session_ok D dyn WF NM Hthr calls t Hroot) as [H _]. rewrite E in H. exact H.
Qed.
Print Assumptions C77_refused_calls_do_no_harm.

(** the outcome of a call is the one it has on its own, as C01 to C04 describe it *)
Theorem C77_same_calls : forall D dyn c t, 
  do_call D dyn c t = match do_call_s D dyn c t with (Ok a, t') => Ok (a, t') | (Err e, _) => Err e end.
Proof. intros. apply do_call_agree. Qed.

(** a refused query does make a dynamic tree grow, and a later call of the same session is exact *)
Example C77_nonvacuous : exists t, build_tree (Dex 3) true = Ok t /\
  let s := session (Dex 3) true [CCount [(0%nat, 0); (7%nat, 0)]; CCounts [1%nat; 1%nat]; CCounts []; CCount [(0%nat, 0)]; CCounts [0%nat; 1%nat]] t in
  (exists e t1, do_call_s (Dex 3) true (CCount [(0%nat, 0); (7%nat, 0)]) t = (Err e, t1) /\ t1 <> t) /\
  exists e1 o2 e3 n d, fst s = [Err e1; o2; Err e3; Ok (ACount n); Ok (ACounts d)] /\ n = count_matching (Dex 3) [(0%nat, 0)] /\ n <> 0.
Proof.
  eexists. split; [vm_compute; reflexivity|]. cbv zeta. split.
  - eexists _, _. split; [vm_compute; reflexivity|]. discriminate.
  - do 5 eexists. split; [vm_compute; reflexivity|]. split; [vm_compute; reflexivity|discriminate].
Qed.

(** ** The static tree is read-only *)
Lemma put_vary_same vs : forall vy, find_vary (v_col vy) vs = Some vy -> put_vary vy vs = vs.
Proof.
  induction vs as [|w vs IH]; intros vy; [reflexivity|]. cbn [find_vary put_vary]. destruct (v_col w =? v_col vy)%nat; [intros [= <-]; reflexivity|]. intros H. f_equal. apply IH, H.
Qed.
Lemma put_child_same v n : forall ch, find_child v ch = Some n -> put_child v n ch = ch.
Proof.
  induction ch as [|[m|] ch IH]; [reflexivity| |]; cbn [find_child put_child].
  - destruct (ad_value m =? v); [intros [= <-]; reflexivity|]. intros H. f_equal. apply IH, H.
  - intros H. f_equal. apply IH, H.
Qed.
Lemma set_same n vy : find_vary (v_col vy) (ad_varys n) = Some vy -> set_varys n (put_vary (set_children vy (v_children vy)) (ad_varys n)) = n.
Proof. intros H. destruct vy as [c vals m ch]. cbn [set_children v_children]. rewrite put_vary_same by exact H. destruct n; reflexivity. Qed.
Lemma get_vary_static D c n : snd (get_vary_s D false c n) = n /\ forall vy, fst (get_vary_s D false c n) = Ok vy -> find_vary (v_col vy) (ad_varys n) = Some vy.
Proof.
  unfold get_vary_s. destruct (find_vary c (ad_varys n)) as [v|] eqn:E; cbn [fst snd]; split; auto; [|discriminate]. intros vy [= <-]. rewrite (find_vary_col _ _ _ E). exact E.
Qed.
Lemma qc_static D fuel : forall q n, snd (qc_s D false fuel q n) = n.
Proof.
  induction fuel as [|fuel IH]; intros [|[c0 v0] q] n; try reflexivity; cbn [qc_s]; destruct (ad_leaf n); try reflexivity.
  remember ((c0, v0) :: q) as qq. cbv zeta. destruct (assoc Nat.eqb (min_key qq c0) qq) as [v|]; [|reflexivity].
  destruct (get_vary_static D (min_key qq c0) n) as [H1 H2]. destruct (get_vary_s D false (min_key qq c0) n) as [[vy|e] n1]; cbn [fst snd] in *; subst n1; [|reflexivity]. specialize (H2 vy eq_refl).
  generalize (qremove (min_key qq c0) qq). intros next. destruct (find_child v (v_children vy)) as [child|] eqn:Ef.
  - pose proof (IH next child) as E. destruct (qc_s D false fuel next child) as [r child']. cbn [snd] in *. subst child'. rewrite put_child_same by exact Ef. apply set_same, H2.
  - destruct (negb (v_mcv vy =? v)); [reflexivity|]. destruct next as [|kv next0]; [reflexivity|]. set (next := kv :: next0).
    assert (E : forall ch, snd (visit_sum_s (qc_s D false fuel next) ch) = ch).
    { induction ch as [|[m|] ch IHc]; cbn [visit_sum_s]; [reflexivity| |].
      - pose proof (IH next m) as Em. destruct (qc_s D false fuel next m) as [[x|e] m']; cbn [snd] in *; subst m'; [|reflexivity]. destruct (visit_sum_s _ ch) as [[s|e] l]; cbn [snd] in *; subst; reflexivity.
      - destruct (visit_sum_s _ ch) as [r l]; cbn [snd] in *; subst; reflexivity. }
    specialize (E (v_children vy)). destruct (visit_sum_s _ (v_children vy)) as [r ch']. cbn [snd] in E. subst ch'. rewrite (set_same n vy H2).
    destruct r as [s|e]; [|reflexivity]. pose proof (IH next n) as E. destruct (qc_s D false fuel next n) as [[p|e] n3]; exact E.
Qed.
Lemma mct_static D cols : forall n, snd (mct_s D false cols n) = n.
Proof.
  induction cols as [|c cols IH]; intros n; [reflexivity|]. cbn [mct_s]. destruct (ad_leaf n); [reflexivity|].
  destruct (get_vary_static D c n) as [H1 H2]. destruct (get_vary_s D false c n) as [[vy|e] n1]; cbn [fst snd] in *; subst n1; [|reflexivity]. specialize (H2 vy eq_refl).
  assert (E : forall mcv vals ch acc, snd (visit_values_s (mct_s D false cols) mcv vals ch acc) = ch).
  { intros mcv. induction vals as [|v vals IHv]; intros ch acc; cbn [visit_values_s]; [reflexivity|]. destruct (v =? mcv); [apply IHv|]. destruct (find_child v ch) as [m|] eqn:Ef; [|apply IHv].
    pose proof (IH m) as Em. destruct (mct_s D false cols m) as [[x|e] m']; cbn [snd] in *; subst m'; rewrite (put_child_same v m ch Ef); [apply IHv|reflexivity]. }
  specialize (E (v_mcv vy) (v_values vy) (v_children vy) (CT (ad_col n) (ad_value n) None None)). destruct (visit_values_s _ _ _ _ _) as [r ch']. cbn [snd] in E. subst ch'. rewrite (set_same n vy H2).
  destruct r as [s|e]; [|reflexivity]. pose proof (IH n) as E. destruct (mct_s D false cols n) as [[p|e] n3]; exact E.
Qed.

(** no call, answered or refused, changes a static tree (only saving and loading it drops row selections) *)
Theorem C77_static_tree_read_only : forall D calls t, (forall c, In c calls -> c <> CReload) -> snd (session D false calls t) = t.
Proof.
  intros D. induction calls as [|c cs IH]; intros t H; [reflexivity|]. cbn [session].
  assert (E : snd (do_call_s D false c t) = t).
  { destruct c as [q|vars|]; cbn [do_call_s]; [| |exfalso; exact (H _ (or_introl eq_refl) eq_refl)].
    - pose proof (qc_static D (length q) q t) as E. destruct (qc_s D false (length q) q t); exact E.
    - unfold make_counts_s. pose proof (mct_static D (sort_nat vars) t) as E. destruct (mct_s D false (sort_nat vars) t); exact E. }
  destruct (do_call_s D false c t) as [o t1]. cbn [snd] in E. subst t1. specialize (IH t (fun x h => H x (or_intror h))). destruct (session D false cs t). exact IH.
Qed.
