(** Proofs: contingency trees on a heap. *)
From Verif Require Import Base AD_Model AD_Query_Model CTHeap_Model CTHeap_Spec.
Open Scope Z_scope.
Open Scope nat_scope.

Scheme reads_mind := Minimality for reads Sort Prop
with reads_all_mind := Minimality for reads_all Sort Prop.
Combined Scheme reads_mutind from reads_mind, reads_all_mind.

Lemma hset_length h l x : length (hset h l x) = length h.
Proof. revert l; induction h as [|y h IH]; intros [|l]; simpl; auto. Qed.
Lemma hset_same h l x : l < length h -> nth_error (hset h l x) l = Some x.
Proof. revert l; induction h as [|y h IH]; intros [|l] H; simpl in *; try lia; auto. apply IH; lia. Qed.
Lemma hset_other h l x k : k <> l -> nth_error (hset h l x) k = nth_error h k.
Proof. revert l k; induction h as [|y h IH]; intros [|l] [|k] H; simpl; auto; try congruence. Qed.

Definition same_on (h h' : heap) (S : ref -> Prop) : Prop := forall x, S x -> nth_error h' x = nth_error h x.

Lemma reads_frame_both h h' :
  (forall l t fp, reads h l t fp -> (forall x, In x fp -> nth_error h' x = nth_error h x) -> reads h' l t fp) /\
  (forall d ds fps, reads_all h d ds fps -> (forall x, In x fps -> nth_error h' x = nth_error h x) -> reads_all h' d ds fps).
Proof.
  apply reads_mutind.
  - intros l k v n E S. constructor. rewrite S; [exact E | now left].
  - intros l k v n d ds fps E _ IH S. econstructor; [rewrite S; [exact E | now left] |].
    apply IH. intros x Hx. apply S. now right.
  - intros _. constructor.
  - intros x c d t ds fp fps _ IH1 _ IH2 S. constructor; [apply IH1 | apply IH2]; intros y Hy; apply S, in_or_app; auto.
Qed.
Lemma reads_frame h h' l t fp : reads h l t fp -> (forall x, In x fp -> nth_error h' x = nth_error h x) -> reads h' l t fp.
Proof. apply reads_frame_both. Qed.
Lemma reads_all_frame h h' d ds fps : reads_all h d ds fps -> (forall x, In x fps -> nth_error h' x = nth_error h x) -> reads_all h' d ds fps.
Proof. apply reads_frame_both. Qed.

Lemma reads_bounds_both h :
  (forall l t fp, reads h l t fp -> In l fp /\ Forall (fun x => x < length h) fp) /\
  (forall d ds fps, reads_all h d ds fps -> Forall (fun x => x < length h) fps).
Proof.
  apply reads_mutind.
  - intros l k v n E. split; [now left |]. constructor; [apply nth_error_Some; congruence | constructor].
  - intros l k v n d ds fps E _ IH. split; [now left |]. constructor; [apply nth_error_Some; congruence | exact IH].
  - constructor.
  - intros x c d t ds fp fps _ (_ & IH1) _ IH2. apply Forall_app; auto.
Qed.
Lemma reads_root h l t fp : reads h l t fp -> In l fp. Proof. intros H; apply (proj1 (reads_bounds_both h)) in H; tauto. Qed.
Lemma reads_lt h l t fp x : reads h l t fp -> In x fp -> x < length h.
Proof. intros H Hx. apply (proj1 (reads_bounds_both h)) in H as (_ & H). rewrite Forall_forall in H. auto. Qed.

Lemma height_children k v n d : height (CT k v n (Some d)) = Datatypes.S (list_max (map (fun xc => height (snd xc)) d)).
Proof. cbn [height]. f_equal. induction d as [|[x c] d IH]; cbn; [reflexivity |]. rewrite IH. reflexivity. Qed.
Lemma reads_height_both h :
  (forall l t fp, reads h l t fp -> height t <= length fp) /\
  (forall d ds fps, reads_all h d ds fps -> list_max (map (fun xc => height (snd xc)) ds) <= length fps).
Proof.
  apply reads_mutind.
  - intros. cbn; lia.
  - intros l k v n d ds fps E _ IH. rewrite height_children. cbn; lia.
  - cbn; lia.
  - intros x c d t ds fp fps _ IH1 _ IH2. cbn. rewrite app_length. unfold list_max in IH2. lia.
Qed.
Lemma owns_height h l t fp : owns h l t fp -> height t <= length h.
Proof.
  intros (R & ND). pose proof (proj1 (reads_height_both h) _ _ _ R) as H.
  assert (length fp <= length (seq 0 (length h))); [|rewrite seq_length in *; lia].
  apply NoDup_incl_length; [exact ND |]. intros x Hx. apply in_seq. pose proof (reads_lt _ _ _ _ _ R Hx). lia.
Qed.

Lemma NoDup_app_l {A} (a b : list A) : NoDup (a ++ b) -> NoDup a.
Proof. induction a as [|x a IH]; intros H; [constructor |]. inversion H; subst. constructor; [|auto]. intros Hx. apply H2, in_or_app; auto. Qed.
Lemma NoDup_app_r {A} (a b : list A) : NoDup (a ++ b) -> NoDup b.
Proof. induction a as [|x a IH]; intros H; [exact H |]. inversion H; auto. Qed.
Lemma NoDup_app_disj {A} (a b : list A) x : NoDup (a ++ b) -> In x a -> ~ In x b.
Proof.
  induction a as [|y a IH]; intros H Hx; [destruct Hx |]. inversion H; subst. destruct Hx as [-> | Hx].
  - intros Hb. apply H2, in_or_app; auto.
  - auto.
Qed.
Lemma NoDup_app_make {A} (a b : list A) : NoDup a -> NoDup b -> (forall x, In x a -> ~ In x b) -> NoDup (a ++ b).
Proof.
  induction 1 as [|x a Hx ND IH]; intros Hb Hd; cbn; [exact Hb |]. constructor.
  - intros Hi. apply in_app_or in Hi as [Hi | Hi]; [auto | apply (Hd x); [now left | exact Hi]].
  - apply IH; [exact Hb |]. intros y Hy. apply Hd. now right.
Qed.

(** *** changes in place *)
Lemma reads_assoc h d ds fps x : reads_all h d ds fps ->
  match assoc Z.eqb x d with
  | None => assoc Z.eqb x ds = None
  | Some c => exists t fp, assoc Z.eqb x ds = Some t /\ reads h c t fp /\ incl fp fps
  end.
Proof.
  induction 1 as [|y c d t ds fp fps R RA IH]; cbn; [reflexivity |].
  destruct (Z.eqb x y).
  - exists t, fp. split; [reflexivity |]. split; [exact R |]. intros z Hz. apply in_or_app; auto.
  - destruct (assoc Z.eqb x d); [|exact IH]. destruct IH as (t' & fp' & E & R' & I). exists t', fp'. split; [exact E |]. split; [exact R' |].
    intros z Hz. apply in_or_app; right; auto.
Qed.

(** the inner loop of AD_Model.combine_in_place *)
Fixpoint go_value (op : Z -> Z -> Z) (o : ctnode) (l : list (Z * ctnode)) : res (list (Z * ctnode)) :=
  match l with
  | [] => Ok []
  | (x, c) :: l' =>
    c' <- match ct_children o with
          | None => Err TypeError
          | Some od => match assoc Z.eqb x od with
                       | None => Ok c
                       | Some oc => combine_in_place op c oc end
          end ;;
    r <- go_value op o l' ;; Ok ((x, c') :: r)
  end.
Lemma combine_in_place_eq op k v n ch o :
  combine_in_place op (CT k v n ch) o =
  match ch with
  | None => match n, ct_count o with Some a, Some b => Ok (CT k v (Some (op a b)) None) | _, _ => Err TypeError end
  | Some d => d' <- go_value op o d ;; Ok (CT k v n (Some d'))
  end.
Proof.
  destruct ch as [d|]; [|reflexivity]. cbn [combine_in_place]. f_equal.
  induction d as [|[x c] d IH]; [reflexivity |]. cbn [go_value]. rewrite <- IH. reflexivity.
Qed.
(** the inner loop of h_combine_in_place *)
Fixpoint go_heap (fuel : nat) (op : Z -> Z -> Z) (o : ref) (d : list (Z * ref)) (h : heap) : heap * res unit :=
  match d with
  | [] => (h, Ok tt)
  | (x, c) :: d' =>
    match match nth_error h o with Some q' => n_children q' | None => None end with
    | None => (h, Err TypeError)
    | Some od =>
      match assoc Z.eqb x od with
      | None => go_heap fuel op o d' h
      | Some oc =>
        match h_combine_in_place fuel op h c oc with
        | (h', Ok _) => go_heap fuel op o d' h'
        | (h', Err e) => (h', Err e)
        end
      end
    end
  end.
Lemma h_combine_in_place_eq fuel op h t o :
  h_combine_in_place (Datatypes.S fuel) op h t o =
  match nth_error h t, nth_error h o with
  | Some p, Some q =>
    match n_children p with
    | None =>
      match n_count p, n_count q with
      | Some a, Some b => (hset h t (CN (n_col p) (n_value p) (Some (op a b)) None), Ok tt)
      | _, _ => (h, Err TypeError)
      end
    | Some d => go_heap fuel op o d h
    end
  | _, _ => (h, Err AttributeError)
  end.
Proof.
  cbn [h_combine_in_place]. destruct (nth_error h t) as [p|]; [|reflexivity]. destruct (nth_error h o) as [q|]; [|reflexivity].
  destruct (n_children p) as [d|]; [|reflexivity].
  generalize h. induction d as [|[x c] d IH]; intros h0; [reflexivity |]. cbn [go_heap].
  destruct (match nth_error h0 o with Some q' => n_children q' | None => None end); [|reflexivity].
  destruct (assoc Z.eqb x l); [|apply IH]. destruct (h_combine_in_place fuel op h0 c r) as [h' [|]]; [apply IH | reflexivity].
Qed.

(** what an in-place change must achieve *)
Definition in_place (h : heap) (rh : heap * res unit) (fp : list ref) {A} (r : res A) (shows : heap -> A -> Prop) : Prop :=
  length (fst rh) = length h /\ (forall x, ~ In x fp -> nth_error (fst rh) x = nth_error h x) /\
  match r with Ok a => snd rh = Ok tt /\ shows (fst rh) a | Err e => snd rh = Err e end.

Lemma combine_in_place_ok op fuel : forall h lt t fpt lo o fpo,
  reads h lt t fpt -> NoDup fpt -> reads h lo o fpo -> disjoint fpt fpo -> height t <= fuel ->
  in_place h (h_combine_in_place fuel op h lt lo) fpt (combine_in_place op t o) (fun h' t' => reads h' lt t' fpt).
Proof.
  induction fuel as [|fuel IHf]; intros h lt t fpt lo o fpo RT ND RO DJ HH.
  { destruct t as [k v n ch]. cbn [height] in HH. lia. }
  rewrite h_combine_in_place_eq.
  assert (exists q, nth_error h lo = Some q /\ n_count q = ct_count o /\
     match n_children q with None => ct_children o = None | Some od => exists ods fps, ct_children o = Some ods /\ reads_all h od ods fps /\ incl fps fpo end) as (q & Eq & Cq & CHq).
  { inversion RO; subst; eexists; (split; [eassumption |]); cbn; split; auto.
    exists ds, fps. split; [reflexivity |]. split; [assumption |]. intros z Hz; now right. }
  inversion RT as [l k v n E | l k v n d ds fps E RA]; subst.
  - rewrite E, Eq. cbn [n_children n_count n_col n_value]. rewrite combine_in_place_eq. rewrite <- Cq.
    destruct n as [a|]; [destruct (n_count q) as [b|] |].
    + split; [apply hset_length |]. split; [intros x Hx; cbn; apply hset_other; intros ->; apply Hx; now left |].
      split; [reflexivity |]. constructor. cbn. apply hset_same. apply nth_error_Some. congruence.
    + repeat split; auto.
    + repeat split; auto.
  - rewrite E, Eq. cbn [n_children n_count n_col n_value]. rewrite combine_in_place_eq.
    assert (HL : list_max (map (fun xc => height (snd xc)) ds) <= fuel) by (rewrite height_children in HH; lia).
    assert (ND2 : NoDup fps /\ ~ In lt fps) by (inversion ND; auto).
    assert (DJ2 : disjoint fps fpo) by (intros x Hx; apply DJ; now right).
    assert (LOlt : lo <> lt) by (intros ->; apply (DJ lt); [now left | eapply reads_root; exact RO]).
    assert (LOfps : ~ In lo fps) by (intros Hx; apply (DJ2 _ Hx); eapply reads_root; exact RO).
    (* the loop *)
    assert (LOOP : forall d ds fps h, reads_all h d ds fps -> NoDup fps -> disjoint fps fpo -> ~ In lo fps -> reads h lo o fpo ->
       list_max (map (fun xc => height (snd xc)) ds) <= fuel -> nth_error h lo = Some q ->
       (match n_children q with None => ct_children o = None | Some od => exists ods fps, ct_children o = Some ods /\ reads_all h od ods fps /\ incl fps fpo end) ->
       in_place h (go_heap fuel op lo d h) fps (go_value op o ds) (fun h' ds' => reads_all h' d ds' fps)).
    { clear - IHf. intros d ds fps h RA. revert h RA. induction d as [|[x c] d IHd] in ds, fps |- *; intros h RA ND DJ LO RO HL Eq CHq.
      - inversion RA; subst. cbn. repeat split; auto; constructor.
      - inversion RA as [|x' c' d' t ds' fp fps' RC RA']; subst. cbn [go_heap go_value]. rewrite Eq.
        assert (ND1 := NoDup_app_l _ _ ND). assert (ND2 := NoDup_app_r _ _ ND).
        assert (DJ1 : disjoint fp fpo) by (intros z Hz; apply DJ, in_or_app; auto).
        assert (DJ2 : disjoint fps' fpo) by (intros z Hz; apply DJ, in_or_app; auto).
        assert (LO1 : ~ In lo fp) by (intros Hz; apply LO, in_or_app; auto).
        assert (LO2 : ~ In lo fps') by (intros Hz; apply LO, in_or_app; auto).
        cbn [map list_max fold_right snd] in HL. fold (list_max (map (fun xc : Z * ctnode => height (snd xc)) ds')) in HL.
        destruct (n_children q) as [od|] eqn:EO.
        2:{ rewrite CHq. cbn. repeat split; auto. }
        destruct CHq as (ods & ofps & CO & ROA & OI). rewrite CO.
        pose proof (reads_assoc _ _ _ _ x ROA) as AS. destruct (assoc Z.eqb x od) as [oc|].
        + destruct AS as (ot & ofp & -> & ROC & OI2).
          assert (DJ3 : disjoint fp ofp) by (intros z Hz Hz2; apply (DJ1 z Hz), OI, OI2, Hz2).
          pose proof (IHf h c t fp oc ot ofp RC ND1 ROC DJ3 ltac:(lia)) as (L1 & F1 & M1).
          destruct (h_combine_in_place fuel op h c oc) as [h1 r1]. cbn [fst snd] in *.
          destruct (combine_in_place op t ot) as [t'|e]; cbn [bind].
          2:{ rewrite M1. repeat split; cbn; auto. intros z Hz. apply F1. intros Hz2; apply Hz, in_or_app; auto. }
          destruct M1 as (-> & RC1).
          assert (FO : forall z, In z fpo -> nth_error h1 z = nth_error h z).
          { intros z Hz. apply F1. intros Hz2. apply (DJ1 z Hz2 Hz). }
          assert (RA1 : reads_all h1 d ds' fps').
          { eapply reads_all_frame; [exact RA' |]. intros z Hz. apply F1. intros Hz2. apply (NoDup_app_disj _ _ z ND Hz2 Hz). }
          assert (RO1 : reads h1 lo o fpo) by (eapply reads_frame; [exact RO | exact FO]).
          pose proof (IHd ds' fps' h1 RA1 ND2 DJ2 LO2 RO1 ltac:(lia)) as IH.
          destruct IH as (L2 & F2 & M2).
          { rewrite FO; [exact Eq | eapply reads_root; exact RO]. }
          { exists ods, ofps. split; [exact CO |]. split; [|exact OI]. eapply reads_all_frame; [exact ROA |]. intros z Hz; apply FO, OI, Hz. }
          split; [congruence |]. split.
          { intros z Hz. rewrite F2, F1; [reflexivity | |]; intros Hz2; apply Hz, in_or_app; auto. }
          destruct (go_value op o ds') as [ds2|e]; cbn [bind]; [|exact M2]. destruct M2 as (-> & RA2). split; [reflexivity |].
          constructor; [|exact RA2]. eapply reads_frame; [exact RC1 |]. intros z Hz. apply F2. apply (NoDup_app_disj _ _ z ND Hz).
        + rewrite AS. cbn [bind].
          pose proof (IHd ds' fps' h RA' ND2 DJ2 LO2 RO ltac:(lia) Eq) as (L2 & F2 & M2).
          { exists ods, ofps; auto. }
          split; [exact L2 |]. split; [intros z Hz; apply F2; intros Hz2; apply Hz, in_or_app; auto |].
          destruct (go_value op o ds') as [ds2|e]; cbn [bind]; [|exact M2]. destruct M2 as (-> & RA2). split; [reflexivity |].
          constructor; [|exact RA2]. eapply reads_frame; [exact RC |]. intros z Hz. apply F2. apply (NoDup_app_disj _ _ z ND Hz). }
    destruct (LOOP d ds fps h RA (proj1 ND2) DJ2 LOfps RO HL Eq CHq) as (L & F & M).
    split; [exact L |]. split; [intros z Hz; apply F; intros Hz2; apply Hz; now right |].
    destruct (go_value op o ds) as [ds'|e]; cbn [bind]; [|exact M]. destruct M as (M1 & M2). split; [exact M1 |].
    econstructor; [|exact M2]. rewrite F; [exact E | apply ND2].
Qed.

(** *** appending and counting *)
Lemma reads_all_set h d ds fps x c t fp : reads_all h d ds fps -> reads h c t fp ->
  exists fps', reads_all h (assoc_set Z.eqb x c d) (assoc_set Z.eqb x t ds) fps' /\ incl fps' (fp ++ fps) /\
    (NoDup (fp ++ fps) -> NoDup fps').
Proof.
  intros RA RC. induction RA as [|y c0 d t0 ds fp0 fps R0 RA IH]; cbn [assoc_set].
  - exists (fp ++ []). split; [constructor; [exact RC | constructor] |]. split; [intros z; auto | auto].
  - destruct (Z.eqb x y).
    + exists (fp ++ fps). split; [constructor; assumption |]. split.
      * intros z Hz. apply in_app_or in Hz as [Hz | Hz]; apply in_or_app; [auto |]. right; apply in_or_app; auto.
      * intros ND. apply NoDup_app_make.
        { eapply NoDup_app_l; exact ND. }
        { eapply NoDup_app_r. eapply NoDup_app_r. exact ND. }
        { intros z Hz Hz2. apply (NoDup_app_disj _ _ z ND Hz). apply in_or_app; auto. }
    + destruct IH as (fps' & RA' & I & N). exists (fp0 ++ fps'). split; [constructor; assumption |]. split.
      * intros z Hz. apply in_app_or in Hz as [Hz | Hz].
        { apply in_or_app; right; apply in_or_app; auto. }
        { apply I in Hz. apply in_app_or in Hz as [Hz | Hz]; apply in_or_app; [auto |]. right; apply in_or_app; auto. }
      * intros ND. pose proof (NoDup_app_r _ _ ND) as ND0. apply NoDup_app_make.
        { eapply NoDup_app_l; exact ND0. }
        { apply N. apply NoDup_app_make; [eapply NoDup_app_l; exact ND | eapply NoDup_app_r; exact ND0 |].
          intros z Hz Hz2. apply (NoDup_app_disj _ _ z ND Hz). apply in_or_app; auto. }
        { intros z Hz Hz2. apply I in Hz2. apply in_app_or in Hz2 as [Hz2 | Hz2].
          - apply (NoDup_app_disj _ _ z ND Hz2). apply in_or_app; auto.
          - apply (NoDup_app_disj _ _ z ND0 Hz Hz2). }
Qed.
Lemma reads_all_update h d ds fps x c : reads_all h d ds fps -> NoDup fps -> assoc Z.eqb x d = Some c ->
  exists t fp, assoc Z.eqb x ds = Some t /\ reads h c t fp /\ incl fp fps /\ NoDup fp /\
  forall h' t' fp', reads h' c t' fp' -> (forall z, In z fps -> ~ In z fp -> nth_error h' z = nth_error h z) ->
    exists fps', reads_all h' d (assoc_set Z.eqb x t' ds) fps' /\ (forall z, In z fps' -> In z fp' \/ In z fps) /\
      (NoDup fp' -> (forall z, In z fp' -> In z fp \/ ~ In z fps) -> NoDup fps').
Proof.
  intros RA. induction RA as [|y c0 d t0 ds fp0 fps R0 RA IH]; cbn [assoc assoc_set]; intros ND E; [discriminate |].
  pose proof (NoDup_app_l _ _ ND) as N1. pose proof (NoDup_app_r _ _ ND) as N2.
  destruct (Z.eqb_spec x y) as [-> | NE].
  - inversion E; subst c0. exists t0, fp0. split; [reflexivity |]. split; [exact R0 |]. split; [intros z Hz; apply in_or_app; auto |]. split; [exact N1 |].
    intros h' t' fp' R' F. exists (fp' ++ fps). split; [constructor; [exact R' |] |].
    { eapply reads_all_frame; [exact RA |]. intros z Hz. apply F; [apply in_or_app; auto |]. intros Hz2. apply (NoDup_app_disj _ _ z ND Hz2 Hz). }
    split.
    { intros z Hz. apply in_app_or in Hz as [Hz | Hz]; [auto |]. right; apply in_or_app; auto. }
    { intros N' G. apply NoDup_app_make; [exact N' | exact N2 |]. intros z Hz Hz2. destruct (G z Hz) as [G1 | G1].
      - apply (NoDup_app_disj _ _ z ND G1 Hz2).
      - apply G1, in_or_app; auto. }
  - destruct (IH N2 E) as (t & fp & A1 & A2 & A3 & A4 & A5). exists t, fp. split; [exact A1 |]. split; [exact A2 |].
    split; [intros z Hz; apply in_or_app; auto |]. split; [exact A4 |]. intros h' t' fp' R' F.
    destruct (A5 h' t' fp' R') as (fps' & B1 & B2 & B3).
    { intros z Hz Hz2. apply F; [apply in_or_app; auto | exact Hz2]. }
    exists (fp0 ++ fps'). split; [constructor; [|exact B1] |].
    { eapply reads_frame; [exact R0 |]. intros z Hz. apply F; [apply in_or_app; auto |]. intros Hz2. apply (NoDup_app_disj _ _ z ND Hz). apply A3, Hz2. }
    split.
    { intros z Hz. apply in_app_or in Hz as [Hz | Hz]; [right; apply in_or_app; auto |]. destruct (B2 z Hz); [auto | right; apply in_or_app; auto]. }
    { intros N' G. apply NoDup_app_make; [exact N1 | apply B3; [exact N' |] |].
      - intros z Hz. destruct (G z Hz) as [G1 | G1]; [auto | right; intros Hz2; apply G1, in_or_app; auto].
      - intros z Hz Hz2. destruct (B2 z Hz2) as [Hz3 | Hz3].
        + destruct (G z Hz3) as [G1 | G1]; [apply (NoDup_app_disj _ _ z ND Hz), A3, G1 | apply G1, in_or_app; auto].
        + apply (NoDup_app_disj _ _ z ND Hz Hz3). }
Qed.

Lemma reads_get h l t fp : reads h l t fp -> exists p, nth_error h l = Some p /\ n_value p = ct_value t /\ n_count p = ct_count t /\
  (match n_children p with None => ct_children t = None /\ fp = [l]
   | Some d => exists ds fps, ct_children t = Some ds /\ reads_all h d ds fps /\ fp = l :: fps end) /\
  n_col p = (match t with CT k _ _ _ => k end).
Proof. intros R. inversion R; subst; eexists; (split; [eassumption |]); cbn; repeat split; eauto. Qed.

Lemma append_ok h l t fp c tc fpc : owns h l t fp -> owns h c tc fpc -> disjoint fp fpc ->
  exists h', h_append_child h l c = Ok h' /\ length h' = length h /\ (forall x, x <> l -> nth_error h' x = nth_error h x) /\
    exists fp', owns h' l (append_child t tc) fp' /\ incl fp' (fp ++ fpc).
Proof.
  intros (RT & NT) (RC & NC) DJ. unfold h_append_child.
  destruct (reads_get _ _ _ _ RT) as (p & Ep & Vp & Np & CHp & Kp). destruct (reads_get _ _ _ _ RC) as (q & Eq & Vq & Nq & CHq & Kq).
  rewrite Ep, Eq. eexists. split; [reflexivity |]. split; [apply hset_length |].
  assert (Ll : l < length h) by (apply nth_error_Some; congruence).
  split; [intros x Hx; apply hset_other; exact Hx |].
  destruct t as [k v n ch]. cbn [ct_value ct_count ct_children] in *. destruct p as [pk pv pn pch]. cbn in *. subst pk pv pn. rewrite Vq.
  destruct pch as [d|].
  - destruct CHp as (ds & fps & -> & RA & ->). inversion NT as [|? ? Hl N]; subst.
    assert (Lc : ~ In l fpc) by (apply DJ; now left).
    set (h' := hset _ _ _).
    assert (RA' : reads_all h' d ds fps) by (eapply reads_all_frame; [exact RA |]; intros z Hz; apply hset_other; congruence).
    assert (RC' : reads h' c tc fpc) by (eapply reads_frame; [exact RC |]; intros z Hz; apply hset_other; congruence).
    destruct (reads_all_set _ _ _ _ (ct_value tc) _ _ _ RA' RC') as (fps' & R2 & I2 & N2).
    assert (ND2 : NoDup (fpc ++ fps)).
    { apply NoDup_app_make; [exact NC | exact N |]. intros z Hz Hz2. apply (DJ z); [now right | exact Hz]. }
    exists (l :: fps'). split; [split |].
    + econstructor; [apply hset_same; exact Ll | exact R2].
    + constructor; [|apply N2, ND2]. intros Hx. apply I2 in Hx. apply in_app_or in Hx as [Hx | Hx]; auto.
    + intros z [-> | Hz]; [now left |]. apply I2 in Hz. apply in_app_or in Hz as [Hz | Hz]; [apply in_or_app; auto |]. right. apply in_or_app; auto.
  - destruct CHp as (-> & ->).
    assert (Lc : ~ In l fpc) by (apply DJ; now left).
    set (h' := hset _ _ _).
    assert (RC' : reads h' c tc fpc) by (eapply reads_frame; [exact RC |]; intros z Hz; apply hset_other; congruence).
    exists (l :: (fpc ++ [])). split; [split |].
    + econstructor; [apply hset_same; exact Ll |]. constructor; [exact RC' | constructor].
    + rewrite app_nil_r. constructor; [exact Lc | exact NC].
    + rewrite app_nil_r. intros z [-> | Hz]; [now left | now right].
Qed.

Lemma hnew_ok h k v n : let '(h1, l) := hnew h k v n in
  owns h1 l (CT k v n None) [l] /\ l = length h /\ length h1 = Datatypes.S (length h) /\ (forall x, x < length h -> nth_error h1 x = nth_error h x).
Proof.
  cbn. split; [split; [constructor |] |].
  - rewrite nth_error_app2, Nat.sub_diag by lia. reflexivity.
  - constructor; [intros [] | constructor].
  - split; [reflexivity |]. split; [rewrite app_length; cbn; lia |]. intros x Hx. apply nth_error_app1; exact Hx.
Qed.

(** [h'] grew from [h]: old objects outside [fp] are as before *)
Definition grown (h h' : heap) (fp : list ref) : Prop :=
  length h <= length h' /\ (forall x, x < length h -> ~ In x fp -> nth_error h' x = nth_error h x).
Definition from (h : heap) (fp fp' : list ref) : Prop := forall x, In x fp' -> In x fp \/ length h <= x.
Lemma grown_refl h fp : grown h h fp. Proof. split; auto. Qed.
Lemma grown_trans h h1 h2 fp fp1 : grown h h1 fp -> grown h1 h2 fp1 -> from h fp fp1 -> grown h h2 fp.
Proof.
  intros (L1 & F1) (L2 & F2) I. split; [lia |]. intros x Hx Hn. rewrite F2, F1; auto; [lia |].
  intros Hx1. destruct (I x Hx1); [auto | lia].
Qed.
Lemma from_trans h h1 fp fp1 fp2 : length h <= length h1 -> from h fp fp1 -> from h1 fp1 fp2 -> from h fp fp2.
Proof. intros L A B x Hx. destruct (B x Hx) as [Hx1 | Hx1]; [apply A, Hx1 | right; lia]. Qed.
Lemma owns_frame h h' l t fp fp0 : owns h l t fp -> grown h h' fp0 -> disjoint fp fp0 -> owns h' l t fp.
Proof.
  intros (R & N) (L & F) DJ. split; [|exact N]. eapply reads_frame; [exact R |]. intros z Hz. apply F; [eapply reads_lt; eassumption | apply DJ, Hz].
Qed.
Lemma assoc_set_none {V} x (v : V) d : assoc Z.eqb x d = None -> assoc_set Z.eqb x v d = d ++ [(x, v)].
Proof. induction d as [|[y w] d IH]; cbn; [reflexivity |]. destruct (Z.eqb x y); [discriminate |]. intros H. now rewrite IH. Qed.

Lemma add_count_eq cols vals cnt t : add_count_to_leaf cols vals cnt t =
  match t with CT k v n ch =>
    match vals with
    | [] => CT k v (Some (match n with Some m => m + cnt | None => cnt end))%Z ch
    | x :: vals' =>
      let old := match ch with Some d => assoc Z.eqb x d | None => None end in
      let child := match old with Some c => c | None => CT (Z.of_nat (hd 0%nat cols)) x None None end in
      let child' := add_count_to_leaf (tl cols) vals' cnt child in
      CT k v n (Some (match ch with None => [(x, child')] | Some d => assoc_set Z.eqb x child' d end))
    end
  end.
Proof. destruct vals, t; reflexivity. Qed.
Lemma add_count_value cols vals cnt t : ct_value (add_count_to_leaf cols vals cnt t) = ct_value t.
Proof. rewrite add_count_eq. destruct t, vals; reflexivity. Qed.

Lemma add_count_ok vals : forall cols cnt h l t fp, owns h l t fp ->
  exists h' fp', h_add_count cols vals cnt h l = Ok h' /\ owns h' l (add_count_to_leaf cols vals cnt t) fp' /\
    grown h h' fp /\ from h fp fp'.
Proof.
  induction vals as [|x vals IH]; intros cols cnt h l t fp O.
  - destruct O as (R & N). destruct (reads_get _ _ _ _ R) as (p & Ep & Vp & Np & CHp & Kp).
    destruct p as [pk pv pn pch], t as [k v n ch]. cbn in Vp, Np, CHp, Kp. subst pk pv pn.
    assert (Ll : l < length h) by (apply nth_error_Some; congruence).
    cbn [h_add_count]. rewrite Ep. cbn [n_col n_value n_count n_children]. rewrite add_count_eq.
    eexists. exists fp. split; [reflexivity |]. split; [split; [|exact N] |].
    + destruct pch as [d|].
      * destruct CHp as (ds & fps & -> & RA & ->). econstructor; [apply hset_same; exact Ll |].
        eapply reads_all_frame; [exact RA |]. inversion N; subst. intros z Hz. apply hset_other; congruence.
      * destruct CHp as (-> & ->). constructor. apply hset_same; exact Ll.
    + split; [split; [rewrite hset_length; lia |] |].
      * intros z Hz Hn. apply hset_other. intros ->. apply Hn. eapply reads_root; exact R.
      * intros z Hz; auto.
  - pose proof O as (R & N). destruct (reads_get _ _ _ _ R) as (p & Ep & Vp & Np & CHp & Kp).
    assert (Ll : l < length h) by (apply nth_error_Some; congruence).
    destruct p as [pk pv pn pch], t as [k v n ch]. cbn in Vp, Np, CHp, Kp. subst pk pv pn.
    cbn [h_add_count]. rewrite Ep. cbn [n_col n_value n_count n_children]. rewrite add_count_eq. cbv zeta.
    destruct (match pch with Some d => assoc Z.eqb x d | None => None end) as [c|] eqn:EC.
    + (* the child exists *)
      destruct pch as [d|]; [|discriminate]. destruct CHp as (ds & fps & -> & RA & ->). inversion N as [|? ? Nl Nf]; subst.
      destruct (reads_all_update _ _ _ _ _ _ RA Nf EC) as (tc & fpc & A1 & A2 & A3 & A4 & A5). rewrite A1.
      destruct (IH (tl cols) cnt h c tc fpc (conj A2 A4)) as (h' & fp' & E' & (R' & N') & G & I).
      rewrite E'. destruct (A5 h' _ fp' R') as (fps' & B1 & B2 & B3).
      { intros z Hz Hn. apply G; [|exact Hn]. eapply reads_lt; [exact R | now right]. }
      exists h', (l :: fps'). split; [reflexivity |].
      assert (Lp : ~ In l fp') by (intros Hx; destruct (I l Hx) as [H | H]; [apply Nl, A3, H | lia]).
      assert (Nfs : NoDup fps').
      { apply B3; [exact N' |]. intros z Hz. destruct (I z Hz) as [H | H]; [auto |]. right. intros Hz2.
        assert (z < length h) by (eapply reads_lt; [exact R | now right]). lia. }
      assert (Ll2 : ~ In l fps') by (intros Hx; destruct (B2 l Hx); auto).
      split; [split; [|constructor; assumption] |].
      { econstructor; [|exact B1]. rewrite (proj2 G); [exact Ep | exact Ll |]. intros Hx; apply Nl, A3, Hx. }
      split.
      { split; [apply G |]. intros z Hz Hn. apply G; [exact Hz |]. intros Hx. apply Hn. right. apply A3, Hx. }
      { intros z [-> | Hz]; [left; now left |]. destruct (B2 z Hz) as [H | H]; [|left; now right]. destruct (I z H) as [H2 | H2]; [left; right; apply A3, H2 | auto]. }
    + (* a new child *)
      set (child := CT (Z.of_nat (hd 0%nat cols)) x None None).
      assert (EV : (match match ch with Some d => assoc Z.eqb x d | None => None end with Some c => c | None => child end) = child).
      { destruct pch as [d|].
        - destruct CHp as (ds & fps & -> & RA & _). pose proof (reads_assoc _ _ _ _ x RA) as H. rewrite EC in H. now rewrite H.
        - destruct CHp as (-> & _). reflexivity. }
      rewrite EV.
      pose proof (hnew_ok h (Z.of_nat (hd 0%nat cols)) x None) as HN. destruct (hnew h (Z.of_nat (hd 0%nat cols)) x None) as [h1 c].
      destruct HN as (OC & EC' & L1 & F1). fold child in OC.
      assert (O1 : owns h1 l (CT k v n ch) fp).
      { split; [|exact N]. eapply reads_frame; [exact R |]. intros z Hz. apply F1. eapply reads_lt; eassumption. }
      assert (DJ : disjoint fp [c]).
      { intros z Hz [<- | []]. assert (c < length h) by (eapply reads_lt; eassumption). lia. }
      destruct (append_ok _ _ _ _ _ _ _ O1 OC DJ) as (h2 & E2 & L2 & F2 & fp2 & O2 & I2). rewrite E2. cbn [bind].
      assert (Ncl : c <> l) by lia.
      assert (OC2 : owns h2 c child [c]).
      { destruct OC as (RC & NC). split; [|exact NC]. eapply reads_frame; [exact RC |]. intros z [<- | []]. apply F2; congruence. }
      destruct (IH (tl cols) cnt h2 c child [c] OC2) as (h3 & fp3 & E3 & (R3 & N3) & G3 & I3). rewrite E3.
      assert (I3' : forall z, In z fp3 -> length h <= z).
      { intros z Hz. destruct (I3 z Hz) as [[<- | []] | H]; lia. }
      assert (E2l : nth_error h2 l = Some (CN k v n (Some (match pch with None => [(x, c)] | Some d => assoc_set Z.eqb x c d end)))).
      { unfold h_append_child in E2. rewrite F1 in E2 by exact Ll. rewrite Ep in E2.
        destruct (nth_error h1 c) as [pc|] eqn:Epc; [|discriminate]. inversion E2; subst h2. rewrite hset_same by lia.
        assert (n_value pc = x) as ->; [|reflexivity]. destruct OC as (RC & _). destruct (reads_get _ _ _ _ RC) as (p' & Ep' & Vp' & _). rewrite Epc in Ep'. inversion Ep'; subst p'. exact Vp'. }
      assert (E3l : nth_error h3 l = nth_error h2 l) by (apply (proj2 G3); [lia | intros [H | []]; lia]).
      exists h3. 
      assert (F3 : forall z, z < length h -> z <> l -> nth_error h3 z = nth_error h z).
      { intros z Hz Hn. rewrite (proj2 G3); [|lia|intros [H | []]; lia]. rewrite F2 by exact Hn. apply F1; exact Hz. }
      destruct pch as [d|].
      * destruct CHp as (ds & fps & -> & RA & ->). inversion N as [|? ? Nl Nf]; subst.
        assert (RA3 : reads_all h3 d ds fps).
        { eapply reads_all_frame; [exact RA |]. intros z Hz. apply F3; [eapply reads_lt; [exact R | now right] | intros ->; exact (Nl Hz)]. }
        destruct (reads_all_set _ _ _ _ x _ _ _ RA3 R3) as (fps' & B1 & B2 & B3).
        assert (ND3 : NoDup (fp3 ++ fps)).
        { apply NoDup_app_make; [exact N3 | exact Nf |]. intros z Hz Hz2. assert (z < length h) by (eapply reads_lt; [exact R | now right]). specialize (I3' z Hz). lia. }
        exists (l :: fps'). split; [reflexivity |]. split; [split |].
        { econstructor; [rewrite E3l; exact E2l | exact B1]. }
        { constructor; [|apply B3, ND3]. intros Hx. apply B2 in Hx. apply in_app_or in Hx as [Hx | Hx]; [specialize (I3' l Hx); lia | auto]. }
        split.
        { split; [destruct G3; lia |]. intros z Hz Hn. apply F3; [exact Hz |]. intros ->. apply Hn; now left. }
        { intros z [-> | Hz]; [left; now left |]. apply B2 in Hz. apply in_app_or in Hz as [Hz | Hz]; [right; auto | left; now right]. }
      * destruct CHp as (-> & ->). exists (l :: (fp3 ++ [])). split; [reflexivity |]. split; [split |].
        { econstructor; [rewrite E3l; exact E2l |]. constructor; [exact R3 | constructor]. }
        { rewrite app_nil_r. constructor; [|exact N3]. intros Hx. specialize (I3' l Hx). lia. }
        split.
        { split; [destruct G3; lia |]. intros z Hz Hn. apply F3; [exact Hz |]. intros ->. apply Hn; now left. }
        { rewrite app_nil_r. intros z [-> | Hz]; [left; now left | right; auto]. }
Qed.

(** *** building a tree *)
Definition fresh (h : heap) (fp : list ref) : Prop := forall z, In z fp -> length h <= z.
(** the heap program builds the value of the value program in new objects *)
Definition builds (h : heap) (rh : res (heap * ref)) (r : res ctnode) : Prop :=
  match r with
  | Ok t => exists h' l fp, rh = Ok (h', l) /\ owns h' l t fp /\ fresh h fp /\ grown h h' []
  | Err e => rh = Err e
  end.
Definition builds2 {A} (h : heap) (rh : res (heap * ref * A)) (r : res (ctnode * A)) : Prop :=
  match r with
  | Ok (t, a) => exists h' l fp, rh = Ok (h', l, a) /\ owns h' l t fp /\ fresh h fp /\ grown h h' []
  | Err e => rh = Err e
  end.

Lemma from_fresh h h1 fp fp' : length h <= length h1 -> fresh h fp -> from h1 fp fp' -> fresh h fp'.
Proof. intros L F G z Hz. destruct (G z Hz) as [H | H]; [auto | lia]. Qed.
Lemma grown_nil h h1 h2 fp : grown h h1 [] -> grown h1 h2 fp -> fresh h fp -> grown h h2 [].
Proof.
  intros (L1 & G1) (L2 & G2) F. split; [lia |]. intros x Hx _. rewrite G2; [apply G1; [exact Hx | intros []] | lia |].
  intros H. specialize (F x H). lia.
Qed.

Lemma count_rows_ok D cols ct : forall rows h t fp, owns h ct t fp ->
  match foldM (fun t r => key <- mapM (fun c => cell D r c) cols ;; Ok (add_count_to_leaf cols key 1 t)) rows t with
  | Ok t' => exists h' fp', foldM (fun h r => key <- mapM (fun c => cell D r c) cols ;; h_add_count cols key 1 h ct) rows h = Ok h' /\
      owns h' ct t' fp' /\ grown h h' fp /\ from h fp fp'
  | Err e => foldM (fun h r => key <- mapM (fun c => cell D r c) cols ;; h_add_count cols key 1 h ct) rows h = Err e
  end.
Proof.
  induction rows as [|r rows IH]; intros h t fp O; cbn [foldM].
  - exists h, fp. split; [reflexivity |]. split; [exact O |]. split; [apply grown_refl | intros z Hz; now left].
  - destruct (mapM (fun c => cell D r c) cols) as [key|e]; cbn [bind]; [|reflexivity].
    destruct (add_count_ok key cols 1%Z h ct t fp O) as (h1 & fp1 & E1 & O1 & G1 & F1). rewrite E1. cbn [bind].
    specialize (IH h1 _ fp1 O1).
    destruct (foldM _ rows (add_count_to_leaf cols key 1 t)) as [t'|e]; [|exact IH].
    destruct IH as (h2 & fp2 & E2 & O2 & G2 & F2). exists h2, fp2. split; [exact E2 |]. split; [exact O2 |].
    split; [eapply grown_trans; eassumption | eapply from_trans; [apply G1 | exact F1 | exact F2]].
Qed.

Lemma ct_from_leaf_ok D cols n h : builds h (h_ct_from_leaf D cols n h) (ct_from_leaf D cols n).
Proof.
  unfold builds, h_ct_from_leaf, ct_from_leaf. destruct (existsb _ cols); [reflexivity |]. destruct (ad_sel n) as [l|]; [|reflexivity].
  pose proof (hnew_ok h (ad_col n) (ad_value n) None) as HN. destruct (hnew h (ad_col n) (ad_value n) None) as [h0 ct].
  destruct HN as (O & El & L & F). pose proof (count_rows_ok D cols ct l h0 _ _ O) as H.
  destruct (foldM _ l (CT (ad_col n) (ad_value n) None None)) as [t|e]; [|now rewrite H].
  destruct H as (h1 & fp & E & O1 & G & FR). rewrite E. cbn [bind]. exists h1, ct, fp. split; [reflexivity |]. split; [exact O1 |].
  assert (FR0 : fresh h [ct]) by (intros z [<- | []]; lia).
  split; [eapply from_fresh; [|exact FR0 | exact FR]; lia |].
  eapply grown_nil; [|exact G|exact FR0]. split; [lia |]. intros x Hx _; auto.
Qed.

Lemma visit_values_ok fh fv mcv acc : (forall n h, builds2 h (fh n h) (fv n)) ->
  forall vals ch h t fp, owns h acc t fp ->
  match visit_values fv mcv vals ch t with
  | Ok (t', ch') => exists h' fp', h_visit_values fh mcv vals ch acc h = Ok (h', ch') /\ owns h' acc t' fp' /\ grown h h' fp /\ from h fp fp'
  | Err e => h_visit_values fh mcv vals ch acc h = Err e
  end.
Proof.
  intros Hf. induction vals as [|v vals IH]; intros ch h t fp O; cbn [visit_values h_visit_values].
  - exists h, fp. split; [reflexivity |]. split; [exact O |]. split; [apply grown_refl | intros z Hz; now left].
  - destruct (v =? mcv)%Z; [apply IH, O |]. destruct (find_child v ch) as [n|]; [|apply IH, O].
    specialize (Hf n h). unfold builds2 in Hf. destruct (fv n) as [[tc n']|e]; [|now rewrite Hf].
    destruct Hf as (h1 & c & fpc & E1 & OC & FC & G1). rewrite E1. cbn [bind].
    assert (O1 : owns h1 acc t fp) by (eapply owns_frame; [exact O | exact G1 | intros z _ []]).
    assert (LT : forall z, In z fp -> z < length h) by (intros z Hz; eapply reads_lt; [apply (proj1 O) | exact Hz]).
    assert (DJ : disjoint fp fpc) by (intros z Hz Hc; specialize (LT z Hz); specialize (FC z Hc); lia).
    destruct (append_ok _ _ _ _ _ _ _ O1 OC DJ) as (h2 & E2 & L2 & F2 & fp2 & O2 & I2). rewrite E2. cbn [bind].
    assert (G2 : grown h h2 fp).
    { destruct G1 as (L1 & G1). split; [lia |]. intros x Hx Hn. rewrite F2; [apply G1; [exact Hx | intros []] |].
      intros ->. apply Hn. eapply reads_root. apply (proj1 O). }
    assert (FR2 : from h fp fp2) by (intros z Hz; apply I2 in Hz; apply in_app_or in Hz as [Hz | Hz]; auto).
    specialize (IH (put_child v n' ch) h2 _ fp2 O2).
    destruct (visit_values fv mcv vals (put_child v n' ch) (append_child t tc)) as [[t' ch']|e]; [|exact IH].
    destruct IH as (h3 & fp3 & E3 & O3 & G3 & F3). exists h3, fp3. split; [exact E3 |]. split; [exact O3 |].
    split; [eapply grown_trans; eassumption | eapply from_trans; [apply G2 | exact FR2 | exact F3]].
Qed.

Lemma rename_ok h l t fp k v : owns h l t fp -> exists p, nth_error h l = Some p /\
  owns (hset h l (CN k v (n_count p) (n_children p))) l (match t with CT _ _ n ch => CT k v n ch end) fp.
Proof.
  intros (R & N). destruct (reads_get _ _ _ _ R) as (p & Ep & Vp & Np & CHp & Kp). exists p. split; [exact Ep |]. split; [|exact N].
  assert (Ll : l < length h) by (apply nth_error_Some; congruence).
  destruct p as [pk pv pn pch], t as [tk tv n ch]. cbn in *. subst.
  destruct pch as [d|].
  - destruct CHp as (ds & fps & -> & RA & ->). econstructor; [apply hset_same; exact Ll |].
    eapply reads_all_frame; [exact RA |]. inversion N; subst. intros z Hz. apply hset_other. intros ->. contradiction.
  - destruct CHp as (-> & ->). constructor. apply hset_same; exact Ll.
Qed.

Lemma subtract_all_ok own : forall d h t fp ds fps, owns h own t fp -> reads_all h d ds fps -> disjoint fp fps ->
  match foldM (fun t kv => combine_in_place Z.sub t (snd kv)) ds t with
  | Ok t' => exists h', h_subtract_all h own d = Ok h' /\ owns h' own t' fp /\ length h' = length h /\ (forall x, ~ In x fp -> nth_error h' x = nth_error h x)
  | Err e => h_subtract_all h own d = Err e
  end.
Proof.
  induction d as [|[x c] d IH]; intros h t fp ds fps O RA DJ; inversion RA as [|x' c' d' t0 ds0 fp0 fps0 RC0 RA0]; subst; cbn [foldM h_subtract_all].
  - exists h. auto.
  - pose proof (combine_in_place_ok Z.sub (Datatypes.S (length h)) h own t fp c t0 fp0 (proj1 O) (proj2 O) RC0) as C.
    assert (D1 : disjoint fp fp0) by (intros z Hz Hz2; apply (DJ z Hz), in_or_app; now left).
    assert (HH : height t <= Datatypes.S (length h)) by (pose proof (owns_height _ _ _ _ O); lia).
    specialize (C D1 HH). destruct (h_combine_in_place (Datatypes.S (length h)) Z.sub h own c) as [h1 r1].
    destruct C as (L1 & F1 & C). cbn [fst snd] in *. destruct (combine_in_place Z.sub t t0) as [t1|e]; [|subst r1; reflexivity].
    destruct C as (-> & R1). cbn [bind].
    assert (O1 : owns h1 own t1 fp) by (split; [exact R1 | apply O]).
    assert (RA1 : reads_all h1 d ds0 fps0).
    { eapply reads_all_frame; [exact RA0 |]. intros z Hz. apply F1. intros Hz2. apply (DJ z Hz2), in_or_app; now right. }
    assert (D2 : disjoint fp fps0) by (intros z Hz Hz2; apply (DJ z Hz), in_or_app; now right).
    specialize (IH h1 t1 fp ds0 fps0 O1 RA1 D2).
    destruct (foldM _ ds0 t1) as [t'|e]; [|exact IH]. destruct IH as (h2 & E2 & O2 & L2 & F2).
    exists h2. split; [exact E2 |]. split; [exact O2 |]. split; [lia |]. intros z Hz. rewrite F2, F1 by exact Hz. reflexivity.
Qed.

Lemma mct_ok D dyn : forall cols node h, builds2 h (h_mct D dyn cols node h) (mct D dyn cols node).
Proof.
  induction cols as [|c cols IH]; intros node h; cbn [h_mct mct].
  - unfold builds2. pose proof (hnew_ok h (ad_col node) (ad_value node) (Some (ad_count node))) as HN.
    destruct (hnew h (ad_col node) (ad_value node) (Some (ad_count node))) as [h1 l]. destruct HN as (O & El & L & F).
    exists h1, l, [l]. split; [reflexivity |]. split; [exact O |]. split; [intros z [<- | []]; lia |]. split; [lia | auto].
  - destruct (ad_leaf node).
    + pose proof (ct_from_leaf_ok D (c :: cols) node h) as H. unfold builds in H. unfold builds2.
      destruct (ct_from_leaf D (c :: cols) node) as [t|e]; cbn [bind]; [|now rewrite H].
      destruct H as (h' & l & fp & E & O & FR & G). rewrite E. cbn [bind]. exists h', l, fp. auto.
    + pose proof (hnew_ok h (ad_col node) (ad_value node) None) as HN.
      destruct (hnew h (ad_col node) (ad_value node) None) as [h0 nm]. destruct HN as (O0 & El & L0 & F0).
      destruct (get_vary D dyn c node) as [[vary node1]|e]; cbn [bind]; [|reflexivity].
      pose proof (visit_values_ok _ _ (v_mcv vary) nm IH (v_values vary) (v_children vary) h0 _ _ O0) as V.
      destruct (visit_values (mct D dyn cols) (v_mcv vary) (v_values vary) (v_children vary) (CT (ad_col node) (ad_value node) None None)) as [[tn ch']|e];
        cbn [bind]; [|rewrite V; reflexivity].
      destruct V as (h1 & fpn & E1 & O1 & G1 & FR1). rewrite E1. cbn [bind]. cbv zeta.
      assert (FN : fresh h [nm]) by (intros z [<- | []]; lia).
      assert (FN1 : fresh h fpn) by (eapply from_fresh; [|exact FN|exact FR1]; lia).
      assert (G01 : grown h h1 []).
      { eapply grown_nil; [|exact G1|exact FN]. split; [lia |]. intros x Hx _; auto. }
      set (node2 := set_varys node1 (put_vary (set_children vary ch') (ad_varys node1))).
      specialize (IH node2 h1). unfold builds2 in IH. destruct (mct D dyn cols node2) as [[town node3]|e]; cbn [bind]; [|rewrite IH; reflexivity].
      destruct IH as (h2 & own & fpo & E2 & O2 & FO & G2). rewrite E2. cbn [bind].
      assert (LT1 : forall z, In z fpn -> z < length h1) by (intros z Hz; eapply reads_lt; [apply (proj1 O1) | exact Hz]).
      assert (DJ : disjoint fpo fpn) by (intros z Hz Hz2; specialize (LT1 z Hz2); specialize (FO z Hz); lia).
      assert (ON2 : owns h2 nm tn fpn) by (eapply owns_frame; [exact O1 | exact G2 | intros z _ []]).
      destruct (rename_ok _ _ _ _ (Z.of_nat c) (v_mcv vary) O2) as (p & Ep & O3). rewrite Ep. cbn [bind].
      set (h3 := hset h2 own (CN (Z.of_nat c) (v_mcv vary) (n_count p) (n_children p))) in *.
      set (town' := match town with CT _ _ n ch => CT (Z.of_nat c) (v_mcv vary) n ch end) in *.
      assert (Io : In own fpo) by (eapply reads_root, (proj1 O2)).
      assert (F3 : forall x, ~ In x fpo -> nth_error h3 x = nth_error h2 x) by (intros x Hx; apply hset_other; intros ->; contradiction).
      assert (L3 : length h3 = length h2) by apply hset_length.
      assert (ON3 : owns h3 nm tn fpn).
      { split; [|apply ON2]. eapply reads_frame; [apply ON2 |]. intros z Hz. apply F3. intros Hz2. exact (DJ z Hz2 Hz). }
      destruct (reads_get _ _ _ _ (proj1 ON3)) as (q & Eq & _ & _ & CHq & _). rewrite Eq.
      assert (SUB : match match ct_children tn with None => Ok town' | Some d => foldM (fun t kv => combine_in_place Z.sub t (snd kv)) d town' end with
        | Ok t' => exists h4, match n_children q with None => Ok h3 | Some d => h_subtract_all h3 own d end = Ok h4 /\ owns h4 own t' fpo /\
             length h4 = length h3 /\ (forall x, ~ In x fpo -> nth_error h4 x = nth_error h3 x)
        | Err e => match n_children q with None => Ok h3 | Some d => h_subtract_all h3 own d end = Err e end).
      { destruct (n_children q) as [d|].
        - destruct CHq as (ds & fps & -> & RA & ->). apply subtract_all_ok with (fps := fps); [exact O3 | exact RA |].
          intros z Hz Hz2. apply (DJ z Hz). now right.
        - destruct CHq as (-> & _). exists h3. auto. }
      destruct (match ct_children tn with None => Ok town' | Some d => foldM (fun t kv => combine_in_place Z.sub t (snd kv)) d town' end) as [t'|e];
        cbn [bind]; [|rewrite SUB; reflexivity].
      destruct SUB as (h4 & E4 & O4 & L4 & F4). rewrite E4. cbn [bind].
      assert (ON4 : owns h4 nm tn fpn).
      { split; [|apply ON3]. eapply reads_frame; [apply ON3 |]. intros z Hz. apply F4. intros Hz2. exact (DJ z Hz2 Hz). }
      assert (DJ' : disjoint fpn fpo) by (intros z Hz Hz2; exact (DJ z Hz2 Hz)).
      destruct (append_ok _ _ _ _ _ _ _ ON4 O4 DJ') as (h5 & E5 & L5 & F5 & fp5 & O5 & I5). rewrite E5. cbn [bind].
      exists h5, nm, fp5. split; [reflexivity |]. split; [exact O5 |].
      assert (FO0 : fresh h fpo) by (intros z Hz; specialize (FO z Hz); destruct G01; lia).
      split.
      { intros z Hz. apply I5 in Hz. apply in_app_or in Hz as [Hz | Hz]; auto. }
      { destruct G01 as (La & Ga), G2 as (Lb & Gb). split; [lia |]. intros x Hx _.
        assert (~ In x fpo) by (intros H; specialize (FO0 x H); lia).
        rewrite F5 by lia. rewrite F4, F3 by assumption. rewrite Gb; [|lia|intros []]. apply Ga; [exact Hx | intros []]. }
Qed.

(** *** reading the table *)
Fixpoint cv_value (l : list (Z * ctnode)) (kd : list Z * list (list Z * option Z)) :=
  match l with [] => Ok kd | (_, c) :: l' => kd' <- convert c (fst kd) (snd kd) ;; cv_value l' kd' end.
Definition cv_heap (fuel : nat) (h : heap) := fix go (l : list (Z * ref)) (kd : list Z * list (list Z * option Z)) {struct l} :=
  match l with [] => Ok kd | (_, c) :: l' => kd' <- h_convert fuel h c (fst kd) (snd kd) ;; go l' kd' end.
Lemma cv_heap_cons fuel h x c l kd : cv_heap fuel h ((x, c) :: l) kd = (kd' <- h_convert fuel h c (fst kd) (snd kd) ;; cv_heap fuel h l kd').
Proof. reflexivity. Qed.
Lemma convert_eq k v n ch key dict : convert (CT k v n ch) key dict =
  let key1 := if (v =? -1)%Z then key else key ++ [v] in
  '(key2, dict2) <- match ch with
    | None => match key1 with [] => Err IndexError
              | _ => Ok (key1, assoc_set (fun a b => if list_eq_dec Z.eq_dec a b then true else false) key1 n dict) end
    | Some d => cv_value d (key1, dict) end ;; Ok (removelast key2, dict2).
Proof. destruct ch; reflexivity. Qed.
Lemma h_convert_eq fuel h t key dict : h_convert (Datatypes.S fuel) h t key dict =
  match nth_error h t with
  | None => Err AttributeError
  | Some p => let key1 := if (n_value p =? -1)%Z then key else key ++ [n_value p] in
    '(key2, dict2) <- match n_children p with
      | None => match key1 with [] => Err IndexError
                | _ => Ok (key1, assoc_set (fun a b => if list_eq_dec Z.eq_dec a b then true else false) key1 (n_count p) dict) end
      | Some d => cv_heap fuel h d (key1, dict) end ;; Ok (removelast key2, dict2)
  end.
Proof. cbn [h_convert]. destruct (nth_error h t) as [p|]; [|reflexivity]. destruct (n_children p); reflexivity. Qed.
Lemma convert_ok h fuel : forall l t fp, reads h l t fp -> height t <= fuel -> forall key dict, h_convert fuel h l key dict = convert t key dict.
Proof.
  induction fuel as [|fuel IH]; intros l t fp R HH key dict.
  - destruct t. cbn in HH. lia.
  - rewrite h_convert_eq. inversion R; subst; rewrite H; cbn [n_value n_count n_children]; rewrite convert_eq; cbv zeta; [reflexivity |].
    rewrite height_children in HH. f_equal. clear R H.
    generalize ((if (v =? -1)%Z then key else key ++ [v]), dict) as kd. clear key dict.
    revert HH. induction H0 as [|x c d t ds fp fps RC RA IH2]; intros HH kd; [reflexivity |].
    rewrite cv_heap_cons. cbn [cv_value]. unfold list_max in HH. cbn [map fold_right snd] in HH.
    rewrite (IH _ _ _ RC) by lia. destruct (convert t (fst kd) (snd kd)); cbn [bind]; [|reflexivity].
    apply IH2. unfold list_max. lia.
Qed.

Lemma make_counts_ok D dyn vars t h :
  match make_counts D dyn vars t with
  | Ok (d, t') => exists h', h_make_counts D dyn vars t h = Ok (d, t', h') /\ grown h h' []
  | Err e => h_make_counts D dyn vars t h = Err e
  end.
Proof.
  unfold make_counts, h_make_counts. pose proof (mct_ok D dyn (sort_nat vars) t h) as B. unfold builds2 in B.
  destruct (mct D dyn (sort_nat vars) t) as [[ct t']|e]; cbn [bind]; [|rewrite B; reflexivity].
  destruct B as (h1 & l & fp & E & O & FR & G). rewrite E. cbn [bind].
  rewrite (convert_ok h1 (Datatypes.S (length h1)) l ct fp (proj1 O)) by (pose proof (owns_height _ _ _ _ O); lia).
  destruct (convert ct [] []) as [[k d]|e]; cbn [bind]; [|reflexivity]. exists h1. auto.
Qed.

(** *** sum and subtract *)
(** the value of the sum: an inner node has no count of its own *)
Fixpoint combine (op : Z -> Z -> Z) (t o : ctnode) {struct t} : res ctnode :=
  match t with CT k v n ch =>
    match ch with
    | None => match n, ct_count o with Some a, Some b => Ok (CT k v (Some (op a b)) None) | _, _ => Err TypeError end
    | Some d =>
      d' <- (fix go (l : list (Z * ctnode)) : res (list (Z * ctnode)) :=
               match l with
               | [] => Ok []
               | (x, c) :: l' =>
                 c' <- match ct_children o with
                       | None => Err TypeError
                       | Some od => match assoc Z.eqb x od with None => Ok c | Some oc => combine op c oc end
                       end ;;
                 r <- go l' ;; Ok ((x, c') :: r)
               end) d ;;
      Ok (CT k v None (Some d'))
    end
  end.
Definition cg_value (op : Z -> Z -> Z) (oc : option (list (Z * ctnode))) := fix go (l : list (Z * ctnode)) : res (list (Z * ctnode)) :=
  match l with
  | [] => Ok []
  | (x, c) :: l' =>
    c' <- match oc with
          | None => Err TypeError
          | Some od => match assoc Z.eqb x od with None => Ok c | Some oc => combine op c oc end
          end ;;
    r <- go l' ;; Ok ((x, c') :: r)
  end.
Lemma cg_value_cons op oc x c l : cg_value op oc ((x, c) :: l) =
  (c' <- match oc with None => Err TypeError | Some od => match assoc Z.eqb x od with None => Ok c | Some o => combine op c o end end ;;
   r <- cg_value op oc l ;; Ok ((x, c') :: r)).
Proof. reflexivity. Qed.
Lemma combine_eq op k v n ch o : combine op (CT k v n ch) o =
  match ch with
  | None => match n, ct_count o with Some a, Some b => Ok (CT k v (Some (op a b)) None) | _, _ => Err TypeError end
  | Some d => d' <- cg_value op (ct_children o) d ;; Ok (CT k v None (Some d'))
  end.
Proof. destruct ch; reflexivity. Qed.
Lemma combine_value op t o t' : combine op t o = Ok t' -> ct_value t' = ct_value t.
Proof.
  destruct t as [k v n [d|]]; rewrite combine_eq.
  - destruct (cg_value op (ct_children o) d); [|discriminate]. cbn. intros H; inversion H; reflexivity.
  - destruct n, (ct_count o); try discriminate. intros H; inversion H; reflexivity.
Qed.

Definition cg_heap (fuel : nat) (op : Z -> Z -> Z) (qch : option (list (Z * ref))) (s : ref) := fix go (d : list (Z * ref)) (h : heap) : heap * res ref :=
  match d with
  | [] => (h, Ok s)
  | (x, c) :: d' =>
    match qch with
    | None => (h, Err TypeError)
    | Some od =>
      match match assoc Z.eqb x od with None => (h, Ok c) | Some oc => h_combine fuel op h c oc end with
      | (h', Ok c') => match h_append_child h' s c' with Ok h'' => go d' h'' | Err e => (h', Err e) end
      | (h', Err e) => (h', Err e)
      end
    end
  end.
Lemma cg_heap_cons fuel op qch s x c d h : cg_heap fuel op qch s ((x, c) :: d) h =
    match qch with
    | None => (h, Err TypeError)
    | Some od =>
      match match assoc Z.eqb x od with None => (h, Ok c) | Some oc => h_combine fuel op h c oc end with
      | (h', Ok c') => match h_append_child h' s c' with Ok h'' => cg_heap fuel op qch s d h'' | Err e => (h', Err e) end
      | (h', Err e) => (h', Err e)
      end
    end.
Proof. reflexivity. Qed.
Lemma h_combine_eq fuel op h t o : h_combine (Datatypes.S fuel) op h t o =
  match nth_error h t, nth_error h o with
  | Some p, Some q =>
    match n_children p with
    | None => match n_count p, n_count q with
              | Some a, Some b => (h ++ [CN (n_col p) (n_value p) (Some (op a b)) None], Ok (length h))
              | _, _ => (h, Err TypeError)
              end
    | Some d => cg_heap fuel op (n_children q) (length h) d (h ++ [CN (n_col p) (n_value p) None None])
    end
  | _, _ => (h, Err AttributeError)
  end.
Proof. cbn [h_combine]. destruct (nth_error h t) as [p|], (nth_error h o) as [q|]; reflexivity. Qed.

(** old objects never change *)
Lemma combine_grows op fuel : forall h t o, grown h (fst (h_combine fuel op h t o)) [].
Proof.
  induction fuel as [|fuel IH]; intros h t o; [apply grown_refl |]. rewrite h_combine_eq.
  destruct (nth_error h t) as [p|]; [|apply grown_refl]. destruct (nth_error h o) as [q|]; [|apply grown_refl].
  assert (G0 : forall c, grown h (h ++ [c]) []).
  { intros c. split; [rewrite app_length; lia |]. intros x Hx _. now rewrite nth_error_app1. }
  destruct (n_children p) as [d|].
  2: { destruct (n_count p), (n_count q); try apply grown_refl. apply G0. }
  specialize (G0 (CN (n_col p) (n_value p) None None)). revert G0.
  generalize (h ++ [CN (n_col p) (n_value p) None None]) as h1.
  induction d as [|[x c] d IHd]; intros h1 G; [exact G |]. rewrite cg_heap_cons.
  destruct (n_children q) as [od|]; [|exact G].
  set (step := match assoc Z.eqb x od with None => (h1, Ok c) | Some oc => h_combine fuel op h1 c oc end : heap * res ref).
  assert (G2 : grown h (fst step) []).
  { unfold step. destruct (assoc Z.eqb x od) as [oc|]; [|exact G]. eapply grown_trans; [exact G | apply IH | intros z []]. }
  change (grown h (fst (match step with (h', Ok c') => match h_append_child h' (length h) c' with Ok h'' => cg_heap fuel op (Some od) (length h) d h'' | Err e => (h', Err e) end | (h', Err e) => (h', Err e) end)) []).
  destruct step as [h' [c'|e]]; [|exact G2].
  cbn [fst] in G2. unfold h_append_child. destruct (nth_error h' (length h)) as [ps|] eqn:Eps; [|exact G2].
  destruct (nth_error h' c') as [pc|]; [|exact G2]. apply IHd.
  destruct G2 as (L & G2). split; [now rewrite hset_length |]. intros z Hz Hn. rewrite hset_other by lia. auto.
Qed.

Lemma at_ref_cons h l x p : at_ref h l (x :: p) =
  match match nth_error h l with Some q => n_children q | None => None end with
  | Some d => match assoc Z.eqb x d with None => None | Some c => at_ref h c p end
  | None => None
  end.
Proof. cbn [at_ref]. destruct (nth_error h l) as [[k v n [d|]]|]; reflexivity. Qed.
Lemma reads_all_assoc h d ds fps x c : reads_all h d ds fps -> assoc Z.eqb x d = Some c -> exists t fp, reads h c t fp /\ incl fp fps.
Proof. intros RA E. pose proof (reads_assoc _ _ _ _ x RA) as H. rewrite E in H. destruct H as (t & fp & _ & R & I). eauto. Qed.
Lemma at_ref_frame h h' p : forall l t fp, reads h l t fp -> (forall z, In z fp -> nth_error h' z = nth_error h z) -> at_ref h' l p = at_ref h l p.
Proof.
  induction p as [|x p IH]; intros l t fp R F; [reflexivity |]. rewrite !at_ref_cons. rewrite (F l) by (eapply reads_root; exact R).
  destruct (reads_get _ _ _ _ R) as (q & Eq & _ & _ & CH & _). rewrite Eq. destruct (n_children q) as [d|]; [|reflexivity].
  destruct CH as (ds & fps & _ & RA & ->). destruct (assoc Z.eqb x d) as [c|] eqn:Ec; [|reflexivity].
  destruct (reads_all_assoc _ _ _ _ _ _ RA Ec) as (t' & fp' & R' & I'). eapply IH; [exact R' |]. intros z Hz. apply F. right. auto.
Qed.

Definition some_dict {A} (d : list A) : option (list A) := match d with [] => None | _ => Some d end.
(** an entry of the result's dictionary beside the entry of the left operand *)
Definition entry (h0 : heap) (od : list (Z * ref)) (h' : heap) (e e' : Z * ref) : Prop :=
  fst e' = fst e /\ match assoc Z.eqb (fst e) od with None => snd e' = snd e | Some oc => shares h0 (snd e) oc h' (snd e') end.

Definition combines (op : Z -> Z -> Z) (fuel : nat) : Prop := forall h lt t fpt lo o fpo,
  owns h lt t fpt -> well_keyed t -> reads h lo o fpo -> height t <= fuel ->
  match combine op t o with
  | Ok t' => exists h' l fp, h_combine fuel op h lt lo = (h', Ok l) /\ owns h' l t' fp /\ length h <= l /\ from h fpt fp /\ shares h lt lo h' l
  | Err e => exists h', h_combine fuel op h lt lo = (h', Err e)
  end.

Lemma entries_frame h0 od h1 h2 : forall b1 d1 bv bf, Forall2 (entry h0 od h1) d1 b1 -> reads_all h1 b1 bv bf ->
  (forall z, In z bf -> nth_error h2 z = nth_error h1 z) -> Forall2 (entry h0 od h2) d1 b1.
Proof.
  intros b1 d1 bv bf F. revert bv bf. induction F as [|[x c] [x' c'] d1 b1 (E1 & E2) F IH]; intros bv bf RA FR; [constructor |].
  cbn [fst snd] in *. inversion RA as [|? ? ? t ds fp fps RC RA']; subst. constructor.
  - split; [reflexivity |]. cbn [fst snd] in *. destruct (assoc Z.eqb x od); [|exact E2].
    intros p. specialize (E2 p). rewrite (at_ref_frame h1 h2 p c' t fp RC); [exact E2 |]. intros z Hz. apply FR, in_or_app; now left.
  - eapply IH; [eassumption |]. intros z Hz. apply FR, in_or_app; now right.
Qed.
Lemma reads_all_app h a b av bv af bf : reads_all h a av af -> reads_all h b bv bf -> reads_all h (a ++ b) (av ++ bv) (af ++ bf).
Proof. intros H. revert b bv bf. induction H; intros b bv bf HB; [exact HB |]. cbn [app]. rewrite <- app_assoc. constructor; auto. Qed.
Lemma assoc_set_fresh {V} x (v : V) d : ~ In x (map fst d) -> assoc_set Z.eqb x v d = d ++ [(x, v)].
Proof.
  intros H. apply assoc_set_none. induction d as [|[y w] d IH]; [reflexivity |]. cbn in H |- *.
  destruct (Z.eqb_spec x y); [subst; tauto |]. apply IH. tauto.
Qed.
Lemma Forall2_snoc {A B} (R : A -> B -> Prop) a b x y : Forall2 R a b -> R x y -> Forall2 R (a ++ [x]) (b ++ [y]).
Proof. intros H HR. apply Forall2_app; [exact H | constructor; [exact HR | constructor]]. Qed.

Lemma comb_loop_ok op fuel h0 s k v od ods ofps : combines op fuel -> reads_all h0 od ods ofps -> s = length h0 ->
  forall d ds fps, reads_all h0 d ds fps -> Forall (fun xc => fst xc = ct_value (snd xc) /\ well_keyed (snd xc)) ds ->
    list_max (map (fun xc => height (snd xc)) ds) <= fuel ->
  forall pre fpre h bref bval bfp,
    NoDup (map fst (pre ++ d)) -> NoDup (fpre ++ fps) -> map fst bref = map fst pre ->
    length h0 < length h -> (forall z, z < length h0 -> nth_error h z = nth_error h0 z) ->
    nth_error h s = Some (CN k v None (some_dict bref)) -> reads_all h bref bval bfp -> NoDup bfp -> ~ In s bfp ->
    (forall z, In z bfp -> In z fpre \/ length h0 <= z) -> (forall z, In z fpre -> z < length h0) -> Forall2 (entry h0 od h) pre bref ->
  match cg_value op (Some ods) ds with
  | Ok ds' => exists h' bref' bfp', cg_heap fuel op (Some od) s d h = (h', Ok s) /\
      nth_error h' s = Some (CN k v None (some_dict bref')) /\ reads_all h' bref' (bval ++ ds') bfp' /\ NoDup bfp' /\ ~ In s bfp' /\
      (forall z, In z bfp' -> In z (fpre ++ fps) \/ length h0 <= z) /\ Forall2 (entry h0 od h') (pre ++ d) bref'
  | Err e => exists h', cg_heap fuel op (Some od) s d h = (h', Err e)
  end.
Proof.
  intros IH RO Es. induction d as [|[x c] d IHd]; intros ds fps RA WK HH pre fpre h bref bval bfp ND NF MB LH FR0 EH RB NB NS FB FP FE;
    inversion RA as [|x' c' d' t ds0 fp fps0 RC RD]; subst ds fps; try subst x' c' d'.
  - cbn [cg_value]. exists h, bref, bfp. rewrite !app_nil_r. split; [reflexivity |]. do 4 (split; [assumption |]). split; [|assumption].
    intros z Hz. exact (FB z Hz).
  - rewrite cg_value_cons, cg_heap_cons. inversion WK as [|? ? (Wv & Wk) WK']; subst. cbn [fst snd] in Wv, Wk.
    unfold list_max in HH. cbn [map fold_right snd] in HH.
    assert (NFc : NoDup fp) by (apply NoDup_app_r in NF; apply NoDup_app_l in NF; exact NF).
    assert (LTc : forall z, In z fp -> z < length h0) by (intros z Hz; eapply reads_lt; eassumption).
    assert (RCh : reads h c t fp) by (eapply reads_frame; [exact RC | auto]).
    assert (NX : ~ In x (map fst bref)).
    { rewrite MB. rewrite map_app in ND. cbn [map fst] in ND. apply NoDup_remove_2 in ND. intros H. apply ND, in_or_app. now left. }
    pose proof (reads_assoc _ _ _ _ x RO) as AO.
    (* the child of the result *)
    set (step := match assoc Z.eqb x od with None => (h, Ok c) | Some oc => h_combine fuel op h c oc end : heap * res ref).
    assert (CH : match match assoc Z.eqb x ods with None => Ok t | Some o => combine op t o end with
      | Ok t' => exists h1 c' fp', step = (h1, Ok c') /\
          owns h1 c' t' fp' /\ (forall z, In z fp' -> In z fp \/ length h <= z) /\ ct_value t' = x /\ grown h h1 [] /\ entry h0 od h1 (x, c) (x, c')
      | Err e => exists h1, step = (h1, Err e)
      end).
    { unfold step. clear step. destruct (assoc Z.eqb x od) as [oc|] eqn:EO.
      - destruct AO as (ot & ofp & -> & ROC & IO).
        assert (ROh : reads h oc ot ofp).
        { eapply reads_frame; [exact ROC |]. intros z Hz. apply FR0. eapply reads_lt; eassumption. }
        pose proof (combine_grows op fuel h c oc) as GG.
        assert (Ht : height t <= fuel) by lia.
        pose proof (IH h c t fp oc ot ofp (conj RCh NFc) Wk ROh Ht) as C. destruct (combine op t ot) as [t'|e] eqn:Ec; [|exact C].
        destruct C as (h1 & c' & fp' & E1 & O1 & L1 & F1 & S1). rewrite E1 in GG. cbn [fst] in GG.
        exists h1, c', fp'. split; [exact E1 |]. split; [exact O1 |]. split; [exact F1 |]. split; [rewrite Wv; eapply combine_value; exact Ec |].
        split; [exact GG |]. split; [reflexivity |]. cbn [fst snd]. rewrite EO. intros p. specialize (S1 p).
        rewrite (at_ref_frame h0 h p c t fp RC) in S1 by auto.
        rewrite (at_ref_frame h0 h p oc ot ofp ROC) in S1 by (intros z Hz; apply FR0; eapply reads_lt; eassumption).
        destruct (at_ref h0 c p); [|exact S1]. destruct (at_ref h0 oc p); [|exact S1]. destruct S1 as (y & Y1 & Y2). exists y. split; [exact Y1 | lia].
      - rewrite AO. exists h, c, fp. split; [reflexivity |]. split; [split; assumption |]. split; [auto |]. split; [auto |]. split; [apply grown_refl |].
        split; [reflexivity |]. cbn [fst snd]. now rewrite EO. }
    change (match (c' <- match assoc Z.eqb x ods with None => Ok t | Some o => combine op t o end ;; r <- cg_value op (Some ods) ds0 ;; Ok ((x, c') :: r)) with
      | Ok ds' => exists h' bref' bfp', match step with
            | (h', Ok c') => match h_append_child h' (length h0) c' with Ok h'' => cg_heap fuel op (Some od) (length h0) d h'' | Err e => (h', Err e) end
            | (h', Err e) => (h', Err e) end = (h', Ok (length h0)) /\
          nth_error h' (length h0) = Some (CN k v None (some_dict bref')) /\ reads_all h' bref' (bval ++ ds') bfp' /\ NoDup bfp' /\ ~ In (length h0) bfp' /\
          (forall z, In z bfp' -> In z (fpre ++ fp ++ fps0) \/ length h0 <= z) /\ Forall2 (entry h0 od h') (pre ++ (x, c) :: d) bref'
      | Err e => exists h', match step with
            | (h', Ok c') => match h_append_child h' (length h0) c' with Ok h'' => cg_heap fuel op (Some od) (length h0) d h'' | Err e => (h', Err e) end
            | (h', Err e) => (h', Err e) end = (h', Err e)
      end).
    clearbody step.
    destruct (match assoc Z.eqb x ods with None => Ok t | Some o => combine op t o end) as [t'|e]; cbn [bind];
      [|destruct CH as (h1 & E1); rewrite E1; eexists; reflexivity].
    destruct CH as (h1 & c' & fp' & E1 & (R1 & N1) & F1 & V1 & (L1 & G1) & EN). rewrite E1.
    assert (LB : forall z, In z bfp -> z < length h).
    { intros z Hz. eapply Forall_forall with (P := fun z => z < length h); [eapply (proj2 (reads_bounds_both h)); exact RB | exact Hz]. }
    assert (EH1 : nth_error h1 (length h0) = Some (CN k v None (some_dict bref))) by (rewrite G1; [exact EH | exact LH | intros []]).
    assert (SP : ~ In (length h0) fp') by (intros H; destruct (F1 _ H) as [H2 | H2]; [specialize (LTc _ H2) | ]; lia).
    destruct (reads_get _ _ _ _ R1) as (pc & Epc & Vpc & _).
    unfold h_append_child. rewrite EH1, Epc. cbn [n_col n_value n_count n_children]. rewrite Vpc, V1.
    assert (ED : Some (match some_dict bref with None => [(x, c')] | Some d0 => assoc_set Z.eqb x c' d0 end) = some_dict (bref ++ [(x, c')])).
    { destruct bref as [|b0 bref]; [reflexivity |]. unfold some_dict at 1. rewrite assoc_set_fresh by exact NX. reflexivity. }
    rewrite ED. set (h2 := hset h1 (length h0) (CN k v None (some_dict (bref ++ [(x, c')])))) in *.
    assert (F2 : forall z, z <> length h0 -> nth_error h2 z = nth_error h1 z) by (intros z Hz; apply hset_other; exact Hz).
    assert (NSne : forall z, In z fp' -> z <> length h0) by (intros z Hz ->; contradiction).
    assert (NBne : forall z, In z bfp -> z <> length h0) by (intros z Hz ->; contradiction).
    assert (RB2 : reads_all h2 bref bval bfp).
    { eapply reads_all_frame; [exact RB |]. intros z Hz. rewrite F2 by auto. apply G1; [auto | intros []]. }
    assert (R2 : reads h2 c' t' fp') by (eapply reads_frame; [exact R1 |]; auto).
    assert (DJ : forall z, In z bfp -> ~ In z fp').
    { intros z Hz Hz2. destruct (F1 z Hz2) as [H | H]; [|specialize (LB z Hz); lia].
      destruct (FB z Hz) as [H2 | H2]; [|specialize (LTc z H); lia].
      apply (NoDup_app_disj _ _ z NF H2). apply in_or_app. now left. }
    specialize (IHd ds0 fps0 RD WK' ltac:(unfold list_max; lia) (pre ++ [(x, c)]) (fpre ++ fp) h2 (bref ++ [(x, c')]) (bval ++ [(x, t')]) (bfp ++ (fp' ++ []))).
    rewrite <- !app_assoc in IHd. cbn [app] in IHd.
    assert (P1 : map fst (bref ++ [(x, c')]) = map fst (pre ++ [(x, c)])) by (rewrite !map_app, MB; reflexivity).
    assert (P2 : length h0 < length h2) by (unfold h2; rewrite hset_length; lia).
    assert (P3 : forall z, z < length h0 -> nth_error h2 z = nth_error h0 z).
    { intros z Hz. rewrite F2 by lia. rewrite G1; [auto | lia | intros []]. }
    assert (P4 : nth_error h2 (length h0) = Some (CN k v None (some_dict (bref ++ [(x, c')])))) by (apply hset_same; lia).
    assert (P5 : reads_all h2 (bref ++ [(x, c')]) (bval ++ [(x, t')]) (bfp ++ fp' ++ [])).
    { apply reads_all_app; [exact RB2 |]. constructor; [exact R2 | constructor]. }
    assert (P6 : NoDup (bfp ++ fp' ++ [])) by (rewrite app_nil_r; apply NoDup_app_make; assumption).
    assert (P7 : ~ In (length h0) (bfp ++ fp' ++ [])) by (rewrite app_nil_r; intros H; apply in_app_or in H as [H | H]; contradiction).
    assert (P8 : forall z, In z (bfp ++ fp' ++ []) -> In z (fpre ++ fp) \/ length h0 <= z).
    { rewrite app_nil_r. intros z Hz. apply in_app_or in Hz as [Hz | Hz].
      - destruct (FB z Hz); [left; apply in_or_app; now left | now right].
      - destruct (F1 z Hz); [left; apply in_or_app; now right | right; lia]. }
    assert (P9 : forall z, In z (fpre ++ fp) -> z < length h0) by (intros z Hz; apply in_app_or in Hz as [Hz | Hz]; auto).
    assert (P10 : Forall2 (entry h0 od h2) (pre ++ [(x, c)]) (bref ++ [(x, c')])).
    { apply Forall2_snoc.
      - eapply entries_frame; [exact FE | exact RB |]. intros z Hz. rewrite F2 by auto. apply G1; [auto | intros []].
      - destruct EN as (_ & EN). split; [reflexivity |]. cbn [fst snd] in *. destruct (assoc Z.eqb x od); [|exact EN].
        intros p. specialize (EN p). rewrite (at_ref_frame h1 h2 p c' t' fp' R1) by auto. exact EN. }
    specialize (IHd ND NF P1 P2 P3 P4 P5 P6 P7 P8 P9 P10).
    destruct (cg_value op (Some ods) ds0) as [ds'|e]; cbn [bind]; [|exact IHd].
    destruct IHd as (h3 & bref' & bfp' & Q1 & Q2 & Q3 & Q4 & Q5 & Q6 & Q7). exists h3, bref', bfp'.
    rewrite <- app_assoc in Q3. cbn [app] in Q3. auto 10.
Qed.

Lemma entry_assoc h0 od h' x : forall d b, Forall2 (entry h0 od h') d b ->
  match assoc Z.eqb x d with
  | None => assoc Z.eqb x b = None
  | Some c => exists c', assoc Z.eqb x b = Some c' /\ match assoc Z.eqb x od with None => c' = c | Some oc => shares h0 c oc h' c' end
  end.
Proof.
  induction 1 as [|[y c] [y' c'] d b (E1 & E2) F IH]; [reflexivity |]. cbn [fst snd] in *. subst y'. cbn [assoc].
  destruct (Z.eqb_spec x y); [subst; eauto | exact IH].
Qed.

Lemma combine_ok op : forall fuel, combines op fuel.
Proof.
  induction fuel as [|fuel IH]; intros h lt t fpt lo o fpo O WK RO HH; [destruct t; cbn in HH; lia |].
  rewrite h_combine_eq. destruct (reads_get _ _ _ _ (proj1 O)) as (p & Ep & Vp & Np & CHp & Kp).
  destruct (reads_get _ _ _ _ RO) as (q & Eq & Vq & Nq & CHq & _). rewrite Ep, Eq.
  destruct t as [k v n ch]. cbn [ct_value ct_count ct_children] in *. destruct p as [pk pv pn pch]. cbn [n_col n_value n_count n_children] in *. subst pk pv pn.
  rewrite combine_eq. pose proof O as (R & ND).
  assert (Llt : lt < length h) by (apply nth_error_Some; congruence).
  destruct pch as [d|].
  - destruct CHp as (ds & fps & -> & RA & ->). inversion WK as [? ? ? ? W]; subst. destruct (W ds eq_refl) as (NE & NDk & WF).
    rewrite height_children in HH.
    set (h1 := h ++ [CN k v None None]).
    assert (Lh1 : length h1 = Datatypes.S (length h)) by (unfold h1; rewrite app_length; cbn; lia).
    assert (F1 : forall z, z < length h -> nth_error h1 z = nth_error h z) by (intros z Hz; unfold h1; now rewrite nth_error_app1).
    assert (KEYS : map fst ds = map fst d).
    { clear - RA. induction RA; [reflexivity |]. cbn. now rewrite IHRA. }
    destruct (n_children q) as [od|] eqn:Eqc.
    + destruct CHq as (ods & ofps & -> & RAo & ->).
      pose proof (comb_loop_ok op fuel h (length h) k v od ods ofps IH RAo eq_refl d ds fps RA WF ltac:(lia) [] [] h1 [] [] []) as L.
      cbn [app map] in L.
      specialize (L ltac:(rewrite <- KEYS; exact NDk) ltac:(inversion ND; assumption) eq_refl ltac:(lia) F1).
      specialize (L ltac:(unfold h1; rewrite nth_error_app2, Nat.sub_diag by lia; reflexivity) ltac:(constructor) ltac:(constructor) ltac:(intros []) ltac:(intros z []) ltac:(intros z []) ltac:(constructor)).
      destruct (cg_value op (Some ods) ds) as [ds'|e]; cbn [bind]; [|exact L].
      destruct L as (h' & bref & bfp & E & Es & RB & NB & NS & FB & FE). exists h', (length h), (length h :: bfp).
      split; [exact E |].
      assert (NEb : some_dict bref = Some bref).
      { destruct bref; [|reflexivity]. inversion FE; subst. inversion RA; subst. contradiction. }
      rewrite NEb in Es.
      split; [split; [econstructor; eassumption | constructor; assumption] |]. split; [lia |].
      split.
      { intros z [<- | Hz]; [right; lia |]. destruct (FB z Hz) as [H | H]; [left; now right | auto]. }
      intros [|x p].
      { cbn [at_ref]. exists (length h). auto. }
      rewrite !at_ref_cons. rewrite Ep, Eq, Es. cbn [n_children].
      pose proof (entry_assoc h od h' x d bref FE) as EA.
      rewrite Eqc.
      destruct (assoc Z.eqb x d) as [c|] eqn:Ed; [|rewrite EA; reflexivity].
      destruct EA as (c' & -> & EA).
      destruct (assoc Z.eqb x od) as [oc|]; [exact (EA p) |]. subst c'.
      pose proof (combine_grows op (Datatypes.S fuel) h lt lo) as GG. rewrite h_combine_eq, Ep, Eq, Eqc in GG. cbn [n_children n_col n_value] in GG.
      fold h1 in GG. rewrite E in GG. cbn [fst] in GG.
      destruct (reads_all_assoc _ _ _ _ _ _ RA Ed) as (tc & fpc & RC & IC).
      rewrite (at_ref_frame h h' p c tc fpc RC).
      2: { intros z Hz. apply GG; [eapply reads_lt; [exact RC | exact Hz] | intros []]. }
      destruct (at_ref h c p); reflexivity.
    + destruct CHq as (-> & _). destruct d as [|[x c] d]; [inversion RA; subst; contradiction |].
      inversion RA; subst. rewrite cg_value_cons. cbn [bind]. rewrite cg_heap_cons. eexists; reflexivity.
  - destruct CHp as (-> & ->). rewrite <- Nq. destruct n as [a|]; [|eexists; reflexivity]. destruct (n_count q) as [b|]; [|eexists; reflexivity].
    exists (h ++ [CN k v (Some (op a b)) None]), (length h), [length h]. split; [reflexivity |].
    assert (En : nth_error (h ++ [CN k v (Some (op a b)) None]) (length h) = Some (CN k v (Some (op a b)) None)) by (rewrite nth_error_app2, Nat.sub_diag by lia; reflexivity).
    split; [split; [constructor; exact En | constructor; [intros [] | constructor]] |]. split; [lia |].
    split; [intros z [<- | []]; right; lia |].
    intros [|x p]; [cbn [at_ref]; eauto |]. rewrite !at_ref_cons, Ep, En. reflexivity.
Qed.

(** *** the counts of the result, path by path *)
Section Paths.
  Variable op : Z -> Z -> Z.
  Variable F : ctnode -> ctnode -> res ctnode.
  Variable keep : option Z -> option Z.
  Fixpoint g_value (oc : option (list (Z * ctnode))) (l : list (Z * ctnode)) : res (list (Z * ctnode)) :=
    match l with
    | [] => Ok []
    | (x, c) :: l' =>
      c' <- match oc with
            | None => Err TypeError
            | Some od => match assoc Z.eqb x od with None => Ok c | Some o => F c o end
            end ;;
      r <- g_value oc l' ;; Ok ((x, c') :: r)
    end.
  Hypothesis F_eq : forall k v n ch o, F (CT k v n ch) o =
    match ch with
    | None => match n, ct_count o with Some a, Some b => Ok (CT k v (Some (op a b)) None) | _, _ => Err TypeError end
    | Some d => d' <- g_value (ct_children o) d ;; Ok (CT k v (keep n) (Some d'))
    end.

  Lemma g_value_assoc od x : forall l r, g_value (Some od) l = Ok r ->
    map fst r = map fst l /\
    match assoc Z.eqb x l with
    | None => assoc Z.eqb x r = None
    | Some c => exists c', assoc Z.eqb x r = Some c' /\ match assoc Z.eqb x od with None => c' = c | Some o => F c o = Ok c' end
    end.
  Proof.
    induction l as [|[y c] l IH]; intros r H; cbn [g_value] in H.
    - inversion H; subst. split; reflexivity.
    - destruct (match assoc Z.eqb y od with None => Ok c | Some o => F c o end) as [c'|] eqn:E; [|discriminate]. cbn [bind] in H.
      destruct (g_value (Some od) l) as [r0|]; [|discriminate]. cbn [bind] in H. inversion H; subst r. specialize (IH r0 eq_refl) as (IH1 & IH2).
      cbn [map fst assoc]. split; [now rewrite IH1 |]. destruct (Z.eqb_spec x y); [|exact IH2]. subst y. exists c'. split; [reflexivity |].
      destruct (assoc Z.eqb x od); [exact E | inversion E; reflexivity].
  Qed.

  Lemma at_path_cons t x p : at_path t (x :: p) = match ct_children t with None => None | Some d => match assoc Z.eqb x d with None => None | Some c => at_path c p end end.
  Proof. reflexivity. Qed.

  Lemma F_combination : forall p a b r, F a b = Ok r ->
    match at_path a p with
    | None => at_path r p = None
    | Some na => exists nr, at_path r p = Some nr /\ ct_value nr = ct_value na /\ keys nr = keys na /\
        (ct_children na = None ->
           ct_count nr = match at_path b p with
                         | None => ct_count na
                         | Some nb => match ct_count na, ct_count nb with Some x, Some y => Some (op x y) | _, _ => None end
                         end)
    end.
  Proof.
    induction p as [|x p IH]; intros [k v n ch] b r H; rewrite F_eq in H.
    - cbn [at_path]. exists r. split; [reflexivity |]. destruct ch as [d|].
      + destruct (g_value (ct_children b) d) as [d'|] eqn:E; [|discriminate]. cbn [bind] in H. inversion H; subst. cbn [ct_value ct_children keys option_map].
        split; [reflexivity |]. split; [|discriminate]. unfold keys. cbn [ct_children option_map]. f_equal. destruct (ct_children b) as [od|].
        * apply (g_value_assoc od 0%Z d d' E).
        * destruct d as [|[y c] d]; [inversion E; reflexivity | discriminate].
      + destruct n as [m|], (ct_count b) as [m'|] eqn:Ec; try discriminate. inversion H; subst. cbn. rewrite ?Ec. auto.
    - rewrite !at_path_cons. cbn [ct_children]. destruct ch as [d|].
      + destruct (g_value (ct_children b) d) as [d'|] eqn:E; [|discriminate]. cbn [bind] in H. inversion H; subst. cbn [ct_children].
        destruct (ct_children b) as [od|].
        * destruct (g_value_assoc od x d d' E) as (_ & A). destruct (assoc Z.eqb x d) as [c|]; [|now rewrite A].
          destruct A as (c' & -> & A). destruct (assoc Z.eqb x od) as [o|]; [apply IH, A |]. subst c'.
          destruct (at_path c p) as [na|]; [|reflexivity]. exists na. auto.
        * destruct d as [|[y c] d]; [inversion E; reflexivity | discriminate].
      + destruct n as [m|], (ct_count b) as [m'|] eqn:Ec; try discriminate. inversion H; subst. reflexivity.
  Qed.

  Lemma wk_inv k v n d : well_keyed (CT k v n (Some d)) -> d <> [] /\ NoDup (map fst d) /\ Forall (fun xc => fst xc = ct_value (snd xc) /\ well_keyed (snd xc)) d.
  Proof. intros H. inversion H as [? ? ? ? W]; subst. apply W; reflexivity. Qed.

  Lemma assoc_in {V} x (d : list (Z * V)) c : NoDup (map fst d) -> (In (x, c) d <-> assoc Z.eqb x d = Some c).
  Proof.
    induction d as [|[y w] d IH]; intros N; cbn [assoc In]; [split; [tauto | discriminate] |]. cbn in N. inversion N; subst.
    destruct (Z.eqb_spec x y) as [->|]; split.
    - intros [H | H]; [inversion H; reflexivity |]. exfalso. apply H1. apply (in_map fst) in H. exact H.
    - intros H; inversion H; now left.
    - intros [H | H]; [inversion H; congruence | apply IH; assumption].
    - intros H. right. apply IH; assumption.
  Qed.

  Lemma F_ok : forall m a b, height a <= m -> well_keyed a ->
    (exists r, F a b = Ok r) /\ combinable a b \/ F a b = Err TypeError /\ ~ combinable a b.
  Proof.
    induction m as [|m IH]; intros [k v n ch] b HH WK; [cbn in HH; lia |]. rewrite F_eq. destruct ch as [d|].
    - destruct (wk_inv _ _ _ _ WK) as (NE & ND & WF). rewrite height_children in HH.
      destruct (ct_children b) as [od|] eqn:Eb.
      2: { right. split; [destruct d as [|[x c] d]; [contradiction | reflexivity] |]. intros C. specialize (C [] _ _ eq_refl eq_refl). cbn in C. auto. }
      assert (L : (exists r, g_value (Some od) d = Ok r) /\ (forall x c o, In (x, c) d -> assoc Z.eqb x od = Some o -> combinable c o) \/
        g_value (Some od) d = Err TypeError /\ exists x c o, In (x, c) d /\ assoc Z.eqb x od = Some o /\ ~ combinable c o).
      { clear NE ND WK. induction d as [|[x c] d IHd]; [left; split; [exists []; reflexivity | intros ? ? ? []] |].
        unfold list_max in HH. cbn [map fold_right snd] in HH. inversion WF as [|? ? (_ & Wc) WF']; subst. cbn [snd] in Wc.
        specialize (IHd ltac:(unfold list_max; lia) WF'). cbn [g_value].
        destruct (assoc Z.eqb x od) as [o|] eqn:Ex.
        - destruct (IH c o ltac:(lia) Wc) as [((r & ->) & C) | (-> & C)].
          + cbn [bind]. destruct IHd as [((r' & ->) & C') | (-> & x' & c' & o' & I' & A' & N')].
            * left. cbn [bind]. split; [eauto |]. intros x' c' o' [E | Hin] A'; [inversion E; subst; rewrite Ex in A'; inversion A'; subst; exact C | eauto].
            * right. split; [reflexivity |]. exists x', c', o'. split; [now right | auto].
          + right. split; [reflexivity |]. exists x, c, o. split; [now left | auto].
        - cbn [bind]. destruct IHd as [((r' & ->) & C') | (-> & x' & c' & o' & I' & A' & N')].
          + left. cbn [bind]. split; [eauto |]. intros x' c' o' [E | Hin] A'; [inversion E; subst; congruence | eauto].
          + right. split; [reflexivity |]. exists x', c', o'. split; [now right | auto]. }
      destruct L as [((r & ->) & C) | (-> & x & c & o & Hin & Ho & NC)].
      + left. cbn [bind]. split; [eauto |]. intros [|x p] na nb Ha Hb.
        * inversion Ha; inversion Hb; subst. cbn. congruence.
        * rewrite at_path_cons in Ha, Hb. rewrite Eb in Hb. cbn [ct_children] in Ha. destruct (assoc Z.eqb x d) as [c|] eqn:Ed; [|discriminate].
          destruct (assoc Z.eqb x od) as [o|] eqn:Eo; [|discriminate]. apply (assoc_in x d c ND) in Ed. exact (C x c o Ed Eo p na nb Ha Hb).
      + right. split; [reflexivity |]. intros C. apply NC. intros p na nb Ha Hb. apply (C (x :: p) na nb); rewrite at_path_cons.
        * cbn [ct_children]. apply (assoc_in x d c ND) in Hin. now rewrite Hin.
        * now rewrite Eb, Ho.
    - destruct n as [a|]; [destruct (ct_count b) as [c|] eqn:Eb |].
      + left. split; [eauto |]. intros [|x p] na nb Ha Hb; [|discriminate]. inversion Ha; inversion Hb; subst. cbn. rewrite Eb. split; discriminate.
      + right. split; [reflexivity |]. intros C. specialize (C [] _ _ eq_refl eq_refl). cbn in C. tauto.
      + right. split; [reflexivity |]. intros C. specialize (C [] _ _ eq_refl eq_refl). cbn in C. tauto.
  Qed.
End Paths.

Lemma g_value_go op o d : g_value (combine_in_place op) (ct_children o) d = go_value op o d.
Proof. induction d as [|[x c] d IH]; [reflexivity |]. cbn [g_value go_value]. now rewrite IH. Qed.
Lemma g_value_cg op oc d : g_value (combine op) oc d = cg_value op oc d.
Proof. induction d as [|[x c] d IH]; [reflexivity |]. cbn [g_value]. rewrite cg_value_cons. now rewrite IH. Qed.
Lemma in_place_F op k v n ch o : combine_in_place op (CT k v n ch) o =
    match ch with
    | None => match n, ct_count o with Some a, Some b => Ok (CT k v (Some (op a b)) None) | _, _ => Err TypeError end
    | Some d => d' <- g_value (combine_in_place op) (ct_children o) d ;; Ok (CT k v n (Some d'))
    end.
Proof. rewrite combine_in_place_eq. destruct ch; [now rewrite g_value_go | reflexivity]. Qed.
Lemma combine_F op k v n ch o : combine op (CT k v n ch) o =
    match ch with
    | None => match n, ct_count o with Some a, Some b => Ok (CT k v (Some (op a b)) None) | _, _ => Err TypeError end
    | Some d => d' <- g_value (combine op) (ct_children o) d ;; Ok (CT k v None (Some d'))
    end.
Proof. rewrite combine_eq. destruct ch; [now rewrite g_value_cg | reflexivity]. Qed.

Lemma in_place_combination op a b r : combine_in_place op a b = Ok r -> combination op a b r.
Proof. intros H p. exact (F_combination op (combine_in_place op) (fun n => n) (in_place_F op) p a b r H). Qed.
Lemma combine_combination op a b r : combine op a b = Ok r -> combination op a b r.
Proof. intros H p. exact (F_combination op (combine op) (fun _ => None) (combine_F op) p a b r H). Qed.
Lemma in_place_outcome op a b : well_keyed a ->
  (exists r, combine_in_place op a b = Ok r) /\ combinable a b \/ combine_in_place op a b = Err TypeError /\ ~ combinable a b.
Proof. apply (F_ok op (combine_in_place op) (fun n => n) (in_place_F op) (height a)). lia. Qed.
Lemma combine_outcome op a b : well_keyed a ->
  (exists r, combine op a b = Ok r) /\ combinable a b \/ combine op a b = Err TypeError /\ ~ combinable a b.
Proof. apply (F_ok op (combine op) (fun _ => None) (combine_F op) (height a)). lia. Qed.

(** *** adding a tree to itself *)
Lemma self_in_place_ok op fuel : forall h lt t fpt, owns h lt t fpt -> well_keyed t -> height t <= fuel ->
  in_place h (h_combine_in_place fuel op h lt lt) fpt (combine_in_place op t t) (fun h' t' => reads h' lt t' fpt).
Proof.
  induction fuel as [|fuel IH]; intros h lt t fpt (R & ND) WK HH; [destruct t; cbn in HH; lia |].
  rewrite h_combine_in_place_eq. destruct (reads_get _ _ _ _ R) as (p & Ep & Vp & Np & CHp & Kp). rewrite Ep.
  assert (Ll : lt < length h) by (apply nth_error_Some; congruence).
  destruct t as [k v n ch]. destruct p as [pk pv pn pch]. cbn [ct_value ct_count ct_children n_col n_value n_count n_children] in *. subst pk pv pn.
  rewrite combine_in_place_eq. cbn [ct_count]. destruct pch as [d|].
  - destruct CHp as (ds & fps & -> & RA & ->). destruct (wk_inv _ _ _ _ WK) as (NE & NDk & WF). rewrite height_children in HH.
    inversion ND as [|? ? NL NF]; subst.
    assert (LOOP : forall d2 ds2 fps2 h2, reads_all h2 d2 ds2 fps2 -> (forall z, In z fps2 -> In z fps) -> NoDup fps2 ->
        (exists d1, d = d1 ++ d2) -> (exists ds1, ds = ds1 ++ ds2) -> nth_error h2 lt = Some (CN k v n (Some d)) -> length h2 = length h ->
        in_place h2 (go_heap fuel op lt d2 h2) fps2 (go_value op (CT k v n (Some ds)) ds2) (fun h' ds' => reads_all h' d2 ds' fps2)).
    { intros d2. induction d2 as [|[x c] d2 IHd]; intros ds2 fps2 h2 RA2 I2 N2 (d1 & Ed) (ds1 & Eds) Elt Lh;
        inversion RA2 as [|x' c' d' tc ds0 fpc fps0 RC RD]; subst ds2 fps2; try subst x' c' d'; cbn [go_heap go_value].
      - split; [reflexivity |]. split; [auto |]. split; [reflexivity | exact RA2].
      - rewrite Elt. cbn [n_children ct_children].
        assert (KD : map fst ds = map fst d) by (clear - RA; induction RA; [reflexivity |]; cbn; now rewrite IHRA).
        assert (A1 : assoc Z.eqb x d = Some c) by (apply assoc_in; [rewrite <- KD; exact NDk | rewrite Ed; apply in_or_app; right; now left]).
        assert (A2 : assoc Z.eqb x ds = Some tc) by (apply assoc_in; [exact NDk | rewrite Eds; apply in_or_app; right; now left]).
        rewrite A1, A2.
        assert (Wc : well_keyed tc /\ height tc <= fuel).
        { assert (Hin : In (x, tc) ds) by (rewrite Eds; apply in_or_app; right; now left).
          rewrite Forall_forall in WF. split; [apply (WF _ Hin) |].
          pose proof (proj1 (list_max_le (map (fun xc => height (snd xc)) ds) fuel) ltac:(lia)) as LM. rewrite Forall_forall in LM.
          apply (LM (height tc)). apply (in_map (fun xc => height (snd xc)) _ _ Hin). }
        pose proof (IH h2 c tc fpc (conj RC (NoDup_app_l _ _ N2)) (proj1 Wc) (proj2 Wc)) as (L3 & F3 & C3).
        destruct (h_combine_in_place fuel op h2 c c) as [h3 r3]. cbn [fst snd] in *.
        destruct (combine_in_place op tc tc) as [tc'|e]; cbn [bind].
        2: { subst r3. split; [exact L3 |]. split; [|reflexivity]. intros z Hz. apply F3. intros H. apply Hz, in_or_app. now left. }
        destruct C3 as (-> & R3).
        assert (RD3 : reads_all h3 d2 ds0 fps0).
        { eapply reads_all_frame; [exact RD |]. intros z Hz. apply F3. intros H. exact (NoDup_app_disj _ _ z N2 H Hz). }
        assert (Elt3 : nth_error h3 lt = Some (CN k v n (Some d))).
        { rewrite F3; [exact Elt |]. intros H. apply NL, I2, in_or_app. now left. }
        destruct (IHd ds0 fps0 h3 RD3 (fun z Hz => I2 z (in_or_app _ _ _ (or_intror Hz))) (NoDup_app_r _ _ N2)
                   ltac:(exists (d1 ++ [(x, c)]); rewrite <- app_assoc; exact Ed) ltac:(exists (ds1 ++ [(x, tc)]); rewrite <- app_assoc; exact Eds) Elt3 ltac:(lia)) as (L4 & F4 & C4).
        destruct (go_heap fuel op lt d2 h3) as [h4 r4]. cbn [fst snd] in *.
        split; [cbn [fst]; lia |]. split.
        { intros z Hz. cbn [fst]. rewrite F4, F3; [reflexivity | |]; intros H; apply Hz, in_or_app; auto. }
        destruct (go_value op (CT k v n (Some ds)) ds0) as [ds'|e]; cbn [bind snd fst]; [|exact C4].
        destruct C4 as (-> & R4). split; [reflexivity |]. constructor; [|exact R4].
        eapply reads_frame; [exact R3 |]. intros z Hz. apply F4. intros H. exact (NoDup_app_disj _ _ z N2 Hz H). }
    destruct (LOOP d ds fps h RA (fun z Hz => Hz) NF ltac:(exists []; reflexivity) ltac:(exists []; reflexivity) Ep eq_refl) as (L & FR & C).
    destruct (go_heap fuel op lt d h) as [h' r]. cbn [fst snd] in *. split; [exact L |].
    split; [intros z Hz; apply FR; intros H; apply Hz; now right |].
    destruct (go_value op (CT k v n (Some ds)) ds) as [ds'|e]; cbn [bind snd fst]; [|exact C].
    destruct C as (-> & RA'). split; [reflexivity |]. econstructor; [|exact RA']. rewrite FR by exact NL. exact Ep.
  - destruct CHp as (-> & ->). destruct n as [a|]; [|split; [reflexivity |]; split; [reflexivity | reflexivity]].
    cbn [fst snd in_place]. split; [apply hset_length |]. split; [intros z Hz; apply hset_other; intros ->; apply Hz; now left |].
    split; [reflexivity |]. constructor. apply hset_same. exact Ll.
Qed.

(** *** histories *)
Lemma do_calls_ok D dyn : forall cs t h,
  match do_calls D dyn cs t with
  | Ok (l, t') => exists h', h_do_calls D dyn cs t h = Ok (l, t', h') /\ grown h h' []
  | Err e => h_do_calls D dyn cs t h = Err e
  end.
Proof.
  induction cs as [|c cs IH]; intros t h; cbn [do_calls h_do_calls].
  - exists h. split; [reflexivity | apply grown_refl].
  - assert (S : match do_call D dyn c t with
      | Ok (a, t1) => exists h1, (match c with
                    | CCount q => '(n, t') <- query_count D dyn q t ;; Ok (ACount n, t', h)
                    | CCounts vars => '(d, t', h') <- h_make_counts D dyn vars t h ;; Ok (ACounts d, t', h')
                    | CReload => Ok (ANone, pickle_roundtrip dyn t, h)
                    end) = Ok (a, t1, h1) /\ grown h h1 []
      | Err e => (match c with
                    | CCount q => '(n, t') <- query_count D dyn q t ;; Ok (ACount n, t', h)
                    | CCounts vars => '(d, t', h') <- h_make_counts D dyn vars t h ;; Ok (ACounts d, t', h')
                    | CReload => Ok (ANone, pickle_roundtrip dyn t, h)
                    end) = Err e end).
    { destruct c as [q|vars|]; cbn [do_call].
      - destruct (query_count D dyn q t) as [[n t']|e]; cbn [bind]; [|reflexivity]. exists h. split; [reflexivity | apply grown_refl].
      - pose proof (make_counts_ok D dyn vars t h) as M. destruct (make_counts D dyn vars t) as [[d t']|e]; cbn [bind]; [|now rewrite M].
        destruct M as (h1 & -> & G). cbn [bind]. exists h1. split; [reflexivity | exact G].
      - exists h. split; [reflexivity | apply grown_refl]. }
    destruct (do_call D dyn c t) as [[a t1]|e]; cbn [bind]; [|rewrite S; reflexivity]. destruct S as (h1 & -> & G). cbn [bind].
    specialize (IH t1 h1). destruct (do_calls D dyn cs t1) as [[l t2]|e]; cbn [bind]; [|rewrite IH; reflexivity].
    destruct IH as (h2 & -> & G2). cbn [bind]. exists h2. split; [reflexivity |]. eapply grown_trans; [exact G | exact G2 | intros z []].
Qed.
