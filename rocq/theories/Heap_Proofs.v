(** Proofs about datasets with object identity. *)
From Coq Require Import String.
From Verif Require Import Base Matrix_Model Heap_Model Heap_Spec.

Lemma modify_length {A} i f (l : list A) : length (modify i f l) = length l.
Proof. revert i; induction l as [|x l IH]; intros [|i]; simpl; auto. Qed.
Lemma nth_error_modify {A} i f (l : list A) j :
  nth_error (modify i f l) j = if j =? i then option_map f (nth_error l j) else nth_error l j.
Proof.
  revert i j; induction l as [|x l IH]; intros [|i] [|j]; simpl; auto.
  - destruct (j =? i); reflexivity.
Qed.
Lemma nth_modify {A} i f (l : list A) j d : i < length l ->
  nth j (modify i f l) d = if j =? i then f (nth j l d) else nth j l d.
Proof.
  revert i j; induction l as [|x l IH]; intros [|i] [|j] H; simpl in *; auto; try lia.
  apply IH; lia.
Qed.
Lemma modify_modify {A} i f g (l : list A) : modify i g (modify i f l) = modify i (fun x => g (f x)) l.
Proof. revert i; induction l as [|x l IH]; intros [|i]; simpl; f_equal; auto. Qed.

(** setters by attribute *)
Definition bind_labels (which : labels) (l : loc) (h : hds) : hds :=
  match which with RowLabels => bind_rows l h | LabelsX => bind_lx l h | LabelsY => bind_ly l h end.
Definition bind_matrix (s : side) (l : loc) (h : hds) : hds :=
  match s with SideX => bind_X l h | SideY => bind_Y l h end.
Definition put_labels (which : labels) (d : dmatrix) (l : list text) : dmatrix :=
  match which with RowLabels => set_row_labels d l | LabelsX => set_labels_X d l | LabelsY => set_labels_Y d l end.
Definition put_matrix (s : side) (d : dmatrix) (m : smat) : dmatrix :=
  match s with SideX => set_X d m | SideY => set_Y d m end.

Lemma labels_bind_labels which l h a : {a = which} + {a <> which} ->
  h_labels a (bind_labels which l h) = if match a, which with RowLabels, RowLabels | LabelsX, LabelsX | LabelsY, LabelsY => true | _, _ => false end then l else h_labels a h.
Proof. destruct a, which; reflexivity. Qed.
Lemma labels_dec (a b : labels) : {a = b} + {a <> b}. Proof. decide equality. Qed.
Lemma side_dec (a b : side) : {a = b} + {a <> b}. Proof. decide equality. Qed.
Lemma labels_bind_same which l h : h_labels which (bind_labels which l h) = l. Proof. destruct which; reflexivity. Qed.
Lemma labels_bind_other which a l h : a <> which -> h_labels a (bind_labels which l h) = h_labels a h.
Proof. destruct which, a; intros H; try reflexivity; congruence. Qed.
Lemma matrix_bind_labels which s l h : h_matrix s (bind_labels which l h) = h_matrix s h.
Proof. destruct which, s; reflexivity. Qed.
Lemma matrix_bind_same s l h : h_matrix s (bind_matrix s l h) = l. Proof. destruct s; reflexivity. Qed.
Lemma matrix_bind_other s t l h : t <> s -> h_matrix t (bind_matrix s l h) = h_matrix t h.
Proof. destruct s, t; intros H; try reflexivity; congruence. Qed.
Lemma labels_bind_matrix s a l h : h_labels a (bind_matrix s l h) = h_labels a h.
Proof. destruct s, a; reflexivity. Qed.

(** the contents only depend on what the references point to *)
Lemma content_ext w w' h : (forall a, get_list w' (h_labels a h) = get_list w (h_labels a h)) ->
  (forall s, get_mat w' (h_matrix s h) = get_mat w (h_matrix s h)) -> content w' h = content w h.
Proof.
  intros HL HM. unfold content.
  pose proof (HL RowLabels) as H1. pose proof (HL LabelsX) as H2. pose proof (HL LabelsY) as H3.
  pose proof (HM SideX) as H4. pose proof (HM SideY) as H5. cbn [h_labels h_matrix] in *. congruence.
Qed.

(** a state in which dataset [i] has the attributes [h] and shows [d] *)
Definition stands (w : world) (i : nat) (h : hds) (d : dmatrix) : Prop :=
  separate w /\ nth_error (w_ds w) i = Some h /\ content w h = d.
(** nothing else changed *)
Definition others (w w' : world) (i : nat) : Prop :=
  (forall j, j <> i -> observe w' j = observe w j) /\ w_vars w' = w_vars w /\ length (w_ds w') = length (w_ds w) /\
  (forall j, j <> i -> nth_error (w_ds w') j = nth_error (w_ds w) j).
Lemma others_refl w i : others w w i. Proof. unfold others; auto. Qed.
Lemma others_trans w1 w2 w3 i : others w1 w2 i -> others w2 w3 i -> others w1 w3 i.
Proof.
  intros (A1 & B1 & C1 & D1) (A2 & B2 & C2 & D2). unfold others; repeat split; try congruence.
  - intros j Hj. rewrite A2, A1; auto.
  - intros j Hj. rewrite D2, D1; auto.
Qed.

(** *** the primitive statements *)
Lemma prim_rebind_new_list w i h d which c : stands w i h d ->
  stands (rebind (fst (new_list w c)) i (bind_labels which (snd (new_list w c)))) i
         (bind_labels which (length (w_lists w)) h) (put_labels which d c) /\
  others w (rebind (fst (new_list w c)) i (bind_labels which (snd (new_list w c)))) i.
Proof.
  intros (SEP & E & C). destruct SEP as (S1 & S2 & S3 & S4).
  set (L := length (w_lists w)).
  assert (GL : forall l, l < L -> get_list (rebind (fst (new_list w c)) i (bind_labels which (snd (new_list w c)))) l = get_list w l).
  { intros l Hl. unfold get_list; cbn. apply app_nth1; exact Hl. }
  assert (GN : get_list (rebind (fst (new_list w c)) i (bind_labels which (snd (new_list w c)))) L = c).
  { unfold get_list; cbn. subst L. rewrite app_nth2, Nat.sub_diag by lia. reflexivity. }
  assert (NE : forall j h', nth_error (modify i (bind_labels which L) (w_ds w)) j = Some h' ->
             (j <> i /\ nth_error (w_ds w) j = Some h') \/ (j = i /\ h' = bind_labels which L h)).
  { intros j h' H. rewrite nth_error_modify in H. destruct (Nat.eqb_spec j i) as [-> | N].
    - rewrite E in H; cbn in H. right; split; congruence.
    - left; auto. }
  split.
  - split; [|split].
    + split; [|split; [|split]]; cbn.
      * intros j h' a H. rewrite app_length; cbn. apply NE in H as [(N & H) | (-> & ->)].
        { specialize (S1 _ _ a H). fold L. lia. }
        { destruct (labels_dec a which) as [-> | Na].
          - rewrite labels_bind_same; subst L; lia.
          - rewrite labels_bind_other by exact Na. specialize (S1 _ _ a E). lia. }
      * intros j h' s H. apply NE in H as [(N & H) | (-> & ->)]; [eapply S2; eauto |].
        rewrite matrix_bind_labels. eapply S2; eauto.
      * intros j k h1 h2 a b H1 H2 EQ. fold L in H1, H2.
        apply NE in H1 as [(N1 & H1) | (-> & ->)]; apply NE in H2 as [(N2 & H2) | (-> & ->)].
        { eapply S3; eauto. }
        { destruct (labels_dec b which) as [-> | Nb].
          - rewrite labels_bind_same in EQ. specialize (S1 _ _ a H1). fold L in S1; lia.
          - rewrite labels_bind_other in EQ by exact Nb. destruct (S3 _ _ _ _ _ _ H1 E EQ) as (? & ?); congruence. }
        { destruct (labels_dec a which) as [-> | Na].
          - rewrite labels_bind_same in EQ. specialize (S1 _ _ b H2). fold L in S1; lia.
          - rewrite labels_bind_other in EQ by exact Na. destruct (S3 _ _ _ _ _ _ E H2 EQ) as (? & ?); congruence. }
        { destruct (labels_dec a which) as [-> | Na], (labels_dec b which) as [-> | Nb]; auto.
          - rewrite labels_bind_same, labels_bind_other in EQ by exact Nb. specialize (S1 _ _ b E). fold L in S1; lia.
          - rewrite labels_bind_same, labels_bind_other in EQ by exact Na. specialize (S1 _ _ a E). fold L in S1; lia.
          - rewrite !labels_bind_other in EQ by assumption. destruct (S3 _ _ _ _ _ _ E E EQ) as (_ & ?); subst; auto. }
      * intros j k h1 h2 s t H1 H2 EQ. fold L in H1, H2.
        apply NE in H1 as [(N1 & H1) | (-> & ->)]; apply NE in H2 as [(N2 & H2) | (-> & ->)];
          rewrite ?matrix_bind_labels in EQ; eapply S4; eauto.
    + cbn. rewrite nth_error_modify, Nat.eqb_refl, E. reflexivity.
    + pose proof (S1 _ _ RowLabels E) as B1. pose proof (S1 _ _ LabelsX E) as B2. pose proof (S1 _ _ LabelsY E) as B3. cbn [h_labels] in *.
      subst d. fold L. unfold content.
      destruct which; cbn [bind_labels bind_rows bind_lx bind_ly h_label h_X h_Y h_rows h_lx h_ly h_final put_labels
        set_row_labels set_labels_X set_labels_Y dm_label dm_X dm_Y dm_row_labels dm_labels_X dm_labels_Y dm_final] in *;
        rewrite GN, !GL by assumption; reflexivity.
  - split; [|split; [|split]]; cbn; auto.
    + intros j Hj. unfold observe; cbn. rewrite nth_error_modify. destruct (Nat.eqb_spec j i) as [-> | _]; [congruence |].
      destruct (nth_error (w_ds w) j) as [h'|] eqn:Ej; cbn; [|reflexivity]. f_equal.
      apply content_ext; [|reflexivity]. intros a. apply GL. apply (S1 _ _ a Ej).
    + apply modify_length.
    + intros j Hj. rewrite nth_error_modify. destruct (Nat.eqb_spec j i); [congruence | reflexivity].
Qed.

Lemma prim_rebind_new_mat w i h d s m : stands w i h d ->
  stands (rebind (fst (new_mat w m)) i (bind_matrix s (snd (new_mat w m)))) i
         (bind_matrix s (length (w_mats w)) h) (put_matrix s d m) /\
  others w (rebind (fst (new_mat w m)) i (bind_matrix s (snd (new_mat w m)))) i.
Proof.
  intros (SEP & E & C). destruct SEP as (S1 & S2 & S3 & S4).
  set (L := length (w_mats w)).
  assert (GL : forall l, l < L -> get_mat (rebind (fst (new_mat w m)) i (bind_matrix s (snd (new_mat w m)))) l = get_mat w l).
  { intros l Hl. unfold get_mat; cbn. apply app_nth1; exact Hl. }
  assert (GN : get_mat (rebind (fst (new_mat w m)) i (bind_matrix s (snd (new_mat w m)))) L = m).
  { unfold get_mat; cbn. subst L. rewrite app_nth2, Nat.sub_diag by lia. reflexivity. }
  assert (NE : forall j h', nth_error (modify i (bind_matrix s L) (w_ds w)) j = Some h' ->
             (j <> i /\ nth_error (w_ds w) j = Some h') \/ (j = i /\ h' = bind_matrix s L h)).
  { intros j h' H. rewrite nth_error_modify in H. destruct (Nat.eqb_spec j i) as [-> | N].
    - rewrite E in H; cbn in H. right; split; congruence.
    - left; auto. }
  split.
  - split; [|split].
    + split; [|split; [|split]]; cbn.
      * intros j h' a H. apply NE in H as [(N & H) | (-> & ->)]; [eapply S1; eauto |].
        rewrite labels_bind_matrix. eapply S1; eauto.
      * intros j h' a H. rewrite app_length; cbn. apply NE in H as [(N & H) | (-> & ->)].
        { specialize (S2 _ _ a H). fold L. lia. }
        { destruct (side_dec a s) as [-> | Na].
          - rewrite matrix_bind_same; subst L; lia.
          - rewrite matrix_bind_other by exact Na. specialize (S2 _ _ a E). lia. }
      * intros j k h1 h2 a b H1 H2 EQ. fold L in H1, H2.
        apply NE in H1 as [(N1 & H1) | (-> & ->)]; apply NE in H2 as [(N2 & H2) | (-> & ->)];
          rewrite ?labels_bind_matrix in EQ; eapply S3; eauto.
      * intros j k h1 h2 a b H1 H2 EQ. fold L in H1, H2.
        apply NE in H1 as [(N1 & H1) | (-> & ->)]; apply NE in H2 as [(N2 & H2) | (-> & ->)].
        { eapply S4; eauto. }
        { destruct (side_dec b s) as [-> | Nb].
          - rewrite matrix_bind_same in EQ. specialize (S2 _ _ a H1). fold L in S2; lia.
          - rewrite matrix_bind_other in EQ by exact Nb. destruct (S4 _ _ _ _ _ _ H1 E EQ) as (? & ?); congruence. }
        { destruct (side_dec a s) as [-> | Na].
          - rewrite matrix_bind_same in EQ. specialize (S2 _ _ b H2). fold L in S2; lia.
          - rewrite matrix_bind_other in EQ by exact Na. destruct (S4 _ _ _ _ _ _ E H2 EQ) as (? & ?); congruence. }
        { destruct (side_dec a s) as [-> | Na], (side_dec b s) as [-> | Nb]; auto.
          - rewrite matrix_bind_same, matrix_bind_other in EQ by exact Nb. specialize (S2 _ _ b E). fold L in S2; lia.
          - rewrite matrix_bind_same, matrix_bind_other in EQ by exact Na. specialize (S2 _ _ a E). fold L in S2; lia.
          - rewrite !matrix_bind_other in EQ by assumption. destruct (S4 _ _ _ _ _ _ E E EQ) as (_ & ?); subst; auto. }
    + cbn. rewrite nth_error_modify, Nat.eqb_refl, E. reflexivity.
    + pose proof (S2 _ _ SideX E) as B1. pose proof (S2 _ _ SideY E) as B2. cbn [h_matrix] in *.
      subst d. fold L. unfold content.
      destruct s; cbn [bind_matrix bind_X bind_Y h_label h_X h_Y h_rows h_lx h_ly h_final put_matrix
        set_X set_Y dm_label dm_X dm_Y dm_row_labels dm_labels_X dm_labels_Y dm_final] in *;
        rewrite GN, !GL by assumption; reflexivity.
  - split; [|split; [|split]]; cbn; auto.
    + intros j Hj. unfold observe; cbn. rewrite nth_error_modify. destruct (Nat.eqb_spec j i) as [-> | _]; [congruence |].
      destruct (nth_error (w_ds w) j) as [h'|] eqn:Ej; cbn; [|reflexivity]. f_equal.
      apply content_ext; [reflexivity |]. intros a. apply GL. apply (S2 _ _ a Ej).
    + apply modify_length.
    + intros j Hj. rewrite nth_error_modify. destruct (Nat.eqb_spec j i); [congruence | reflexivity].
Qed.

Lemma prim_put_list w i h d which c : stands w i h d ->
  stands (put_list w (h_labels which h) c) i h (put_labels which d c) /\
  others w (put_list w (h_labels which h) c) i.
Proof.
  intros (SEP & E & C). pose proof SEP as (S1 & S2 & S3 & S4).
  pose proof (S1 _ _ which E) as B.
  assert (GL : forall l, get_list (put_list w (h_labels which h) c) l = if l =? h_labels which h then c else get_list w l).
  { intros l. unfold get_list; cbn. rewrite nth_modify by exact B. reflexivity. }
  split.
  - split; [|split]; [|exact E|].
    + unfold separate, put_list; cbn. rewrite modify_length. exact SEP.
    + subst d.
      assert (forall a, get_list (put_list w (h_labels which h) c) (h_labels a h) = if labels_dec a which then c else get_list w (h_labels a h)) as GA.
      { intros a. rewrite GL. destruct (labels_dec a which) as [-> | N]; [now rewrite Nat.eqb_refl |].
        destruct (Nat.eqb_spec (h_labels a h) (h_labels which h)) as [EQ | _]; [|reflexivity].
        exfalso. apply N. edestruct S3 as (_ & ?); [exact E | exact E | exact EQ | assumption]. }
      pose proof (GA RowLabels) as G1. pose proof (GA LabelsX) as G2. pose proof (GA LabelsY) as G3.
      unfold content. destruct which; cbn [h_labels] in *;
      repeat match goal with H : context[labels_dec ?a ?b] |- _ => destruct (labels_dec a b); try congruence end;
      rewrite G1, G2, G3; reflexivity.
  - split; [|split; [|split]]; auto.
    intros j Hj. unfold observe; cbn.
    destruct (nth_error (w_ds w) j) as [h'|] eqn:Ej; cbn; [|reflexivity]. f_equal.
    apply content_ext; [|reflexivity]. intros a. rewrite GL.
    destruct (Nat.eqb_spec (h_labels a h') (h_labels which h)) as [EQ | _]; [|reflexivity].
    exfalso. apply Hj. edestruct S3 as (? & _); [exact Ej | exact E | exact EQ | assumption].
Qed.
Lemma prim_put_mat w i h d s m : stands w i h d ->
  stands (put_mat w (h_matrix s h) m) i h (put_matrix s d m) /\
  others w (put_mat w (h_matrix s h) m) i.
Proof.
  intros (SEP & E & C). pose proof SEP as (S1 & S2 & S3 & S4).
  pose proof (S2 _ _ s E) as B.
  assert (GL : forall l, get_mat (put_mat w (h_matrix s h) m) l = if l =? h_matrix s h then m else get_mat w l).
  { intros l. unfold get_mat; cbn. rewrite nth_modify by exact B. reflexivity. }
  split.
  - split; [|split]; [|exact E|].
    + unfold separate, put_mat; cbn. rewrite modify_length. exact SEP.
    + subst d.
      assert (forall a, get_mat (put_mat w (h_matrix s h) m) (h_matrix a h) = if side_dec a s then m else get_mat w (h_matrix a h)) as GA.
      { intros a. rewrite GL. destruct (side_dec a s) as [-> | N]; [now rewrite Nat.eqb_refl |].
        destruct (Nat.eqb_spec (h_matrix a h) (h_matrix s h)) as [EQ | _]; [|reflexivity].
        exfalso. apply N. edestruct S4 as (_ & ?); [exact E | exact E | exact EQ | assumption]. }
      pose proof (GA SideX) as G1. pose proof (GA SideY) as G2.
      unfold content. destruct s; cbn [h_matrix] in *;
      repeat match goal with H : context[side_dec ?a ?b] |- _ => destruct (side_dec a b); try congruence end;
      rewrite G1, G2; reflexivity.
  - split; [|split; [|split]]; auto.
    intros j Hj. unfold observe; cbn.
    destruct (nth_error (w_ds w) j) as [h'|] eqn:Ej; cbn; [|reflexivity]. f_equal.
    apply content_ext; [reflexivity |]. intros a. rewrite GL.
    destruct (Nat.eqb_spec (h_matrix a h') (h_matrix s h)) as [EQ | _]; [|reflexivity].
    exfalso. apply Hj. edestruct S4 as (? & _); [exact Ej | exact E | exact EQ | assumption].
Qed.
Lemma prim_final w i h d b : stands w i h d ->
  stands (rebind w i (bind_final b)) i (bind_final b h) (set_final d b) /\ others w (rebind w i (bind_final b)) i.
Proof.
  intros (SEP & E & C). pose proof SEP as (S1 & S2 & S3 & S4).
  assert (NE : forall j h', nth_error (modify i (bind_final b) (w_ds w)) j = Some h' -> exists h0,
     nth_error (w_ds w) j = Some h0 /\ (forall a, h_labels a h' = h_labels a h0) /\ (forall s, h_matrix s h' = h_matrix s h0)).
  { intros j h' H. rewrite nth_error_modify in H. destruct (Nat.eqb_spec j i) as [-> | N].
    - rewrite E in H; cbn in H. inversion H; subst h'. exists h. split; [exact E |]. split; intros []; reflexivity.
    - exists h'; auto. }
  split.
  - split; [|split].
    + split; [|split; [|split]]; cbn.
      * intros j h' a H. apply NE in H as (h0 & H & HL & _). rewrite HL. eauto.
      * intros j h' s H. apply NE in H as (h0 & H & _ & HM). rewrite HM. eauto.
      * intros j k h1 h2 a1 b1 H1 H2 EQ. apply NE in H1 as (h1' & H1 & HL1 & _). apply NE in H2 as (h2' & H2 & HL2 & _).
        rewrite HL1, HL2 in EQ. eauto.
      * intros j k h1 h2 a1 b1 H1 H2 EQ. apply NE in H1 as (h1' & H1 & _ & HL1). apply NE in H2 as (h2' & H2 & _ & HL2).
        rewrite HL1, HL2 in EQ. eauto.
    + cbn. rewrite nth_error_modify, Nat.eqb_refl, E. reflexivity.
    + subst d. reflexivity.
  - split; [|split; [|split]]; cbn; auto.
    + intros j Hj. unfold observe; cbn. rewrite nth_error_modify. destruct (Nat.eqb_spec j i) as [-> | _]; [congruence |].
      reflexivity.
    + apply modify_length.
    + intros j Hj. rewrite nth_error_modify. destruct (Nat.eqb_spec j i); [congruence | reflexivity].
Qed.
(** rebinding an attribute to the object it already holds *)
Lemma modify_id {A} i (f : A -> A) l : (forall x, nth_error l i = Some x -> f x = x) -> modify i f l = l.
Proof.
  revert i; induction l as [|x l IH]; intros [|i] H; simpl; auto.
  - f_equal. apply H; reflexivity.
  - f_equal. apply IH. exact H.
Qed.
Lemma bind_matrix_same s h : bind_matrix s (h_matrix s h) h = h. Proof. destruct s, h; reflexivity. Qed.
Lemma rebind_same w i h s : nth_error (w_ds w) i = Some h -> rebind w i (bind_matrix s (h_matrix s h)) = w.
Proof.
  intros E. unfold rebind. rewrite modify_id; [destruct w; reflexivity |].
  intros x Hx. rewrite E in Hx. inversion Hx. apply bind_matrix_same.
Qed.

(** *** the methods that change a dataset *)
Definition dmat (s : side) (d : dmatrix) : smat := match s with SideX => dm_X d | SideY => dm_Y d end.
Definition dlabels (a : labels) (d : dmatrix) : list text :=
  match a with RowLabels => dm_row_labels d | LabelsX => dm_labels_X d | LabelsY => dm_labels_Y d end.
Lemma content_mat w h s : dmat s (content w h) = get_mat w (h_matrix s h). Proof. destruct s; reflexivity. Qed.
Lemma content_labels w h a : dlabels a (content w h) = get_list w (h_labels a h). Proof. destruct a; reflexivity. Qed.
Lemma stands_mat w i h d s : stands w i h d -> get_mat w (h_matrix s h) = dmat s d.
Proof. intros (_ & _ & <-). symmetry; apply content_mat. Qed.
Lemma stands_labels w i h d a : stands w i h d -> get_list w (h_labels a h) = dlabels a d.
Proof. intros (_ & _ & <-). symmetry; apply content_labels. Qed.
Lemma stands_final w i h d : stands w i h d -> h_final h = dm_final d.
Proof. intros (_ & _ & <-). reflexivity. Qed.
Lemma stands_label w i h d : stands w i h d -> h_label h = dm_label d.
Proof. intros (_ & _ & <-). reflexivity. Qed.
Lemma put_matrix_same s d : put_matrix s d (dmat s d) = d. Proof. destruct s, d; reflexivity. Qed.

Lemma prim_delete w i h d s rows cols : stands w i h d ->
  match h_delete_rows_cols w (h_matrix s h) rows cols with
  | Err e => delete_rows_cols (dmat s d) rows cols = Err e
  | Ok (w1, x) => exists m, delete_rows_cols (dmat s d) rows cols = Ok m /\
      stands (rebind w1 i (bind_matrix s x)) i (bind_matrix s x h) (put_matrix s d m) /\
      others w (rebind w1 i (bind_matrix s x)) i
  end.
Proof.
  intros ST. unfold h_delete_rows_cols. rewrite (stands_mat _ _ _ _ s ST).
  destruct (delete_rows_cols (dmat s d) rows cols) as [m|e] eqn:ED; cbn [bind]; [|reflexivity].
  assert (NEW : exists m0, Ok m = Ok m0 /\
      stands (rebind (fst (new_mat w m)) i (bind_matrix s (snd (new_mat w m)))) i (bind_matrix s (snd (new_mat w m)) h) (put_matrix s d m0) /\
      others w (rebind (fst (new_mat w m)) i (bind_matrix s (snd (new_mat w m)))) i).
  { exists m. split; [reflexivity |]. apply prim_rebind_new_mat. exact ST. }
  destruct rows as [|r rows], cols as [|c cols]; try exact NEW.
  exists m. split; [reflexivity |].
  assert (m = dmat s d) as ->.
  { unfold delete_rows_cols in ED. destruct (sm_format (dmat s d)); cbn in ED; [congruence | discriminate]. }
  destruct ST as (SEP & E & C). rewrite (rebind_same _ _ _ _ E), bind_matrix_same, put_matrix_same.
  split; [exact (conj SEP (conj E C)) | apply others_refl].
Qed.

Lemma prim_to_format w i h d s f : stands w i h d ->
  let '(w1, x) := h_to_format f w (h_matrix s h) in
  stands (rebind w1 i (bind_matrix s x)) i (bind_matrix s x h) (put_matrix s d (to_format f (dmat s d))) /\
  others w (rebind w1 i (bind_matrix s x)) i.
Proof.
  intros ST. unfold h_to_format. rewrite (stands_mat _ _ _ _ s ST).
  assert (NEW : stands (rebind (fst (new_mat w (to_format f (dmat s d)))) i (bind_matrix s (snd (new_mat w (to_format f (dmat s d)))))) i
        (bind_matrix s (snd (new_mat w (to_format f (dmat s d)))) h) (put_matrix s d (to_format f (dmat s d))) /\
      others w (rebind (fst (new_mat w (to_format f (dmat s d)))) i (bind_matrix s (snd (new_mat w (to_format f (dmat s d)))))) i).
  { apply prim_rebind_new_mat. exact ST. }
  assert (OLD : sm_format (dmat s d) = f -> stands (rebind w i (bind_matrix s (h_matrix s h))) i
        (bind_matrix s (h_matrix s h) h) (put_matrix s d (to_format f (dmat s d))) /\
      others w (rebind w i (bind_matrix s (h_matrix s h))) i).
  { intros F. destruct ST as (SEP & E & C). rewrite (rebind_same _ _ _ _ E), bind_matrix_same.
    assert (to_format f (dmat s d) = dmat s d) as ->.
    { unfold to_format. rewrite <- F. destruct (dmat s d); reflexivity. }
    rewrite put_matrix_same. split; [exact (conj SEP (conj E C)) | apply others_refl]. }
  destruct f, (sm_format (dmat s d)) eqn:F; try exact NEW; apply OLD; reflexivity.
Qed.

(** what a changing call must achieve *)
Definition achieves (w : world) (i : nat) (res_h : world * res unit) (o : outcome) : Prop :=
  exists h', stands (fst res_h) i h' (fst o) /\ others w (fst res_h) i /\ snd res_h = snd o.

Ltac unbind := repeat match goal with
  | H : context[bind_matrix SideX ?x] |- _ => change (bind_matrix SideX x) with (bind_X x) in H
  | H : context[bind_matrix SideY ?x] |- _ => change (bind_matrix SideY x) with (bind_Y x) in H
  end.
Lemma call_delete_row w i h d r : stands w i h d -> achieves w i (h_delete_row w i h r) (delete_row d r).
Proof.
  intros ST. unfold h_delete_row, delete_row. rewrite (stands_final _ _ _ _ ST).
  destruct (dm_final d); [exists h; split; [exact ST |]; split; [apply others_refl | reflexivity] |].
  pose proof (prim_delete w i h d SideX [r] [] ST) as P1. cbn [h_matrix dmat] in P1.
  destruct (h_delete_rows_cols w (h_X h) [r] []) as [[w1 x]|e]; cbn [step_res].
  2:{ rewrite P1; cbn. exists h; split; [exact ST |]; split; [apply others_refl | reflexivity]. }
  destruct P1 as (m & -> & ST1 & O1); unbind. cbn [try_set].
  set (w2 := rebind w1 i (bind_X x)).
  pose proof (prim_delete _ i _ _ SideY [r] [] ST1) as P2. cbn [h_matrix dmat bind_matrix bind_X h_Y put_matrix] in P2.
  fold w2 in P2. change (dm_Y (set_X d m)) with (dm_Y d) in P2.
  change (dm_Y (set_X d m)) with (dm_Y d).
  destruct (h_delete_rows_cols w2 (h_Y h) [r] []) as [[w3 y]|e]; cbn [step_res].
  2:{ rewrite P2; cbn. eexists; split; [exact ST1 |]; split; [exact O1 | reflexivity]. }
  destruct P2 as (m2 & -> & ST2 & O2); unbind. cbn [try_set].
  set (w4 := rebind w3 i (bind_Y y)) in *.
  pose proof (stands_labels _ _ _ _ RowLabels ST2) as GL. cbn [h_labels h_rows bind_X bind_Y dlabels] in GL. change (get_list (rebind w3 i (bind_Y y)) (h_rows h)) with (get_list w4 (h_rows h)) in GL. change (dm_row_labels (set_Y (set_X d m) m2)) with (dm_row_labels d) in GL.
  rewrite GL. destruct (py_del (dm_row_labels d) r) as [c|e] eqn:ED; cbn [step_res].
  - change (dm_row_labels (set_Y (set_X d m) m2)) with (dm_row_labels d). rewrite ED; cbn [try_set].
    pose proof (prim_put_list _ _ _ _ RowLabels c ST2) as (ST3 & O3). cbn in ST3, O3.
    eexists; split; [exact ST3 |]. split; [|reflexivity].
    eapply others_trans; [exact O1 |]. eapply others_trans; [exact O2 | exact O3].
  - change (dm_row_labels (set_Y (set_X d m) m2)) with (dm_row_labels d). rewrite ED; cbn [try_set].
    eexists; split; [exact ST2 |]. split; [|reflexivity]. eapply others_trans; [exact O1 | exact O2].
Qed.

Lemma call_keep_rows w i h d rows : stands w i h d -> achieves w i (h_keep_rows w i h rows) (keep_rows d rows).
Proof.
  intros ST. unfold h_keep_rows, keep_rows. rewrite (stands_final _ _ _ _ ST).
  destruct (dm_final d); [exists h; split; [exact ST |]; split; [apply others_refl | reflexivity] |].
  destruct rows as [|r0 rs]; [exists h; split; [exact ST |]; split; [apply others_refl | reflexivity] |].
  set (rows := r0 :: rs). clearbody rows. cbv zeta.
  pose proof (stands_mat _ _ _ _ SideX ST) as GM. cbn [h_matrix dmat] in GM. rewrite GM.
  set (del := filter _ _). clearbody del.
  pose proof (prim_delete w i h d SideX del [] ST) as P1. cbn [h_matrix dmat] in P1.
  destruct (h_delete_rows_cols w (h_X h) del []) as [[w1 x]|e]; cbn [step_res].
  2:{ rewrite P1; cbn. exists h; split; [exact ST |]; split; [apply others_refl | reflexivity]. }
  destruct P1 as (m & -> & ST1 & O1); unbind. cbn [try_set].
  set (w2 := rebind w1 i (bind_X x)).
  pose proof (prim_delete _ i _ _ SideY del [] ST1) as P2. cbn [h_matrix dmat bind_matrix bind_X h_Y put_matrix] in P2.
  fold w2 in P2. change (dm_Y (set_X d m)) with (dm_Y d) in P2.
  change (dm_Y (set_X d m)) with (dm_Y d).
  destruct (h_delete_rows_cols w2 (h_Y h) del []) as [[w3 y]|e]; cbn [step_res].
  2:{ rewrite P2; cbn. eexists; split; [exact ST1 |]; split; [exact O1 | reflexivity]. }
  destruct P2 as (m2 & -> & ST2 & O2); unbind. cbn [try_set].
  set (w4 := rebind w3 i (bind_Y y)) in *.
  pose proof (stands_labels _ _ _ _ RowLabels ST2) as GL. cbn [h_labels h_rows bind_X bind_Y dlabels] in GL. change (get_list (rebind w3 i (bind_Y y)) (h_rows h)) with (get_list w4 (h_rows h)) in GL. change (dm_row_labels (set_Y (set_X d m) m2)) with (dm_row_labels d) in GL.
  change (dm_row_labels (set_Y (set_X d m) m2)) with (dm_row_labels d).
  rewrite GL. destruct (py_gather (dm_row_labels d) rows) as [c|e] eqn:ED; cbn [step_res try_set].
  - pose proof (prim_rebind_new_list _ _ _ _ RowLabels c ST2) as (ST3 & O3).
    eexists; split; [exact ST3 |]. split; [|reflexivity].
    eapply others_trans; [exact O1 |]. eapply others_trans; [exact O2 | exact O3].
  - eexists; split; [exact ST2 |]. split; [|reflexivity]. eapply others_trans; [exact O1 | exact O2].
Qed.

Lemma call_delete_columns_X w i h d cols : stands w i h d -> achieves w i (h_delete_columns_X w i h cols) (delete_columns_X d cols).
Proof.
  intros ST. unfold h_delete_columns_X, delete_columns_X. rewrite (stands_final _ _ _ _ ST).
  destruct (dm_final d); [exists h; split; [exact ST |]; split; [apply others_refl | reflexivity] |].
  cbv zeta. set (cs := sort_Z cols). clearbody cs.
  pose proof (prim_delete w i h d SideX [] cs ST) as P1. cbn [h_matrix dmat] in P1.
  destruct (h_delete_rows_cols w (h_X h) [] cs) as [[w1 x]|e]; cbn [step_res].
  2:{ rewrite P1; cbn. exists h; split; [exact ST |]; split; [apply others_refl | reflexivity]. }
  destruct P1 as (m & -> & ST1 & O1); unbind. cbn [try_set bind_matrix put_matrix] in *.
  pose proof (stands_labels _ _ _ _ LabelsX ST1) as GL. cbn [h_labels h_lx bind_X dlabels] in GL. rewrite GL.
  change (dm_labels_X (set_X d m)) with (dm_labels_X d).
  pose proof (prim_rebind_new_list _ _ _ _ LabelsX (labels_not_in (dm_labels_X d) cs) ST1) as (ST3 & O3).
  eexists; split; [exact ST3 |]. split; [|reflexivity]. eapply others_trans; [exact O1 | exact O3].
Qed.
Lemma call_delete_columns_Y w i h d cols : stands w i h d -> achieves w i (h_delete_columns_Y w i h cols) (delete_columns_Y d cols).
Proof.
  intros ST. unfold h_delete_columns_Y, delete_columns_Y. rewrite (stands_final _ _ _ _ ST).
  destruct (dm_final d); [exists h; split; [exact ST |]; split; [apply others_refl | reflexivity] |].
  cbv zeta. set (cs := sort_Z cols). clearbody cs.
  pose proof (prim_delete w i h d SideY [] cs ST) as P1. cbn [h_matrix dmat] in P1.
  destruct (h_delete_rows_cols w (h_Y h) [] cs) as [[w1 x]|e]; cbn [step_res].
  2:{ rewrite P1; cbn. exists h; split; [exact ST |]; split; [apply others_refl | reflexivity]. }
  destruct P1 as (m & -> & ST1 & O1); unbind. cbn [try_set bind_matrix put_matrix] in *.
  pose proof (stands_labels _ _ _ _ LabelsY ST1) as GL. cbn [h_labels h_ly bind_Y dlabels] in GL. rewrite GL.
  change (dm_labels_Y (set_Y d m)) with (dm_labels_Y d).
  pose proof (prim_rebind_new_list _ _ _ _ LabelsY (labels_not_in (dm_labels_Y d) cs) ST1) as (ST3 & O3).
  eexists; split; [exact ST3 |]. split; [|reflexivity]. eapply others_trans; [exact O1 | exact O3].
Qed.
Lemma call_delete_column_X w i h d c : stands w i h d -> achieves w i (h_delete_column_X w i h c) (delete_column_X d c).
Proof.
  intros ST. unfold h_delete_column_X, delete_column_X. rewrite (stands_final _ _ _ _ ST).
  destruct (dm_final d); [exists h; split; [exact ST |]; split; [apply others_refl | reflexivity] |].
  pose proof (prim_delete w i h d SideX [] [c] ST) as P1. cbn [h_matrix dmat] in P1.
  destruct (h_delete_rows_cols w (h_X h) [] [c]) as [[w1 x]|e]; cbn [step_res].
  2:{ rewrite P1; cbn. exists h; split; [exact ST |]; split; [apply others_refl | reflexivity]. }
  destruct P1 as (m & -> & ST1 & O1); unbind. cbn [try_set bind_matrix put_matrix] in *. cbv zeta.
  pose proof (stands_labels _ _ _ _ LabelsX ST1) as GL. cbn [h_labels h_lx bind_X dlabels] in GL. rewrite GL.
  change (dm_labels_X (set_X d m)) with (dm_labels_X d).
  destruct (py_del (dm_labels_X d) c) as [l|e]; cbn [step_res try_set].
  - pose proof (prim_put_list _ _ _ _ LabelsX l ST1) as (ST3 & O3).
    eexists; split; [exact ST3 |]. split; [|reflexivity]. eapply others_trans; [exact O1 | exact O3].
  - eexists; split; [exact ST1 |]. split; [exact O1 | reflexivity].
Qed.
Lemma call_delete_column_Y w i h d c : stands w i h d -> achieves w i (h_delete_column_Y w i h c) (delete_column_Y d c).
Proof.
  intros ST. unfold h_delete_column_Y, delete_column_Y. rewrite (stands_final _ _ _ _ ST).
  destruct (dm_final d); [exists h; split; [exact ST |]; split; [apply others_refl | reflexivity] |].
  pose proof (prim_delete w i h d SideY [] [c] ST) as P1. cbn [h_matrix dmat] in P1.
  destruct (h_delete_rows_cols w (h_Y h) [] [c]) as [[w1 x]|e]; cbn [step_res].
  2:{ rewrite P1; cbn. exists h; split; [exact ST |]; split; [apply others_refl | reflexivity]. }
  destruct P1 as (m & -> & ST1 & O1); unbind. cbn [try_set bind_matrix put_matrix] in *. cbv zeta.
  pose proof (stands_labels _ _ _ _ LabelsY ST1) as GL. cbn [h_labels h_ly bind_Y dlabels] in GL. rewrite GL.
  change (dm_labels_Y (set_Y d m)) with (dm_labels_Y d).
  destruct (py_del (dm_labels_Y d) c) as [l|e]; cbn [step_res try_set].
  - pose proof (prim_put_list _ _ _ _ LabelsY l ST1) as (ST3 & O3).
    eexists; split; [exact ST3 |]. split; [|reflexivity]. eapply others_trans; [exact O1 | exact O3].
  - eexists; split; [exact ST1 |]. split; [exact O1 | reflexivity].
Qed.
Lemma call_finalize w i h d : stands w i h d -> achieves w i (h_finalize w i h, Ok tt) (finalize d, Ok tt).
Proof.
  intros ST. unfold h_finalize, finalize. rewrite (stands_final _ _ _ _ ST).
  destruct (dm_final d); [exists h; split; [exact ST |]; split; [apply others_refl | reflexivity] |].
  pose proof (prim_to_format w i h d SideX CSC ST) as P1. cbn [h_matrix] in P1.
  destruct (h_to_format CSC w (h_X h)) as [w1 x]. destruct P1 as (ST1 & O1); unbind. cbn [bind_matrix] in *. cbv zeta.
  pose proof (prim_to_format _ i _ _ SideY CSC ST1) as P2. cbn [h_matrix bind_X h_Y] in P2.
  destruct (h_to_format CSC (rebind w1 i (bind_X x)) (h_Y h)) as [w3 y]. destruct P2 as (ST2 & O2); unbind. cbn [bind_matrix] in *.
  pose proof (prim_final _ _ _ _ true ST2) as (ST3 & O3).
  eexists; split; [exact ST3 |]. split; [|reflexivity].
  eapply others_trans; [exact O1 |]. eapply others_trans; [exact O2 | exact O3].
Qed.
Lemma call_unfinalize w i h d : stands w i h d -> achieves w i (h_unfinalize w i h, Ok tt) (unfinalize d, Ok tt).
Proof.
  intros ST. unfold h_unfinalize, unfinalize.
  pose proof (prim_to_format w i h d SideX CSR ST) as P1. cbn [h_matrix] in P1.
  destruct (h_to_format CSR w (h_X h)) as [w1 x]. destruct P1 as (ST1 & O1); unbind. cbn [bind_matrix] in *. cbv zeta.
  pose proof (prim_to_format _ i _ _ SideY CSR ST1) as P2. cbn [h_matrix bind_X h_Y] in P2.
  destruct (h_to_format CSR (rebind w1 i (bind_X x)) (h_Y h)) as [w3 y]. destruct P2 as (ST2 & O2); unbind. cbn [bind_matrix] in *.
  pose proof (prim_final _ _ _ _ false ST2) as (ST3 & O3).
  eexists; split; [exact ST3 |]. split; [|reflexivity].
  eapply others_trans; [exact O1 |]. eapply others_trans; [exact O2 | exact O3].
Qed.

(** every call that is not a selection *)
Lemma call_changes w i h d o : stands w i h d -> selects o = None -> achieves w i (h_call w i h o) (do_op d o).
Proof.
  intros ST N. destruct o; try discriminate; cbn [h_call do_op].
  - apply call_delete_row; exact ST.
  - apply call_keep_rows; exact ST.
  - apply call_delete_columns_X; exact ST.
  - apply call_delete_columns_Y; exact ST.
  - apply call_delete_column_X; exact ST.
  - apply call_delete_column_Y; exact ST.
  - apply call_finalize; exact ST.
  - apply call_unfinalize; exact ST.
Qed.

(** *** selections *)
Lemma extend_lists w c : separate w ->
  separate (fst (new_list w c)) /\
  (forall i h, nth_error (w_ds w) i = Some h -> content (fst (new_list w c)) h = content w h).
Proof.
  intros (S1 & S2 & S3 & S4). split.
  - split; [|split; [|split]]; cbn; auto. intros i h a E. rewrite app_length. specialize (S1 _ _ a E). lia.
  - intros i h E. apply content_ext; [|reflexivity]. intros a. unfold get_list; cbn. apply app_nth1. exact (S1 _ _ a E).
Qed.
Lemma extend_mats w m : separate w ->
  separate (fst (new_mat w m)) /\
  (forall i h, nth_error (w_ds w) i = Some h -> content (fst (new_mat w m)) h = content w h).
Proof.
  intros (S1 & S2 & S3 & S4). split.
  - split; [|split; [|split]]; cbn; auto. intros i h a E. rewrite app_length. specialize (S2 _ _ a E). lia.
  - intros i h E. apply content_ext; [reflexivity |]. intros a. unfold get_mat; cbn. apply app_nth1. exact (S2 _ _ a E).
Qed.

(** the worlds agree on every dataset *)
Definition same_datasets (w w' : world) : Prop :=
  separate w' /\ (forall j, observe w' j = observe w j) /\ w_vars w' = w_vars w /\ w_ds w' = w_ds w.
Lemma same_refl w : separate w -> same_datasets w w. Proof. unfold same_datasets; auto. Qed.
Lemma same_trans w1 w2 w3 : same_datasets w1 w2 -> same_datasets w2 w3 -> same_datasets w1 w3.
Proof. intros (A1 & B1 & C1 & D1) (A2 & B2 & C2 & D2). split; [exact A2 |]. split; [intros j; rewrite B2; apply B1 |]. split; congruence. Qed.
Lemma same_new_list w c : separate w -> same_datasets w (fst (new_list w c)).
Proof.
  intros SEP. destruct (extend_lists w c SEP) as (S' & C). split; [exact S' |]. split; [|split; reflexivity].
  intros j. unfold observe; cbn. destruct (nth_error (w_ds w) j) as [h|] eqn:E; cbn; [|reflexivity]. f_equal. exact (C j h E).
Qed.
Lemma same_new_mat w m : separate w -> same_datasets w (fst (new_mat w m)).
Proof.
  intros SEP. destruct (extend_mats w m SEP) as (S' & C). split; [exact S' |]. split; [|split; reflexivity].
  intros j. unfold observe; cbn. destruct (nth_error (w_ds w) j) as [h|] eqn:E; cbn; [|reflexivity]. f_equal. exact (C j h E).
Qed.
Lemma same_content w w' i h : same_datasets w w' -> nth_error (w_ds w) i = Some h -> content w' h = content w h.
Proof.
  intros (_ & O & _ & D) E. specialize (O i). unfold observe in O. rewrite D, E in O; cbn in O. congruence.
Qed.
Lemma same_stands w w' i h d : same_datasets w w' -> stands w i h d -> stands w' i h d.
Proof.
  intros SA (SEP & E & C). split; [apply SA |]. split; [destruct SA as (_ & _ & _ & ->); exact E |].
  rewrite <- C. eapply same_content; eauto.
Qed.

(** a dataset whose attributes are the newest objects *)
Lemma add_dataset w label a b c x y : separate w ->
  let w' := World (((w_lists w ++ [a]) ++ [b]) ++ [c]) ((w_mats w ++ [x]) ++ [y])
     (w_ds w ++ [HDs label (length (w_mats w)) (length (w_mats w ++ [x])) (length (w_lists w))
                     (length (w_lists w ++ [a])) (length ((w_lists w ++ [a]) ++ [b])) false]) (w_vars w) in
  separate w' /\ (forall j, j < length (w_ds w) -> observe w' j = observe w j) /\
  observe w' (length (w_ds w)) = Some (DMat label x y a b c false) /\ length (w_ds w') = Datatypes.S (length (w_ds w)).
Proof.
  intros (S1 & S2 & S3 & S4) w'.
  set (h := HDs label (length (w_mats w)) (length (w_mats w ++ [x])) (length (w_lists w))
                     (length (w_lists w ++ [a])) (length ((w_lists w ++ [a]) ++ [b])) false) in *.
  assert (LL : forall q, length (w_lists w) <= h_labels q h).
  { intros q. destruct q; subst h; cbn; rewrite ?app_length; cbn; lia. }
  assert (LM : forall q, length (w_mats w) <= h_matrix q h).
  { intros q. destruct q; subst h; cbn; rewrite ?app_length; cbn; lia. }
  assert (NE : forall j h', nth_error (w_ds w ++ [h]) j = Some h' ->
      (j < length (w_ds w) /\ nth_error (w_ds w) j = Some h') \/ (j = length (w_ds w) /\ h' = h)).
  { intros j h' H. destruct (Nat.lt_ge_cases j (length (w_ds w))) as [L | G].
    - rewrite nth_error_app1 in H by exact L. auto.
    - rewrite nth_error_app2 in H by exact G. right.
      destruct (j - length (w_ds w)) as [|[|k]] eqn:EJ; cbn in H; try discriminate. inversion H; split; [lia | reflexivity]. }
  split; [|split; [|split]].
  - split; [|split; [|split]]; cbn.
    + intros j h' q H. apply NE in H as [(_ & H) | (-> & ->)].
      * specialize (S1 _ _ q H). rewrite !app_length; lia.
      * destruct q; subst h; cbn; rewrite !app_length; cbn; lia.
    + intros j h' q H. apply NE in H as [(_ & H) | (-> & ->)].
      * specialize (S2 _ _ q H). rewrite !app_length; lia.
      * destruct q; subst h; cbn; rewrite !app_length; cbn; lia.
    + intros j k h1 h2 p q H1 H2 EQ. apply NE in H1 as [(_ & H1) | (-> & ->)]; apply NE in H2 as [(_ & H2) | (-> & ->)].
      * eauto.
      * specialize (S1 _ _ p H1). specialize (LL q). lia.
      * specialize (S1 _ _ q H2). specialize (LL p). lia.
      * split; [reflexivity |]. destruct p, q; try reflexivity; subst h; cbn in EQ; rewrite ?app_length in EQ; cbn in EQ; lia.
    + intros j k h1 h2 p q H1 H2 EQ. apply NE in H1 as [(_ & H1) | (-> & ->)]; apply NE in H2 as [(_ & H2) | (-> & ->)].
      * eauto.
      * specialize (S2 _ _ p H1). specialize (LM q). lia.
      * specialize (S2 _ _ q H2). specialize (LM p). lia.
      * split; [reflexivity |]. destruct p, q; try reflexivity; subst h; cbn in EQ; rewrite ?app_length in EQ; cbn in EQ; lia.
  - intros j Hj. unfold observe. cbn [w_ds w']. rewrite nth_error_app1 by exact Hj.
    destruct (nth_error (w_ds w) j) as [h'|] eqn:E; [|reflexivity]. cbn [option_map]. f_equal.
    apply content_ext.
    + intros q. specialize (S1 _ _ q E). unfold get_list; cbn. rewrite <- !app_assoc. apply app_nth1. exact S1.
    + intros q. specialize (S2 _ _ q E). unfold get_mat; cbn. rewrite <- !app_assoc. apply app_nth1. exact S2.
  - unfold observe. cbn [w_ds w']. rewrite nth_error_app2, Nat.sub_diag by lia. cbn [nth_error option_map].
    f_equal. subst h. unfold content. cbn [h_label h_X h_Y h_rows h_lx h_ly h_final]. unfold get_list, get_mat. cbn [w_lists w_mats w'].
    assert (G : forall A (l : list A) v dflt, nth (length l) (l ++ [v]) dflt = v).
    { intros A l v dflt. rewrite app_nth2, Nat.sub_diag by lia. reflexivity. }
    f_equal.
    + rewrite app_nth1 by (rewrite app_length; cbn; lia). apply G.
    + apply G.
    + rewrite app_nth1 by (rewrite !app_length; cbn; lia). rewrite app_nth1 by (rewrite !app_length; cbn; lia). apply G.
    + rewrite app_nth1 by (rewrite !app_length; cbn; lia). apply G.
    + apply G.
  - subst w'; cbn. rewrite app_length; cbn; lia.
Qed.

(** what a selecting call must achieve *)
Definition selected (w : world) (res_h : world * res unit) (r : res dmatrix) : Prop :=
  separate (fst res_h) /\ w_vars (fst res_h) = w_vars w /\
  (forall j, j < length (w_ds w) -> observe (fst res_h) j = observe w j) /\
  match r with
  | Ok d' => snd res_h = Ok tt /\ observe (fst res_h) (length (w_ds w)) = Some d' /\
             length (w_ds (fst res_h)) = Datatypes.S (length (w_ds w))
  | Err e => snd res_h = Err e /\ length (w_ds (fst res_h)) = length (w_ds w)
  end.
Lemma same_selected w w' e : same_datasets w w' -> selected w (w', Err e) (Err e).
Proof.
  intros (SEP & O & V & D). split; [exact SEP |]. split; [exact V |]. split; [intros j _; apply O |].
  split; [reflexivity | cbn; now rewrite D].
Qed.

Lemma call_select_rows w i h d rows label : stands w i h d ->
  selected w (h_select_rows w h rows label) (select_rows d rows label).
Proof.
  intros ST. pose proof ST as (SEP & E & C). unfold h_select_rows, select_rows.
  destruct rows as [|r0 rs]; [apply same_selected, same_refl, SEP |].
  set (rows := r0 :: rs). clearbody rows. cbv zeta. rewrite (stands_label _ _ _ _ ST).
  set (lab := if String.eqb label "" then dm_label d else label). clearbody lab.
  pose proof (stands_mat _ _ _ _ SideX ST) as GX. cbn [h_matrix dmat] in GX. rewrite GX.
  destruct (take_rows (dm_X d) (sort_Z rows)) as [mx|e]; cbn [step_res bind]; [|apply same_selected, same_refl, SEP].
  pose proof (same_new_mat w mx SEP) as SA1. pose proof (same_stands _ _ _ _ _ SA1 ST) as ST1.
  destruct (new_mat w mx) as [w1 x] eqn:N1. cbn [fst] in *.
  pose proof (stands_mat _ _ _ _ SideY ST1) as GY. cbn [h_matrix dmat] in GY. rewrite GY.
  destruct (take_rows (dm_Y d) (sort_Z rows)) as [my|e]; cbn [step_res bind]; [|apply same_selected, SA1].
  pose proof (same_new_mat w1 my (proj1 ST1)) as SA2. pose proof (same_stands _ _ _ _ _ SA2 ST1) as ST2.
  destruct (new_mat w1 my) as [w2 y] eqn:N2. cbn [fst] in *.
  pose proof (stands_labels _ _ _ _ RowLabels ST2) as GR. cbn [h_labels dlabels] in GR. rewrite GR.
  destruct (py_gather (dm_row_labels d) (sort_Z rows)) as [c|e]; cbn [step_res bind];
    [|apply same_selected; eapply same_trans; eassumption].
  pose proof (same_new_list w2 c (proj1 ST2)) as SA3. pose proof (same_stands _ _ _ _ _ SA3 ST2) as ST3.
  destruct (new_list w2 c) as [w3 rl] eqn:N3. cbn [fst] in *.
  pose proof (stands_labels _ _ _ _ LabelsX ST3) as GLX. cbn [h_labels dlabels] in GLX. rewrite GLX.
  pose proof (same_new_list w3 (dm_labels_X d) (proj1 ST3)) as SA4. pose proof (same_stands _ _ _ _ _ SA4 ST3) as ST4.
  destruct (new_list w3 (dm_labels_X d)) as [w4 lx] eqn:N4. cbn [fst] in *.
  pose proof (stands_labels _ _ _ _ LabelsY ST4) as GLY. cbn [h_labels dlabels] in GLY. rewrite GLY.
  destruct (new_list w4 (dm_labels_Y d)) as [w5 ly] eqn:N5.
  unfold new_mat in N1, N2. unfold new_list in N3, N4, N5.
  inversion N1; subst w1 x. inversion N2; subst w2 y. inversion N3; subst w3 rl. inversion N4; subst w4 lx. inversion N5; subst w5 ly.
  pose proof (add_dataset w lab c (dm_labels_X d) (dm_labels_Y d) mx my SEP) as (A1 & A2 & A3 & A4).
  split; [exact A1 |]. split; [reflexivity |]. split; [exact A2 |]. split; [reflexivity |]. split; [exact A3 | exact A4].
Qed.
Lemma call_select_columns_X w i h d cols label : stands w i h d ->
  selected w (h_select_columns_X w h cols label) (select_columns_X d cols label).
Proof.
  intros ST. pose proof ST as (SEP & E & C). unfold h_select_columns_X, select_columns_X.
  destruct cols as [|r0 rs]; [apply same_selected, same_refl, SEP |].
  set (cols := r0 :: rs). clearbody cols. cbv zeta. rewrite (stands_label _ _ _ _ ST).
  set (lab := if String.eqb label "" then dm_label d else label). clearbody lab.
  pose proof (stands_mat _ _ _ _ SideX ST) as GX. cbn [h_matrix dmat] in GX. rewrite GX.
  destruct (take_cols (dm_X d) (sort_Z cols)) as [mx|e]; cbn [step_res bind]; [|apply same_selected, same_refl, SEP].
  pose proof (same_new_mat w mx SEP) as SA1. pose proof (same_stands _ _ _ _ _ SA1 ST) as ST1.
  destruct (new_mat w mx) as [w1 x] eqn:N1. cbn [fst] in *.
  pose proof (stands_mat _ _ _ _ SideY ST1) as GY. cbn [h_matrix dmat] in GY. rewrite GY.
  pose proof (same_new_mat w1 (dm_Y d) (proj1 ST1)) as SA2. pose proof (same_stands _ _ _ _ _ SA2 ST1) as ST2.
  destruct (new_mat w1 (dm_Y d)) as [w2 y] eqn:N2. cbn [fst] in *.
  pose proof (stands_labels _ _ _ _ RowLabels ST2) as GR. cbn [h_labels dlabels] in GR. rewrite GR.
  pose proof (same_new_list w2 (dm_row_labels d) (proj1 ST2)) as SA3. pose proof (same_stands _ _ _ _ _ SA3 ST2) as ST3.
  destruct (new_list w2 (dm_row_labels d)) as [w3 rl] eqn:N3. cbn [fst] in *.
  pose proof (stands_labels _ _ _ _ LabelsX ST3) as GLX. cbn [h_labels dlabels] in GLX. rewrite GLX.
  destruct (py_gather (dm_labels_X d) (sort_Z cols)) as [c|e]; cbn [step_res bind];
    [|apply same_selected; eapply same_trans; [eapply same_trans |]; eassumption].
  pose proof (same_new_list w3 c (proj1 ST3)) as SA4. pose proof (same_stands _ _ _ _ _ SA4 ST3) as ST4.
  destruct (new_list w3 c) as [w4 lx] eqn:N4. cbn [fst] in *.
  pose proof (stands_labels _ _ _ _ LabelsY ST4) as GLY. cbn [h_labels dlabels] in GLY. rewrite GLY.
  destruct (new_list w4 (dm_labels_Y d)) as [w5 ly] eqn:N5.
  unfold new_mat in N1, N2. unfold new_list in N3, N4, N5.
  inversion N1; subst w1 x. inversion N2; subst w2 y. inversion N3; subst w3 rl. inversion N4; subst w4 lx. inversion N5; subst w5 ly.
  pose proof (add_dataset w lab (dm_row_labels d) c (dm_labels_Y d) mx (dm_Y d) SEP) as (A1 & A2 & A3 & A4).
  split; [exact A1 |]. split; [reflexivity |]. split; [exact A2 |]. split; [reflexivity |]. split; [exact A3 | exact A4].
Qed.
Lemma call_selects w i h d o sel : stands w i h d -> selects o = Some sel -> selected w (h_call w i h o) (sel d).
Proof.
  intros ST N. destruct o; try discriminate; cbn in N; inversion N; subst sel; cbn [h_call].
  - eapply call_select_rows; exact ST.
  - eapply call_select_columns_X; exact ST.
Qed.

(** *** one action *)
Lemma observe_stands w i d : separate w -> observe w i = Some d -> exists h, stands w i h d.
Proof.
  unfold observe. intros SEP H. destruct (nth_error (w_ds w) i) as [h|] eqn:E; cbn in H; [|discriminate].
  exists h. split; [exact SEP |]. split; [exact E | congruence].
Qed.
Lemma observe_values w i : nth_error (values w) i = observe w i.
Proof. unfold values, observe. apply nth_error_map. Qed.
Lemma replace_length {A} i (x : A) l : length (replace i x l) = length l.
Proof. revert i; induction l; intros [|i]; cbn; auto. Qed.
Lemma nth_error_replace {A} i (x : A) l j : i < length l ->
  nth_error (replace i x l) j = if j =? i then Some x else nth_error l j.
Proof. revert i j; induction l as [|y l IH]; intros [|i] [|j] H; cbn in *; auto; try lia. apply IH; lia. Qed.
Lemma nth_error_ext {A} (l l' : list A) : (forall i, nth_error l i = nth_error l' i) -> l = l'.
Proof.
  revert l'; induction l as [|x l IH]; intros [|y l'] H; auto.
  - specialize (H 0); discriminate.
  - specialize (H 0); discriminate.
  - f_equal; [specialize (H 0); cbn in H; congruence |]. apply IH. intros i. exact (H (Datatypes.S i)).
Qed.
Lemma values_length w : length (values w) = length (w_ds w). Proof. apply map_length. Qed.
Lemma observe_lt w i d : observe w i = Some d -> i < length (w_ds w).
Proof. unfold observe. intros H. apply nth_error_Some. destruct (nth_error (w_ds w) i); [discriminate | discriminate]. Qed.

Lemma achieves_values w i h d rh o : stands w i h d -> achieves w i rh o ->
  separate (fst rh) /\ values (fst rh) = replace i (fst o) (values w) /\ w_vars (fst rh) = w_vars w.
Proof.
  intros ST (h' & (SEP & E' & C') & (O & V & L & _) & R). split; [exact SEP |]. split; [|exact V].
  apply nth_error_ext. intros j. rewrite nth_error_replace.
  2:{ rewrite values_length. apply nth_error_Some. destruct ST as (_ & -> & _). discriminate. }
  rewrite !observe_values. destruct (Nat.eqb_spec j i) as [-> | N]; [|apply O, N].
  unfold observe. rewrite E'. cbn. congruence.
Qed.
Lemma selected_values w rh r : selected w rh r ->
  separate (fst rh) /\ values (fst rh) = match r with Ok d' => values w ++ [d'] | Err _ => values w end /\ w_vars (fst rh) = w_vars w.
Proof.
  intros (SEP & V & O & M). split; [exact SEP |]. split; [|exact V].
  apply nth_error_ext. intros j.
  assert (NL : forall w0 k, length (w_ds w0) <= k -> observe w0 k = None).
  { intros w0 k H. unfold observe. apply nth_error_None in H. now rewrite H. }
  destruct r as [d'|e]; destruct M as (_ & M).
  - destruct M as (M & L). rewrite observe_values.
    destruct (Nat.lt_trichotomy j (length (w_ds w))) as [Hj | [-> | Hj]].
    + rewrite nth_error_app1 by (rewrite values_length; exact Hj). rewrite observe_values. apply O, Hj.
    + rewrite nth_error_app2, values_length, Nat.sub_diag by (rewrite values_length; lia). exact M.
    + rewrite NL by lia. symmetry. apply nth_error_None. rewrite app_length, values_length; cbn; lia.
  - rewrite !observe_values. destruct (Nat.lt_ge_cases j (length (w_ds w))) as [Hj | Hj]; [apply O, Hj |].
    rewrite !NL by lia. reflexivity.
Qed.
Lemma replace_same {A} i (x : A) l : nth_error l i = Some x -> replace i x l = l.
Proof. revert i; induction l as [|y l IH]; intros [|i] H; cbn in *; try discriminate; f_equal; auto; congruence. Qed.

Lemma step_values w a : separate w ->
  separate (fst (h_step w a)) /\ values (fst (h_step w a)) = value_step (values w) a.
Proof.
  intros SEP. destruct a as [i o | i s r c v | i which k t | i s c | k]; cbn [h_step value_step].
  - rewrite observe_values. unfold observe at 1.
    destruct (nth_error (w_ds w) i) as [h|] eqn:E; cbn [option_map]; [|split; [exact SEP | reflexivity]].
    assert (ST : stands w i h (content w h)) by (split; [exact SEP | split; [exact E | reflexivity]]).
    destruct (selects o) as [sel|] eqn:ES.
    + destruct (selected_values _ _ _ (call_selects _ _ _ _ _ _ ST ES)) as (A & B & _). split; [exact A | exact B].
    + destruct (achieves_values _ _ _ _ _ _ ST (call_changes _ _ _ _ _ ST ES)) as (A & B & _). split; [exact A | exact B].
  - rewrite observe_values. unfold observe at 1.
    destruct (nth_error (w_ds w) i) as [h|] eqn:E; cbn [option_map]; [|split; [exact SEP | reflexivity]].
    assert (ST : stands w i h (content w h)) by (split; [exact SEP | split; [exact E | reflexivity]]).
    rewrite (stands_mat _ _ _ _ s ST).
    assert (EQ : match s with SideX => write_X (content w h) r c v | SideY => write_Y (content w h) r c v end =
                 (m <- set_entry (dmat s (content w h)) r c v ;; Ok (put_matrix s (content w h) m))) by (destruct s; reflexivity).
    rewrite EQ. destruct (set_entry (dmat s (content w h)) r c v) as [m|e]; cbn [step_res bind fst]; [|split; [exact SEP | reflexivity]].
    destruct (prim_put_mat _ _ _ _ s m ST) as (ST' & O').
    destruct (achieves_values w i h (content w h) (put_mat w (h_matrix s h) m, Ok tt) (put_matrix s (content w h) m, Ok tt) ST) as (A & B & _).
    { exists h. split; [exact ST' |]. split; [exact O' | reflexivity]. }
    split; [exact A | exact B].
  - rewrite observe_values. unfold observe at 1.
    destruct (nth_error (w_ds w) i) as [h|] eqn:E; cbn [option_map]; [|split; [exact SEP | reflexivity]].
    assert (ST : stands w i h (content w h)) by (split; [exact SEP | split; [exact E | reflexivity]]).
    rewrite (stands_labels _ _ _ _ which ST).
    assert (EQ : write_label (content w h) which k t =
                 (l <- set_label (dlabels which (content w h)) k t ;; Ok (put_labels which (content w h) l))) by (destruct which; reflexivity).
    rewrite EQ. destruct (set_label (dlabels which (content w h)) k t) as [l|e]; cbn [step_res bind fst]; [|split; [exact SEP | reflexivity]].
    destruct (prim_put_list _ _ _ _ which l ST) as (ST' & O').
    destruct (achieves_values w i h (content w h) (put_list w (h_labels which h) l, Ok tt) (put_labels which (content w h) l, Ok tt) ST) as (A & B & _).
    { exists h. split; [exact ST' |]. split; [exact O' | reflexivity]. }
    split; [exact A | exact B].
  - destruct (nth_error (w_ds w) i) as [h|]; [|split; [exact SEP | reflexivity]].
    destruct (py_get _ c); cbn [step_res fst]; split; try exact SEP; reflexivity.
  - destruct (nth_error (w_vars w) k) as [x|]; [|split; [exact SEP | reflexivity]].
    unfold h_instances. destruct (v_cache x); [split; [exact SEP | reflexivity] |].
    destruct (nth_error (w_ds w) (v_ds x)) as [h|]; [|split; [exact SEP | reflexivity]].
    destruct (get_column _ (v_col x)); split; try exact SEP; reflexivity.
Qed.
