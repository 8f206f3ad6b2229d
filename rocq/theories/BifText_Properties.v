(** C62: the text of a BIF file. *)
From Coq Require Import Reals String Lra.
From Verif Require Import Base Matrix_Model Key_Model Key_Spec PMF_Model Prob_Spec BN_Model BN_Spec BN_Properties Bif_Model Bif_Properties BifText_Model BifText_Spec BifText_Proofs.
Open Scope nat_scope.

(** ** which texts are accepted, and what they mean *)
(** exactly the texts of good blocks are accepted, and the blocks that were written are read *)
Theorem C62_accepts_exactly : forall t bs, parse_text t = Some bs <-> text_of bs t.
Proof. exact parse_text_iff. Qed.
Theorem C62_one_meaning : forall t bs bs', text_of bs t -> text_of bs' t -> bs = bs'.
Proof. intros t bs bs' H H'. apply C62_accepts_exactly in H, H'. congruence. Qed.
(** the layout does not matter: two texts with the same tokens *)
Theorem C62_layout : forall bs t t', parse_text t = Some bs -> spelled (flat_map block_tokens bs) t' -> parse_text t' = Some bs.
Proof. intros bs t t' H H'. apply C62_accepts_exactly in H as (G & _). apply C62_accepts_exactly. split; assumption. Qed.
(** every list of good blocks can be written, for instance with a space before each token *)
Definition write (bs : list block) : text := flat_map (fun k => 32 :: chars k) (flat_map block_tokens bs).
Theorem C62_everything_can_be_written : forall bs, (forall b, In b bs -> good_block b) -> parse_text (write bs) = Some bs.
Proof.
  intros bs G. apply C62_accepts_exactly. split; [exact G|]. unfold write. generalize (flat_map block_tokens bs) as ks. clear G bs. induction ks as [|k ks IH]; cbn [flat_map].
  - apply spelled_end. intros c [].
  - apply (spelled_token white [32] k ks); [intros c [<- |[]]; reflexivity| |exact IH]. intros s _. destruct ks; [exact Logic.I|reflexivity].
Qed.

(** ** files one after the other, and files cut short *)
Theorem C62_one_after_the_other : forall t1 t2 bs1, parse_text t1 = Some bs1 ->
  parse_text (t1 ++ t2) = match parse_text t2 with Some bs2 => Some (bs1 ++ bs2) | None => None end.
Proof. intros t1 t2 bs1 H. apply parse_append, H. Qed.
(** a file of which only the beginning was written is refused, or else it gives the first blocks of the
    complete file: the cut is between two blocks *)
Theorem C62_cut_short : forall t1 t2 bs bs1, parse_text (t1 ++ t2) = Some bs -> parse_text t1 = Some bs1 ->
  exists bs2, bs = bs1 ++ bs2 /\ text_of bs2 t2.
Proof.
  intros t1 t2 bs bs1 H H1. rewrite (parse_append _ _ t2 H1) in H. destruct (parse_text t2) as [bs2|] eqn:E; [|discriminate]. injection H as <-. exists bs2. split; [reflexivity|]. apply C62_accepts_exactly, E.
Qed.

(** ** the characters of an accepted text *)
Definition keywords : list string :=
  ["network"; "variable"; "probability"; "property"; "type"; "discrete"; "table"; "{"; "}"; "["; "]"; "("; ")"; "|"; ","; ";"]%string.
Definition plain_char (c : nat) : Prop := is_ws c = true \/ is_value c = true \/ In c (str "{}[]()|,;+").
Definition kind (k : token) : Prop :=
  (exists s, k = K s /\ In s keywords) \/ (exists s, k = Name s /\ good_name s) \/ (exists s, k = Count s /\ good_count s) \/
  (exists v, k = Value v /\ (bare v \/ quoted v)) \/ (exists n, k = Num n /\ good_number n).
Ltac key := left; eexists; split; [reflexivity|cbn; tauto].
Lemma commas_kind {A} (tok : A -> token) l k : (forall a, In a l -> kind (tok a)) -> In k (commas (map tok l)) -> kind k.
Proof.
  induction l as [|x l IH]; intros H Hk; [destruct Hk|]. destruct l as [|y l].
  - destruct Hk as [<- |[]]. apply H. left. reflexivity.
  - cbn [map] in Hk. rewrite commas_cons in Hk by discriminate. destruct Hk as [<- |[<- |Hk]]; [apply H; left; reflexivity|key|]. apply IH; [intros a Ha; apply H; right; exact Ha|exact Hk].
Qed.
Lemma names_kind l k : (forall s, In s l -> good_name s) -> In k (commas (map Name l)) -> kind k.
Proof. intros H. apply commas_kind. intros s Hs. right. left. exists s. auto. Qed.
Lemma row_kind l k : good_row l -> In k (commas (map Num l)) -> kind k.
Proof. intros (_ & H). apply commas_kind. intros s Hs. do 4 right. exists s. auto. Qed.
Lemma properties_kind ps k : (forall p, In p ps -> good_property p) -> In k (flat_map property_tokens ps) -> kind k.
Proof.
  intros H Hk. apply in_flat_map in Hk as (p & Hp & Hk). destruct (H p Hp) as (H1 & H2). destruct Hk as [<- |[<- |[<- |[<- |[]]]]]; [key|right; left; eauto|do 3 right; left; eauto|key].
Qed.
Lemma block_kind b k : good_block b -> In k (block_tokens b) -> kind k.
Proof.
  destruct b as [name ps|name count values ps|name given x ps]; intros G H; cbn [block_tokens] in H.
  - destruct G as (G1 & G2). apply in_app_or in H as [[<- |[<- |[<- |[]]]]|H]; [key|right; left; eauto|key|]. apply in_app_or in H as [H|[<- |[]]]; [|key]. apply (properties_kind _ _ G2 H).
  - destruct G as (G1 & G2 & (_ & G3) & G4). apply in_app_or in H as [H|H].
    + destruct H as [<- |[<- |[<- |[<- |[<- |[<- |[<- |[<- |[<- |[]]]]]]]]]]; try key; [right; left; eauto|right; right; left; eauto].
    + apply in_app_or in H as [H|H]; [apply (names_kind _ _ G3 H)|]. apply in_app_or in H as [[<- |[<- |[]]]|H]; try key. apply in_app_or in H as [H|[<- |[]]]; [|key]. apply (properties_kind _ _ G4 H).
  - destruct G as (G1 & G2 & G3 & G4). apply in_app_or in H as [H|H]; [destruct H as [<- |[<- |[<- |[]]]]; try key; right; left; eauto|].
    apply in_app_or in H as [H|H].
    + destruct given as [|g given]; [destruct H|]. destruct H as [<- |H]; [key|]. apply (names_kind _ _ G2 H).
    + apply in_app_or in H as [[<- |[<- |[]]]|H]; try key. apply in_app_or in H as [H|H].
      * destruct x as [row|ls]; cbn [rows_tokens] in H.
        -- destruct H as [<- |H]; [key|]. apply in_app_or in H as [H|[<- |[]]]; [|key]. apply (row_kind _ _ G3 H).
        -- apply in_flat_map in H as (l & Hl & Hk). destruct (proj2 G3 l Hl) as (L1 & L2). unfold line_tokens in Hk. destruct Hk as [<- |Hk]; [key|]. apply in_app_or in Hk as [Hk|[<- |Hk]]; [apply (names_kind _ _ (proj2 L1) Hk)|key|].
           apply in_app_or in Hk as [Hk|[<- |[]]]; [|key]. apply (row_kind _ _ L2 Hk).
      * apply in_app_or in H as [H|[<- |[]]]; [|key]. apply (properties_kind _ _ G4 H).
Qed.
Lemma ident_value c : is_ident c = true -> is_value c = true.
Proof. unfold is_value. intros ->. reflexivity. Qed.
Lemma digit_value c : is_digit c = true -> is_value c = true.
Proof. unfold is_value, is_ident. intros ->. rewrite orb_true_r. reflexivity. Qed.
Lemma kind_chars k c : kind k -> In c (chars k) -> plain_char c \/ exists v, k = Value v /\ quoted v.
Proof.
  intros [(s & -> & Hs)|[(s & -> & _ & Hs)|[(s & -> & _ & Hs)|[(v & -> & [(_ & Hv)|Hv])|(n & -> & Hn)]]]] H.
  - left. assert (Hall : forall s, In s keywords -> forall c, In c (str s) -> plain_char c).
    { intros s0 Hs0 c0 Hc0. assert (G : forallb (fun s => forallb (fun c => (is_ws c || is_value c || existsb (Nat.eqb c) (str "{}[]()|,;+"))%bool) (str s)) keywords = true) by (vm_compute; reflexivity).
      rewrite forallb_forall in G. specialize (G s0 Hs0). rewrite forallb_forall in G. specialize (G c0 Hc0). apply orb_true_iff in G as [G|G]; [apply orb_true_iff in G as [G|G]; [left; exact G|right; left; exact G]|].
      right. right. apply existsb_exists in G as (d & Hd & Ed). apply Nat.eqb_eq in Ed. congruence. }
    apply (Hall s Hs c H).
  - left. right. left. apply ident_value, Hs, H.
  - left. right. left. apply digit_value, Hs, H.
  - left. right. left. apply Hv, H.
  - right. exists v. auto.
  - left. destruct Hn as (H1 & H2 & _ & H4). cbn [chars] in H. unfold number_chars in H. apply in_app_or in H as [H|H]; [right; left; apply digit_value, H1, H|]. apply in_app_or in H as [H|H].
    + destruct (n_frac n) as [f|]; [|destruct H]. destruct H as [<- |H]; [right; left; reflexivity|]. right. left. apply digit_value, (H2 f eq_refl), H.
    + destruct (n_exp n) as [[[e sign] ds]|]; [|destruct H]. destruct (H4 _ _ _ eq_refl) as (E1 & E2 & _ & E3). destruct H as [<- |H]; [right; left; destruct E1 as [-> | ->]; reflexivity|].
      apply in_app_or in H as [H|H]; [|right; left; apply digit_value, E3, H]. destruct sign as [s|]; [|destruct H]. destruct H as [<- |[]]. destruct (E2 s eq_refl) as [-> | ->]; [right; right; cbn; tauto|right; left; reflexivity].
Qed.
Lemma spelled_chars ks t c : spelled ks t -> In c t -> is_ws c = true \/ exists k, In k ks /\ In c (chars k).
Proof.
  induction 1 as [w Hw|w k ks t Hw Hn H IH]; intros Hc; [left; apply Hw, Hc|]. apply in_app_or in Hc as [Hc|Hc]; [left; apply Hw, Hc|]. apply in_app_or in Hc as [Hc|Hc].
  - right. exists k. split; [left; reflexivity|exact Hc].
  - destruct (IH Hc) as [IH'|(k' & Hk & Hc')]; [left; exact IH'|right; exists k'; split; [right; exact Hk|exact Hc']].
Qed.
Lemma chars_spelled ks t k c : spelled ks t -> In k ks -> In c (chars k) -> In c t.
Proof.
  induction 1 as [w Hw|w k0 ks t Hw Hn H IH]; intros Hk Hc; [destruct Hk|]. apply in_or_app. right. apply in_or_app. destruct Hk as [<- |Hk]; [left; exact Hc|right; apply IH; assumption].
Qed.
(** a text without double quotes that contains any other character, for example of a comment or of a
    name like a<b, is refused *)
Theorem C62_other_characters : forall t c, ~ In 34 t -> In c t -> ~ plain_char c -> parse_text t = None.
Proof.
  intros t c Hq Hc Hn. destruct (parse_text t) as [bs|] eqn:E; [|reflexivity]. exfalso. apply C62_accepts_exactly in E as (G & H).
  destruct (spelled_chars _ _ c H Hc) as [Hw|(k & Hk & Hck)]; [apply Hn; left; exact Hw|]. pose proof Hk as Hk'. apply in_flat_map in Hk as (b & Hb & Hkb). destruct (kind_chars k c (block_kind b k (G b Hb) Hkb) Hck) as [Hp|(v & -> & q & _ & ->)]; [apply Hn, Hp|].
  apply Hq. apply (chars_spelled _ _ _ 34 H Hk'). left. reflexivity.
Qed.

(** ** numbers *)
(** the number that decimal digits denote *)
Fixpoint numeral (ds : text) : Z := match ds with [] => 0%Z | c :: ds' => ((Z.of_nat c - 48) * 10 ^ Z.of_nat (length ds') + numeral ds')%Z end.
Lemma int_of_acc ds : forall a, fold_left (fun a c => (10 * a + (Z.of_nat c - 48))%Z) ds a = (a * 10 ^ Z.of_nat (length ds) + numeral ds)%Z.
Proof.
  induction ds as [|c ds IH]; intros a; cbn [fold_left numeral length]; [cbn; lia|]. rewrite IH, Nat2Z.inj_succ, Z.pow_succ_r by lia. ring.
Qed.
Lemma int_of_numeral ds : int_of ds = numeral ds.
Proof. unfold int_of. rewrite int_of_acc. lia. Qed.
Lemma numeral_app a b : numeral (a ++ b) = (numeral a * 10 ^ Z.of_nat (length b) + numeral b)%Z.
Proof.
  induction a as [|c a IH]; cbn [app numeral]; [lia|]. rewrite IH, app_length, Nat2Z.inj_add, Z.pow_add_r by lia. ring.
Qed.
Lemma numeral_nonneg ds : digits ds -> (0 <= numeral ds)%Z.
Proof.
  induction ds as [|c ds IH]; intros H; cbn [numeral]; [lia|]. assert (Hc : is_digit c = true) by (apply H; left; reflexivity). unfold is_digit in Hc. apply andb_true_iff in Hc as [Hc _]. apply Nat.leb_le in Hc.
  assert (0 <= numeral ds)%Z by (apply IH; intros d Hd; apply H; right; exact Hd). assert (0 <= 10 ^ Z.of_nat (length ds))%Z by (apply Z.pow_nonneg; lia). nia.
Qed.
Definition power_of_ten (e : option (nat * option nat * text)) : R :=
  match e with
  | None => 1
  | Some (_, Some 45, ds) => / 10 ^ Z.to_nat (numeral ds)
  | Some (_, _, ds) => 10 ^ Z.to_nat (numeral ds)
  end%R.
(** 12.34e-5 is (12 + 34/100) / 10^5 *)
Theorem C62_number : forall n, good_number n -> let f := match n_frac n with Some f => f | None => [] end in
  float_of n = ((IZR (numeral (n_int n)) + IZR (numeral f) / 10 ^ length f) * power_of_ten (n_exp n))%R.
Proof.
  intros n G f. unfold float_of. fold f. rewrite int_of_numeral, numeral_app, plus_IZR, mult_IZR.
  assert (Hpow : forall k, IZR (10 ^ Z.of_nat k) = (10 ^ k)%R) by (intros k; rewrite <- pow_IZR; reflexivity). rewrite Hpow.
  assert (Hten : (10 <> 0)%R) by lra. assert (Hf : (10 ^ length f <> 0)%R) by (apply pow_nonzero; exact Hten).
  assert (He : forall z, powerRZ 10 (z - Z.of_nat (length f)) = (powerRZ 10 z / 10 ^ length f)%R).
  { intros z. unfold Z.sub. rewrite powerRZ_add by exact Hten. rewrite powerRZ_neg', <- pow_powerRZ. reflexivity. }
  rewrite He. assert (Hpz : forall z, (0 <= z)%Z -> powerRZ 10 z = (10 ^ Z.to_nat z)%R) by (intros z Hz; rewrite pow_powerRZ, Z2Nat.id by exact Hz; reflexivity).
  assert (Hnz : forall z, (0 <= z)%Z -> powerRZ 10 (- z) = (/ 10 ^ Z.to_nat z)%R) by (intros z Hz; rewrite powerRZ_neg'; rewrite <- (Z2Nat.id z Hz) at 1; rewrite <- pow_powerRZ; reflexivity).
  destruct G as (_ & _ & _ & G). destruct (n_exp n) as [[[e sign] ds]|]; cbn [power_of_ten].
  - destruct (G _ _ _ eq_refl) as (_ & Hs & _ & Hd). pose proof (numeral_nonneg ds Hd) as Hds. rewrite int_of_numeral. destruct sign as [s|]; [|rewrite (Hpz _ Hds); field; exact Hf].
    destruct (Hs s eq_refl) as [-> | ->]; [rewrite (Hpz _ Hds); field; exact Hf|]. rewrite (Hnz _ Hds). field. split; [apply pow_nonzero; exact Hten|exact Hf].
  - cbn [powerRZ]. field. exact Hf.
Qed.
(** the probabilities of a block *)
Definition numbers_of (b : block) : list number :=
  match b with ProbabilityB _ _ (Table row) _ => row | ProbabilityB _ _ (Lines ls) _ => flat_map snd ls | _ => [] end.
(** no probability of an accepted text is negative *)
Theorem C62_no_negative_probability : forall t bs b n, parse_text t = Some bs -> In b bs -> In n (numbers_of b) -> (0 <= float_of n)%R.
Proof.
  intros t bs b n H Hb Hn. apply C62_accepts_exactly in H as (G & _). specialize (G b Hb).
  assert (Hg : good_number n).
  { destruct b as [| |name given x ps]; [destruct Hn|destruct Hn|]. destruct G as (_ & _ & G & _). destruct x as [row|ls]; cbn [numbers_of] in Hn; [apply G, Hn|]. apply in_flat_map in Hn as (l & Hl & Hn). apply (proj2 G l Hl), Hn. }
  rewrite (C62_number n Hg). set (f := match n_frac n with Some f => f | None => [] end). destruct Hg as (H1 & H2 & _ & _).
  assert (Hf : (0 <= IZR (numeral f))%R) by (apply IZR_le, numeral_nonneg; subst f; destruct (n_frac n) as [f|]; [apply (H2 f eq_refl)|intros c []]).
  assert (Hi : (0 <= IZR (numeral (n_int n)))%R) by (apply IZR_le, numeral_nonneg, H1).
  assert (Hp : forall k, (0 < 10 ^ k)%R) by (intros k; apply pow_lt; lra).
  apply Rmult_le_pos; [apply Rplus_le_le_0_compat; [exact Hi|apply Rmult_le_pos; [exact Hf|left; apply Rinv_0_lt_compat, Hp]]|].
  unfold power_of_ten. destruct (n_exp n) as [[[e sign] ds]|]; [|lra]. destruct sign as [s|]; [|left; apply Hp].
  do 46 (destruct s as [|s]; [first [left; apply Hp|left; apply Rinv_0_lt_compat, Hp]|]). left. apply Hp.
Qed.

(** ** name and properties *)
(** a dictionary of properties: of two with the same name the last one counts *)
Definition property_table (ps d : list (text * text)) : Prop :=
  NoDup (map fst d) /\ forall k v, In (k, v) d <-> last_such (fun p => fst p = k) ps (k, v).
Lemma text_eqb_eq a b : text_eqb a b = true <-> a = b.
Proof. unfold text_eqb. destruct (list_eq_dec Nat.eq_dec a b); split; congruence. Qed.
Lemma assoc_set_text_keys k (v : text) d x : In x (map fst (assoc_set text_eqb k v d)) <-> x = k \/ In x (map fst d).
Proof.
  induction d as [|[k' v'] d IH]; cbn [assoc_set map fst In]; [intuition congruence|]. destruct (text_eqb k k') eqn:E.
  - apply text_eqb_eq in E. subst k'. cbn [map fst In]. intuition congruence.
  - cbn [map fst In]. rewrite IH. intuition congruence.
Qed.
Lemma assoc_set_text_NoDup k (v : text) d : NoDup (map fst d) -> NoDup (map fst (assoc_set text_eqb k v d)).
Proof.
  induction d as [|[k' v'] d IH]; intros H; cbn [assoc_set map fst]; [constructor; [intros []|constructor]|]. inversion H as [|? ? H1 H2]; subst. destruct (text_eqb k k') eqn:E; cbn [map fst]; [exact H|].
  constructor; [|apply IH, H2]. intros Hin. apply assoc_set_text_keys in Hin as [-> |Hin]; [|contradiction]. rewrite (proj2 (text_eqb_eq k k) eq_refl) in E. discriminate.
Qed.
Lemma assoc_set_text_In k (v : text) d k' v' : NoDup (map fst d) -> In (k', v') (assoc_set text_eqb k v d) <-> (k' = k /\ v' = v) \/ (k' <> k /\ In (k', v') d).
Proof.
  induction d as [|[k0 v0] d IH]; intros H; cbn [assoc_set In].
  - split; [intros [E|[]]; injection E as <- <-; left; auto|intros [[-> ->]|[_ []]]; left; reflexivity].
  - inversion H as [|? ? H1 H2]; subst. destruct (text_eqb k k0) eqn:E; cbn [In].
    + apply text_eqb_eq in E. subst k0. split.
      * intros [E|E]; [injection E as <- <-; left; auto|]. right. split; [|right; exact E]. intros ->. apply H1. apply (in_map fst) in E. exact E.
      * intros [[-> ->]|[Hn [E|E]]]; [left; reflexivity|injection E as <- <-; congruence|right; exact E].
    + rewrite (IH H2). assert (Hne : k0 <> k) by (intros ->; rewrite (proj2 (text_eqb_eq k k) eq_refl) in E; discriminate). split.
      * intros [E'|[E'|[Hn E']]]; [injection E' as <- <-; right; split; [exact Hne|left; reflexivity]|left; exact E'|right; auto].
      * intros [E'|[Hn [E'|E']]]; [right; left; exact E'|left; exact E'|right; right; auto].
Qed.
Lemma properties_table ps : property_table ps (properties_of ps).
Proof.
  unfold properties_of. induction ps as [|[k v] ps IH] using rev_ind; [split; [constructor|]; intros k v; split; [intros []|intros (b & a & E & _); destruct b; discriminate]|].
  rewrite fold_left_app. cbn [fold_left fst snd]. destruct IH as (IH1 & IH2). split; [apply assoc_set_text_NoDup, IH1|]. intros k' v'. rewrite (assoc_set_text_In _ _ _ _ _ IH1), last_such_snoc. cbn [fst]. rewrite IH2. split.
  - intros [[-> ->]|[Hn H]]; [left; auto|right; split; [congruence|exact H]].
  - intros [[Hk E]|[Hn H]]; [injection E as -> ->; left; auto|right; split; [congruence|exact H]].
Qed.
Definition titles (b : block) : Prop := exists name ps, b = NetworkB name ps.
(** the name and the properties of the network are those of the last network block; without one they
    are empty *)
Theorem C62_heading : forall bs,
  ((forall b, In b bs -> ~ titles b) -> heading bs = ([], [])) /\
  (forall name ps, last_such titles bs (NetworkB name ps) -> fst (heading bs) = name /\ property_table ps (snd (heading bs))).
Proof.
  intros bs. unfold heading. induction bs as [|b bs (IH1 & IH2)] using rev_ind; [split; [reflexivity|intros n ps (x & y & E & _); destruct x; discriminate]|]. rewrite fold_left_app. cbn [fold_left]. split.
  - intros H. destruct b as [name ps| |]; [exfalso; apply (H (NetworkB name ps)); [apply in_or_app; right; left; reflexivity|exists name, ps; reflexivity]| |]; apply IH1; intros b' Hb; apply H, in_or_app; left; exact Hb.
  - intros name ps H. apply last_such_snoc in H as [((n & p & ->) & E)|(Hn & H)].
    + injection E as -> ->. split; [reflexivity|apply properties_table].
    + destruct b as [n p| |]; [exfalso; apply Hn; exists n, p; reflexivity| |]; apply IH2, H.
Qed.
(** the properties of a variable are those of its last declaration, those of a distribution the ones of
    the last probability block of its variable *)
Definition declares_text (v : text) (b : block) : Prop := exists c vs ps, b = VariableB v c vs ps.
Definition distributes_text (v : text) (b : block) : Prop := exists g r ps, b = ProbabilityB v g r ps.
Theorem C62_properties : forall bs v,
  (forall c vs ps, last_such (declares_text v) bs (VariableB v c vs ps) -> exists d, variable_properties bs v = Some d /\ property_table ps d) /\
  (forall g r ps, last_such (distributes_text v) bs (ProbabilityB v g r ps) -> exists d, distribution_properties bs v = Some d /\ property_table ps d).
Proof.
  intros bs v. unfold variable_properties, distribution_properties. induction bs as [|b bs (IH1 & IH2)] using rev_ind; [split; [intros c vs ps (x & y & E & _)|intros g r ps (x & y & E & _)]; destruct x; discriminate|].
  rewrite !fold_left_app. cbn [fold_left]. split.
  - intros c vs ps H. apply last_such_snoc in H as [(_ & <-)|(Hn & H)].
    + rewrite (proj2 (text_eqb_eq v v) eq_refl). exists (properties_of ps). split; [reflexivity|apply properties_table].
    + apply IH1 in H as (d & H1 & H2). exists d. split; [|exact H2]. destruct b as [|name c' vs' ps'|]; try exact H1. destruct (text_eqb name v) eqn:E; [|exact H1]. apply text_eqb_eq in E. subst name. exfalso. apply Hn. exists c', vs', ps'. reflexivity.
  - intros g r ps H. apply last_such_snoc in H as [(_ & <-)|(Hn & H)].
    + rewrite (proj2 (text_eqb_eq v v) eq_refl). exists (properties_of ps). split; [reflexivity|apply properties_table].
    + apply IH2 in H as (d & H1 & H2). exists d. split; [|exact H2]. destruct b as [| |name g' r' ps']; try exact H1. destruct (text_eqb name v) eqn:E; [|exact H1]. apply text_eqb_eq in E. subst name. exfalso. apply Hn. exists g', r', ps'. reflexivity.
Qed.

(** ** from the text to the network *)
(** a variable of a network, with names as texts *)
Record variable := { v_name : text; v_values : list text; v_parents : list text; v_table : list (option (list text) * list number) }.
(** the same with the names numbered *)
Definition numbered (code : text -> nat) (x : variable) : node :=
  {| nname := code (v_name x); nID := None; nvalues := map code (v_values x); nparents := map code (v_parents x);
     nprobs := map (fun kr => (option_map (map code) (fst kr), map float_of (snd kr))) (v_table x) |}.
(** its blocks, with any properties and any announced number of values *)
Definition declaration (x : variable) (b : block) : Prop := exists c ps, b = VariableB (v_name x) c (v_values x) ps.
Definition distribution (x : variable) (b : block) : Prop := exists ps,
  (exists row, v_table x = [(None, row)] /\ b = ProbabilityB (v_name x) (v_parents x) (Table row) ps) \/
  (exists ls, v_table x = map (fun l => (Some (fst l), snd l)) ls /\ b = ProbabilityB (v_name x) (v_parents x) (Lines ls) ps).
(** a file: network blocks, a declaration and a distribution for each variable, in any order *)
Definition file_of_variables (xs : list variable) (bs : list block) : Prop :=
  exists ts ds ps, (forall b, In b ts -> titles b) /\ Forall2 declaration xs ds /\ Forall2 distribution xs ps /\ Permutation bs (ts ++ ds ++ ps).
Lemma Forall2_map_eq {A B C} (P : A -> B -> Prop) (f : A -> C) (g : B -> C) xs ys : (forall x y, P x y -> g y = f x) -> Forall2 P xs ys -> map g ys = map f xs.
Proof. intros H. induction 1; cbn [map]; [reflexivity|]. f_equal; auto. Qed.
Lemma declarations code xs ds : Forall2 declaration xs ds -> NoDup (map (fun x => code (v_name x)) xs) ->
  exists count, map (item_of code) ds = map (fun x => Bif_Properties.variable_block count (numbered code x)) xs.
Proof.
  induction 1 as [|x d xs ds (c & ps & ->) H IH]; intros HN; [exists (fun _ => 0); reflexivity|]. cbn [map] in HN. inversion HN as [|? ? H1 H2]; subst. destruct (IH H2) as (count & E).
  exists (fun n => if nname n =? code (v_name x) then Z.to_nat (int_of c) else count n). cbn [map]. f_equal.
  - unfold Bif_Properties.variable_block. cbn [item_of numbered nname nvalues]. rewrite Nat.eqb_refl. reflexivity.
  - rewrite E. apply map_ext_in. intros y Hy. unfold Bif_Properties.variable_block. cbn [numbered nname nvalues]. destruct (Nat.eqb_spec (code (v_name y)) (code (v_name x))) as [Ey|]; [|reflexivity].
    exfalso. apply H1. rewrite <- Ey. apply (in_map (fun x => code (v_name x))), Hy.
Qed.
Lemma file_items code xs bs : file_of_variables xs bs -> NoDup (map (fun x => code (v_name x)) xs) -> file_of (map (numbered code) xs) (map (item_of code) bs).
Proof.
  intros (ts & ds & ps & Ht & Hd & Hp & HP) HN. destruct (declarations code xs ds Hd HN) as (count & E).
  exists (map (fun b => match b with NetworkB n _ => code n | _ => 0 end) ts), count. rewrite (Permutation_map (item_of code) HP), !map_app.
  assert (Et : map (item_of code) ts = map NetworkBlock (map (fun b => match b with NetworkB n _ => code n | _ => 0 end) ts)).
  { rewrite map_map. apply map_ext_in. intros b Hb. destruct (Ht b Hb) as (n & p & ->). reflexivity. }
  assert (Ep : map (item_of code) ps = map (fun x => Bif_Properties.probability_block (numbered code x)) xs).
  { apply (Forall2_map_eq distribution); [|exact Hp]. intros x b (qs & [(row & Er & ->)|(ls & El & ->)]); unfold Bif_Properties.probability_block; cbn [item_of numbered nname nparents nprobs].
    - rewrite Er. reflexivity.
    - rewrite El, map_map. reflexivity. }
  rewrite Et, E, Ep, !map_map. apply Permutation_refl.
Qed.
(** reading any text of a network gives that network: under every numbering of names and values for
    which it is a network in the sense of C18-C21 and C55 *)
Theorem C62_reads_the_network : forall code xs bs t, file_of_variables xs bs -> text_of bs t -> fresh_network (map (numbered code) xs) ->
  exists rs ns', parse_bif_text code t = Some (Ok rs) /\ Permutation (map (numbered code) xs) ns' /\ map node_of rs = ns' /\
    forall fuel, finalize_read fuel rs = finalize fuel (new_bn ns').
Proof.
  intros code xs bs t Hf Ht Hfr. apply C62_accepts_exactly in Ht. unfold parse_bif_text. rewrite Ht. cbn [then_].
  assert (HN : NoDup (map (fun x => code (v_name x)) xs)) by (pose proof (proj1 (proj1 Hfr)) as HN; rewrite map_map in HN; exact HN).
  destruct (C55_reads_the_network _ _ Hfr (file_items code xs bs Hf HN)) as (rs & ns' & E & HP & En & Hfin). exists rs, ns'. rewrite E. auto.
Qed.
(** ... with the joint distribution that is the product of the tables in the text *)
Theorem C62_joint_distribution : forall code xs bs t, file_of_variables xs bs -> text_of bs t ->
  let ns := map (numbered code) xs in fresh_network ns -> acyclic ns -> forall as_indices,
  exists rs b P, parse_bif_text code t = Some (Ok rs) /\
    (forall fuel, length ns <= fuel -> finalize_read fuel rs = Ok b) /\
    (forall fuel, length ns < fuel -> create_joint_pmf fuel b as_indices = Ok P) /\
    (forall k r, In (k, r) (probabilities P) <->
       exists tu, In tu (tuples ns) /\ k = tuple_key (if as_indices then tu else values_at ns tu) /\ r = joint ns (assignment ns tu)).
Proof.
  intros code xs bs t Hf Ht ns Hfr Hac ai. apply C62_accepts_exactly in Ht. unfold parse_bif_text. rewrite Ht. cbn [then_].
  assert (HN : NoDup (map (fun x => code (v_name x)) xs)) by (pose proof (proj1 (proj1 Hfr)) as HN; unfold ns in HN; rewrite map_map in HN; exact HN).
  destruct (C55_joint_distribution _ _ Hfr Hac (file_items code xs bs Hf HN) ai) as (rs & b & P & E & H1 & H2 & _ & H4). exists rs, b, P. rewrite E. auto.
Qed.

(** ** examples *)
Definition bif_example : text := str "network test{}variable A{typediscrete[2]{y,n};property note ""a \"" // b"";}
  probability(A){table.25,75e-2;}
variable B { type discrete [ 7 ] { y, n }; property v.5; }
probability ( B | A ) { (y) 0.5, 0.5; (n) 1, 0.0e+5; }".
Definition num (i f : string) : number := Number (str i) (Some (str f)) None.
Definition var_A : variable := {| v_name := str "A"; v_values := [str "y"; str "n"]; v_parents := [];
  v_table := [(None, [num "" "25"; Number (str "75") None (Some (101, Some 45, str "2"))])] |}.
Definition var_B : variable := {| v_name := str "B"; v_values := [str "y"; str "n"]; v_parents := [str "A"];
  v_table := [(Some [str "y"], [num "0" "5"; num "0" "5"]); (Some [str "n"], [Number (str "1") None None; Number (str "0") (Some (str "0")) (Some (101, Some 43, str "5"))])] |}.
Definition example_blocks : list block :=
  [NetworkB (str "test") []; VariableB (str "A") (str "2") [str "y"; str "n"] [(str "note", str """a \"" // b""")];
   ProbabilityB (str "A") [] (Table [num "" "25"; Number (str "75") None (Some (101, Some 45, str "2"))]) [];
   VariableB (str "B") (str "7") [str "y"; str "n"] [(str "v", str ".5")];
   ProbabilityB (str "B") [str "A"] (Lines [([str "y"], [num "0" "5"; num "0" "5"]); ([str "n"], [Number (str "1") None None; Number (str "0") (Some (str "0")) (Some (101, Some 43, str "5"))])]) []].
Definition code256 (s : text) : nat := fold_left (fun a c => 256 * a + c) s 0.
Lemma example_parsed : parse_text bif_example = Some example_blocks.
Proof. vm_compute. reflexivity. Qed.
Lemma example_file : file_of_variables [var_A; var_B] example_blocks.
Proof.
  exists [NetworkB (str "test") []], [VariableB (str "A") (str "2") [str "y"; str "n"] [(str "note", str """a \"" // b""")]; VariableB (str "B") (str "7") [str "y"; str "n"] [(str "v", str ".5")]].
  eexists [_; _]. split; [intros b [<- |[]]; eexists; eexists; reflexivity|]. split; [repeat constructor; eexists; eexists; reflexivity|]. split.
  - constructor; [exists []; left; eexists; split; reflexivity|]. constructor; [|constructor]. exists []. right. exists [([str "y"], [num "0" "5"; num "0" "5"]); ([str "n"], [Number (str "1") None None; Number (str "0") (Some (str "0")) (Some (101, Some 43, str "5"))])]. split; reflexivity.
  - unfold example_blocks. cbn [app]. apply perm_skip, perm_skip, perm_swap.
Qed.
Definition example_nodes : list node := map (numbered code256) [var_A; var_B].
Lemma example_fresh : fresh_network example_nodes.
Proof.
  assert (E : exists p q r s, example_nodes = [{| nname := 65; nID := None; nvalues := [121; 110]; nparents := []; nprobs := [(None, p :: [q])] |};
                              {| nname := 66; nID := None; nvalues := [121; 110]; nparents := [65]; nprobs := [(Some [121], [r; r]); (Some [110], s)] |}] /\ length s = 2).
  { eexists. eexists. eexists. eexists. unfold example_nodes, numbered, var_A, var_B. cbn [map v_name v_values v_parents v_table option_map fst snd].
    change (code256 (str "A")) with 65. change (code256 (str "B")) with 66. change (code256 (str "y")) with 121. change (code256 (str "n")) with 110. split; reflexivity. }
  destruct E as (p & q & r & s & -> & Hs). split; [split; [repeat constructor; cbn; intuition lia|intros a c (n & Hn & _ & Hp); cbn in Hn; destruct Hn as [<- |[<- |[]]]; cbn in Hp; intuition; subst; cbn; auto]|]. split.
  - intros n Hn. destruct Hn as [<- |[<- |[]]]; cbn [nvalues nparents nprobs map fst];
      (split; [discriminate|]; split; [repeat constructor; cbn; intuition lia|]; split; [repeat constructor; cbn; intuition lia|]; split; [repeat constructor; cbn; intuition discriminate|]; split).
    + intros vals H. inversion H; subst. eexists. split; [left; reflexivity|reflexivity].
    + intros k row [E|[]]; injection E as <- <-. exists []. split; [constructor|reflexivity].
    + intros vals H. inversion H as [|? v ? l H1 H2]; subst. inversion H2; subst. cbn in H1. destruct H1 as [<- |[<- |[]]]; eexists; [split; [left; reflexivity|reflexivity]|split; [right; left; reflexivity|exact Hs]].
    + intros k row [E|[E|[]]]; injection E as <- <-; eexists; (split; [|reflexivity]); repeat apply Forall2_cons; try apply Forall2_nil; cbn; auto.
  - intros n [<- |[<- |[]]]; reflexivity.
Qed.
(** the theorems apply to this text *)
Example C62_nonvacuous : text_of example_blocks bif_example /\ file_of_variables [var_A; var_B] example_blocks /\ fresh_network (map (numbered code256) [var_A; var_B]).
Proof. split; [apply C62_accepts_exactly, example_parsed|]. split; [exact example_file|exact example_fresh]. Qed.
(** accepted: a file cut between two blocks; an empty file.  Refused: a file cut inside a block, a
    comment, a negative number, a name with a dot, a row without numbers *)
Example C62_cut_between : parse_text (firstn 14 bif_example) = Some [NetworkB (str "test") []] /\ parse_text [] = Some [].
Proof. split; vm_compute; reflexivity. Qed.
Example C62_refused :
  parse_text (firstn 13 bif_example) = None /\ parse_text (str "network a { } // end") = None /\
  parse_text (str "probability(A){table -1;}") = None /\ parse_text (str "network a.b { }") = None /\ parse_text (str "probability(A){table ;}") = None /\
  parse_text (str "variable A { type discrete [ 0 ] { }; }") = None.
Proof. repeat split; vm_compute; reflexivity. Qed.

(** ** the classes of characters *)
Definition lower : string := "abcdefghijklmnopqrstuvwxyz".
Definition upper : string := "ABCDEFGHIJKLMNOPQRSTUVWXYZ".
Definition decimal : string := "0123456789".
Lemma class_table (p : nat -> bool) (l : text) : (forall c, p c = true -> c < 128) -> forallb (fun c => Bool.eqb (p c) (existsb (Nat.eqb c) l)) (seq 0 128) = true ->
  forallb (fun c => c <? 128) l = true -> forall c, p c = true <-> In c l.
Proof.
  intros Hp H Hl c. assert (Hin : existsb (Nat.eqb c) l = true <-> In c l).
  { rewrite existsb_exists. split; [intros (d & Hd & E); apply Nat.eqb_eq in E; congruence|intros Hd; exists c; split; [exact Hd|apply Nat.eqb_refl]]. }
  rewrite <- Hin. destruct (Nat.lt_ge_cases c 128) as [Hc|Hc].
  - rewrite forallb_forall in H. specialize (H c). rewrite eqb_true_iff in H. rewrite H; [reflexivity|]. apply in_seq. lia.
  - split; intros G; exfalso; [apply Hp in G; lia|]. apply Hin in G. rewrite forallb_forall in Hl. specialize (Hl c G). apply Nat.ltb_lt in Hl. lia.
Qed.
(** whitespace: space, tab, line feed, form feed, carriage return; digits; the characters of a name;
    those of an unquoted property value *)
Theorem C62_characters : forall c,
  (is_ws c = true <-> In c [32; 9; 10; 12; 13]) /\ (is_digit c = true <-> In c (str decimal)) /\
  (is_ident c = true <-> In c (str lower ++ str upper ++ str decimal ++ str "-_")) /\
  (is_value c = true <-> In c (str lower ++ str upper ++ str decimal ++ str "-_.")).
Proof.
  intros c. split; [|split; [|split]]; apply class_table; try (vm_compute; reflexivity); intros d H; unfold is_ws, is_value, is_ident, is_letter, is_digit in H; by_bool; lia.
Qed.
