(** C61: choosing algorithm runs by tag. *)
From Coq Require Import String.
From Verif Require Import Base Matrix_Model Text_Model FS_Model Storage_Model Experiment_Model Experiment_Properties Select_Model Command_Model Command_Properties.
Open Scope string_scope.
Open Scope list_scope.
Open Scope nat_scope.

(** ** Specification *)
Definition has_tag (tag : string) (en : entry) : bool :=
  match en_tags en with Some ts => if in_dec string_dec tag ts then true else false | None => false end.
Definition all_tagged (l : list entry) : Prop := forall en, In en l -> en_tags en <> None.
(** filtering by several tags, one after the other; the first exception ends it *)
Fixpoint filter_by (tags : list string) (su : setup) : setup * res unit :=
  match tags with
  | [] => (su, Ok tt)
  | t :: tags' => match filter_algruns_by_tag t su with (su', Ok _) => filter_by tags' su' | (su', Err e) => (su', Err e) end
  end.

Lemma existsb_tag tag ts : existsb (String.eqb tag) ts = if in_dec string_dec tag ts then true else false.
Proof.
  destruct (in_dec string_dec tag ts) as [H|H].
  - apply existsb_exists. exists tag. split; [exact H|apply String.eqb_refl].
  - destruct (existsb _ _) eqn:E; [|reflexivity]. exfalso. apply existsb_exists in E. destruct E as (x & Hx & E). apply String.eqb_eq in E. subst x. contradiction.
Qed.
Lemma by_tag_ok tag l : all_tagged l -> get_algruns_by_tag tag l = Ok (filter (has_tag tag) l).
Proof.
  induction l as [|en l IH]; intros H; [reflexivity|]. cbn [get_algruns_by_tag filter]. unfold has_tag at 1.
  destruct (en_tags en) as [ts|] eqn:E; [|exfalso; exact (H en (or_introl eq_refl) E)]. cbn [of_option bind]. rewrite IH by (intros x Hx; apply H; right; exact Hx). cbn [bind].
  rewrite existsb_tag. destruct (in_dec string_dec tag ts); reflexivity.
Qed.
Lemma by_tag_err tag l en : In en l -> en_tags en = None -> get_algruns_by_tag tag l = Err KeyError.
Proof.
  induction l as [|x l IH]; intros H E; [destruct H|]. cbn [get_algruns_by_tag]. destruct H as [->|H]; [rewrite E; reflexivity|].
  destruct (en_tags x); cbn [of_option bind]; [|reflexivity]. rewrite (IH H E). reflexivity.
Qed.

(** exactly the entries with the tag remain, in their order; nothing else of the setup changes *)
Theorem C61_filter : forall tag su, all_tagged (su_params su) -> exists su', filter_algruns_by_tag tag su = (su', Ok tt) /\
  su_params su' = filter (has_tag tag) (su_params su) /\ su_exp su' = su_exp su /\ su_options su' = su_options su /\ su_exp_exds su' = su_exp_exds su /\ su_exds su' = su_exds su.
Proof. intros tag su H. unfold filter_algruns_by_tag. rewrite (by_tag_ok tag _ H). eexists. split; [reflexivity|]. cbn. auto. Qed.
Theorem C61_membership : forall tag su su', filter_algruns_by_tag tag su = (su', Ok tt) ->
  forall en, In en (su_params su') <-> In en (su_params su) /\ exists ts, en_tags en = Some ts /\ In tag ts.
Proof.
  intros tag su su' H en.
  assert (A : all_tagged (su_params su)).
  { intros x Hx E. unfold filter_algruns_by_tag in H. rewrite (by_tag_err tag _ x Hx E) in H. discriminate. }
  destruct (C61_filter tag su A) as (su'' & E & Hp & _). rewrite H in E. injection E as <-. rewrite Hp, filter_In. unfold has_tag.
  destruct (en_tags en) as [ts|].
  - destruct (in_dec string_dec tag ts) as [Hd|Hd]; split.
    + intros (H1 & _). split; [exact H1|]. exists ts. auto.
    + intros (H1 & _). auto.
    + intros (_ & ?). discriminate.
    + intros (_ & ts' & Ets & Hts). injection Ets as <-. contradiction.
  - split; [intros (_ & ?); discriminate|]. intros (_ & ts' & Ets & _). discriminate.
Qed.
(** an entry without 'tags' makes it raise, and the selection stays as it was *)
Theorem C61_untagged_refused : forall tag su en, In en (su_params su) -> en_tags en = None -> filter_algruns_by_tag tag su = (su, Err KeyError).
Proof. intros tag su en H E. unfold filter_algruns_by_tag. rewrite (by_tag_err tag _ en H E). reflexivity. Qed.
(** several tags: the entries that have all of them; so the order and repetition of the tags are irrelevant *)
Theorem C61_all_the_tags : forall tags su, all_tagged (su_params su) -> exists su', filter_by tags su = (su', Ok tt) /\
  su_params su' = filter (fun en => forallb (fun t => has_tag t en) tags) (su_params su).
Proof.
  induction tags as [|t tags IH]; intros su H.
  - exists su. split; [reflexivity|]. cbn [forallb]. symmetry. generalize (su_params su). induction l as [|x l IH]; [reflexivity|]. cbn [filter]. rewrite IH. reflexivity.
  - cbn [filter_by]. destruct (C61_filter t su H) as (su1 & E & Hp & _). rewrite E.
    destruct (IH su1) as (su2 & E2 & Hp2); [rewrite Hp; intros en Hen; apply filter_In in Hen; apply H, Hen|]. exists su2. split; [exact E2|]. rewrite Hp2, Hp.
    cbn [forallb]. generalize (su_params su). induction l as [|x l IHl]; [reflexivity|]. cbn [filter]. destruct (has_tag t x); cbn [andb filter]; [|exact IHl].
    destruct (forallb (fun t0 => has_tag t0 x) tags); rewrite IHl; reflexivity.
Qed.
(** is_tag_present_in_any_algrun agrees with filtering ... *)
Theorem C61_presence : forall tag l, all_tagged l -> exists b, is_tag_present tag l = Ok b /\ (b = true <-> filter (has_tag tag) l <> []).
Proof.
  intros tag. induction l as [|en l IH]; intros H; [exists false; split; [reflexivity|split; [discriminate|intros N; exfalso; apply N; reflexivity]]|].
  cbn [is_tag_present filter]. unfold has_tag at 1. destruct (en_tags en) as [ts|] eqn:E; [|exfalso; exact (H en (or_introl eq_refl) E)]. cbn [of_option bind]. rewrite existsb_tag.
  destruct (in_dec string_dec tag ts); [exists true; split; [reflexivity|split; [discriminate|reflexivity]]|]. apply IH. intros x Hx. apply H. right. exact Hx.
Qed.
(** ... except that it stops at the first entry that has the tag: then it answers where filtering raises *)
Theorem C61_presence_stops_early : forall tag l1 en l2 x, all_tagged l1 -> has_tag tag en = true -> In x l2 -> en_tags x = None ->
  is_tag_present tag (l1 ++ en :: l2) = Ok true /\ get_algruns_by_tag tag (l1 ++ en :: l2) = Err KeyError.
Proof.
  intros tag l1 en l2 x H Ht Hx E. split.
  - induction l1 as [|y l1 IH]; cbn [List.app is_tag_present].
    + unfold has_tag in Ht. destruct (en_tags en) as [ts|]; [|discriminate]. cbn [of_option bind]. rewrite existsb_tag, Ht. reflexivity.
    + destruct (en_tags y) as [ts|] eqn:Ey; [|exfalso; exact (H y (or_introl eq_refl) Ey)]. cbn [of_option bind].
      destruct (existsb (String.eqb tag) ts); [reflexivity|]. apply IH. intros z Hz. apply H. right. exact Hz.
  - apply (by_tag_err tag _ x); [apply in_or_app; right; right; exact Hx|exact E].
Qed.

(** After filtering, --index counts positions among the remaining entries, while the listings show
    each entry's own 'index': the number shown is not the number to ask for. *)
Theorem C61_shown_index_is_not_the_position : exists su tag su' out u,
  filter_algruns_by_tag tag su = (su', Ok tt) /\
  exec [] (handle_command su' (Arguments "parameters" (Some "list") (Some [49]) "" None)) = (u, Ok (out, Ok true)) /\
  exists en, out = [ParametersHeader [50] "run2"; ShowParameters en; TotalParameters 1].
Proof.
  exists a_setup, "slow". eexists _, _, _. split; [vm_compute; reflexivity|]. split; [vm_compute; reflexivity|]. eexists. reflexivity.
Qed.
Example C61_nonvacuous : all_tagged (su_params a_setup) /\ map en_ID (su_params (fst (filter_algruns_by_tag "slow" a_setup))) = ["run1"; "run2"] /\
  map en_ID (su_params (fst (filter_by ["slow"; "fast"] a_setup))) = ["run2"] /\ is_tag_present "adtree" (su_params a_setup) = Ok false.
Proof.
  split; [|vm_compute; auto]. intros en H. cbn in H. destruct H as [<-|[<-|[<-|[]]]]; discriminate.
Qed.
