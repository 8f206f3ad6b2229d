(** Which programs may share trees and tables of joint entropies, in terms of the data alone. *)
From Coq Require Import Reals.
From Verif Require Import Base AD_Model AD_Spec Prob_Spec GTest_Model GTest_Spec Shared_Model.
Open Scope Z_scope.

(** what a reader of the program knows about a test object: the data that its answers are about,
    its parameters, its kind of degrees of freedom, and what it uses *)
Record descr := { d_data : dataset; d_params : params; d_kind : dof_kind; d_part : part }.
(** ... and about everything: the data of each tree; for each dictionary the data, the kind of
    degrees of freedom of its users and whether it holds the counters 'reads' and 'misses' *)
Record ctx := { c_trees : list (dataset * bool); c_dicts : list (dataset * dof_kind * bool); c_objs : list descr }.
Definition empty_ctx : ctx := {| c_trees := []; c_dicts := []; c_objs := [] |}.

Inductive allowed : ctx -> action -> ctx -> Prop :=
| a_tree c D dyn : wf_for D (WithADTree dyn) ->
    allowed c (MakeTree D dyn) {| c_trees := c_trees c ++ [(D, dyn)]; c_dicts := c_dicts c; c_objs := c_objs c |}
(** a dictionary made by the program holds exact joint entropies of some dataset *)
| a_dict c D d : wf_for D WithDcMI -> exact_entropies D (fst d) ->
    allowed c (MakeDict d) {| c_trees := c_trees c; c_dicts := c_dicts c ++ [(D, UnadjustedDoF, match snd d with Some _ => true | None => false end)]; c_objs := c_objs c |}
| a_plain c D p kind : wf_for D Plain -> order_ok p ->
    allowed c (NewPlain D p kind) {| c_trees := c_trees c; c_dicts := c_dicts c; c_objs := c_objs c ++ [{| d_data := D; d_params := p; d_kind := kind; d_part := NoPart |}] |}
(** the answers are about the data of the tree; the unadjusted degrees of freedom are taken from
    the object's dataset, which then has to be the same *)
| a_on_tree c D Dt dyn p kind k : nth_error (c_trees c) k = Some (Dt, dyn) -> order_ok p -> (kind = UnadjustedDoF -> D = Dt) ->
    allowed c (NewOnTree D p kind k) {| c_trees := c_trees c; c_dicts := c_dicts c; c_objs := c_objs c ++ [{| d_data := Dt; d_params := p; d_kind := kind; d_part := TreeAt k |}] |}
| a_own c D p kind : wf_for D WithDcMI -> compatible WithDcMI kind -> order_ok p ->
    allowed c (NewDcMI D p kind None) {| c_trees := c_trees c; c_dicts := c_dicts c ++ [(D, kind, false)];
      c_objs := c_objs c ++ [{| d_data := D; d_params := p; d_kind := kind; d_part := DictAt (length (c_dicts c)) |}] |}
(** sharing a dictionary: the same data, the counters present, and none of its users with
    CachedStructuralDoF *)
| a_share c D p k : nth_error (c_dicts c) k = Some (D, UnadjustedDoF, true) -> order_ok p ->
    allowed c (NewDcMI D p UnadjustedDoF (Some k)) {| c_trees := c_trees c; c_dicts := c_dicts c; c_objs := c_objs c ++ [{| d_data := D; d_params := p; d_kind := UnadjustedDoF; d_part := DictAt k |}] |}
| a_test c i t d : nth_error (c_objs c) i = Some d -> wf_test (d_data d) t -> allowed c (Test i t) c
| a_end c i d : nth_error (c_objs c) i = Some d -> allowed c (End i false) c
| a_save c i d : nth_error (c_objs c) i = Some d -> (forall k, d_part d <> DictAt k) -> allowed c (End i true) c
(** ending with a save path leaves the counters in the dictionary *)
| a_save_dict c i d k D kind h L1 L2 : nth_error (c_objs c) i = Some d -> d_part d = DictAt k ->
    c_dicts c = L1 ++ (D, kind, h) :: L2 -> length L1 = k ->
    allowed c (End i true) {| c_trees := c_trees c; c_dicts := L1 ++ (D, kind, true) :: L2; c_objs := c_objs c |}.

(** an allowed program *)
Inductive program : list action -> ctx -> Prop :=
| p_nil : program [] empty_ctx
| p_snoc acts c a c' : program acts c -> allowed c a c' -> program (acts ++ [a]) c'.

(** the tests that an object was asked *)
Fixpoint tests_of (i : nat) (acts : list action) : list test :=
  match acts with
  | [] => []
  | Test j t :: acts' => if (j =? i)%nat then t :: tests_of i acts' else tests_of i acts'
  | _ :: acts' => tests_of i acts'
  end.
(** what an action has to report *)
Definition right_answer (c : ctx) (a : action) (o : answer) : Prop :=
  match a with
  | Test i t => exists d v, nth_error (c_objs c) i = Some d /\ o = Answered v /\ expected_outcome (d_data d) (d_params d) (d_kind d) t v
  | _ => o = Done
  end.

(** how many joint entropies the objects that use the dictionary at [k] have computed so far, by
    their own counts *)
Definition misses_on (k : nat) (w : world) : Z :=
  zsum (map (fun o => match o with Some o => match g_part o with DictAt k' => if (k' =? k)%nat then jht_misses (g_state o) else 0 | _ => 0 end | None => 0 end) (objs w)).
(** how many entries a dictionary holds *)
Definition entries (k : nat) (w : world) : Z := match nth_error (dicts w) k with Some d => Z.of_nat (length (fst d)) | None => 0 end.
(** only tests *)
Definition is_test (a : action) : Prop := match a with Test _ _ => True | _ => False end.
(** the column sets whose joint entropies a test needs *)
Definition columns_needed (t : test) : list (list nat) := let '(X, Y, Z) := t in [X :: Y :: Z; X :: Z; Y :: Z; Z].
