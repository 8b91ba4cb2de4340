(** Property C98: expressions as members of sets and keys of dictionaries. *)
From Verif Require Import PyBase PyFacts DateTime Objects Exprs Metrics PyEqFacts Hash SpecOccurs SpecHash HashFacts Concrete.

Section P.
Context {RT : PyRT}.

(** ** C98 Expressions work in sets and as dictionary keys *)
(** hash(o) is a number or a TypeError; it is a TypeError exactly when a list, a dictionary or a
    data model is in what the hash covers *)
Theorem C98_hashable_partial : forall (HA : PyHash) o,
  (holds_mutable o <-> py_hash o = Raise TypeError) /\ (~ holds_mutable o <-> exists h, py_hash o = Ok h).
Proof. intros HA o. apply mutable_iff. Qed.
(** so a function whose parameters were given as a list has none *)
Theorem C98_hashable_refuted : exists o,
  mk_function (OStr ($"count")) (OList []) ONone = Ok o /\ forall HA : PyHash, py_hash o = Raise TypeError.
Proof. eexists. split; [reflexivity|]. intros HA. reflexivity. Qed.

(** equal objects whose functions have the same aliases have the same hash, whatever the hash of
    built-in values is, as long as it keeps Python's promise *)
Theorem C98_equal_partial : forall (HA : PyHash) a b, good_hash HA ->
  py_eq a b = true -> fn_aliases a = fn_aliases b -> py_hash a = py_hash b.
Proof. intros HA a b G. apply (hash_same G). Qed.
(** so equal objects without CurriedFunctions have the same hash *)
Theorem C98_equal_functions_partial : forall (HA : PyHash) a b, good_hash HA -> only_functions a -> only_functions b ->
  py_eq a b = true -> py_hash a = py_hash b.
Proof. intros HA a b G A B E. apply (hash_same G); [exact E|]. apply only_aliases; assumption. Qed.
(** two curried functions can be equal with different hashes: a set keeps both, and looking one
    of them up does not find the other *)
Theorem C98_equal_refuted : exists (HA : PyHash) a b h h', good_hash HA
  /\ mk_curried (OStr ($"count")) ONone ONone (OStr ($"x")) = Ok a
  /\ mk_curried (OStr ($"count")) ONone ONone (OStr ($"y")) = Ok b
  /\ py_eq a b = true /\ py_hash a = Ok h /\ py_hash b = Ok h' /\ h <> h'
  /\ in_list a [b] /\ ~ in_set a [b].
Proof.
  exists sum_hash. do 4 eexists. split; [exact sum_good|]. do 5 (split; [reflexivity|]). split; [|split].
  - vm_compute. discriminate.
  - eexists. split; [left; reflexivity|reflexivity].
  - intros (y & h & [<-|[]] & A & B & _). rewrite <- A in B. vm_compute in B. discriminate.
Qed.

(** membership in a set is membership in the list of its members *)
Theorem C98_sets_partial : forall (HA : PyHash) x l, good_hash HA -> ~ holds_mutable x -> (forall y, In y l -> ~ holds_mutable y) ->
  (forall y, In y l -> py_eq y x = true -> fn_aliases y = fn_aliases x) ->
  (in_set x l <-> in_list x l).
Proof.
  intros HA x l G X L A. split.
  - intros (y & h & I & _ & _ & E). exists y. auto.
  - intros (y & I & E). apply (mutable_iff x) in X as (h & X). exists y, h. repeat split; auto.
    rewrite <- X. apply (hash_same G); [exact E|]. apply A; assumption.
Qed.
Theorem C98_sets_functions_partial : forall (HA : PyHash) x l, good_hash HA -> ~ holds_mutable x -> (forall y, In y l -> ~ holds_mutable y) ->
  only_functions x -> (forall y, In y l -> only_functions y) ->
  (in_set x l <-> in_list x l).
Proof.
  intros HA x l G X L O OL. apply C98_sets_partial; auto. intros y I E. apply only_aliases; auto.
Qed.

(** equality is transitive between objects with the same aliases that hold no dictionary, and between objects without
    CurriedFunctions *)
Theorem C98_transitive_partial : forall a b c, (forall ks vs, ~ occurs (ODict ks vs) a) -> fn_aliases a = fn_aliases c ->
  py_eq a b = true -> py_eq b c = true -> py_eq a c = true.
Proof. intros a b c D A E F. exact (eq_trans_aliases a D b c E F A). Qed.
Theorem C98_transitive_functions_partial : forall a b c, only_functions a -> only_functions b -> only_functions c ->
  py_eq a b = true -> py_eq b c = true -> py_eq a c = true.
Proof.
  intros a b c A B C E F. refine (eq_trans_aliases a _ b c E F _); [intros ks vs O; exact (A _ O)|]. rewrite (only_aliases a b A B E). apply only_aliases; assumption.
Qed.

(** the test of a Formula that its parts have one group-by: what it takes for hashable has a hash,
    and what it takes for one member of a set is equal with the same hash *)
Theorem C98_groupby : forall (HA : PyHash), good_hash HA ->
  (forall o, hashable o = true -> exists h, py_hash o = Ok h)
  /\ (forall h g, same_element h g = true -> py_eq (OTuple h) (OTuple g) = true /\ py_hash (OTuple h) = py_hash (OTuple g)).
Proof. intros HA G. split; [intros o; apply hashable_hash|intros h g; apply (groupby_hash G)]. Qed.
End P.

(** * Cases *)
#[local] Existing Instance demoRT.
(** a hash that keeps the promise *)
Example C98_case_hash : good_hash sum_hash.
Proof. exact sum_good. Qed.
(** uniq(a, 1) and uniq(a, True) of the class Function, in conditions *)
Definition C98_cond (p : obj) : result obj :=
  let! c := mk_column (OStr ($"a")) ONone in
  let! f := mk_function (OStr ($"uniq")) (OTuple [c; p]) (OStr ($"u")) in
  mk_condition f (OOp GT) (OTuple [p; OStr ($"b")]).
Example C98_case_equal : exists a b, C98_cond (OInt 1) = Ok a /\ C98_cond (OBool true) = Ok b /\ a <> b
  /\ py_eq a b = true /\ fn_aliases a = fn_aliases b /\ fn_aliases a <> [] /\ only_functions a /\ only_functions b
  /\ ~ holds_mutable a /\ in_set (HA:=sum_hash) a [b].
Proof.
  do 2 eexists. split; [reflexivity|]. split; [reflexivity|]. split; [discriminate|]. do 2 (split; [reflexivity|]). split; [discriminate|].
  assert (O : forall p, py_eq p p = true -> (forall x, occurs x p -> x = p) -> (p = OInt 1 \/ p = OBool true) ->
    only_functions (OCond (OFunc true ($"uniq") KNone [] KTuple [OColumn (mkColumn ($"a") None None None); p] (Some ($"u"))) GT (OTuple [p; OStr ($"b")]))).
  { intros p _ P Q x H. inversion H; subst; [exact I| |].
    - match goal with K : occurs _ (OFunc _ _ _ _ _ _ _) |- _ => inversion K; subst; [reflexivity|contradiction|] end.
      match goal with K : In _ _ |- _ => destruct K as [<-|[<-|[]]] end.
      + match goal with K : occurs _ (OColumn _) |- _ => inversion K; subst; [exact I|discriminate] end.
      + match goal with K : occurs _ p |- _ => rewrite (P _ K) end. destruct Q as [-> | ->]; exact I.
    - match goal with K : occurs _ (OTuple _) |- _ => inversion K; subst; [exact I|] end.
      match goal with K : In _ _ |- _ => destruct K as [<-|[<-|[]]] end.
      + match goal with K : occurs _ p |- _ => rewrite (P _ K) end. destruct Q as [-> | ->]; exact I.
      + match goal with K : occurs _ (OStr _) |- _ => inversion K; subst; exact I end. }
  split; [apply O; [reflexivity|intros x H; inversion H; reflexivity|auto]|].
  split; [apply O; [reflexivity|intros x H; inversion H; reflexivity|auto]|].
  split.
  - apply (C98_hashable_partial sum_hash). eexists. reflexivity.
  - do 2 eexists. split; [left; reflexivity|]. split; [reflexivity|]. split; reflexivity.
Qed.
(** an entity's data model does not spoil its hash, but a condition's list does *)
Example C98_case_mutable : forall c l, holds_mutable (OCond c IN (OList l)) /\ ~ holds_mutable (OEntity (mkEntity ($"events") None None (Some (mkDM [] (mkSC ($"t") true))))).
Proof.
  intros c l. split; [eapply M_part; [apply P_rhs|apply M_list]|]. apply (C98_hashable_partial sum_hash). eexists. reflexivity.
Qed.
(** equal group-bys of a formula *)
Example C98_case_groupby : same_element [OColumn (mkColumn ($"a") None None None)] [OColumn (mkColumn ($"a") None None None)] = true.
Proof. reflexivity. Qed.

Print Assumptions C98_hashable_partial.
Print Assumptions C98_hashable_refuted.
Print Assumptions C98_equal_partial.
Print Assumptions C98_equal_functions_partial.
Print Assumptions C98_equal_refuted.
Print Assumptions C98_sets_partial.
Print Assumptions C98_sets_functions_partial.
Print Assumptions C98_transitive_partial.
Print Assumptions C98_transitive_functions_partial.
Print Assumptions C98_groupby.
