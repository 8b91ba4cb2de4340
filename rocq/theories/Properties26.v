(** Property C79: a string value cannot break out of its place in a SnQL query. *)
From Verif Require Import PyBase PyFacts DateTime Objects Exprs Query SpecExpr SpecOccurs SpecQuery SpecSnql SpecLogic PrintProps
  SpecSwap EqValid SwapFacts ApiTac Concrete Properties12.

Section P.
Context {RT : PyRT}.

(** ** C79 A string value cannot break out of its place *)
(** what print() makes of queries that differ in string values: the same exception, or texts
    that differ in the literals of those values, one for one and in the same order *)
Theorem C79_print : forall l q q', api_query q -> seq_typed_query q -> swap_query l q q' ->
  (forall e, print q = Raise e <-> print q' = Raise e)
  /\ forall t, print q = Ok t -> exists t', print q' = Ok t' /\ text_swapped l t t'.
Proof.
  intros l q q' A T H. apply api_wf_query in A. unfold print. rewrite <- (swap_valid l q q' H T).
  destruct (validate q) as [[]|e]; [cbn [bind]|split; [reflexivity|discriminate]].
  pose proof (swap_print_query l q q' H A T [NL]) as P.
  destruct (print_query [NL] q) as [t|e], (print_query [NL] q') as [t'|e']; cbn [rel] in P; try contradiction.
  - split; [split; discriminate|]. intros u E. injection E as <-. eauto.
  - subst. split; [reflexivity|discriminate].
Qed.
(** strings do not decide what is valid *)
Theorem C79_valid : forall l q q', seq_typed_query q -> swap_query l q q' ->
  validate q = validate q' /\ validate_required_columns q = validate_required_columns q'.
Proof. intros l q q' T H. split; [eapply swap_valid|eapply swap_required]; eassumption. Qed.
(** one string value *)
Lemma one_literal s s' l t t' : text_swapped l t t' -> l = [(s, s')] ->
  exists pre post, t = pre ++ text_of_string s ++ post /\ t' = pre ++ text_of_string s' ++ post.
Proof.
  assert (N : forall l t t', text_swapped l t t' -> l = [] -> t = t').
  { clear. induction 1; intros E; [reflexivity|f_equal; auto|discriminate E]. }
  induction 1 as [|c l t t' H IH|u u' l t t' H IH]; intros E; [discriminate E| |].
  - destruct (IH E) as (pre & post & -> & ->). exists (c :: pre), post. split; reflexivity.
  - injection E as -> -> ->. exists [], t'. rewrite (N _ _ _ H eq_refl). split; reflexivity.
Qed.
Theorem C79_one : forall s s' q q' t, api_query q -> seq_typed_query q -> swap_query [(s, s')] q q' -> print q = Ok t ->
  exists pre post, t = pre ++ text_of_string s ++ post /\ print q' = Ok (pre ++ text_of_string s' ++ post).
Proof.
  intros s s' q q' t A T H E. destruct (proj2 (C79_print _ q q' A T H) t E) as (t' & E' & S).
  destruct (one_literal s s' _ _ _ S eq_refl) as (pre & post & -> & ->). eauto.
Qed.
(** full statement: the same for serialize(). It is false, see below; true when no string
    differs on the left of a comparison in a condition that is merged *)
Theorem C79_serialize_partial : forall l q q', api_query q -> api_query q' -> seq_typed_query q -> swap_query l q q' -> merged_alike_where q q' ->
  (forall e, serialize q = Raise e <-> serialize q' = Raise e)
  /\ forall t, serialize q = Ok t -> exists t', serialize q' = Ok t' /\ text_swapped l t t'.
Proof.
  intros l q q' A A' T H S. apply api_wf_query in A, A'. pose proof (swap_serialize l q q' A A' T H S) as P.
  destruct (serialize q) as [t|e], (serialize q') as [t'|e']; cbn [rel] in P; try contradiction.
  - split; [split; discriminate|]. intros u E. injection E as <-. eauto.
  - subst. split; [reflexivity|discriminate].
Qed.
(** two comparisons become one IN when the strings on their left are the same *)
Definition c79_or (s s' : str) : query :=
  QBase (BEntity (mkEntity ($"events") None None None))
    (upd CSelect (OList [col ($"a")])
    (upd CWhere (OList [OBoolC BOr OR KList [OCond (call ($"ff") [OStr s]) EQ (OInt 1); OCond (call ($"ff") [OStr s']) EQ (OInt 2)]]) no_clauses)).
Lemma ts_char l c c' t t' : text_swapped l (c :: t) (c' :: t') -> N.eqb c 39 = false -> c = c' /\ text_swapped l t t'.
Proof. intros H N. inversion H; subst; [split; [reflexivity|assumption]|]. discriminate N. Qed.
Theorem C79_serialize_refuted : let q := c79_or ($"x") ($"y") in let q' := c79_or ($"x") ($"x") in
  api_query q /\ api_query q' /\ seq_typed_query q /\ swap_query [($"y", $"x")] q q'
  /\ serialize q = Ok ($"MATCH (events) SELECT a WHERE (ff('x') = 1 OR ff('y') = 2)")
  /\ serialize q' = Ok ($"MATCH (events) SELECT a WHERE ff('x') IN array(1, 2)")
  /\ ~ exists l, text_swapped l ($"MATCH (events) SELECT a WHERE (ff('x') = 1 OR ff('y') = 2)") ($"MATCH (events) SELECT a WHERE ff('x') IN array(1, 2)").
Proof.
  cbn zeta. split; [unfold c79_or; api_query_tac|]. split; [unfold c79_or; api_query_tac|].
  split; [intros [] sep E; cbn; try discriminate E; try (left; reflexivity); right; eexists; constructor|].
  split; [|split; [vm_compute; reflexivity|split; [vm_compute; reflexivity|]]].
  - enough (exists m, m = [($"y", $"x")] /\ swap_query m (c79_or ($"x") ($"y")) (c79_or ($"x") ($"x"))) as (m & <- & S) by exact S.
    eexists. split; [|unfold c79_or; repeat econstructor; discriminate]. reflexivity.
  - intros (l & H). repeat (apply ts_char in H as (E & H); [try discriminate E; clear E|reflexivity]).
Qed.
End P.

(** Non-vacuity: strings that try to end the literal, in the subquery and outside, one of
    them in conditions that serialize() merges *)
#[local] Existing Instance demoRT.
Definition c79_demo (s1 s2 s3 : str) : query :=
  QSub (QBase (BEntity (mkEntity ($"events") None None None))
          (upd CSelect (OList [col ($"a")])
          (upd CWhere (OTuple [OCond (call ($"ff") [col ($"a"); OStr s1]) GTE (OInt 1)]) no_clauses)))
    (upd CSelect (OList [col ($"a")])
    (upd CWhere (OList [OBoolC BOr OR KList [OCond (col ($"a")) EQ (OStr s2); OCond (col ($"a")) EQ (OStr ($"z"))];
                        OCond (col ($"a")) IN (OList [OStr ($"u"); OStr s3])]) no_clauses)).
Definition c79_evil : str := $"' OR 1 = 1 \".
Example C79_case : let q := c79_demo ($"p") ($"q") ($"r") in let q' := c79_demo c79_evil [] c79_evil in
  let l := [($"p", c79_evil); ($"q", []); ($"r", c79_evil)] in
  api_query q /\ api_query q' /\ seq_typed_query q /\ swap_query l q q' /\ merged_alike_where q q'
  /\ serialize q = Ok ($"MATCH { MATCH (events) SELECT a WHERE ff(a, 'p') >= 1 } SELECT a WHERE a IN array('q', 'z') AND a IN array('u', 'r')")
  /\ serialize q' = Ok ($"MATCH { MATCH (events) SELECT a WHERE ff(a, '\' OR 1 = 1 \\') >= 1 } SELECT a WHERE a IN array('', 'z') AND a IN array('u', '\' OR 1 = 1 \\')").
Proof.
  cbn zeta. split; [unfold c79_demo; api_query_tac|]. split; [unfold c79_demo, c79_evil; api_query_tac|].
  split; [split; intros [] sep E; cbn; try discriminate E; try (left; reflexivity); right; eexists; constructor|].
  split; [|split; [|split; vm_compute; reflexivity]].
  - enough (exists m, m = [($"p", c79_evil); ($"q", []); ($"r", c79_evil)] /\ swap_query m (c79_demo ($"p") ($"q") ($"r")) (c79_demo c79_evil [] c79_evil)) as (m & <- & S) by exact S.
    eexists. split; [|unfold c79_demo; repeat econstructor; discriminate]. reflexivity.
  - intros a b A B. cbn in A, B. inversion A; subst. inversion B; subst. repeat constructor.
Qed.

Print Assumptions C79_print.
Print Assumptions C79_valid.
Print Assumptions C79_one.
Print Assumptions C79_serialize_partial.
Print Assumptions C79_serialize_refuted.
