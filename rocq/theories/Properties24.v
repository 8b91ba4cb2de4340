(** Property C77: equal queries are equally valid. *)
From Verif Require Import PyBase PyFacts DateTime Objects Exprs Query SpecExpr SpecOccurs SpecQuery PrintProps Metrics Mql MetricsQuery
  SpecMetricsQuery SpecEqual SpecMEqual EqText EqValid EqMql EqMValid ApiTac Concrete Properties6 Properties12 Properties22 Properties23.

Section P.
Context {RT : PyRT} {ST : PyStr}.

(** ** C77 Equal queries are equally valid *)
(** full statement: api_query q -> api_query q' -> query_eq q q' -> validate q = validate q'.
    Subqueries make it false, see below; true when equal functions that subqueries select have
    the same alias *)
Theorem C77_query_partial : forall q q', api_query q -> api_query q' -> query_eq q q' -> same_inner_aliases q q' ->
  validate q = validate q'.
Proof.
  intros q q' A A' Q N. apply api_wf_query in A, A'. apply valid_eq; try assumption. apply inner_agree; assumption.
Qed.
(** without subquery there is nothing to ask *)
Theorem C77_no_subquery : forall b c q', api_query (QBase b c) -> api_query q' -> query_eq (QBase b c) q' ->
  validate (QBase b c) = validate q'.
Proof. intros b c q' A A' Q. apply C77_query_partial; try assumption. intros x y X. inversion X. Qed.
(** the check for required columns, query_validation.py:214-229 *)
Theorem C77_required : forall q q', query_eq q q' -> validate_required_columns q = validate_required_columns q'.
Proof. apply required_eq. Qed.
(** metrics queries *)
Theorem C77_metrics : forall q q', query_value (mq_query q) -> query_value (mq_query q') -> mquery_eq q q' ->
  mq_validate q = mq_validate q'.
Proof. intros q q' B B' E. exact (mq_valid api q q' B B' E). Qed.
(** a column of the outer query is found by the alias of a function of the inner one, which
    equality ignores *)
Definition c77_query (a : option str) : query :=
  QSub (QBase (BEntity (mkEntity ($"events") None None None))
          (upd CSelect (OList [OFunc false ($"quantile") KList [OFloat (flt_of_Z 0)] KList [col ($"a")] a]) no_clauses))
    (upd CSelect (OList [col ($"p50")]) no_clauses).
Theorem C77_alias_refuted : let q := c77_query (Some ($"p50")) in let q' := c77_query (Some ($"p")) in
  api_query q /\ api_query q' /\ query_eq q q' /\ validate q = Ok tt /\ validate q' = Raise InvalidMatchError.
Proof.
  cbn zeta. split; [unfold c77_query, col; api_query_tac|]. split; [unfold c77_query, col; api_query_tac|].
  split; [repeat split; intros []; vm_compute; reflexivity|]. split; vm_compute; reflexivity.
Qed.
(** a Formula can be given functions to group by, which must be the same in all operands: a
    set compares them with their aliases, == without *)
Definition c77_fn (a : option str) : obj := OFunc false ($"toDate") KNone [] KTuple [col ($"a")] a.
Definition c77_ts : mval := VTS (mkTS (mkMetric (Some ($"transaction.duration")) None None) ($"count") None None None).
Definition c77_formula (a : option str) : mval :=
  VFormula (OStr ($"plus")) (Some KList) [VFormula (OStr ($"plus")) (Some KList) [c77_ts; c77_ts] ONone ONone (OList [c77_fn a]); c77_ts]
    ONone ONone (OList [c77_fn (Some ($"day"))]).
Theorem C77_group_refuted : let v := c77_formula (Some ($"day")) in let v' := c77_formula None in
  mv_eq v v' = true /\ mval_validate v = Ok tt /\ mval_validate v' = Raise InvalidFormulaError.
Proof. cbn zeta. repeat split; vm_compute; reflexivity. Qed.
End P.

(** Non-vacuity: subqueries with a function whose alias is used outside, and a time in UTC in
    one query and the same time two hours east of it in the other *)
#[local] Existing Instance demoRT.
#[local] Existing Instance demoST.
Definition c77_demo (h o : Z) (a : str) (n : str) : query :=
  QSub (QBase (BEntity (mkEntity ($"events") None None None))
          (upd CSelect (OList [OFunc false ($"quantile") KList [OFloat (flt_of_Z 0)] KList [col ($"a")] (Some ($"p50"));
                               OFunc false ($"max") KNone [] KList [col ($"b")] (Some ($"m"))])
          (upd CWhere (OList [OCond (col ($"timestamp")) GTE (ODateTime (c75_time h o));
                              OCond (OFunc false ($"f1") KNone [] KList [col ($"b")] (Some a)) EQ (OInt 1)]) no_clauses)))
    (upd CSelect (OList [col ($"p50"); col n]) no_clauses).
Lemma c77_inner h o a n x : selected_inside x (c77_demo h o a n) ->
  x = OFunc false ($"quantile") KList [OFloat (flt_of_Z 0)] KList [col ($"a")] (Some ($"p50")) \/ x = OFunc false ($"max") KNone [] KList [col ($"b")] (Some ($"m")).
Proof.
  intros X. inversion X as [i c l [L|L] I|i c D]; subst; [|discriminate L|inversion D].
  unfold c77_demo in L. cbn [q_clauses get upd c_select] in L. injection L as <-. destruct I as [I|[I|[]]]; auto.
Qed.
Example C77_case :
  (let q := c77_demo 10 0 ($"x") ($"m") in let q' := c77_demo 12 2 ($"y") ($"m") in
   api_query q /\ api_query q' /\ query_eq q q' /\ same_inner_aliases q q' /\ serialize q <> serialize q' /\ validate q = Ok tt)
  /\ let q := c77_demo 10 0 ($"x") ($"c") in let q' := c77_demo 12 2 ($"y") ($"c") in
     query_eq q q' /\ same_inner_aliases q q' /\ validate q = Raise InvalidMatchError /\ validate q' = Raise InvalidMatchError.
Proof.
  assert (A : forall h o a h' o' a' n, same_inner_aliases (c77_demo h o a n) (c77_demo h' o' a' n)).
  { intros h o a h' o' a' n x y X Y E. apply c77_inner in X, Y. destruct X as [->| ->], Y as [->| ->]; try reflexivity; discriminate E. }
  cbn zeta. split; [split; [unfold c77_demo, col; api_query_tac|]; split; [unfold c77_demo, col; api_query_tac|]|].
  - split; [repeat split; intros []; vm_compute; reflexivity|]. split; [apply A|]. split; [vm_compute; discriminate|vm_compute; reflexivity].
  - split; [repeat split; intros []; vm_compute; reflexivity|]. split; [apply A|]. split; vm_compute; reflexivity.
Qed.
(** metrics queries: the ones of C76, which are equal and not the same *)
Example C77_metrics_case : mquery_eq c76_a c76_b /\ c76_a <> c76_b /\ mq_validate c76_a = Ok tt
  /\ query_value (mq_query c76_a) /\ query_value (mq_query c76_b).
Proof.
  destruct C76_case as (A & B & C & D & _). split; [exact C|]. split; [exact D|]. split; [vm_compute; reflexivity|]. split; assumption.
Qed.

Print Assumptions C77_query_partial.
Print Assumptions C77_no_subquery.
Print Assumptions C77_required.
Print Assumptions C77_metrics.
Print Assumptions C77_alias_refuted.
Print Assumptions C77_group_refuted.
