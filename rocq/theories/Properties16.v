(** Property C67: invalid arguments are reported with the SDK's exceptions. *)
From Verif Require Import PyBase PyFacts Objects Exprs Translate Query Metrics Mql MetricsQuery Request SpecExpr SpecQuery SpecRefs
  SpecMetrics SpecRequest SpecErrors ErrorFacts ApiTac Concrete Properties5 Properties6 Properties7 Properties8.

Section P.
Context {RT : PyRT}.

(** ** C67 Invalid arguments are reported with the SDK's exceptions *)
(** every constructor, whatever its arguments *)
Theorem C67_constructors :
  (forall n a s d, raises_only [InvalidEntityError] (mk_entity n a s d))
  /\ (forall n s d, raises_only [InvalidStorageError] (mk_storage n s d))
  /\ (forall n e, raises_only [InvalidColumnError] (mk_column n e))
  /\ (forall x a, raises_only [InvalidExpressionError] (mk_aliased x a))
  /\ (forall f i p a, raises_only [InvalidFunctionError; InvalidExpressionError] (mk_curried f i p a))
  /\ (forall f p a, raises_only [InvalidFunctionError; InvalidExpressionError] (mk_function f p a))
  /\ (forall n, raises_only [InvalidLambdaError] (mk_identifier n))
  /\ (forall i b, raises_only [InvalidLambdaError] (mk_lambda i b))
  /\ (forall l o r, raises_only [InvalidConditionError; InvalidExpressionError] (mk_condition l o r))
  /\ (forall o l, raises_only [InvalidConditionError] (mk_boolean_condition o l))
  /\ (forall l, raises_only [InvalidConditionError] (mk_and l))
  /\ (forall l, raises_only [InvalidConditionError] (mk_or l))
  /\ (forall x d, raises_only [InvalidExpressionError] (mk_orderby x d))
  /\ (forall l n, raises_only [InvalidExpressionError] (mk_limitby l n))
  /\ (forall n, raises_only [InvalidExpressionError] (mk_limit n))
  /\ (forall n, raises_only [InvalidExpressionError] (mk_offset n))
  /\ (forall n, raises_only [InvalidExpressionError] (mk_granularity n))
  /\ (forall b, raises_only [InvalidExpressionError] (mk_totals b))
  /\ (forall b, raises_only [InvalidExpressionError] (mk_extrapolate b))
  /\ (forall l n r, raises_only [InvalidExpressionError] (mk_relationship l n r))
  /\ (forall l, raises_only [InvalidExpressionError] (mk_join l))
  /\ (forall m c, raises_only [InvalidQueryError] (mk_query m c))
  /\ (forall a b c, raises_only [InvalidTimeseriesError] (mk_metric a b c))
  /\ (forall m a p f g, raises_only [InvalidTimeseriesError] (mk_timeseries m a p f g))
  /\ (forall a b c, raises_only [InvalidExpressionError] (mk_scope a b c)).
Proof.
  repeat match goal with |- _ /\ _ => split end; intros;
    first [apply ro_entity|apply ro_storage|apply ro_column|apply ro_aliased|apply ro_func|apply ro_lambda|apply ro_condition
          |apply ro_boolean|apply ro_orderby|apply ro_limitby|apply ro_int|apply ro_relationship|apply ro_join|apply ro_query
          |apply ro_metric|apply ro_timeseries|apply ro_scope|idtac].
  - unfold mk_identifier. ro.
  - unfold mk_totals. ro.
  - unfold mk_extrapolate. ro.
Qed.
(** every setter *)
Theorem C67_setters :
  (forall c q v, raises_only [InvalidQueryError; InvalidExpressionError] (set_clause c q v))
  /\ (forall q m, raises_only [InvalidQueryError] (set_match q m))
  /\ (forall m v, raises_only [InvalidExpressionError; InvalidTimeseriesError] (set_mri m v))
  /\ (forall m v, raises_only [InvalidExpressionError; InvalidTimeseriesError] (set_public_name m v))
  /\ (forall m v, raises_only [InvalidExpressionError; InvalidTimeseriesError] (set_id m v))
  /\ (forall t v, raises_only [InvalidTimeseriesError] (set_metric t v))
  /\ (forall t a p, raises_only [InvalidTimeseriesError] (set_aggregate t a p))
  /\ (forall t v, raises_only [InvalidTimeseriesError] (set_filters t v))
  /\ (forall t v, raises_only [InvalidTimeseriesError] (set_groupby t v))
  /\ (forall s v, raises_only [InvalidExpressionError] (set_use_case_id s v))
  /\ (forall n pk ps a f g k qs, raises_only [InvalidFormulaError] (formula_set_parameters (VFormula n pk ps a f g) k qs))
  /\ (forall n pk ps a f g x, raises_only [InvalidFormulaError] (formula_set_filters (VFormula n pk ps a f g) x))
  /\ (forall n pk ps a f g x, raises_only [InvalidFormulaError] (formula_set_groupby (VFormula n pk ps a f g) x))
  /\ (forall f q v, raises_only [InvalidQueryError; InvalidExpressionError] (mq_set f q v)).
Proof.
  assert (forall a b c, raises_only [InvalidExpressionError; InvalidTimeseriesError] (mk_metric a b c)) as M
    by (intros; eapply ro_sub; [apply ro_metric|cbn; tauto]).
  repeat match goal with |- _ /\ _ => split end; intros.
  - apply ro_set.
  - apply ro_set_match.
  - unfold set_mri. destruct v; ro; apply M.
  - unfold set_public_name. destruct v; ro; apply M.
  - unfold set_id. destruct (as_int v); [apply M|ro].
  - unfold set_metric. destruct (ts_fields t) as [[? ?] [[? ?] ?]]. destruct v; ro; apply ro_timeseries.
  - unfold set_aggregate. destruct (ts_fields t) as [[? ?] [[? ?] ?]]. destruct a; ro; apply ro_timeseries.
  - unfold set_filters. destruct (ts_fields t) as [[? ?] [[? ?] ?]]. destruct (_ || _); [apply ro_timeseries|ro].
  - unfold set_groupby. destruct (ts_fields t) as [[? ?] [[? ?] ?]]. destruct (_ || _); [apply ro_timeseries|ro].
  - unfold set_use_case_id. destruct v; ro; apply ro_scope.
  - cbn [formula_set_parameters]. ro.
  - cbn [formula_set_filters]. ro.
  - cbn [formula_set_groupby]. ro.
  - unfold mq_set. apply ro_bind; [|intros; apply ro_ok]. destruct f; cbn [mq_setter_value]; ro;
      try (eapply ro_sub; [apply ro_int|cbn; tauto]). unfold mk_extrapolate. ro.
Qed.
(** Rollup: false for an empty value as granularity, exactly *)
Theorem C67_rollup_refuted : forall t d g z, empty_value g -> (10 <= z)%Z -> mk_rollup (OInt z) t d g = Raise TypeError.
Proof. exact rollup_type_error. Qed.
Theorem C67_rollup_partial : forall i t d g e, mk_rollup i t d g = Raise e ->
  e = InvalidExpressionError \/ (e = TypeError /\ empty_value g /\ exists z, i = OInt z /\ (10 <= z)%Z).
Proof. exact rollup_errors. Qed.
(** validate(): proved for queries, metrics queries and requests whose fields have the
    annotated types *)
Theorem C67_query_partial : forall q, api_query q -> class_typed_query q ->
  raises_only [InvalidQueryError; InvalidMatchError; InvalidColumnError] (validate q).
Proof.
  intros q A T e E. destruct (ValidateProps.c28_lemma q (PrintProps.api_wf_query q A) T) as (_ & K).
  destruct (K e E) as [->|[->| ->]]; cbn; tauto.
Qed.
Theorem C67_metrics_partial : forall q, typed_metrics q ->
  raises_only [InvalidMetricsQueryError; InvalidFormulaError; InvalidTimeseriesError; InvalidExpressionError] (mq_validate q).
Proof. exact ro_mq. Qed.
Theorem C67_request_partial : forall r, typed_rquery (rq_query r) -> typed_flags (rq_flags r) ->
  raises_only sdk_errors (request_validate r).
Proof. exact ro_request. Qed.
(** false without the types, although nothing but validate() checks them: an int as limit,
    a single condition as where, a number as select; a formula grouped by a number; a
    request whose query is a text *)
Definition c67_entity : base := BEntity (mkEntity ($"events") None None None).
Definition c67_select : obj := OList [OColumn (mkColumn ($"a") None None None)].
Definition c67_where : obj := OCond (OColumn (mkColumn ($"a") None None None)) EQ (OInt 1).
Definition c67_query (c : clause) (v : obj) : query := QBase c67_entity (upd c v (upd CSelect c67_select no_clauses)).
Definition c67_formula : mval :=
  VFormula (OStr ($"plus")) (Some KList) [VTS (mkTS (mkMetric None (Some ($"m")) None) ($"sum") None None None)] ONone ONone (OInt 1).
Theorem C67_query_refuted : api_query (c67_query CLimit (OInt 5)) /\ validate (c67_query CLimit (OInt 5)) = Raise AttributeError
  /\ api_query (c67_query CWhere c67_where) /\ validate (c67_query CWhere c67_where) = Raise TypeError
  /\ api_query (c67_query CSelect (OInt 5)) /\ validate (c67_query CSelect (OInt 5)) = Raise TypeError.
Proof.
  assert (forall c v, api v -> api_query (c67_query c v)) as A.
  { intros c v V. split; [cbn [obj_of_base c67_entity]; api_tac|]. intros k. unfold c67_query, c67_select.
    destruct c, k; cbn; try exact V; api_tac. }
  split; [apply A; api_tac|]. split; [vm_compute; reflexivity|].
  split; [apply A; unfold c67_where; api_tac|]. split; [vm_compute; reflexivity|].
  split; [apply A; api_tac|]. vm_compute; reflexivity.
Qed.
Theorem C67_formula_refuted : mval_validate c67_formula = Raise TypeError.
Proof. vm_compute. reflexivity. Qed.
Theorem C67_request_refuted : forall f s, request_validate (mkRequest (OStr ($"d")) (OStr ($"a")) (ROther (OStr s)) f (OStr ($"p")) (ODict [] []))
  = Raise AttributeError.
Proof. intros f s. vm_compute. reflexivity. Qed.
End P.

(** Non-vacuity *)
#[local] Existing Instance demoRT.
#[local] Existing Instance demoST.
(** arguments that are refused *)
Example C67_refused : mk_column (OInt 1) ONone = Raise InvalidColumnError
  /\ mk_function (OStr ($"ff")) (OList [OList [OOther 1]]) ONone = Raise InvalidExpressionError
  /\ mk_function (OStr ($"ff")) (OList [OOther 1]) ONone = Raise InvalidFunctionError
  /\ set_clause CLimit (c67_query CWhere ONone) (OInt 0) = Raise InvalidExpressionError
  /\ mk_rollup (OInt 60) ONone ONone (OInt 7) = Raise InvalidExpressionError
  /\ mk_rollup (OInt 60) ONone ONone (OStr []) = Raise TypeError.
Proof. repeat split; vm_compute; reflexivity. Qed.
(** queries of the annotated types that are refused, and one that passes *)
Example C67_typed_query : api_query (c67_query CTotals (OTotals true)) /\ class_typed_query (c67_query CTotals (OTotals true))
  /\ validate (c67_query CTotals (OTotals true)) = Raise InvalidQueryError.
Proof.
  split; [split; [cbn [obj_of_base c67_entity]; api_tac|intros []; cbn; unfold c67_select; api_tac]|]. split; [|vm_compute; reflexivity].
  intros []; cbn; auto; right; [|eauto]. exists [OColumn (mkColumn ($"a") None None None)]. split; constructor; constructor.
Qed.
Example C67_typed_metrics : typed_metrics (demo_query demo_ix (demo_formula ($"x") ($"x")))
  /\ mq_validate (demo_query demo_ix (demo_formula ($"x") ($"x"))) = Ok tt
  /\ typed_metrics (demo_query demo_ix (demo_formula ($"x") ($"y")))
  /\ mq_validate (demo_query demo_ix (demo_formula ($"x") ($"y"))) = Raise InvalidFormulaError.
Proof.
  assert (built_rollup (VRollup demo_rollup)) as R.
  { intros r E. injection E as <-. exists (OInt 3600), ONone, ONone, (OInt 3600). vm_compute. reflexivity. }
  split; [split; [apply demo_typed|exact R]|]. split; [vm_compute; reflexivity|].
  split; [split; [apply demo_typed|exact R]|]. vm_compute. reflexivity.
Qed.
Example C67_typed_request : let r := mkRequest (OStr ($"d")) (OStr ($"a")) (RMetrics (demo_query demo_ix (demo_formula ($"x") ($"y"))))
    RFNone (OStr ($"p")) (ODict [] []) in
  typed_rquery (rq_query r) /\ typed_flags (rq_flags r) /\ request_validate r = Raise InvalidFormulaError.
Proof. split; [apply C67_typed_metrics|]. split; [exact I|]. vm_compute. reflexivity. Qed.

Print Assumptions C67_constructors.
Print Assumptions C67_setters.
Print Assumptions C67_rollup_refuted.
Print Assumptions C67_rollup_partial.
Print Assumptions C67_query_partial.
Print Assumptions C67_metrics_partial.
Print Assumptions C67_request_partial.
Print Assumptions C67_query_refuted.
Print Assumptions C67_formula_refuted.
Print Assumptions C67_request_refuted.
