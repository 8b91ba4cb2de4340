(** Specification for C67: which exceptions a call may raise. *)
From Verif Require Import PyBase Objects Query Metrics MetricsQuery Request SpecMetrics SpecQuery SpecRefs SpecRequest.

(** a call returns or raises one of the given exceptions *)
Definition raises_only {A} (es : list exn) (r : result A) : Prop := forall e, r = Raise e -> In e es.

(** the exception classes that snuba_sdk defines and raises: expressions.py:10, column.py:10,
    function.py:19,121, conditions.py:17, entity.py:11, storage.py:11, query_visitors.py:22,
    query_validation.py:24,126, timeseries.py:18, formula.py:18, metrics_query_visitors.py:16,
    mql/mql.py:21, mql_context.py:6, request.py:13,17, delete_query.py:7 *)
Definition sdk_errors : list exn :=
  [InvalidExpressionError; InvalidColumnError; InvalidFunctionError; InvalidLambdaError;
   InvalidConditionError; InvalidEntityError; InvalidStorageError; InvalidQueryError;
   InvalidMatchError; RequiredColumnError; InvalidTimeseriesError; InvalidFormulaError;
   InvalidMetricsQueryError; InvalidMQLQueryError; InvalidMQLContextError;
   InvalidRequestError; InvalidFlagError; InvalidDeleteQueryError].

(** a granularity that Rollup takes for a missing one although it is no number: "", b"",
    an empty list, tuple or dictionary *)
Inductive empty_value : obj -> Prop :=
| ev_str : empty_value (OStr [])
| ev_bytes : empty_value (OBytes [])
| ev_list : empty_value (OList [])
| ev_tuple : empty_value (OTuple [])
| ev_dict vs : empty_value (ODict [] vs).

Section Spec.
Context {RT : PyRT}.
(** a Rollup value is one that the constructor returned *)
Definition built_rollup (v : mval) : Prop := forall r, v = VRollup r -> exists i t d g, mk_rollup i t d g = Ok r.
(** a MetricsQuery whose formulas have fields of the annotated types *)
Definition typed_metrics (q : mquery) : Prop := typed_tree (mq_query q) /\ built_rollup (mq_rollup q).
(** requests whose query and flags have the annotated types *)
Definition typed_rquery (q : rquery) : Prop :=
  match q with
  | RQuery q => api_query q /\ class_typed_query q
  | RMetrics q => typed_metrics q
  | RDelete q => exists ks vs, dq_columns q = ODict ks vs /\ Forall (fun v => exists n, sized v n) vs
  | ROther _ => False
  end.
Definition typed_flags (f : rflags) : Prop := match f with RFOther _ => False | _ => True end.
End Spec.
