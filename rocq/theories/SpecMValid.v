(** Specification vocabulary for C78: the metrics queries that are complete, written without
    the checking functions of the model. *)
From Verif Require Import PyBase DateTime Objects SpecExpr Metrics Mql MetricsQuery SpecMetrics.
Local Open Scope Z_scope.

Section Spec.
Context {RT : PyRT}.

(** a list field that is absent, or has items of one kind only *)
Definition all_items (P : obj -> Prop) (x : option (list obj)) : Prop :=
  match x with None => True | Some l => Forall P l end.
(** a Timeseries: its metric is named, its arguments are literals, its filters conditions,
    its group-bys columns *)
Definition complete_ts (t : timeseries) : Prop :=
  (m_public (ts_metric t) <> None \/ m_mri (ts_metric t) <> None)
  /\ all_items literal (ts_params t) /\ all_items condition_obj (ts_filters t)
  /\ all_items groupable (ts_groupby t).
(** a Formula: named, with parameters of the right types, a Timeseries somewhere in it, and
    the same group-by wherever one is given *)
Inductive complete_value : mval -> Prop :=
| cv_ts t : complete_ts t -> complete_value (VTS t)
| cv_formula s k ps a f g (v := VFormula (OStr s) (Some k) ps a f g) :
    k <> KNone -> Forall formula_param ps -> (exists t, occurs (VTS t) v) ->
    (forall x y l1 l2, occurs x v -> occurs y v -> groupby_of x l1 -> groupby_of y l2 -> same_groupby l1 l2) ->
    complete_value v.
(** what the query field of a MetricsQuery stands for: an expression, or the MQL text of one *)
Inductive stands_for : mval -> mval -> Prop :=
| sf_ts t : stands_for (VTS t) (VTS t)
| sf_formula n pk ps a f g : stands_for (VFormula n pk ps a f g) (VFormula n pk ps a f g)
| sf_text s v : parse_mql s = Ok v -> stands_for (VObj (OStr s)) v.

Definition a_time (v : mval) : Prop := exists d, v = VObj (ODateTime d).
(** a rollup with a granularity. Granularities that Python counts as false are let through:
    see C37. *)
Definition complete_rollup (v : mval) : Prop := exists r i, v = VRollup r
  /\ ro_granularity r <> ONone /\ opt_int i (ro_interval r)
  /\ rollup_args (fun g => falsy g \/ granularity_allowed g) i (obj_of_opt OBool (ro_totals r))
       (obj_of_opt ODir (ro_orderby r)) (ro_granularity r).
Definition pyint_value (n : pyint) : Z :=
  match n with PInt z => z | PBool b => if b then 1 else 0 end.
(** an absent value, or one of those described *)
Definition absent_or (P : mval -> Prop) (v : mval) : Prop := v = VObj ONone \/ P v.

Definition complete (q : mquery) : Prop :=
  (exists v, stands_for (mq_query q) v /\ complete_value v)
  /\ a_time (mq_start q) /\ a_time (mq_end q)
  /\ complete_rollup (mq_rollup q)
  /\ (exists s, mq_scope q = VScope s)
  /\ absent_or (fun v => exists n, v = VObj (OLimit n) /\ 1 <= pyint_value n <= 10000) (mq_limit q)
  /\ absent_or (fun v => exists n, v = VObj (OOffset n) /\ 0 <= pyint_value n) (mq_offset q)
  /\ absent_or (fun v => exists b, v = VObj (OExtrapolate b)) (mq_extrapolate q)
  /\ absent_or (fun v => exists ks vs, v = VObj (ODict ks vs)) (mq_indexer q).
End Spec.
