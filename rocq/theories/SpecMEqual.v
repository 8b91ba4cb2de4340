(** Specification vocabulary for C76: equality of metrics queries, and the parts of two equal
    ones that could be written differently. *)
From Verif Require Import PyBase DateTime Objects SpecOccurs Metrics MetricsQuery SpecMetricsQuery SpecEqual SpecArrive.

(** the generated __eq__ of the dataclass MetricsQuery, metrics_query.py:18-19 *)
Definition mquery_eq (q q' : mquery) : Prop := forall f, mv_eq (mq_get f q) (mq_get f q') = true.

(** what the MQL text of a value is made of: the objects in its parameters, filters and
    group-bys, numbers that are parameters of formulas, aggregate parameters of formulas *)
Inductive agg_param : obj -> mval -> Prop :=
| ag_here x n pk ps l f g : In x l -> agg_param x (VFormula n pk ps (OList l) f g)
| ag_below x p n pk ps a f g : In p ps -> agg_param x p -> agg_param x (VFormula n pk ps a f g).
Inductive operand : obj -> mval -> Prop :=
| op_here o : operand o (VObj o)
| op_below o p n pk ps a f g : In p ps -> operand o p -> operand o (VFormula n pk ps a f g).
Definition mql_part (x : obj) (v : mval) : Prop := within x v \/ agg_param x v \/ operand x v.
(** equal parts look the same: not 1 and True or 1.0, not quantile(0.5)(a) AS x and
    quantile(0.5)(a) *)
Definition no_mql_lookalikes (v v' : mval) : Prop := forall x y,
  mql_part x v -> mql_part y v' -> py_eq x y = true -> look_same x y.
(** aggregate parameters of formulas are strings, numbers, booleans or None *)
Definition bare_params {RT : PyRT} (v : mval) : Prop := forall x, agg_param x v -> exists s, bare_text x s.

(** what the mql_context is made of *)
Definition setting (x : obj) (q : mquery) : Prop := exists s, has_settings q s /\
  (x = ODateTime (se_start s) \/ x = ODateTime (se_end s)
   \/ In x [or_none int_text (ro_interval (se_rollup s)); ro_granularity (se_rollup s);
            or_none int_text (se_limit s); or_none int_text (se_offset s)]
   \/ In x (map int_text (ms_orgs (se_scope s))) \/ In x (map int_text (ms_projects (se_scope s)))
   \/ In x (snd (se_indexer s))).
(** equal settings are the same: not 60 and 60.0, not 10:00 UTC and 12:00+02:00; and the keys of
    the indexer mappings are in the same order, none of them twice *)
Definition same_settings (q q' : mquery) : Prop :=
  (forall x y, setting x q -> setting y q' -> py_eq x y = true -> x = y)
  /\ (forall s s', has_settings q s -> has_settings q' s' -> fst (se_indexer s) = fst (se_indexer s')
       /\ NoDup (fst (se_indexer s)) /\ List.length (fst (se_indexer s)) = List.length (snd (se_indexer s))
       /\ List.length (fst (se_indexer s')) = List.length (snd (se_indexer s'))).
