(** Specification for C111: which fields of a metrics query str() can write, and what it raises for
    the others. *)
From Verif Require Import PyBase DateTime Objects Metrics MetricsQuery.

(** the fields in the order of the class *)
Definition written_fields : list mfield :=
  [FQuery; FStart; FEnd; FRollup; FScope; FLimit; FOffset; FExtrapolate; FIndexer].

Section Spec.
Context {RT : PyRT} {ST : PyStr}.

(** a value that can be written for a field; for the query itself, one that has an MQL text *)
Inductive writable : mfield -> mval -> Prop :=
| wr_query v s : print_mq_query v = Ok s -> writable FQuery v
| wr_datetime f t : In f [FStart; FEnd] -> writable f (VObj (ODateTime t))
| wr_date f d : In f [FStart; FEnd] -> writable f (VObj (ODate d))
| wr_rollup r : writable FRollup (VRollup r)
| wr_scope s : writable FScope (VScope s)
| wr_none f : In f [FLimit; FOffset; FExtrapolate] -> writable f VNone
| wr_limit n : writable FLimit (VObj (OLimit n))
| wr_offset n : writable FOffset (VObj (OOffset n))
| wr_extrapolate b : writable FExtrapolate (VObj (OExtrapolate b))
| wr_indexer ks vs : writable FIndexer (VObj (ODict ks vs)).

(** required fields that are missing are reported by the SDK; values of another class do not have
    the attribute or method that is read. Nothing is said of scopes and mappings of another class and of bytes for the query. *)
Inductive unwritable : mfield -> mval -> exn -> Prop :=
| un_missing f : In f [FQuery; FStart; FEnd; FRollup; FScope; FIndexer] -> unwritable f VNone InvalidMetricsQueryError
| un_query v : v <> VNone -> (forall s, v <> VObj (OStr s)) -> (forall s, v <> VObj (OBytes s)) ->
    (forall t, v <> VTS t) -> (forall n pk ps a f g, v <> VFormula n pk ps a f g) -> unwritable FQuery v AttributeError
| un_class f v : In f [FStart; FEnd; FRollup; FLimit; FOffset; FExtrapolate] -> v <> VNone -> ~ writable f v ->
    unwritable f v AttributeError.
End Spec.
