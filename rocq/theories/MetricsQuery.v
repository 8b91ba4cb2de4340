(** metrics_query.py, metrics_query_visitors.py, mql_visitor.py, mql_context.py *)
From Verif Require Import PyBase DateTime Objects Exprs Translate Query Optimizer Metrics Mql.

(** MetricsQuery, metrics_query.py:18-39: a mutable dataclass, not checked when built *)
Record mquery := mkMQ {
  mq_query : mval; mq_start : mval; mq_end : mval; mq_rollup : mval; mq_scope : mval;
  mq_limit : mval; mq_offset : mval; mq_extrapolate : mval; mq_indexer : mval }.

(** MetricsQuery() with every field at its default *)
Definition VNone : mval := VObj ONone.
Definition mq_default : mquery :=
  mkMQ VNone VNone VNone VNone VNone VNone VNone VNone VNone.

Inductive mfield := FQuery | FStart | FEnd | FRollup | FScope | FLimit | FOffset
                  | FExtrapolate | FIndexer.
Definition mq_get (f : mfield) (q : mquery) : mval :=
  match f with
  | FQuery => mq_query q | FStart => mq_start q | FEnd => mq_end q
  | FRollup => mq_rollup q | FScope => mq_scope q | FLimit => mq_limit q
  | FOffset => mq_offset q | FExtrapolate => mq_extrapolate q | FIndexer => mq_indexer q
  end.
(** _replace, metrics_query.py:41-43 *)
Definition mq_put (f : mfield) (v : mval) (q : mquery) : mquery :=
  let 'mkMQ a b c d e g h i j := q in
  match f with
  | FQuery => mkMQ v b c d e g h i j
  | FStart => mkMQ a v c d e g h i j
  | FEnd => mkMQ a b v d e g h i j
  | FRollup => mkMQ a b c v e g h i j
  | FScope => mkMQ a b c d v g h i j
  | FLimit => mkMQ a b c d e v h i j
  | FOffset => mkMQ a b c d e g v i j
  | FExtrapolate => mkMQ a b c d e g h v j
  | FIndexer => mkMQ a b c d e g h i v
  end.

Definition is_formula (v : mval) : bool :=
  match v with VFormula _ _ _ _ _ _ => true | _ => false end.
Definition is_ts (v : mval) : bool := match v with VTS _ => true | _ => false end.
Definition is_str_val (v : mval) : bool := match v with VObj (OStr _) => true | _ => false end.
Definition is_datetime (v : mval) : bool := match v with VObj (ODateTime _) => true | _ => false end.

Section MetricsQuery.
Context {RT : PyRT} {ST : PyStr}.

(** the value a setter stores, metrics_query.py:45-84 *)
Definition mq_setter_value (f : mfield) (v : mval) : result mval :=
  let clause mk := match v with
                   | VObj o => let! x := mk o in Ok (VObj x)
                   | _ => Raise InvalidExpressionError
                   end in
  match f with
  | FQuery => assert_ (is_formula v || is_ts v || is_str_val v) InvalidQueryError ;! Ok v
  | FStart | FEnd => assert_ (is_datetime v) InvalidQueryError ;! Ok v
  | FRollup => assert_ (match v with VRollup _ => true | _ => false end) InvalidQueryError ;! Ok v
  | FScope => assert_ (match v with VScope _ => true | _ => false end) InvalidQueryError ;! Ok v
  | FLimit => clause mk_limit
  | FOffset => clause mk_offset
  | FExtrapolate => clause mk_extrapolate
  | FIndexer => Ok v
  end.
Definition mq_set (f : mfield) (q : mquery) (v : mval) : result mquery :=
  let! x := mq_setter_value f v in Ok (mq_put f x q).

(** * Validator, metrics_query_visitors.py:83-172 *)

(** _visit_query, metrics_query_visitors.py:89-107; any Exception of the parser becomes
    an InvalidMetricsQueryError *)
Definition check_query (v : mval) : result unit :=
  match v with
  | VObj (OStr s) =>
      match parse_mql s with
      | Ok x => mval_validate x
      | Raise _ => Raise InvalidMetricsQueryError
      end
  | VTS _ | VFormula _ _ _ _ _ _ => mval_validate v
  | _ => Raise InvalidMetricsQueryError
  end.
(** _visit_start, _visit_end, metrics_query_visitors.py:109-119 *)
Definition check_time (v : mval) : result unit :=
  assert_ (is_datetime v) InvalidMetricsQueryError.
(** _visit_rollup, metrics_query_visitors.py:121-133 *)
Definition check_rollup (v : mval) : result unit :=
  match v with
  | VRollup r =>
      if is_none (ro_granularity r) then Raise InvalidMetricsQueryError else rollup_validate r
  | _ => Raise InvalidMetricsQueryError
  end.
(** _visit_scope, metrics_query_visitors.py:135-140 *)
Definition check_scope (v : mval) : result unit :=
  match v with
  | VScope s => scope_validate s
  | _ => Raise InvalidMetricsQueryError
  end.
(** _visit_limit, _visit_offset, _visit_extrapolate, metrics_query_visitors.py:142-164,
    with the validate methods of expressions.py:90-129 *)
Definition check_limit (v : mval) : result unit :=
  match v with
  | VObj ONone => Ok tt
  | VObj (OLimit n) => mk_limit (obj_of_pyint n) ;! Ok tt
  | _ => Raise InvalidMetricsQueryError
  end.
Definition check_offset (v : mval) : result unit :=
  match v with
  | VObj ONone => Ok tt
  | VObj (OOffset n) => mk_offset (obj_of_pyint n) ;! Ok tt
  | _ => Raise InvalidMetricsQueryError
  end.
Definition check_extrapolate (v : mval) : result unit :=
  match v with
  | VObj ONone | VObj (OExtrapolate _) => Ok tt
  | _ => Raise InvalidMetricsQueryError
  end.
(** _visit_indexer_mappings, metrics_query_visitors.py:166-172 *)
Definition check_indexer (v : mval) : result unit :=
  match v with
  | VObj ONone | VObj (ODict _ _) => Ok tt
  | _ => Raise InvalidMetricsQueryError
  end.

(** MetricsQuery.validate, metrics_query.py:86-87: the fields in order *)
Definition mq_validate (q : mquery) : result unit :=
  check_query (mq_query q) ;! check_time (mq_start q) ;! check_time (mq_end q) ;!
  check_rollup (mq_rollup q) ;! check_scope (mq_scope q) ;! check_limit (mq_limit q) ;!
  check_offset (mq_offset q) ;! check_extrapolate (mq_extrapolate q) ;!
  check_indexer (mq_indexer q).

(** * MQLPrinter, mql_visitor.py:80-159 *)

(** MQLPrinter._visit_query, mql_visitor.py:108-117. A value of another type than
    Formula, Timeseries or str makes parse_mql call .strip() on it: AttributeError. *)
Definition print_mq_query (v : mval) : result str :=
  match v with
  | VObj ONone => Raise InvalidMetricsQueryError
  | VTS _ | VFormula _ _ _ _ _ _ => print_mval v
  | VObj (OStr s) => let! x := parse_mql s in print_mval x
  | _ => Raise AttributeError
  end.
Definition print_time (v : mval) : result obj :=
  match v with
  | VObj ONone => Raise InvalidMetricsQueryError
  | VObj (ODateTime t) => Ok (OStr (datetime_iso t))
  | VObj (ODate d) => Ok (OStr (date_iso d))
  | _ => Raise AttributeError
  end.
(** RollupMQLPrinter, metrics_visitors.py:224-231 *)
Definition rollup_dict (r : rollup) : obj :=
  ODict [$"orderby"; $"granularity"; $"interval"; $"with_totals"]
    [obj_of_opt (fun d => OStr (direction_value d)) (ro_orderby r);
     ro_granularity r;
     obj_of_opt obj_of_pyint (ro_interval r);
     obj_of_opt (fun b => OStr (py_bool_str b)) (ro_totals r)].
(** ScopeMQLPrinter: asdict(scope), metrics_visitors.py:240-242 *)
Definition scope_dict (s : mscope) : obj :=
  ODict [$"org_ids"; $"project_ids"; $"use_case_id"]
    [ints_obj (ms_orgs s); ints_obj (ms_projects s); obj_of_opt OStr (ms_usecase s)].

(** The printer on a whole query, mql_visitor.py:25-31, 88-106. The values of limit,
    offset and extrapolate are read from their objects; other values than those of the
    right class have no such attribute. Simplified, for queries that validate() refuses: asdict()
    would also accept other dataclasses as a scope or as mappings, which here raise TypeError or are
    refused by the encoder; bytes as a query have a strip(), here AttributeError. MQLContext.validate (mql_context.py:37-42) can
    only fail on missing fields, which raise before. *)
Definition print_rollup (v : mval) : result obj :=
  match v with
  | VObj ONone => Raise InvalidMetricsQueryError
  | VRollup r => Ok (rollup_dict r)
  | _ => Raise AttributeError
  end.
Definition print_scope (v : mval) : result obj :=
  match v with
  | VObj ONone => Raise InvalidMetricsQueryError
  | VScope s => Ok (scope_dict s)
  | _ => Raise TypeError
  end.
Definition print_limit (v : mval) : result obj :=
  match v with
  | VObj ONone => Ok ONone
  | VObj (OLimit n) => Ok (obj_of_pyint n)
  | _ => Raise AttributeError
  end.
Definition print_offset (v : mval) : result obj :=
  match v with
  | VObj ONone => Ok ONone
  | VObj (OOffset n) => Ok (obj_of_pyint n)
  | _ => Raise AttributeError
  end.
Definition print_extrapolate (v : mval) : result obj :=
  match v with
  | VObj ONone => Ok ONone
  | VObj (OExtrapolate b) => Ok (OBool b)
  | _ => Raise AttributeError
  end.
Definition print_indexer (v : mval) : result obj :=
  match v with
  | VObj ONone => Raise InvalidMetricsQueryError
  | VObj o => Ok o
  | _ => Raise TypeError
  end.

Definition mq_payload (q : mquery) : result (str * obj) :=
  let! m := print_mq_query (mq_query q) in
  let! st := print_time (mq_start q) in
  let! en := print_time (mq_end q) in
  let! ro := print_rollup (mq_rollup q) in
  let! sc := print_scope (mq_scope q) in
  let! li := print_limit (mq_limit q) in
  let! off := print_offset (mq_offset q) in
  let! ex := print_extrapolate (mq_extrapolate q) in
  let! ix := print_indexer (mq_indexer q) in
  Ok (m, ODict [$"start"; $"end"; $"rollup"; $"scope"; $"indexer_mappings"; $"limit";
                $"offset"; $"extrapolate"]
               [st; en; ro; sc; ix; li; off; ex]).

(** * optimize, serialize, print: metrics_query.py:89-111 *)

(** _optimize, metrics_query.py:104-111: the new value of self.query. replace() on a
    Timeseries runs its validation. *)
Definition optimize_mval (v : mval) : result mval :=
  match v with
  | VTS t =>
      match ts_filters t with
      | None => Ok v
      | Some fs =>
          let! o := optimize fs in
          match o with
          | None => Ok v
          | Some fs' =>
              let '((m, a), (p, _, g)) := ts_fields t in
              let! t' := mk_timeseries m a p (OList fs') g in Ok (VTS t')
          end
      end
  | VFormula n pk ps a f g =>
      match f with
      | ONone => Ok v
      | _ => let! fs := iter f in
             let! o := optimize fs in
             match o with
             | None => Ok v
             | Some fs' => Ok (VFormula n pk ps a (OList fs') g)
             end
      end
  | _ => Ok v
  end.

(** MetricsQuery.serialize, metrics_query.py:98-102: the object afterwards, and the
    result, {"mql": .., "mql_context": ..} as a pair *)
Definition mq_serialize (q : mquery) : mquery * result (str * obj) :=
  match mq_validate q with
  | Raise e => (q, Raise e)
  | Ok _ =>
      match optimize_mval (mq_query q) with
      | Raise e => (q, Raise e)
      | Ok v => let q' := mq_put FQuery v q in (q', mq_payload q')
      end
  end.

(** MetricsQuery.print, metrics_query.py:93-96, before json.dumps(indent=4) *)
Definition mq_print (q : mquery) : result (str * obj) :=
  mq_validate q ;! mq_payload q.

End MetricsQuery.
