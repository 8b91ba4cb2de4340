(** timeseries.py, formula.py and the MQL printers of metrics_visitors.py.
    Simplification: Timeseries and MetricsScope are mutable dataclasses; assignments to
    their attributes after construction are in Sharing.v; here they are values. *)
From Verif Require Import PyBase DateTime Objects Exprs Translate Query.

(** * Values *)

(** Metric, timeseries.py:22-31 *)
Record metric := mkMetric {
  m_public : option str; m_mri : option str; m_id : option pyint }.

(** Timeseries, timeseries.py:69-82 *)
Record timeseries := mkTS {
  ts_metric : metric; ts_agg : str; ts_params : option (list obj);
  ts_filters : option (list obj); ts_groupby : option (list obj) }.

(** Rollup, timeseries.py:163-176; granularity is only compared, so any value can occur *)
Record rollup := mkRollup {
  ro_interval : option pyint; ro_totals : option bool;
  ro_orderby : option direction; ro_granularity : obj }.

(** MetricsScope, timeseries.py:217-231 *)
Record mscope := mkScope {
  ms_orgs : list pyint; ms_projects : list pyint; ms_usecase : option str }.

(** Python values that can be passed around in the metrics API. Formula (formula.py:39-46)
    is not checked at construction, so its fields are arbitrary: [pk] is the kind of
    the parameters ([Some KNone]: None; [None]: a value that is no Sequence, assumed
    truthy and not iterable), [params] their items. *)
Inductive mval :=
| VObj (o : obj)
| VMetric (m : metric)
| VTS (t : timeseries)
| VRollup (r : rollup)
| VScope (s : mscope)
| VFormula (name : obj) (pk : option seqk) (params : list mval)
           (aggp filters groupby : obj).

Section MvalInd.
  Variable P : mval -> Prop.
  Hypothesis Hobj : forall o, P (VObj o).
  Hypothesis Hmetric : forall m, P (VMetric m).
  Hypothesis Hts : forall t, P (VTS t).
  Hypothesis Hrollup : forall r, P (VRollup r).
  Hypothesis Hscope : forall s, P (VScope s).
  Hypothesis Hformula : forall n pk ps a f g, Forall P ps -> P (VFormula n pk ps a f g).
  Fixpoint mval_ind' (v : mval) : P v :=
    match v with
    | VObj o => Hobj o
    | VMetric m => Hmetric m
    | VTS t => Hts t
    | VRollup r => Hrollup r
    | VScope s => Hscope s
    | VFormula n pk ps a f g =>
        Hformula n pk ps a f g
          ((fix go (l : list mval) : Forall P l :=
              match l with
              | [] => Forall_nil P
              | x :: l' => Forall_cons x (mval_ind' x) (go l')
              end) ps)
    end.
End MvalInd.

(** a == b on these values (dataclass equality, field by field) *)
Definition metric_eqb (a b : metric) : bool :=
  option_eqb str_eqb (m_public a) (m_public b) && option_eqb str_eqb (m_mri a) (m_mri b)
  && option_eqb (fun x y => Z.eqb (pyint_Z x) (pyint_Z y)) (m_id a) (m_id b).
Definition opt_list_eqb (a b : option (list obj)) : bool :=
  option_eqb (fun x y => py_eq (OList x) (OList y)) a b.
Definition ts_eqb (a b : timeseries) : bool :=
  metric_eqb (ts_metric a) (ts_metric b) && str_eqb (ts_agg a) (ts_agg b)
  && opt_list_eqb (ts_params a) (ts_params b) && opt_list_eqb (ts_filters a) (ts_filters b)
  && opt_list_eqb (ts_groupby a) (ts_groupby b).
Definition rollup_eqb (a b : rollup) : bool :=
  option_eqb (fun x y => Z.eqb (pyint_Z x) (pyint_Z y)) (ro_interval a) (ro_interval b)
  && option_eqb Bool.eqb (ro_totals a) (ro_totals b)
  && option_eqb direction_eqb (ro_orderby a) (ro_orderby b)
  && py_eq (ro_granularity a) (ro_granularity b).
Definition ints_eqb (a b : list pyint) : bool :=
  list_eqb (fun x y => Z.eqb (pyint_Z x) (pyint_Z y)) a b.
Definition scope_eqb (a b : mscope) : bool :=
  ints_eqb (ms_orgs a) (ms_orgs b) && ints_eqb (ms_projects a) (ms_projects b)
  && option_eqb str_eqb (ms_usecase a) (ms_usecase b).
Fixpoint mv_eq (a b : mval) {struct a} : bool :=
  let eql := fix eql (l1 l2 : list mval) {struct l1} : bool :=
    match l1, l2 with
    | [], [] => true
    | x :: l1', y :: l2' => mv_eq x y && eql l1' l2'
    | _, _ => false
    end in
  match a, b with
  | VObj x, VObj y => py_eq x y
  | VMetric x, VMetric y => metric_eqb x y
  | VTS x, VTS y => ts_eqb x y
  | VRollup x, VRollup y => rollup_eqb x y
  | VScope x, VScope y => scope_eqb x y
  | VFormula n k ps ag f g, VFormula n' k' ps' ag' f' g' =>
      py_eq n n' && option_eqb seqk_eqb k k' && eql ps ps' && py_eq ag ag'
      && py_eq f f' && py_eq g g'
  | _, _ => false
  end.

(** str(v) of values whose text this model does not compute: everything but str, int,
    bool, float and None. *)
Class PyStr := { str_other : mval -> str }.

Definition obj_of_pyint (i : pyint) : obj := match i with PInt z => OInt z | PBool b => OBool b end.
Definition obj_of_opt {A} (f : A -> obj) (x : option A) : obj :=
  match x with Some a => f a | None => ONone end.

Section Metrics.
Context {RT : PyRT}.

(** * Metric, timeseries.py:40-66 *)

Definition as_opt_str (o : obj) (e : exn) : result (option str) :=
  match o with ONone => Ok None | OStr s => Ok (Some s) | _ => Raise e end.
Definition as_opt_int (o : obj) (e : exn) : result (option pyint) :=
  match o with
  | ONone => Ok None
  | _ => match as_int o with Some i => Ok (Some i) | None => Raise e end
  end.

(** Metric(public_name, mri, id), timeseries.py:40-51 *)
Definition mk_metric (public mri id : obj) : result metric :=
  let! p := as_opt_str public InvalidTimeseriesError in
  let! m := as_opt_str mri InvalidTimeseriesError in
  let! i := as_opt_int id InvalidTimeseriesError in
  assert_ (match p, m with None, None => false | _, _ => true end) InvalidTimeseriesError ;!
  Ok (mkMetric p m i).
(** Metric.validate on an existing Metric: the same checks *)
Definition metric_validate (m : metric) : result unit :=
  mk_metric (obj_of_opt OStr (m_public m)) (obj_of_opt OStr (m_mri m))
            (obj_of_opt obj_of_pyint (m_id m)) ;! Ok tt.

(** set_mri, set_public_name, set_id, timeseries.py:53-66 (dataclasses.replace runs
    __post_init__ on the copy) *)
Definition set_mri (m : metric) (v : obj) : result metric :=
  match v with
  | OStr _ => mk_metric (obj_of_opt OStr (m_public m)) v (obj_of_opt obj_of_pyint (m_id m))
  | _ => Raise InvalidExpressionError
  end.
Definition set_public_name (m : metric) (v : obj) : result metric :=
  match v with
  | OStr _ => mk_metric v (obj_of_opt OStr (m_mri m)) (obj_of_opt obj_of_pyint (m_id m))
  | _ => Raise InvalidExpressionError
  end.
Definition set_id (m : metric) (v : obj) : result metric :=
  match as_int v with
  | Some _ => mk_metric (obj_of_opt OStr (m_public m)) (obj_of_opt OStr (m_mri m)) v
  | None => Raise InvalidExpressionError
  end.

(** * Timeseries, timeseries.py:84-157 *)

Definition is_groupable (o : obj) : bool :=
  match o with OColumn _ | OAliased _ _ => true | _ => false end.
(** None, or a list all of whose items satisfy f *)
Definition as_opt_list (f : obj -> bool) (o : obj) (e : exn) : result (option (list obj)) :=
  match o with
  | ONone => Ok None
  | OList l => assert_ (forallb f l) e ;! Ok (Some l)
  | _ => Raise e
  end.

(** Timeseries(metric, aggregate, aggregate_params, filters, groupby), timeseries.py:91-127 *)
Definition mk_timeseries (metric : mval) (aggregate params filters groupby : obj)
  : result timeseries :=
  match metric with
  | VMetric m =>
      metric_validate m ;!
      match aggregate with
      | OStr a =>
          let! ps := as_opt_list is_literal params InvalidTimeseriesError in
          let! fs := as_opt_list is_condition_obj filters InvalidTimeseriesError in
          let! gs := as_opt_list is_groupable groupby InvalidTimeseriesError in
          Ok (mkTS m a ps fs gs)
      | _ => Raise InvalidTimeseriesError
      end
  | _ => Raise InvalidTimeseriesError
  end.
Definition ts_fields (t : timeseries) : (mval * obj) * (obj * obj * obj) :=
  (VMetric (ts_metric t), OStr (ts_agg t),
   (obj_of_opt OList (ts_params t), obj_of_opt OList (ts_filters t),
    obj_of_opt OList (ts_groupby t))).
(** Timeseries.validate on an existing Timeseries *)
Definition ts_validate (t : timeseries) : result unit :=
  let '((m, a), (p, f, g)) := ts_fields t in mk_timeseries m a p f g ;! Ok tt.

(** set_metric, set_aggregate, set_filters, set_groupby, timeseries.py:129-157 *)
Definition set_metric (t : timeseries) (v : mval) : result timeseries :=
  let '((_, a), (p, f, g)) := ts_fields t in
  match v with
  | VMetric _ => mk_timeseries v a p f g
  | _ => Raise InvalidTimeseriesError
  end.
Definition set_aggregate (t : timeseries) (aggregate params : obj) : result timeseries :=
  let '((m, _), (_, f, g)) := ts_fields t in
  match aggregate with
  | OStr _ =>
      match params with
      | ONone | OList _ => mk_timeseries m aggregate params f g
      | _ => Raise InvalidTimeseriesError
      end
  | _ => Raise InvalidTimeseriesError
  end.
Definition set_filters (t : timeseries) (v : obj) : result timeseries :=
  let '((m, a), (p, _, g)) := ts_fields t in
  if is_none v || list_type v is_condition_obj then mk_timeseries m a p v g
  else Raise InvalidTimeseriesError.
Definition set_groupby (t : timeseries) (v : obj) : result timeseries :=
  let '((m, a), (p, f, _)) := ts_fields t in
  if is_none v || list_type v is_groupable then mk_timeseries m a p f v
  else Raise InvalidTimeseriesError.

(** * Rollup, timeseries.py:160-214 *)

(** ALLOWED_GRANULARITIES, timeseries.py:160 *)
Definition allowed_granularities : list Z := [10; 60; 3600; 86400]%Z.
(** i < g for an int i and any g *)
Definition int_lt (i : Z) (g : obj) : result bool :=
  match num_of g with
  | Some (inl z) => Ok (i <? z)%Z
  | Some (inr FNan) => Ok false
  | Some (inr (FInf neg)) => Ok (negb neg)
  | Some (inr (FFin n m e)) =>
      match flt_of_Z i with
      | FFin n' m' e' => Ok (match fin_cmp n' m' e' n m e with Lt => true | _ => false end)
      | _ => Ok false
      end
  | None => Raise TypeError
  end.

(** Rollup(interval, totals, orderby, granularity), timeseries.py:181-214, checks in order *)
Definition mk_rollup (interval totals orderby granularity : obj) : result rollup :=
  (if truthy granularity
      && negb (existsb (fun z => py_eq granularity (OInt z)) allowed_granularities)
   then Raise InvalidExpressionError else Ok tt) ;!
  let! i := match interval with
            | ONone => Ok None
            | _ => match as_int interval with
                   | None => Raise InvalidExpressionError
                   | Some i =>
                       validate_int_literal (pyint_Z i) (Some 10%Z) None ;!
                       (if is_none granularity then Ok tt
                        else let! b := int_lt (pyint_Z i) granularity in
                             if b then Raise InvalidExpressionError else Ok tt) ;!
                       Ok (Some i)
                   end
            end in
  let! t := match totals with
            | ONone => Ok None
            | OBool b => Ok (Some b)
            | _ => Raise InvalidExpressionError
            end in
  (match i, t with None, None => Raise InvalidExpressionError | _, _ => Ok tt end) ;!
  let! d := match orderby with
            | ONone => Ok None
            | ODir d => Ok (Some d)
            | _ => Raise InvalidExpressionError
            end in
  (match i, d with Some _, Some _ => Raise InvalidExpressionError | _, _ => Ok tt end) ;!
  Ok (mkRollup i t d granularity).
Definition rollup_validate (r : rollup) : result unit :=
  mk_rollup (obj_of_opt obj_of_pyint (ro_interval r)) (obj_of_opt OBool (ro_totals r))
            (obj_of_opt ODir (ro_orderby r)) (ro_granularity r) ;! Ok tt.

(** * MetricsScope, timeseries.py:233-249 *)

Fixpoint all_ints (l : list obj) : option (list pyint) :=
  match l with
  | [] => Some []
  | o :: l' => match as_int o, all_ints l' with
               | Some i, Some r => Some (i :: r)
               | _, _ => None
               end
  end.
Definition as_ints (o : obj) : result (list pyint) :=
  match o with
  | OList l => match all_ints l with Some r => Ok r | None => Raise InvalidExpressionError end
  | _ => Raise InvalidExpressionError
  end.
Definition mk_scope (orgs projects use_case : obj) : result mscope :=
  let! os := as_ints orgs in
  let! ps := as_ints projects in
  let! u := as_opt_str use_case InvalidExpressionError in
  Ok (mkScope os ps u).
Definition ints_obj (l : list pyint) : obj := OList (map obj_of_pyint l).
Definition scope_validate (s : mscope) : result unit :=
  mk_scope (ints_obj (ms_orgs s)) (ints_obj (ms_projects s))
           (obj_of_opt OStr (ms_usecase s)) ;! Ok tt.
(** set_use_case_id, timeseries.py:246-249 *)
Definition set_use_case_id (s : mscope) (v : obj) : result mscope :=
  match v with
  | OStr _ => mk_scope (ints_obj (ms_orgs s)) (ints_obj (ms_projects s)) v
  | _ => Raise InvalidExpressionError
  end.

(** * Formula, formula.py:39-123 *)

(** hash(o) succeeds. Frozen dataclasses hash their fields, except the data_model of an
    Entity or Storage (entity.py:20, storage.py:19: hash=False); a DataModel holds a set,
    which is unhashable. *)
Fixpoint hashable (o : obj) : bool :=
  let all := fix all (l : list obj) : bool :=
    match l with [] => true | x :: l' => hashable x && all l' end in
  match o with
  | OList _ | ODict _ _ | ODataModel _ => false
  | OTuple l => all l
  | OFunc _ _ ik il pk pl _ =>
      negb (seqk_eqb ik KList) && negb (seqk_eqb pk KList) && all il && all pl
  | OLambda k _ b => negb (seqk_eqb k KList) && hashable b
  | OCond l _ r => hashable l && hashable r
  | OBoolC _ _ k l => negb (seqk_eqb k KList) && all l
  | OOrderBy e _ => hashable e
  | OLimitBy k _ _ => negb (seqk_eqb k KList)
  | OJoin k _ => negb (seqk_eqb k KList)
  | _ => true
  end.

(** tuple(groupby) put into a set, formula.py:60-61, 67-68 *)
Definition groupby_key (g : obj) : result (list (list obj)) :=
  match g with
  | ONone => Ok []
  | _ => let! l := iter g in
         if forallb hashable l then Ok [l] else Raise TypeError
  end.
(** one item of the explicit stack walk, formula.py:57-68: the group-bys met in the tree
    below [v] and whether a Timeseries was met. The walk visits the same nodes in another
    order; every exception it can raise is a TypeError. *)
Fixpoint walk (v : mval) : result (list (list obj) * bool) :=
  let all := fix all (l : list mval) : result (list (list obj) * bool) :=
    match l with
    | [] => Ok ([], false)
    | x :: l' => let! a := walk x in let! b := all l' in
                 Ok (fst a ++ fst b, snd a || snd b)
    end in
  match v with
  | VFormula _ pk ps _ _ g =>
      let! k := groupby_key g in
      match pk with
      | None => Raise TypeError
      | Some _ => let! r := all ps in Ok (k ++ fst r, snd r)
      end
  | VTS t => let! k := groupby_key (obj_of_opt OList (ts_groupby t)) in Ok (k, true)
  | _ => Ok ([], false)
  end.
(** the aliases of the functions in an object, from left to right. The generated __hash__ of
    CurriedFunction and Function (function.py:31, 111) covers the alias, which
    CurriedFunction.__eq__ ignores. A dictionary has no hash; what it holds is left out. *)
Fixpoint fn_aliases (o : obj) : list (option str) :=
  let all := fix all (l : list obj) : list (option str) :=
    match l with [] => [] | x :: l' => fn_aliases x ++ all l' end in
  match o with
  | OList l | OTuple l => all l
  | OFunc _ _ _ il _ pl a => a :: all il ++ all pl
  | OLambda _ _ b => fn_aliases b
  | OCond l _ r => fn_aliases l ++ fn_aliases r
  | OBoolC _ _ _ l => all l
  | OOrderBy e _ => fn_aliases e
  | _ => []
  end.
(** two tuples are one element of a set: they are equal and have the same hash. Simplified:
    the hashes of equal objects with different aliases are taken to be different. *)
Definition same_element (h g : list obj) : bool :=
  py_eq (OTuple h) (OTuple g)
  && list_eqb (option_eqb str_eqb) (fn_aliases (OTuple h)) (fn_aliases (OTuple g)).
(** len(set(groupbys)) <= 1, formula.py:75 *)
Definition one_groupby (l : list (list obj)) : bool :=
  match l with
  | [] => true
  | g :: l' => forallb (fun h => same_element h g) l'
  end.
(** isinstance(param, (Formula, Timeseries, float, int)), formula.py:123 *)
Definition is_formula_param (v : mval) : bool :=
  match v with
  | VFormula _ _ _ _ _ _ | VTS _ | VObj (OInt _) | VObj (OBool _) | VObj (OFloat _) => true
  | _ => false
  end.

(** Formula.validate, formula.py:80-95, with __validate_consistency, formula.py:47-78 *)
Definition formula_validate (name : obj) (pk : option seqk) (ps : list mval) (g : obj)
  : result unit :=
  match name with
  | OStr _ =>
      match pk with
      | None | Some KNone => Raise InvalidFormulaError
      | Some _ =>
          assert_ (forallb is_formula_param ps) InvalidFormulaError ;!
          let! r := walk (VFormula name pk ps ONone ONone g) in
          assert_ (snd r) InvalidFormulaError ;!
          assert_ (one_groupby (fst r)) InvalidFormulaError
      end
  | _ => Raise InvalidFormulaError
  end.
Definition mval_validate (v : mval) : result unit :=
  match v with
  | VFormula n pk ps _ _ g => formula_validate n pk ps g
  | VTS t => ts_validate t
  | _ => Raise AttributeError
  end.

(** set_parameters, set_filters, set_groupby, formula.py:101-120, on a Formula value. The
    parameters argument is given as kind and items. *)
Definition formula_set_parameters (v : mval) (pk : option seqk) (ps : list mval) : result mval :=
  match v with
  | VFormula n _ _ a f g =>
      match pk with
      | Some KNone => Ok (VFormula n (Some KNone) [] a f g)
      | Some KList =>
          if forallb is_formula_param ps then Ok (VFormula n pk ps a f g)
          else Raise InvalidFormulaError
      | _ => Raise InvalidFormulaError
      end
  | _ => Raise AttributeError
  end.
Definition formula_set_filters (v : mval) (x : obj) : result mval :=
  match v with
  | VFormula n pk ps a _ g =>
      if is_none x || list_type x is_condition_obj then Ok (VFormula n pk ps a x g)
      else Raise InvalidFormulaError
  | _ => Raise AttributeError
  end.
Definition formula_set_groupby (v : mval) (x : obj) : result mval :=
  match v with
  | VFormula n pk ps a f _ =>
      if is_none x || list_type x is_groupable then Ok (VFormula n pk ps a f x)
      else Raise InvalidFormulaError
  | _ => Raise AttributeError
  end.

(** * MQL printers, metrics_visitors.py *)

Section Printers.
Context {ST : PyStr}.

(** str(v) *)
Definition py_str (v : mval) : str :=
  match v with
  | VObj (OStr s) => s
  | VObj (OInt z) => dec_of_Z z
  | VObj (OBool b) => py_bool_str b
  | VObj (OFloat f) => float_repr f
  | VObj ONone => $"None"
  | _ => str_other v
  end.

(** _visit_mql_filters, metrics_visitors.py:76-88 *)
Definition print_filters (filters : obj) : result str :=
  match filters with
  | ONone => Ok []
  | _ => let! l := iter filters in
         let! cs := mapM (visit_filter_mql true false) l in
         Ok ($"{" ++ join ($" AND ") (List.concat cs) ++ $"}")
  end.
(** _visit_mql_groupby, metrics_visitors.py:91-96 *)
Definition print_groupby (groupby : obj) : result str :=
  match groupby with
  | ONone => Ok []
  | _ => let! l := iter groupby in
         let! cs := mapM (visit true false) l in
         Ok ($" by (" ++ join ($", ") cs ++ $")")
  end.

(** MetricMQLPrinter.visit, metrics_visitors.py:205-215 *)
Definition print_metric (m : metric) : result str :=
  match m_mri m, m_public m with
  | Some s, _ => Ok s
  | None, Some s => Ok s
  | None, None => Raise InvalidExpressionError
  end.

(** TimeseriesMQLPrinter, metrics_visitors.py:99-144 *)
Definition print_ts (t : timeseries) : result str :=
  let! m := print_metric (ts_metric t) in
  let! a := match ts_params t with
            | Some (p :: ps) =>
                let! l := mapM (visit true false) (p :: ps) in
                Ok (ts_agg t ++ $"(" ++ join ($", ") l ++ $")")
            | _ => Ok (ts_agg t)
            end in
  let! f := print_filters (obj_of_opt OList (ts_filters t)) in
  let! g := print_groupby (obj_of_opt OList (ts_groupby t)) in
  Ok ((if nonempty a then a ++ $"(" ++ m ++ $")" else m) ++ f ++ g).

(** PREFIX_TO_INFIX, formula.py:29-34 *)
Definition infix_of (name : str) : option str :=
  if str_eqb name ($"plus") then Some ($"+")
  else if str_eqb name ($"minus") then Some ($"-")
  else if str_eqb name ($"multiply") then Some ($"*")
  else if str_eqb name ($"divide") then Some ($"/")
  else None.
(** PREFIX_ALIASES, formula.py:36 *)
Definition prefix_of (name : str) : str :=
  if str_eqb name ($"negate") then $"-" else name.

(** _visit_aggregate_params, metrics_visitors.py:160-163 *)
Definition print_aggp (aggp : obj) : result str :=
  if truthy aggp
  then let! l := iter aggp in
       Ok ($"(" ++ join ($", ") (map (fun p => py_str (VObj p)) l) ++ $")")
  else Ok [].

(** FormulaMQLPrinter, metrics_visitors.py:147-196 *)
Fixpoint print_mval (v : mval) : result str :=
  let all := fix all (l : list mval) : result (list str) :=
    match l with
    | [] => Ok []
    | x :: l' => let! s := print_mval x in let! r := all l' in Ok (s :: r)
    end in
  match v with
  | VTS t => print_ts t
  | VFormula n pk ps a f g =>
      match pk with
      | Some KNone => Raise AssertionError
      | None => Raise TypeError
      | Some _ =>
          let! l := all ps in
          let! head :=
            match n with
            | OStr name =>
                match infix_of name with
                | Some o => Ok ($"(" ++ join ($" " ++ o ++ $" ") l ++ $")")
                | None => let! ap := print_aggp a in
                          Ok (prefix_of name ++ ap ++ $"(" ++ join ($", ") l ++ $")")
                end
            | _ => if hashable n
                   then let! ap := print_aggp a in
                        Ok (py_str (VObj n) ++ ap ++ $"(" ++ join ($", ") l ++ $")")
                   else Raise TypeError
            end in
          let! fs := print_filters f in
          let! gs := print_groupby g in
          Ok (head ++ fs ++ gs)
      end
  | _ => Ok (py_str v)
  end.

End Printers.
End Metrics.
