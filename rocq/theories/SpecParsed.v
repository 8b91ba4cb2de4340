(** Specification vocabulary for C64: what a parsed MQL query looks like, written without
    the grammar, the tree visitor and the checking functions. *)
From Verif Require Import PyBase Objects SpecExpr Metrics SpecMetrics SpecMql.

(** a column name that MQL can produce: letters, digits, underscores and dots, starting
    with a letter or an underscore. This is [mql_key] of SpecMql. *)
Section Spec.
Context {RT : PyRT}.

(** comparisons: equality with a string that is no wildcard pattern, pattern tests with a
    wildcard pattern, membership in a non-empty list of strings *)
Inductive parsed_test : op -> obj -> Prop :=
| pt_eq s : ~ wildcard s -> parsed_test EQ (OStr s)
| pt_neq s : ~ wildcard s -> parsed_test NEQ (OStr s)
| pt_like s : wildcard s -> parsed_test LIKE (OStr s)
| pt_not_like s : wildcard s -> parsed_test NOT_LIKE (OStr s)
| pt_in l : l <> [] -> parsed_test IN (OList (map OStr l))
| pt_not_in l : l <> [] -> parsed_test NOT_IN (OList (map OStr l)).
Inductive parsed_filter : obj -> Prop :=
| pf_test k o r : mql_key k -> parsed_test o r -> parsed_filter (OCond (tag k) o r)
| pf_and l : 2 <= List.length l -> Forall parsed_filter l -> parsed_filter (OBoolC BAnd AND KList l)
| pf_or l : 2 <= List.length l -> Forall parsed_filter l -> parsed_filter (OBoolC BOr OR KList l).

(** numbers are read as floats *)
Inductive parsed_literal : obj -> Prop :=
| pl_float t : number_text t -> parsed_literal (OFloat (float_of_text t))
| pl_str s : parsed_literal (OStr s).
(** type:namespace/name@unit, with no backtick; any other character may occur in backticks *)
Definition any_mri (s : str) : Prop := exists a b c d,
  s = a ++ $":" ++ b ++ $"/" ++ c ++ $"@" ++ d
  /\ mri_part ":`" a /\ mri_part "/`" b /\ mri_part "@,`" c /\ mri_part "`" d.
(** a metric named by its MRI or by its public name *)
Inductive parsed_metric : metric -> Prop :=
| pm_mri s : any_mri s -> parsed_metric (mkMetric None (Some s) None)
| pm_public s : public_name s -> parsed_metric (mkMetric (Some s) None None).
Definition opt_listed {A} (P : A -> Prop) (x : option (list A)) : Prop :=
  match x with None => True | Some l => Forall P l end.
Inductive parsed_ts : timeseries -> Prop :=
| pts m a p f g : parsed_metric m -> mql_name a -> opt_listed parsed_literal p ->
    opt_nonempty parsed_filter f -> opt_nonempty plain_tag g -> parsed_ts (mkTS m a p f g).
Inductive parsed_value : mval -> Prop :=
| pv_literal o : parsed_literal o -> parsed_value (VObj o)
| pv_negative t : number_text t -> parsed_value (VObj (OFloat (flt_opp (float_of_text t))))
| pv_ts t : parsed_ts t -> parsed_value (VTS t)
| pv_formula n ps a f g : mql_name n -> ps <> [] -> Forall parsed_value ps ->
    (a = ONone \/ exists l, a = OList l /\ Forall parsed_literal l) ->
    opt_nonempty_obj parsed_filter f -> opt_nonempty_obj plain_tag g ->
    parsed_value (VFormula (OStr n) (Some KList) ps a f g).
(** a Timeseries or a Formula, never a bare number or string *)
Definition parsed_query (v : mval) : Prop := mql_query v /\ parsed_value v.

(** texts in which no number, no string and no column name with a bad first character can
    be written *)
Definition no_literals (s : str) : Prop := Forall (fun c => ~ ascii_digit c /\ c <> 34%N) s.
Definition no_digits_dots (s : str) : Prop := Forall (fun c => ~ ascii_digit c /\ c <> 46%N) s.

End Spec.
