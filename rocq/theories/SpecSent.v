(** Specification vocabulary for C65: parsed MQL queries that MQL text can express again.
    Written without the grammar and the printers; the text of each part is as in SpecMql. *)
From Verif Require Import PyBase Objects SpecExpr Metrics SpecMetrics SpecMql.

Section Spec.
Context {RT : PyRT}.

(** strings on the right of a filter: no backslash, no newline *)
Inductive clear_filter : obj -> Prop :=
| cf_string k o s : mql_string s -> clear_filter (OCond k o (OStr s))
| cf_strings k o l : Forall mql_string l -> clear_filter (OCond k o (OList (map OStr l)))
| cf_all b o k l : Forall clear_filter l -> clear_filter (OBoolC b o k l).
(** an MRI without brackets, commas and double quotes, and without white space in front *)
Definition clear_metric (m : metric) : Prop := forall s, m_mri m = Some s ->
  Forall (fun c => ~ In c ($"(){}[],") /\ c <> 34%N) s
  /\ exists x t, s = x :: t /\ ~ (9 <= x <= 13 \/ x = 32)%N
       /\ ~ ((28 <= x <= 31 \/ 128 <= x)%N /\ uni_space x = true).
Definition in_list (P : obj -> Prop) (o : obj) : Prop := o = ONone \/ exists l, o = OList l /\ Forall P l.
Definition in_option (P : obj -> Prop) (o : option (list obj)) : Prop := forall l, o = Some l -> Forall P l.

Inductive clear_query : mval -> Prop :=
(** a number with a plain decimal text that float() reads back *)
| cq_number n t : mql_number n t \/ mql_neg_number n t -> clear_query (VObj n)
(** the aggregate is not the parser's placeholder; aggregate parameters are missing or at
    least one *)
| cq_ts t : clear_metric (ts_metric t) -> ts_agg t <> placeholder_name ->
    ts_params t <> Some [] -> in_option mql_param (ts_params t) -> in_option clear_filter (ts_filters t) ->
    clear_query (VTS t)
(** plus, minus, multiply, divide of two operands *)
| cq_infix name v w f g : infix_name name -> clear_query v -> clear_query w -> in_list clear_filter f ->
    clear_query (VFormula (OStr name) (Some KList) [v; w] ONone f g)
(** negation of a query, without filters and group-by of its own *)
| cq_negate v : clear_query v -> mql_query v ->
    clear_query (VFormula (OStr ($"negate")) (Some KList) [v] ONone ONone ONone)
(** other functions: no strings among the operands (they have no case above; validation
    refuses them anyway), and parameters that are numbers or words *)
| cq_function name ps a f g : ~ infix_name name -> name <> $"negate" -> Forall clear_query ps ->
    opt_nonempty_obj mql_fparam a -> in_list clear_filter f ->
    clear_query (VFormula (OStr name) (Some KList) ps a f g).
End Spec.
