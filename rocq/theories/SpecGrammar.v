(** Specification vocabulary for C66: which query an MQL text stands for. A grammar of all
    of MQL, written without the parsing rules of the model, the tree visitor and the
    constructors. SpecMql has the sub-grammar that every reader agrees on; here white space
    is any white space, AND may be left out, and so on. *)
From Verif Require Import PyBase Objects SpecExpr Metrics SpecMetrics SpecMql SpecParsed.

Section Spec.
Context {RT : PyRT}.

(** ** White space *)
(** what str.strip() removes *)
Definition strip_char (c : N) : Prop :=
  (9 <= c <= 13 \/ c = 32 \/ 28 <= c <= 31)%N \/ ((128 <= c)%N /\ uni_space c = true).

(** ** Filters: strings and values as in SpecMql *)
(** factors: tests and parenthesised filters; terms: factors joined by AND, and, a comma
    or nothing; filters: terms joined by OR or or *)
Inductive factor_said : str -> obj -> Prop :=
| fs_test (negated : bool) k w1 w2 t o r : mql_key k -> white w1 -> white w2 -> value_said negated t o r ->
    factor_said ((if negated then $"!" else []) ++ k ++ w1 ++ $":" ++ w2 ++ t) (OCond (tag k) o r)
| fs_paren w1 e w2 l : white w1 -> expr_said e l -> white w2 ->
    factor_said ($"(" ++ w1 ++ e ++ w2 ++ $")") (any_of l)
with term_said : str -> list obj -> Prop :=
| ts_one f c : factor_said f c -> term_said f [c]
| ts_and f c w1 j w2 t l : factor_said f c -> white w1 -> In j [[]; $","; $"AND"; $"and"] -> white w2 ->
    term_said t l -> term_said (f ++ w1 ++ j ++ w2 ++ t) (c :: l)
with expr_said : str -> list obj -> Prop :=
| es_one t l : term_said t l -> expr_said t [all_of l]
| es_or t l w1 j w2 e r : term_said t l -> white w1 -> In j [$"OR"; $"or"] -> white w2 ->
    expr_said e r -> expr_said (t ++ w1 ++ j ++ w2 ++ e) (all_of l :: r).
(** nothing, "{}" or "{...}" *)
Inductive braces_said : str -> option obj -> Prop :=
| bs_none : braces_said [] None
| bs_empty : braces_said ($"{}") None
| bs_filter w1 e l w2 : white w1 -> expr_said e l -> white w2 ->
    braces_said ($"{" ++ w1 ++ e ++ w2 ++ $"}") (Some (any_of l)).

(** ** Group-by *)
Inductive keys_said : str -> list obj -> Prop :=
| ks_one k : mql_key k -> keys_said k [tag k]
| ks_more k w1 w2 t l : mql_key k -> white w1 -> white w2 -> keys_said t l ->
    keys_said (k ++ w1 ++ $"," ++ w2 ++ t) (tag k :: l).
(** nothing, "by key" or "by (key, ...)" *)
Inductive group_said : str -> option (list obj) -> Prop :=
| gs_none : group_said [] None
| gs_one w1 w2 k : white w1 -> white w2 -> mql_key k ->
    group_said (w1 ++ $"by" ++ w2 ++ k) (Some [tag k])
| gs_many w1 w2 w3 t l w4 : white w1 -> white w2 -> white w3 -> keys_said t l -> white w4 ->
    group_said (w1 ++ $"by" ++ w2 ++ $"(" ++ w3 ++ t ++ w4 ++ $")") (Some l).

(** ** Metrics *)
(** type:namespace/name@unit without brackets, braces, parentheses, quotes, backticks and
    commas *)
Definition bare_mri (s : str) : Prop := exists a b c d,
  s = a ++ $":" ++ b ++ $"/" ++ c ++ $"@" ++ d
  /\ mri_part ":(){}[]`," a /\ mri_part "/(){}[]`," b /\ mri_part "@(){}[]`," c
  /\ mri_part "(){}[]`," d /\ ~ In 34%N s.
Inductive metric_said : str -> metric -> Prop :=
| me_mri s : bare_mri s -> metric_said s (mkMetric None (Some s) None)
| me_quoted_mri s : any_mri s -> metric_said ($"`" ++ s ++ $"`") (mkMetric None (Some s) None)
| me_public s : public_name s -> metric_said s (mkMetric (Some s) None None)
| me_quoted_public s : public_name s -> metric_said ($"`" ++ s ++ $"`") (mkMetric (Some s) None None).
(** a metric, its filter and its group-by *)
Inductive body_said : str -> metric -> option (list obj) -> option (list obj) -> Prop :=
| bd_body s m b f g l : metric_said s m -> braces_said b f -> group_said g l ->
    body_said (s ++ b ++ g) m (filter_list f) l.

(** ** Parameters *)
Inductive param_said : str -> obj -> Prop :=
| ps_number t : number_text t -> param_said t (OFloat (float_of_text t))
| ps_string t s : quoted_said t s -> param_said t (OStr s)
| ps_word c s : word (c :: s) -> ~ ascii_digit c -> param_said (c :: s) (OStr (c :: s)).
Inductive params_said : str -> list obj -> Prop :=
| pss_one t p : param_said t p -> params_said t [p]
| pss_more t p w1 w2 u l : param_said t p -> white w1 -> white w2 -> params_said u l ->
    params_said (t ++ w1 ++ $"," ++ w2 ++ u) (p :: l).
(** "( ... )", possibly empty *)
Inductive plist_said : str -> list obj -> Prop :=
| pl_empty w : white w -> plist_said ($"(" ++ w ++ $")") []
| pl_params w1 t l w2 : white w1 -> params_said t l -> white w2 ->
    plist_said ($"(" ++ w1 ++ t ++ w2 ++ $")") l.

(** ** Expressions *)
(** a Timeseries that no aggregate has been applied to: its aggregate is the name the
    parser uses for that *)
Definition bare_metric (v : mval) (t : timeseries) : Prop := v = VTS t /\ ts_agg t = placeholder_name.

Section Dropped.
(** [dropped]: whether a curried call whose first argument is a bare metric may lose its
    other arguments *)
Variable dropped : Prop.

Inductive call_said : str -> mval -> Prop :=
| cs_aggregate n w1 b w2 m f g : mql_name n -> white w1 -> body_said b m f g -> white w2 ->
    call_said (n ++ $"(" ++ w1 ++ b ++ w2 ++ $")") (VTS (mkTS m n None f g))
| cs_curried n p l w1 b w2 m f g : mql_name n -> plist_said p l -> white w1 -> body_said b m f g ->
    white w2 -> call_said (n ++ p ++ $"(" ++ w1 ++ b ++ w2 ++ $")") (VTS (mkTS m n (Some l) f g))
| cs_function n a v vs : mql_name n -> args_said a (v :: vs) -> (forall t, ~ bare_metric v t) ->
    call_said (n ++ $"(" ++ a ++ $")") (function n (v :: vs) ONone)
| cs_curried_function n p l a v vs : mql_name n -> plist_said p l -> args_said a (v :: vs) ->
    (forall t, ~ bare_metric v t) ->
    call_said (n ++ p ++ $"(" ++ a ++ $")") (function n (v :: vs) (OList l))
| cs_curried_metric n p l a v vs t : mql_name n -> plist_said p l -> args_said a (v :: vs) ->
    bare_metric v t -> (vs = [] \/ dropped) ->
    call_said (n ++ p ++ $"(" ++ a ++ $")")
              (VTS (mkTS (ts_metric t) n (Some l) (ts_filters t) (ts_groupby t)))
with args_said : str -> list mval -> Prop :=
| as_args w1 e v w2 r vs : white w1 -> sum_said e v -> white w2 -> more_said r vs ->
    args_said (w1 ++ e ++ w2 ++ r) (v :: vs)
with more_said : str -> list mval -> Prop :=
| ms_none : more_said [] []
| ms_more w1 w2 e v r vs : white w1 -> white w2 -> sum_said e v -> more_said r vs ->
    more_said (w1 ++ $"," ++ w2 ++ e ++ r) (v :: vs)
with target_said : str -> mval -> Prop :=
| tg_paren w1 e v w2 : white w1 -> sum_said e v -> white w2 -> mql_query v ->
    target_said ($"(" ++ w1 ++ e ++ w2 ++ $")") v
| tg_call s v g l : call_said s v -> group_said g l -> target_said (s ++ g) (with_groupby l v)
| tg_metric s m : metric_said s m -> target_said s (VTS (mkTS m placeholder_name None None None))
with coef_said : str -> mval -> Prop :=
| co_number t : number_text t -> coef_said t (VObj (OFloat (float_of_text t)))
| co_string t s : quoted_said t s -> coef_said t (VObj (OStr s))
| co_target s v b f g l : target_said s v -> braces_said b f -> group_said g l ->
    coef_said (s ++ b ++ g) (with_groupby l (with_filter f v))
with unary_said : str -> mval -> Prop :=
| un_coef s v : coef_said s v -> unary_said s v
| un_minus t : number_text t -> unary_said ($"-" ++ t) (VObj (OFloat (flt_opp (float_of_text t))))
| un_negate s v : coef_said s v -> mql_query v -> unary_said ($"-" ++ s) (function ($"negate") [v] ONone)
with product_said : str -> mval -> Prop :=
| ps_one s v : unary_said s v -> product_said s v
| ps_op s v w1 o n w2 u x : product_said s v -> white w1 ->
    In (o, n) [($"*", $"multiply"); ($"/", $"divide")] -> white w2 -> unary_said u x ->
    product_said (s ++ w1 ++ o ++ w2 ++ u) (function n [v; x] ONone)
with sum_said : str -> mval -> Prop :=
| sa_one s v : product_said s v -> sum_said s v
| sa_op s v w1 o n w2 u x : sum_said s v -> white w1 ->
    In (o, n) [($"+", $"plus"); ($"-", $"minus")] -> white w2 -> product_said u x ->
    sum_said (s ++ w1 ++ o ++ w2 ++ u) (function n [v; x] ONone).
End Dropped.

(** the text, without white space around it, stands for the query *)
Definition mql_said (dropped : Prop) (s : str) (v : mval) : Prop := exists a t b, s = a ++ t ++ b
  /\ Forall strip_char a /\ Forall strip_char b /\ mql_query v /\ sum_said dropped t v.

(** the aggregate names in a query: of its Timeseries, and the names of its Formulas *)
Inductive names_of : mval -> str -> Prop :=
| nm_ts t : names_of (VTS t) (ts_agg t)
| nm_formula n pk ps a f g : names_of (VFormula (OStr n) pk ps a f g) n
| nm_param n pk ps a f g p x : In p ps -> names_of p x -> names_of (VFormula n pk ps a f g) x.
Definition written_in (x s : str) : Prop := exists a b, s = a ++ x ++ b.
End Spec.
