(** Specification vocabulary for MQL text (C40-C46): which values MQL can express, and
    what reading a text should give. Written without the grammar and the printers. *)
From Verif Require Import PyBase DateTime Objects SpecExpr Metrics SpecMetrics.

(** ** Characters and words *)
Definition name_char (c : N) : Prop := ascii_word c.
Definition key_char (c : N) : Prop := ascii_word c \/ c = 46%N.
Definition word_start (c : N) : Prop := ascii_letter c \/ c = 95%N.
(** an aggregate or function name: letters, digits and underscores, not starting with a
    digit *)
Definition mql_name (s : str) : Prop := exists c t, s = c :: t /\ word_start c /\ Forall name_char t.
(** a tag key or group-by name: also dots *)
Definition mql_key (s : str) : Prop := exists c t, s = c :: t /\ word_start c /\ Forall key_char t.
(** white space: what the regular expression \s matches *)
Definition space_char {RT : PyRT} (c : N) : Prop :=
  (9 <= c <= 13 \/ c = 32)%N \/ ((28 <= c <= 31 \/ 128 <= c)%N /\ uni_space c = true).
Definition white {RT : PyRT} (w : str) : Prop := Forall space_char w.

(** ** Strings: no backslash and no newline *)
Definition mql_string (s : str) : Prop := ~ In 92%N s /\ ~ In 10%N s.
(** a string that MQL reads as a wildcard pattern: non-empty text ending in the only
    star, without comma, brackets, braces, parentheses, double quotes and white space *)
Definition pattern_char {RT : PyRT} (c : N) : Prop :=
  ~ In c ($",[]}{()*") /\ c <> 34%N /\ ~ (9 <= c <= 13 \/ c = 32)%N
  /\ ~ ((28 <= c <= 31 \/ 128 <= c)%N /\ uni_space c = true).
Definition wildcard {RT : PyRT} (s : str) : Prop :=
  exists p, s = p ++ $"*" /\ p <> [] /\ Forall pattern_char p.

Section Spec.
Context {RT : PyRT}.

(** ** Filters *)
Inductive mql_test : op -> obj -> Prop :=
| mt_eq s : mql_string s -> ~ wildcard s -> mql_test EQ (OStr s)
| mt_neq s : mql_string s -> ~ wildcard s -> mql_test NEQ (OStr s)
| mt_like s : mql_string s -> wildcard s -> mql_test LIKE (OStr s)
| mt_not_like s : mql_string s -> wildcard s -> mql_test NOT_LIKE (OStr s)
| mt_in l : l <> [] -> Forall mql_string l -> mql_test IN (OList (map OStr l))
| mt_not_in l : l <> [] -> Forall mql_string l -> mql_test NOT_IN (OList (map OStr l)).
(** Column(key) *)
Definition tag (k : str) : obj := OColumn (mkColumn k None None None).
Inductive mql_filter : obj -> Prop :=
| mf_test k o r : mql_key k -> mql_test o r -> mql_filter (OCond (tag k) o r)
| mf_and l : 2 <= List.length l -> Forall mql_filter l -> mql_filter (OBoolC BAnd AND KList l)
| mf_or l : 2 <= List.length l -> Forall mql_filter l -> mql_filter (OBoolC BOr OR KList l).

(** ** Filter text (C46, C66) *)
(** a string in double quotes: a backslash before a double quote is dropped, every other
    character stands for itself, also a backslash and the character after it *)
Inductive quoted_body : str -> str -> Prop :=
| qb_end : quoted_body [] []
| qb_char c t s : c <> 34%N -> c <> 92%N -> quoted_body t s -> quoted_body (c :: t) (c :: s)
| qb_quote t s : quoted_body t s -> quoted_body (92%N :: 34%N :: t) (34%N :: s)
| qb_escape c t s : c <> 34%N -> c <> 10%N -> quoted_body t s ->
    quoted_body (92%N :: c :: t) (92%N :: c :: s).
Definition quoted_said (t s : str) : Prop := exists b, t = [34%N] ++ b ++ [34%N] /\ quoted_body b s.
(** a bare word *)
Definition word (s : str) : Prop := s <> [] /\ Forall pattern_char s.
Definition string_said (t s : str) : Prop := quoted_said t s \/ (word t /\ s = t).
(** one or more strings separated by commas *)
Inductive strings_said : str -> list str -> Prop :=
| ss_one t s : string_said t s -> strings_said t [s]
| ss_more t s w1 w2 u l : string_said t s -> white w1 -> white w2 -> strings_said u l ->
    strings_said (t ++ w1 ++ $"," ++ w2 ++ u) (s :: l).
(** the operator and the value of a test, negated or not *)
Inductive value_said (negated : bool) : str -> op -> obj -> Prop :=
| vs_quoted_pattern p : word p ->
    value_said negated ([34%N] ++ p ++ $"*" ++ [34%N]) (if negated then NOT_LIKE else LIKE) (OStr (p ++ $"*"))
| vs_pattern p : word p ->
    value_said negated (p ++ $"*") (if negated then NOT_LIKE else LIKE) (OStr (p ++ $"*"))
| vs_quoted t s : quoted_said t s -> ~ wildcard s ->
    value_said negated t (if negated then NEQ else EQ) (OStr s)
| vs_word s : word s -> value_said negated s (if negated then NEQ else EQ) (OStr s)
| vs_list w1 t l w2 : white w1 -> strings_said t l -> white w2 ->
    value_said negated ($"[" ++ w1 ++ t ++ w2 ++ $"]") (if negated then NOT_IN else IN)
      (OList (map OStr l)).
(** a word must be told apart from what follows it: f ends in a double quote, a bracket, a
    parenthesis or a star, or s starts with a character that no word contains (and no star,
    which would make a pattern of the word) *)
Definition closed_text (f : str) : Prop := exists t c, f = t ++ [c] /\ In c ([34; 93; 41; 42]%N).
Definition word_end (s : str) : Prop := exists c t, s = c :: t /\ ~ pattern_char c /\ c <> 42%N.
Definition apart (f s : str) : Prop := closed_text f \/ word_end s.
(** AND, and or a comma *)
Definition and_sep (s : str) : Prop := exists w1 x w2, s = w1 ++ x ++ w2 /\ white w1 /\ white w2
  /\ In x [$"AND"; $"and"; $","].
(** OR or or, then white space *)
Definition or_sep (s : str) : Prop := exists w1 x w2, s = w1 ++ x ++ w2 /\ white w1 /\ white w2
  /\ w2 <> [] /\ In x [$"OR"; $"or"].
(** the conjunction and the disjunction of one or more conditions *)
Definition all_of (l : list obj) : obj := match l with [c] => c | _ => OBoolC BAnd AND KList l end.
Definition any_of (l : list obj) : obj := match l with [c] => c | _ => OBoolC BOr OR KList l end.
(** factors: tests and parenthesised filters; terms: factors joined by AND; filters: terms
    joined by OR *)
Inductive factor_reads : str -> obj -> Prop :=
| fr_test (negated : bool) k o r v w1 w2 : mql_key k -> white w1 -> white w2 -> value_said negated v o r ->
    factor_reads ((if negated then $"!" else []) ++ k ++ w1 ++ $":" ++ w2 ++ v) (OCond (tag k) o r)
| fr_paren e l w1 w2 : expr_reads e l -> white w1 -> white w2 ->
    factor_reads ($"(" ++ w1 ++ e ++ w2 ++ $")") (any_of l)
with term_reads : str -> list obj -> Prop :=
| tr_one f c : factor_reads f c -> term_reads f [c]
| tr_and f c s t l : factor_reads f c -> and_sep s -> apart f s -> term_reads t l ->
    term_reads (f ++ s ++ t) (c :: l)
with expr_reads : str -> list obj -> Prop :=
| er_one t l : term_reads t l -> expr_reads t [all_of l]
| er_or t l s e r : term_reads t l -> or_sep s -> apart t s -> expr_reads e r ->
    expr_reads (t ++ s ++ e) (all_of l :: r).

(** ** Metrics *)
Definition mri_part (stop : string) (s : str) : Prop :=
  s <> [] /\ Forall (fun c => ~ In c (lit stop)) s.
(** type:namespace/name@unit *)
Definition mri_text (s : str) : Prop := exists a b c d,
  s = a ++ $":" ++ b ++ $"/" ++ c ++ $"@" ++ d
  /\ mri_part ":(){}[]`," a /\ mri_part "/(){}[]`," b /\ mri_part "@(){}[]`," c
  /\ mri_part "(){}[]`," d /\ ~ In 34%N s
  /\ (exists x t, a = x :: t /\ ~ (9 <= x <= 13 \/ x = 32)%N
        /\ ~ ((28 <= x <= 31 \/ 128 <= x)%N /\ uni_space x = true)).
(** words of lower-case letters and underscores, separated by dots *)
Definition public_name (s : str) : Prop := exists ws, ws <> [] /\ s = join ($".") ws
  /\ Forall (fun w => w <> [] /\ Forall (fun c => 97 <= c <= 122 \/ c = 95)%N w) ws.
Inductive mql_metric : metric -> Prop :=
| mm_mri s : mri_text s -> mql_metric (mkMetric None (Some s) None)
| mm_public s : public_name s -> mql_metric (mkMetric (Some s) None None).

(** ** Numbers: digits, optionally a point and digits *)
Definition digits (s : str) : Prop := s <> [] /\ Forall ascii_digit s.
Definition number_text (s : str) : Prop :=
  digits s \/ exists a b, s = a ++ $"." ++ b /\ digits a /\ digits b.
(** str(n) *)
Definition number_str (n : obj) (s : str) : Prop :=
  (exists z, n = OInt z /\ s = dec_of_Z z) \/ (exists f, n = OFloat f /\ s = float_repr f).
(** a number n that is written as t, and that float(t) gives back *)
Definition mql_number (n : obj) (t : str) : Prop :=
  number_str n t /\ number_text t /\ py_eq (OFloat (float_of_text t)) n = true.
Definition flt_opp (f : flt) : flt :=
  match f with FNan => FNan | FInf n => FInf (negb n) | FFin n m e => FFin (negb n) m e end.
(** a negative number -n, written as "-" and the text of n *)
Definition mql_neg_number (n : obj) (t : str) : Prop :=
  number_str n ($"-" ++ t) /\ number_text t
  /\ py_eq (OFloat (flt_opp (float_of_text t))) n = true.

(** ** Timeseries *)
(** parameters of an aggregate *)
Inductive mql_param : obj -> Prop :=
| mp_number n t : mql_number n t -> mql_param n
| mp_string s : mql_string s -> mql_param (OStr s).
Definition opt_nonempty {A} (P : A -> Prop) (x : option (list A)) : Prop :=
  x = None \/ exists l, x = Some l /\ l <> [] /\ Forall P l.
Definition plain_tag (o : obj) : Prop := exists k, mql_key k /\ o = tag k.
Definition placeholder_name : str := $"AGGREGATE_PLACEHOLDER".
Definition mql_timeseries (t : timeseries) : Prop :=
  mql_metric (ts_metric t) /\ mql_name (ts_agg t) /\ ts_agg t <> placeholder_name
  /\ opt_nonempty mql_param (ts_params t) /\ opt_nonempty mql_filter (ts_filters t)
  /\ opt_nonempty plain_tag (ts_groupby t).
(** several filters come back as their And *)
Definition conj_filters (l : list obj) : list obj :=
  match l with
  | _ :: _ :: _ => [OBoolC BAnd AND KList l]
  | _ => l
  end.
Definition conj_timeseries (t : timeseries) : timeseries :=
  mkTS (ts_metric t) (ts_agg t) (ts_params t) (option_map conj_filters (ts_filters t))
       (ts_groupby t).

(** ** Formulas *)
Definition infix_name (s : str) : Prop := In s [$"plus"; $"minus"; $"multiply"; $"divide"].
(** the fields of a Formula: filters and group-by are None or non-empty lists *)
Definition opt_nonempty_obj (P : obj -> Prop) (o : obj) : Prop :=
  o = ONone \/ exists l, o = OList l /\ l <> [] /\ Forall P l.
(** aggregate_params of a Formula: numbers, and strings written without quotes *)
Inductive mql_fparam : obj -> Prop :=
| mfp_number n t : mql_number n t -> mql_fparam n
| mfp_string c s : pattern_char c -> ~ ascii_digit c -> Forall pattern_char s ->
    mql_fparam (OStr (c :: s)).
Inductive mql_query : mval -> Prop :=
| mq_ts t : mql_query (VTS t)
| mq_formula n pk ps a f g : mql_query (VFormula n pk ps a f g).
Inductive mql_value : mval -> Prop :=
| mv_ts t : mql_timeseries t -> mql_value (VTS t)
| mv_number n t : mql_number n t -> mql_value (VObj n)
| mv_negative n t : mql_neg_number n t -> mql_value (VObj n)
| mv_infix name a b f g : infix_name name -> mql_value a -> mql_value b ->
    opt_nonempty_obj mql_filter f -> opt_nonempty_obj plain_tag g ->
    mql_value (VFormula (OStr name) (Some KList) [a; b] ONone f g)
| mv_negate v : mql_value v -> mql_query v ->
    mql_value (VFormula (OStr ($"negate")) (Some KList) [v] ONone ONone ONone)
| mv_function name ps a f g : mql_name name -> ~ infix_name name -> name <> $"negate" ->
    ps <> [] -> Forall mql_value ps ->
    opt_nonempty_obj mql_fparam a ->
    opt_nonempty_obj mql_filter f -> opt_nonempty_obj plain_tag g ->
    mql_value (VFormula (OStr name) (Some KList) ps a f g).
Definition conj_obj (f : obj) : obj := match f with OList l => OList (conj_filters l) | _ => f end.
Fixpoint conj_value (v : mval) : mval :=
  match v with
  | VTS t => VTS (conj_timeseries t)
  | VFormula n pk ps a f g => VFormula n pk (map conj_value ps) a (conj_obj f) g
  | _ => v
  end.

(** ** Reading MQL text (C43-C46): which text stands for which value *)
(** "{...}" after a metric, a function or a parenthesised expression; "{}" is no filter *)
Inductive braces_text : str -> option obj -> Prop :=
| bt_empty : braces_text ($"{}") None
| bt_filter w1 e l w2 : white w1 -> expr_reads e l -> white w2 ->
    braces_text ($"{" ++ w1 ++ e ++ w2 ++ $"}") (Some (any_of l)).
Inductive keys_text : str -> list obj -> Prop :=
| kt_one k : mql_key k -> keys_text k [tag k]
| kt_more k w1 w2 t l : mql_key k -> white w1 -> white w2 -> keys_text t l ->
    keys_text (k ++ w1 ++ $"," ++ w2 ++ t) (tag k :: l).
(** " by key" and " by (key, ...)" *)
Inductive group_text : str -> list obj -> Prop :=
| gt_one w1 w2 k : white w1 -> w1 <> [] -> white w2 -> mql_key k ->
    group_text (w1 ++ $"by" ++ w2 ++ k) [tag k]
| gt_many w1 w2 w3 t l w4 : white w1 -> w1 <> [] -> white w2 -> white w3 -> keys_text t l -> white w4 ->
    group_text (w1 ++ $"by" ++ w2 ++ $"(" ++ w3 ++ t ++ w4 ++ $")") l.
Inductive opt_group_text : str -> option (list obj) -> Prop :=
| og_none : opt_group_text [] None
| og_some s l : group_text s l -> opt_group_text s (Some l).
(** a metric between backticks or a public name *)
Inductive closed_metric_text : str -> metric -> Prop :=
| cm_mri s : mri_text s -> closed_metric_text ($"`" ++ s ++ $"`") (mkMetric None (Some s) None)
| cm_quoted s : public_name s -> closed_metric_text ($"`" ++ s ++ $"`") (mkMetric (Some s) None None)
| cm_public s : public_name s -> closed_metric_text s (mkMetric (Some s) None None).
Inductive metric_text : str -> metric -> Prop :=
| mx_closed s m : closed_metric_text s m -> metric_text s m
| mx_mri s : mri_text s -> metric_text s (mkMetric None (Some s) None).
(** a metric with its filter and group-by, and following white space; white space after a
    bare MRI would belong to the MRI *)
Definition filter_list (f : option obj) : option (list obj) := option_map (fun c => [c]) f.
Inductive body_text : str -> metric -> option (list obj) -> option (list obj) -> Prop :=
| bx_mri s : mri_text s -> body_text s (mkMetric None (Some s) None) None None
| bx_metric s m g l w : closed_metric_text s m -> opt_group_text g l -> white w ->
    body_text (s ++ g ++ w) m None l
| bx_filter s m b f g l w : metric_text s m -> braces_text b f -> opt_group_text g l -> white w ->
    body_text (s ++ b ++ g ++ w) m (filter_list f) l.
(** parameters of an aggregate: numbers, quoted strings and bare words *)
Inductive param_text : str -> obj -> Prop :=
| pt_number t : number_text t -> param_text t (OFloat (float_of_text t))
| pt_string t s : quoted_said t s -> param_text t (OStr s)
| pt_word c s : pattern_char c -> ~ ascii_digit c -> Forall pattern_char s ->
    param_text (c :: s) (OStr (c :: s)).
Inductive params_text : str -> list obj -> Prop :=
| pst_one t p : param_text t p -> params_text t [p]
| pst_more t p w1 w2 s l : param_text t p -> white w1 -> white w2 -> params_text s l ->
    params_text (t ++ w1 ++ $"," ++ w2 ++ s) (p :: l).
Definition opt_params_text (s : str) (l : list obj) : Prop := s = [] /\ l = [] \/ params_text s l.

(** adding a filter and group-by columns to a Timeseries or Formula *)
Definition items_of (o : obj) : list obj := match o with OList l => l | _ => [] end.
Definition opt_items (o : option (list obj)) : list obj := match o with Some l => l | None => [] end.
Definition with_filter (f : option obj) (v : mval) : mval :=
  match f, v with
  | Some c, VTS t => VTS (mkTS (ts_metric t) (ts_agg t) (ts_params t)
                               (Some (c :: opt_items (ts_filters t))) (ts_groupby t))
  | Some c, VFormula n pk ps a f0 g => VFormula n pk ps a (OList (c :: items_of f0)) g
  | _, _ => v
  end.
Definition with_groupby (l : option (list obj)) (v : mval) : mval :=
  match l, v with
  | Some l, VTS t => VTS (mkTS (ts_metric t) (ts_agg t) (ts_params t) (ts_filters t)
                               (Some (l ++ opt_items (ts_groupby t))))
  | Some l, VFormula n pk ps a f g => VFormula n pk ps a f (OList (l ++ items_of g))
  | _, _ => v
  end.
Definition function (n : str) (ps : list mval) (a : obj) : mval :=
  VFormula (OStr n) (Some KList) ps a ONone ONone.

(** products bind tighter than sums, both are left-associative, a minus sign belongs to
    the operand after it *)
Inductive call_text : str -> mval -> Prop :=
| ct_aggregate n w b m f g : mql_name n -> n <> placeholder_name -> white w -> body_text b m f g ->
    call_text (n ++ $"(" ++ w ++ b ++ $")") (VTS (mkTS m n None f g))
| ct_aggregate_params n w1 p l w2 w b m f g : mql_name n -> n <> placeholder_name ->
    white w1 -> opt_params_text p l -> white w2 -> white w -> body_text b m f g ->
    call_text (n ++ $"(" ++ w1 ++ p ++ w2 ++ $")" ++ $"(" ++ w ++ b ++ $")")
              (VTS (mkTS m n (Some l) f g))
| ct_function n a ps : mql_name n -> args_text a ps ->
    call_text (n ++ $"(" ++ a ++ $")") (function n ps ONone)
| ct_function_params n w1 p l w2 a ps : mql_name n ->
    white w1 -> opt_params_text p l -> white w2 -> args_text a ps ->
    call_text (n ++ $"(" ++ w1 ++ p ++ w2 ++ $")" ++ $"(" ++ a ++ $")") (function n ps (OList l))
with args_text : str -> list mval -> Prop :=
| at_one w1 e w2 v : white w1 -> sum_text e v -> white w2 -> args_text (w1 ++ e ++ w2) [v]
| at_more w1 e v r vs : white w1 -> sum_text e v -> more_args r vs -> args_text (w1 ++ e ++ r) (v :: vs)
with more_args : str -> list mval -> Prop :=
| ma_one w1 w2 e v : white w1 -> white w2 -> sum_text e v -> more_args (w1 ++ $"," ++ w2 ++ e) [v]
| ma_more w1 w2 e v r vs : white w1 -> white w2 -> sum_text e v -> more_args r vs ->
    more_args (w1 ++ $"," ++ w2 ++ e ++ r) (v :: vs)
with coef_text : str -> mval -> Prop :=
| cf_number t : number_text t -> coef_text t (VObj (OFloat (float_of_text t)))
| cf_call s v g l : call_text s v -> opt_group_text g l -> coef_text (s ++ g) (with_groupby l v)
| cf_call_filter s v g1 l1 b f g2 l2 : call_text s v -> opt_group_text g1 l1 -> braces_text b f ->
    opt_group_text g2 l2 ->
    coef_text (s ++ g1 ++ b ++ g2) (with_groupby l2 (with_filter f (with_groupby l1 v)))
| cf_paren w1 e v w2 g l : white w1 -> sum_text e v -> white w2 -> mql_query v -> opt_group_text g l ->
    coef_text ($"(" ++ w1 ++ e ++ w2 ++ $")" ++ g) (with_groupby l v)
| cf_paren_filter w1 e v w2 b f g l : white w1 -> sum_text e v -> white w2 -> mql_query v ->
    braces_text b f -> opt_group_text g l ->
    coef_text ($"(" ++ w1 ++ e ++ w2 ++ $")" ++ b ++ g) (with_groupby l (with_filter f v))
with unary_text : str -> mval -> Prop :=
| ut_coef s v : coef_text s v -> unary_text s v
| ut_minus t : number_text t -> unary_text ($"-" ++ t) (VObj (OFloat (flt_opp (float_of_text t))))
| ut_negate s v : coef_text s v -> mql_query v -> unary_text ($"-" ++ s) (function ($"negate") [v] ONone)
with product_text : str -> mval -> Prop :=
| pr_one s v : unary_text s v -> product_text s v
| pr_op s v w1 o n w2 u x : product_text s v -> white w1 -> In (o, n) [($"*", $"multiply"); ($"/", $"divide")] ->
    white w2 -> unary_text u x -> product_text (s ++ w1 ++ o ++ w2 ++ u) (function n [v; x] ONone)
with sum_text : str -> mval -> Prop :=
| sm_one s v : product_text s v -> sum_text s v
| sm_op s v w1 o n w2 u x : sum_text s v -> white w1 -> In (o, n) [($"+", $"plus"); ($"-", $"minus")] ->
    white w2 -> product_text u x -> sum_text (s ++ w1 ++ o ++ w2 ++ u) (function n [v; x] ONone).
End Spec.
