(** Specification vocabulary for C82: MQL texts built from other MQL texts. *)
From Verif Require Import PyBase Objects Metrics SpecMql Mql.

Section Spec.
Context {RT : PyRT}.

(** no white space at either end (str.strip() leaves the text alone) *)
Definition blank_char (c : N) : Prop := (9 <= c <= 13 \/ 28 <= c <= 32 \/ (128 <= c /\ uni_space c = true))%N.
Definition trimmed (s : str) : Prop :=
  (exists c t, s = c :: t /\ ~ blank_char c) /\ (exists t c, s = t ++ [c] /\ ~ blank_char c).
(** every double quote and every backtick is closed, and between backticks there is no white
    space, comma, bracket, brace, parenthesis, double quote or star *)
Inductive tidy : str -> Prop :=
| tidy_nil : tidy []
| tidy_char c s : c <> 34%N -> c <> 96%N -> tidy s -> tidy (c :: s)
| tidy_quoted q x s : quoted_said q x -> tidy s -> tidy (q ++ s)
| tidy_ticks m s : Forall pattern_char m -> ~ In 96%N m -> tidy s -> tidy ($"`" ++ m ++ $"`" ++ s).
(** a text that parse_mql accepts on its own *)
Definition accepted (s : str) (v : mval) : Prop := parse_mql s = Ok v /\ trimmed s /\ tidy s.
(** not a metric without an aggregate, which can be no function's first argument *)
Definition aggregated (v : mval) : Prop :=
  match v with VTS t => ts_agg t <> placeholder_name | _ => True end.

(** accepted texts in parentheses, put together with calls, minus signs, operators, filters,
    group-bys and the texts of SpecMql *)
Inductive built_call : str -> mval -> Prop :=
| bc_function n a ps : mql_name n -> built_args a ps ->
    built_call (n ++ $"(" ++ a ++ $")") (function n ps ONone)
| bc_function_params n w1 p l w2 a ps : mql_name n ->
    white w1 -> opt_params_text p l -> white w2 -> built_args a ps ->
    built_call (n ++ $"(" ++ w1 ++ p ++ w2 ++ $")" ++ $"(" ++ a ++ $")") (function n ps (OList l))
with built_args : str -> list mval -> Prop :=
| ba_one w1 e w2 v : white w1 -> built e v -> aggregated v -> white w2 -> built_args (w1 ++ e ++ w2) [v]
| ba_more w1 e v r vs : white w1 -> built e v -> aggregated v -> built_more r vs ->
    built_args (w1 ++ e ++ r) (v :: vs)
with built_more : str -> list mval -> Prop :=
| bm_one w1 w2 e v : white w1 -> white w2 -> built e v -> built_more (w1 ++ $"," ++ w2 ++ e) [v]
| bm_more w1 w2 e v r vs : white w1 -> white w2 -> built e v -> built_more r vs ->
    built_more (w1 ++ $"," ++ w2 ++ e ++ r) (v :: vs)
with built_coef : str -> mval -> Prop :=
| bf_text s v : coef_text s v -> built_coef s v
| bf_accepted w1 s v g l : white w1 -> accepted s v -> opt_group_text g l ->
    built_coef ($"(" ++ w1 ++ s ++ $")" ++ g) (with_groupby l v)
| bf_accepted_filter w1 s v b f g l : white w1 -> accepted s v -> braces_text b f -> opt_group_text g l ->
    built_coef ($"(" ++ w1 ++ s ++ $")" ++ b ++ g) (with_groupby l (with_filter f v))
| bf_call s v g l : built_call s v -> opt_group_text g l -> built_coef (s ++ g) (with_groupby l v)
| bf_call_filter s v g1 l1 b f g2 l2 : built_call s v -> opt_group_text g1 l1 -> braces_text b f ->
    opt_group_text g2 l2 ->
    built_coef (s ++ g1 ++ b ++ g2) (with_groupby l2 (with_filter f (with_groupby l1 v)))
| bf_paren w1 e v w2 g l : white w1 -> built e v -> white w2 -> mql_query v -> opt_group_text g l ->
    built_coef ($"(" ++ w1 ++ e ++ w2 ++ $")" ++ g) (with_groupby l v)
| bf_paren_filter w1 e v w2 b f g l : white w1 -> built e v -> white w2 -> mql_query v ->
    braces_text b f -> opt_group_text g l ->
    built_coef ($"(" ++ w1 ++ e ++ w2 ++ $")" ++ b ++ g) (with_groupby l (with_filter f v))
with built_unary : str -> mval -> Prop :=
| bu_coef s v : built_coef s v -> built_unary s v
| bu_minus t : number_text t -> built_unary ($"-" ++ t) (VObj (OFloat (flt_opp (float_of_text t))))
| bu_negate s v : built_coef s v -> mql_query v -> built_unary ($"-" ++ s) (function ($"negate") [v] ONone)
with built_product : str -> mval -> Prop :=
| bp_one s v : built_unary s v -> built_product s v
| bp_op s v w1 o n w2 u x : built_product s v -> white w1 -> In (o, n) [($"*", $"multiply"); ($"/", $"divide")] ->
    white w2 -> built_unary u x -> built_product (s ++ w1 ++ o ++ w2 ++ u) (function n [v; x] ONone)
with built : str -> mval -> Prop :=
| bs_one s v : built_product s v -> built s v
| bs_op s v w1 o n w2 u x : built s v -> white w1 -> In (o, n) [($"+", $"plus"); ($"-", $"minus")] ->
    white w2 -> built_product u x -> built (s ++ w1 ++ o ++ w2 ++ u) (function n [v; x] ONone).
End Spec.
