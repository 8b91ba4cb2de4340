(** Specification vocabulary for legacy queries (C55-C59): datetimes in texts, legacy
    expressions and conditions and what they stand for. Written without the parsers and
    the conversion functions of the model; Column(...), Function(...) and Condition(...)
    of the SDK, the text-to-datetime function (whose behaviour is C58's subject) and the
    truth of conditions (SpecLogic) are used. *)
From Verif Require Import PyBase DateTime SpecTime Objects SpecOps Exprs SpecExpr SpecLogic Query SpecMetricsQuery Strptime.
Local Open Scope Z_scope.

(** ** C58: the texts that C58 promises to read *)

(** what may follow YYYY-MM-DDTHH:MM:SS: nothing; a fraction of one to six digits; or
    +HH:MM, +HHMM, -HH:MM, -HHMM. With microseconds and UTC offset. *)
Inductive stamp_tail : str -> Z -> option Z -> Prop :=
| tail_none : stamp_tail [] 0 None
| tail_fraction k v u : (1 <= k <= 6)%nat -> numeral k v u ->
    stamp_tail ($"." ++ u) (v * 10 ^ Z.of_nat (6 - k)) None
| tail_offset sign (neg : bool) hh mm colon h m :
    sign = (if neg then $"-" else $"+") -> numeral 2 h hh -> numeral 2 m mm ->
    0 <= h < 24 -> 0 <= m < 60 -> colon = [] \/ colon = $":" ->
    stamp_tail (sign ++ hh ++ colon ++ mm) 0
      (Some ((if neg then -1 else 1) * (h * 60 + m) * 60 * 1000000)).
(** a text of that form for a real date and time *)
Definition stamp_text (t : datetime) (s : str) : Prop :=
  real_datetime t /\ exists y mo d h mi se tail,
    s = y ++ $"-" ++ mo ++ $"-" ++ d ++ $"T" ++ h ++ $":" ++ mi ++ $":" ++ se ++ tail
    /\ numeral 4 (d_year (dt_date t)) y /\ numeral 2 (d_month (dt_date t)) mo
    /\ numeral 2 (d_day (dt_date t)) d /\ numeral 2 (dt_hour t) h /\ numeral 2 (dt_min t) mi
    /\ numeral 2 (dt_sec t) se /\ stamp_tail tail (dt_us t) (dt_tz t).

Section Lenient.
Context {RT : PyRT} {CV : PyConv}.

(** ** C58: the texts that are read. Digits may be missing or be non-ASCII digits. *)
Inductive digit_of : N -> Z -> Prop :=
| dg_ascii c : (48 <= c <= 57)%N -> digit_of c (Z.of_N c - 48)
| dg_unicode c : (128 <= c)%N -> uni_digit c = true -> digit_of c (uni_decimal c).
(** a text of digits and its value *)
Definition digits_of (s : str) (v : Z) : Prop :=
  exists ds, Forall2 digit_of s ds /\ v = fold_left (fun a d => 10 * a + d) ds 0.
Definition one_or_two (v : Z) (s : str) : Prop :=
  (List.length s = 1 \/ List.length s = 2)%nat /\ digits_of s v.
Definition exactly (w : nat) (v : Z) (s : str) : Prop := List.length s = w /\ digits_of s v.
(** a day may be written with a space and one digit *)
Definition day_text (v : Z) (s : str) : Prop :=
  one_or_two v s \/ exists c, s = $" " ++ [c] /\ digits_of [c] v.
(** digits after a point, as millionths *)
Definition fraction (v : Z) (s : str) : Prop :=
  (1 <= List.length s <= 6)%nat /\ exists w, digits_of s w /\ v = w * 10 ^ Z.of_nat (6 - List.length s).
Definition opt_colon (s : str) : Prop := s = [] \/ s = $":".
Inductive lenient_tail : str -> Z -> option Z -> Prop :=
| lt_none : lenient_tail [] 0 None
| lt_fraction v u : fraction v u -> lenient_tail ($"." ++ u) v None
| lt_z : lenient_tail ($"Z") 0 (Some 0)
| lt_offset sign (neg : bool) hh mm rest colon h m s us :
    sign = (if neg then $"-" else $"+") -> exactly 2 h hh -> exactly 2 m mm -> opt_colon colon ->
    (rest = [] /\ s = 0 /\ us = 0
     \/ exists ss frac, rest = colon ++ ss ++ frac /\ exactly 2 s ss
          /\ (frac = [] /\ us = 0 \/ exists u, frac = $"." ++ u /\ fraction us u)) ->
    lenient_tail (sign ++ hh ++ colon ++ mm ++ rest) 0
      (Some ((if neg then -1 else 1) * (((h * 60 + m) * 60 + s) * 1000000 + us))).
(** colons after the first plus sign do not count *)
Definition without_offset_colons (s s' : str) : Prop :=
  (~ In 43%N s /\ s' = s)
  \/ exists a b, s = a ++ $"+" ++ b /\ ~ In 43%N a /\ s' = a ++ $"+" ++ filter (fun c => negb (N.eqb c 58)) b.
Definition lenient_text (t : datetime) (s : str) : Prop :=
  exists s', without_offset_colons s s' /\ exists y mo d tt h mi se tail,
    s' = y ++ $"-" ++ mo ++ $"-" ++ d ++ tt ++ h ++ $":" ++ mi ++ $":" ++ se ++ tail
    /\ (tt = $"T" \/ tt = $"t")
    /\ exactly 4 (d_year (dt_date t)) y /\ one_or_two (d_month (dt_date t)) mo
    /\ day_text (d_day (dt_date t)) d /\ one_or_two (dt_hour t) h /\ one_or_two (dt_min t) mi
    /\ one_or_two (dt_sec t) se /\ lenient_tail tail (dt_us t) (dt_tz t).
(** non-ASCII digits are worth 0 to 9 *)
Definition decimal_digits : Prop := forall c, uni_digit c = true -> 0 <= uni_decimal c <= 9.
End Lenient.

(** ** Legacy conditions: [lhs, operator, rhs] *)
Section Conditions.
Context {RT : PyRT} {CV : PyConv}.

(** the i-th item of a sequence *)
Definition item_at (o : obj) (i : nat) (x : obj) : Prop :=
  exists l, sequence o l /\ nth_error l i = Some x.
(** the text s.upper() *)
Definition capitals (s : str) : str :=
  List.concat (map (fun c => if ((97 <=? c) && (c <=? 122))%N then [(c - 32)%N]
                             else if (c <? 128)%N then [c] else uni_upper c) s).
(** a triple with an operator in any case and something on the left that can be read *)
Definition triple (t : obj) : Prop :=
  exists a s c o, sequence t [a; OStr s; c] /\ capitals s = op_text o
    /\ ((exists x, a = OStr x) \/ (exists l, list_or_tuple a l)).
(** the operator, in the second place *)
Definition denotes_op (b : obj) (o : op) : Prop := b = OStr (op_text o) \/ b = OOp o.
(** IS NULL and IS NOT NULL have no right-hand side *)
Definition null_test (b : obj) : Prop := b = OStr ($"IS NULL") \/ b = OStr ($"IS NOT NULL").

(** right-hand sides that are texts whatever they look like: those of tags[...] and
    release, also under ifNull(..., x) *)
Definition text_column (o : obj) : Prop :=
  exists c, o = OColumn c /\ (c_sub c = Some ($"tags") \/ c_name c = $"release").
Definition text_side (lhs : obj) : Prop :=
  text_column lhs
  \/ exists ik il pk p q pl a, lhs = OFunc true ($"ifNull") ik il pk (p :: q :: pl) a /\ text_column p.

(** [legacy_value keep v v']: v' is the value v with datetimes in the place of texts that
    are read as datetimes (unless [keep]), and tuples in the place of lists *)
Inductive legacy_value (keep : Prop) : obj -> obj -> Prop :=
| lv_sequence o l l' : list_or_tuple o l -> Forall2 (legacy_value keep) l l' -> legacy_value keep o (OTuple l')
| lv_date s t : ~ keep -> parse_datetime s = Some t -> legacy_value keep (OStr s) (ODateTime t)
| lv_text s : keep \/ parse_datetime s = None -> legacy_value keep (OStr s) (OStr s)
| lv_other v : (forall s, v <> OStr s) -> (forall l, ~ list_or_tuple v l) -> legacy_value keep v v.

(** the functions that stand for operators inside expressions *)
Inductive op_function_name : op -> str -> Prop :=
| of_gt : op_function_name GT ($"greater")
| of_lt : op_function_name LT ($"less")
| of_gte : op_function_name GTE ($"greaterOrEquals")
| of_lte : op_function_name LTE ($"lessOrEquals")
| of_eq : op_function_name EQ ($"equals")
| of_neq : op_function_name NEQ ($"notEquals")
| of_in : op_function_name IN ($"in")
| of_not_in : op_function_name NOT_IN ($"notIn")
| of_is_null : op_function_name IS_NULL ($"isNull")
| of_is_not_null : op_function_name IS_NOT_NULL ($"isNotNull")
| of_like : op_function_name LIKE ($"like")
| of_not_like : op_function_name NOT_LIKE ($"notLike").

(** quotes around a text; a single quote character counts as quotes around nothing *)
Definition quoted (q : N) (s inner : str) : Prop := s = [q] ++ inner ++ [q] \/ (s = [q] /\ inner = []).
(** the third item of a function: its alias, without back-quotes *)
Inductive legacy_alias_of : list obj -> obj -> Prop :=
| la_none : legacy_alias_of [] ONone
| la_empty a r : truthy a = false -> legacy_alias_of (a :: r) a
| la_quoted s inner r : s <> [] -> quoted 96 s inner -> legacy_alias_of (OStr s :: r) (OStr inner)
| la_plain s r : s <> [] -> (forall inner, ~ quoted 96 s inner) -> legacy_alias_of (OStr s :: r) (OStr s).

(** [without_parens s s']: s' is s without the parentheses at both ends *)
Definition paren (c : N) : Prop := c = 40%N \/ c = 41%N.
Definition without_parens (s s' : str) : Prop :=
  exists a b, s = a ++ s' ++ b /\ Forall paren a /\ Forall paren b
    /\ (forall c r, s' = c :: r -> ~ paren c) /\ (forall c r, s' = r ++ [c] -> ~ paren c).

(** [legacy_exp v e]: the legacy expression v stands for the SDK expression (or value) e *)
Inductive legacy_exp : obj -> obj -> Prop :=
| le_empty : legacy_exp (OStr []) (OStr [])
| le_text s inner : s <> [] -> quoted 39 s inner -> legacy_exp (OStr s) (OStr inner)
| le_column s e : s <> [] -> (forall inner, ~ quoted 39 s inner) ->
    mk_column (OStr s) ONone = Ok e -> legacy_exp (OStr s) e
| le_value v e : (forall s, v <> OStr s) -> (forall l, v <> OList l) ->
    legacy_value False v e -> legacy_exp v e
| le_condition l a b lhs o rhs f e : triple (OList l) -> nth_error l 0 = Some a -> nth_error l 1 = Some b ->
    legacy_exp a lhs -> denotes_op b o -> legacy_rhs lhs (OList l) b rhs -> op_function_name o f ->
    mk_function (OStr f) (OTuple [lhs; rhs]) ONone = Ok e -> legacy_exp (OList l) e
| le_no_args n n' b r alias e : ~ triple (OList (OStr n :: b :: r)) -> truthy b = false ->
    (exists m, n = m ++ $"()") -> without_parens n n' -> legacy_alias_of r alias ->
    mk_function (OStr n') (OList []) alias = Ok e -> legacy_exp (OList (OStr n :: b :: r)) e
| le_no_parens n b r alias e : ~ triple (OList (OStr n :: b :: r)) -> truthy b = false ->
    (forall m, n <> m ++ $")") -> legacy_alias_of r alias ->
    mk_function (OStr n) (OList []) alias = Ok e -> legacy_exp (OList (OStr n :: b :: r)) e
| le_no_params n b r alias e : ~ triple (OList (OStr n :: b :: r)) -> truthy b = false ->
    (forall m, n <> m ++ $"()") -> (exists m, n = m ++ $")") -> legacy_alias_of r alias ->
    mk_function (OStr n) (match b with OList _ => OList [] | _ => ONone end) alias = Ok e ->
    legacy_exp (OList (OStr n :: b :: r)) e
| le_args n args es r alias e : ~ triple (OList (OStr n :: OList args :: r)) -> args <> [] ->
    legacy_exps args es -> legacy_alias_of r alias ->
    mk_function (OStr n) (OList es) alias = Ok e -> legacy_exp (OList (OStr n :: OList args :: r)) e
| le_arg n b x r alias e : ~ triple (OList (OStr n :: b :: r)) -> truthy b = true -> (forall l, b <> OList l) ->
    legacy_exp b x -> legacy_alias_of r alias ->
    mk_function (OStr n) (OList [x]) alias = Ok e -> legacy_exp (OList (OStr n :: b :: r)) e
with legacy_exps : list obj -> list obj -> Prop :=
| les_nil : legacy_exps [] []
| les_cons v e vs es : legacy_exp v e -> legacy_exps vs es -> legacy_exps (v :: vs) (e :: es)
(** the right-hand side of a condition t with left-hand side lhs and operator b *)
with legacy_rhs : obj -> obj -> obj -> obj -> Prop :=
| lr_null lhs t b : null_test b -> legacy_rhs lhs t b ONone
| lr_value lhs t b v v' : ~ null_test b -> item_at t 2 v -> legacy_value (text_side lhs) v v' ->
    legacy_rhs lhs t b v'.

(** [legacy_cond t lhs o rhs]: the legacy condition t says lhs o rhs *)
Inductive legacy_cond (t : obj) : obj -> op -> obj -> Prop :=
| lc a b lhs o rhs : item_at t 0 a -> legacy_exp a lhs -> item_at t 1 b -> denotes_op b o ->
    legacy_rhs lhs t b rhs -> legacy_cond t lhs o rhs.

(** items of what can be iterated *)
Inductive items_of : obj -> list obj -> Prop :=
| io_sequence o l : sequence o l -> items_of o l
| io_dict ks vs : items_of (ODict ks vs) (map OStr ks).

(** ** The meaning of a legacy conditions list, under an interpretation of comparisons *)
Inductive cond_truth (I : interpretation) (t : obj) : tv -> Prop :=
| ct lhs o rhs : legacy_cond t lhs o rhs -> cond_truth I t (I lhs o rhs).
(** one item: a condition, or the OR of a list of conditions *)
Inductive item_truth (I : interpretation) (t : obj) : tv -> Prop :=
| it_cond v : triple t -> cond_truth I t v -> item_truth I t v
| it_or l vs : ~ triple t -> items_of t l -> Forall2 (cond_truth I) l vs -> item_truth I t (any3 vs).
(** the list: the AND of its items *)
Definition conditions_truth (I : interpretation) (items : list obj) (v : tv) : Prop :=
  exists vs, Forall2 (item_truth I) items vs /\ v = all3 vs.
(** an OR of nothing *)
Definition empty_or (t : obj) : Prop := ~ triple t /\ items_of t [].

(** the same as objects: what each item becomes in WHERE / HAVING *)
Definition cond_object (t c : obj) : Prop :=
  exists lhs o rhs, legacy_cond t lhs o rhs /\ condition_ok lhs (OOp o) rhs /\ c = OCond lhs o rhs.
Inductive where_object (t : obj) : list obj -> Prop :=
| wo_cond c : triple t -> cond_object t c -> where_object t [c]
| wo_or l cs : ~ triple t -> items_of t l -> Forall2 cond_object l cs -> (2 <= List.length cs)%nat ->
    where_object t [OBoolC BOr OR KList cs]
| wo_one x c : ~ triple t -> items_of t [x] -> cond_object x c -> where_object t [c]
| wo_none : ~ triple t -> items_of t [] -> where_object t [].
Inductive having_object (t : obj) : obj -> Prop :=
| ho_cond c : triple t -> cond_object t c -> having_object t c
| ho_or l cs : ~ triple t -> items_of t l -> Forall2 cond_object l cs -> (2 <= List.length cs)%nat ->
    having_object t (OBoolC BOr OR KList cs).

(** ** Bodies *)
Definition no_key (d : obj) (k : str) : Prop := forall v, ~ dict_entry d k v.
(** the items listed in a body under a key, none if it is absent *)
Definition listed (body : obj) (k : str) (items : list obj) : Prop :=
  (exists v, dict_entry body k v /\ items_of v items) \/ (no_key body k /\ items = []).
(** the entities with a known time column *)
Inductive time_column : str -> str -> Prop :=
| tc_timestamp e : In e [$"discover"; $"discover_events"; $"errors"; $"events"; $"outcomes"; $"outcomes_raw";
    $"replays"; $"search_issues"] -> time_column e ($"timestamp")
| tc_finish e : In e [$"discover_transactions"; $"spans"; $"transactions"] -> time_column e ($"finish_ts")
| tc_sessions : time_column ($"sessions") ($"started").
Definition plain_column (n : str) : obj := OColumn (mkColumn n None None None).
(** organization, project: an int (or bool), or a list or tuple *)
Inductive id_condition (col : str) (always_in : Prop) : obj -> obj -> Prop :=
| ic_eq v z : int_value v z -> ~ always_in -> id_condition col always_in v (OCond (plain_column col) EQ v)
| ic_in1 v z : int_value v z -> always_in -> id_condition col always_in v (OCond (plain_column col) IN (OTuple [v]))
| ic_in v l l' : list_or_tuple v l -> Forall2 (legacy_value False) l l' -> scalar (OTuple l') ->
    id_condition col always_in v (OCond (plain_column col) IN (OTuple l')).
(** [id_conditions]: none if there is no such value, or it is empty or 0, or it is of
    another type *)
Inductive id_conditions (body : obj) (k col : str) (always_in : Prop) : list obj -> Prop :=
| id_absent : no_key body k -> id_conditions body k col always_in []
| id_false v : dict_entry body k v -> truthy v = false -> id_conditions body k col always_in []
| id_other v : dict_entry body k v -> (forall z, ~ int_value v z) -> (forall l, ~ list_or_tuple v l) ->
    id_conditions body k col always_in []
| id_given v c : dict_entry body k v -> truthy v = true -> id_condition col always_in v c ->
    id_conditions body k col always_in [c].
Inductive time_conditions (body : obj) (k col : str) (o : op) : list obj -> Prop :=
| ti_absent : no_key body k -> time_conditions body k col o []
| ti_false v : dict_entry body k v -> truthy v = false -> time_conditions body k col o []
| ti_given s t : dict_entry body k (OStr s) -> s <> [] -> parse_datetime s = Some t ->
    time_conditions body k col o [OCond (plain_column col) o (ODateTime t)].
(** the conditions that precede those of the list *)
Inductive extension_conditions (body : obj) (entity : str) : list obj -> Prop :=
| ec_time col org fr to proj : time_column entity col ->
    id_conditions body ($"organization") ($"org_id") False org ->
    time_conditions body ($"from_date") col GTE fr -> time_conditions body ($"to_date") col LT to ->
    id_conditions body ($"project") ($"project_id") True proj ->
    extension_conditions body entity (org ++ fr ++ to ++ proj)
| ec_no_time org proj : (forall col, ~ time_column entity col) ->
    id_conditions body ($"organization") ($"org_id") False org ->
    id_conditions body ($"project") ($"project_id") True proj ->
    extension_conditions body entity (org ++ proj).

(** ** C57: items of ORDER BY that are changed in place *)
Definition changed_item (o : obj) : Prop := exists s r, o = OList (OStr ($"-" ++ s) :: r).
Definition orders (body : obj) (l : list obj) : Prop := dict_entry body ($"orderby") (OList l).
End Conditions.
