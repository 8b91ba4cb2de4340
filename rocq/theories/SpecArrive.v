(** Specification vocabulary for C71: which metrics query a reader of the serialized MQL
    text gets, for values outside the fragment of SpecMql as well. Written without the
    printers, the grammar and the parser. *)
From Verif Require Import PyBase Utf8 Objects SpecExpr SpecText Metrics SpecMetrics SpecMql.

Section Spec.
Context {RT : PyRT}.

(** ** Values on the right of a filter *)
(** a string read back from its literal: backslashes doubled, a newline as a backslash and
    an n *)
Definition mql_seen (s : str) : str :=
  flat_map (fun c => if N.eqb c 92 then [92; 92]%N else if N.eqb c 10 then [92; 110]%N else [c]) s.
(** strings, and bytes in UTF-8, are written in quotes *)
Inductive text_of : obj -> str -> Prop :=
| tx_str s : text_of (OStr s) (mql_seen s)
| tx_bytes s : forallb scalar_value s = true -> text_of (OBytes (utf8_encode s)) (mql_seen s).
(** numbers, booleans and None are written without quotes *)
Inductive word_of : obj -> str -> Prop :=
| wd_int z : word_of (OInt z) (dec_of_Z z)
| wd_float f : word (float_repr f) -> word_of (OFloat f) (float_repr f)
| wd_bool b : word_of (OBool b) (if b then $"TRUE" else $"FALSE")
| wd_none : word_of ONone ($"NULL").
Definition listed (r : obj) (l : list obj) : Prop := r = OList l \/ r = OTuple l.
(** the operator and the value that arrive: only strings and lists of strings, and only
    (not) equal, (not) like and (not) in, chosen by the value *)
Inductive comparand (negated : bool) : obj -> op -> obj -> Prop :=
| cd_text r s : text_of r s -> ~ wildcard s -> comparand negated r (if negated then NEQ else EQ) (OStr s)
| cd_pattern r s : text_of r s -> wildcard s ->
    comparand negated r (if negated then NOT_LIKE else LIKE) (OStr s)
| cd_word r s : word_of r s -> comparand negated r (if negated then NEQ else EQ) (OStr s)
| cd_column k : mql_key k -> comparand negated (tag k) (if negated then NEQ else EQ) (OStr k)
| cd_list r l ss : listed r l -> l <> [] -> Forall2 (fun x s => text_of x s \/ word_of x s) l ss ->
    comparand negated r (if negated then NOT_IN else IN) (OList (map OStr ss)).

(** ** Filters *)
Definition denies (o : op) (negated : bool) : Prop :=
  if negated then In o [NEQ; NOT_IN; NOT_LIKE] else In o [EQ; GT; LT; GTE; LTE; IN; LIKE; NOT].
Inductive arrives : obj -> obj -> Prop :=
| ar_test k o negated r o' r' : mql_key k -> denies o negated -> comparand negated r o' r' ->
    arrives (OCond (tag k) o r) (OCond (tag k) o' r')
| ar_and cls kind l l' : 2 <= List.length l -> Forall2 arrives l l' ->
    arrives (OBoolC cls AND kind l) (OBoolC BAnd AND KList l')
| ar_or cls kind l l' : 2 <= List.length l -> Forall2 arrives l l' ->
    arrives (OBoolC cls OR kind l) (OBoolC BOr OR KList l').

(** ** Timeseries; an empty list of filters or parameters arrives as None *)
(** parameters of an aggregate: numbers that are not negative stay numbers, everything else
    arrives as a string *)
Inductive param_arrives : obj -> obj -> Prop :=
| pa_number n t : mql_number n t -> param_arrives n n
| pa_text r s : text_of r s -> param_arrives r (OStr s)
| pa_word r c s : word_of r (c :: s) -> ~ ascii_digit c -> param_arrives r (OStr (c :: s)).
Definition lists_arrive {A} (R : A -> A -> Prop) (x x' : option (list A)) : Prop :=
  (x = None \/ x = Some []) /\ x' = None
  \/ exists l l', x = Some l /\ x' = Some l' /\ l <> [] /\ Forall2 R l l'.
(** the mri of a metric is sent, or its public name if it has no mri *)
Inductive metric_arrives : metric -> metric -> Prop :=
| mt_mri name s id : mri_text s -> metric_arrives (mkMetric name (Some s) id) (mkMetric None (Some s) None)
| mt_public s id : public_name s -> metric_arrives (mkMetric (Some s) None id) (mkMetric (Some s) None None).
Definition ts_arrives (t t' : timeseries) : Prop :=
  mql_name (ts_agg t) /\ ts_agg t <> placeholder_name
  /\ opt_nonempty plain_tag (ts_groupby t)
  /\ exists m p f, t' = mkTS m (ts_agg t) p f (ts_groupby t) /\ metric_arrives (ts_metric t) m
  /\ lists_arrive param_arrives (ts_params t) p /\ lists_arrive arrives (ts_filters t) f.

(** ** Formulas *)
Definition filters_arrive (f f' : obj) : Prop :=
  (f = ONone \/ listed f []) /\ f' = ONone
  \/ exists l l', listed f l /\ f' = OList l' /\ l <> [] /\ Forall2 arrives l l'.
Definition group_arrives (g g' : obj) : Prop :=
  g = ONone /\ g' = ONone \/ exists l, listed g l /\ g' = OList l /\ l <> [] /\ Forall plain_tag l.
(** aggregate parameters of a Formula are written without quotes *)
Inductive bare_text : obj -> str -> Prop :=
| bt_str s : bare_text (OStr s) s
| bt_int z : bare_text (OInt z) (dec_of_Z z)
| bt_float f : bare_text (OFloat f) (float_repr f)
| bt_bool b : bare_text (OBool b) (if b then $"True" else $"False")
| bt_none : bare_text ONone ($"None").
Inductive fparam_arrives : obj -> obj -> Prop :=
| fa_number n t : mql_number n t -> fparam_arrives n n
| fa_word p c s : bare_text p (c :: s) -> word (c :: s) -> ~ ascii_digit c -> fparam_arrives p (OStr (c :: s)).
Definition fparams_arrive (a a' : obj) : Prop :=
  (a = ONone \/ listed a []) /\ a' = ONone
  \/ exists l l', listed a l /\ a' = OList l' /\ l <> [] /\ Forall2 fparam_arrives l l'.
Definition sequence (k : seqk) : Prop := k = KList \/ k = KTuple.
(** Formula(name, [a, b]) *)
Definition pair (name : str) (a b : mval) : mval :=
  VFormula (OStr name) (Some KList) [a; b] ONone ONone ONone.
(** more than two operands of +, -, * and / arrive as nested Formulas, from the left; the
    last one has the filters and the group-by; aggregate parameters of these operators do
    not arrive *)
Definition chain (name : str) (a : mval) (l : list mval) (b : mval) (f g : obj) : mval :=
  VFormula (OStr name) (Some KList) [fold_left (pair name) l a; b] ONone f g.
Inductive value_arrives : mval -> mval -> Prop :=
| va_ts t t' : ts_arrives t t' -> value_arrives (VTS t) (VTS t')
| va_number n t : mql_number n t -> value_arrives (VObj n) (VObj n)
| va_negative n t : mql_neg_number n t -> value_arrives (VObj n) (VObj n)
| va_infix name k a l b ag f g a' l' b' f' g' : infix_name name -> sequence k ->
    value_arrives a a' -> Forall2 value_arrives l l' -> value_arrives b b' ->
    filters_arrive f f' -> group_arrives g g' ->
    value_arrives (VFormula (OStr name) (Some k) (a :: l ++ [b]) ag f g) (chain name a' l' b' f' g')
| va_negate k v v' : sequence k -> value_arrives v v' -> mql_query v ->
    value_arrives (VFormula (OStr ($"negate")) (Some k) [v] ONone ONone ONone)
                  (VFormula (OStr ($"negate")) (Some KList) [v'] ONone ONone ONone)
| va_function name k ps a f g ps' a' f' g' : mql_name name -> ~ infix_name name -> name <> $"negate" ->
    sequence k -> ps <> [] -> Forall2 value_arrives ps ps' -> fparams_arrive a a' ->
    filters_arrive f f' -> group_arrives g g' ->
    value_arrives (VFormula (OStr name) (Some k) ps a f g) (VFormula (OStr name) (Some KList) ps' a' f' g').
End Spec.
