(** Specification for C63, second part: objects that differ only in what SnQL has no words for. *)
From Verif Require Import PyBase DateTime SpecTime Objects SpecExpr SpecText SpecOccurs SpecQuery SpecRefs Query SpecSnql.

Section Alike.
Context {RT : PyRT}.
(** the text a str or a UTF-8 bytes object spells *)
Inductive spells : obj -> str -> Prop :=
| sp_str s : spells (OStr s) s
| sp_bytes s : forallb scalar_value s = true -> spells (OBytes (utf8_encode s)) s.
(** a column, possibly aliased: its (in joins qualified) name and its alias *)
Inductive column_like (al : bool) : obj -> str -> option str -> Prop :=
| cl_column c w : column_word al c w -> column_like al (OColumn c) w None
| cl_aliased c w a : column_word al c w -> column_like al (OAliased c a) w a.
(** [alike al o o']: the same literal, date or instant; the same column with the same alias; a
    call of the same function with alike arguments and the same alias; and so on. Which
    sequence type holds the arguments and whether Function or CurriedFunction was used does
    not matter. *)
Inductive alike (al : bool) : obj -> obj -> Prop :=
| ak_none : alike al ONone ONone
| ak_bool b : alike al (OBool b) (OBool b)
| ak_int z : alike al (OInt z) (OInt z)
| ak_float f f' : float_repr f = float_repr f' -> alike al (OFloat f) (OFloat f')
| ak_text o o' s : spells o s -> spells o' s -> alike al o o'
| ak_date d : alike al (ODate d) (ODate d)
| ak_datetime t t' i : instant t i -> instant t' i -> alike al (ODateTime t) (ODateTime t')
| ak_list l l' : Forall2 (alike al) l l' -> alike al (OList l) (OList l')
| ak_tuple l l' : Forall2 (alike al) l l' -> alike al (OTuple l) (OTuple l')
| ak_column o o' w a : column_like al o w a -> column_like al o' w a -> alike al o o'
| ak_func f f' n ik ik' il il' pk pk' pl pl' a : (ik = KNone <-> ik' = KNone) ->
    Forall2 (alike al) il il' -> Forall2 (alike al) pl pl' ->
    alike al (OFunc f n ik il pk pl a) (OFunc f' n ik' il' pk' pl' a)
| ak_ident n : alike al (OIdent n) (OIdent n)
| ak_lambda k k' ids b b' : alike al b b' -> alike al (OLambda k ids b) (OLambda k' ids b').
Inductive alike_cond (al : bool) : obj -> obj -> Prop :=
| akc_unary l l' o r r' : alike al l l' -> o = IS_NULL \/ o = IS_NOT_NULL ->
    alike_cond al (OCond l o r) (OCond l' o r')
| akc_binary l l' o r r' : alike al l l' -> alike al r r' -> alike_cond al (OCond l o r) (OCond l' o r')
| akc_bool c c' o k k' l l' : Forall2 (alike_cond al) l l' -> alike_cond al (OBoolC c o k l) (OBoolC c' o k' l').
Inductive alike_order (al : bool) : obj -> obj -> Prop :=
| ako_order e e' d : alike al e e' -> alike_order al (OOrderBy e d) (OOrderBy e' d).
(** an unset clause is the same as an empty list or tuple *)
Definition absent (o : obj) : Prop := o = ONone \/ list_or_tuple o [].
Definition int_value (i : pyint) : Z := match i with PInt z => z | PBool b => if b then 1 else 0 end%Z.
Inductive alike_clause (al : bool) : clause -> obj -> obj -> Prop :=
| akl_absent k o o' : absent o -> absent o' -> alike_clause al k o o'
| akl_exprs k o o' l l' : In k [CSelect; CGroupby; CArrayJoin] -> list_or_tuple o l -> list_or_tuple o' l' ->
    Forall2 (alike al) l l' -> alike_clause al k o o'
| akl_conds k o o' l l' : In k [CWhere; CHaving] -> list_or_tuple o l -> list_or_tuple o' l' ->
    Forall2 (alike_cond al) l l' -> alike_clause al k o o'
| akl_orders o o' l l' : list_or_tuple o l -> list_or_tuple o' l' ->
    Forall2 (alike_order al) l l' -> alike_clause al COrderby o o'
| akl_limitby k k' cols cols' n : 
    Forall2 (fun c c' => exists w, column_word al c w /\ column_word al c' w) cols cols' ->
    alike_clause al CLimitby (OLimitBy k cols n) (OLimitBy k' cols' n)
| akl_limit n n' : int_value n = int_value n' -> alike_clause al CLimit (OLimit n) (OLimit n')
| akl_offset n n' : int_value n = int_value n' -> alike_clause al COffset (OOffset n) (OOffset n')
| akl_granularity n n' : int_value n = int_value n' -> alike_clause al CGranularity (OGranularity n) (OGranularity n')
| akl_totals b : alike_clause al CTotals (OTotals b) (OTotals b).
(** sample rates that print alike; entities; relationships; queries *)
Definition alike_sample (s s' : option flt) : Prop := exists t, denotes_sample s t /\ denotes_sample s' t.
Definition alike_entity (e e' : entity) : Prop :=
  e_name e = e_name e' /\ alike_sample (e_sample e) (e_sample e').
Definition alike_rel (r r' : relationship) : Prop :=
  r_name r = r_name r'
  /\ alike_entity (r_lhs r) (r_lhs r') /\ e_alias (r_lhs r) = e_alias (r_lhs r')
  /\ alike_entity (r_rhs r) (r_rhs r') /\ e_alias (r_rhs r) = e_alias (r_rhs r').
Inductive alike_query : query -> query -> Prop :=
| akq_entity e e' c c' : alike_entity e e' -> (forall k, alike_clause false k (get k c) (get k c')) ->
    alike_query (QBase (BEntity e) c) (QBase (BEntity e') c')
| akq_storage s s' c c' : st_name s = st_name s' -> alike_sample (st_sample s) (st_sample s') ->
    (forall k, alike_clause false k (get k c) (get k c')) ->
    alike_query (QBase (BStorage s) c) (QBase (BStorage s') c')
| akq_join k k' l l' c c' : Forall2 alike_rel l l' -> (forall k, alike_clause true k (get k c) (get k c')) ->
    alike_query (QBase (BJoin k l) c) (QBase (BJoin k' l') c')
| akq_sub i i' c c' : alike_query i i' -> (forall k, alike_clause false k (get k c) (get k c')) ->
    alike_query (QSub i c) (QSub i' c').

(** what has to be avoided: columns named like a literal, functions without parameters (these
    print like columns) and functions named like the ones SnQL uses for literals *)
Definition reserved : list str := [$"NULL"; $"TRUE"; $"FALSE"].
Definition clear (al : bool) (o : obj) : Prop :=
  match o with
  | OColumn c => forall w, column_word al c w -> ~ In w reserved /\ (forall z, w <> dec_of_Z z) /\ (forall f, w <> float_repr f)
  | OFloat f => ~ In (float_repr f) reserved /\ forall z, float_repr f <> dec_of_Z z
  | OFunc _ n _ _ pk _ _ => pk <> KNone /\ ~ In n [$"array"; $"tuple"; $"toDateTime"]
  | _ => True
  end.
Definition joins (q : query) : bool := match q with QBase (BJoin _ _) _ => true | _ => false end.
Fixpoint clear_query (q : query) : Prop :=
  (forall k x y, clause_item k (get k (q_clauses q)) x -> occurs y x -> clear (joins q) y)
  /\ match q with QSub i _ => clear_query i | _ => True end.
End Alike.
