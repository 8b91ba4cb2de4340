(** Specification for C23, C25-C31, C33: the columns a query refers to, the rules they must
    satisfy, typed queries, valid queries, top-level conditions. *)
From Verif Require Import PyBase Objects Query SpecExpr SpecQuery SpecSetters.

(** ** References to columns outside arrays and tuples *)
Inductive refers : obj -> column -> Prop :=
| rf_column c : refers (OColumn c) c
| rf_aliased c a : refers (OAliased c a) c
| rf_init f n ik il pk pl a y c : In y il -> refers y c -> refers (OFunc f n ik il pk pl a) c
| rf_param f n ik il pk pl a y c : In y pl -> refers y c -> refers (OFunc f n ik il pk pl a) c
| rf_body k ids b c : refers b c -> refers (OLambda k ids b) c
| rf_lhs l o r c : refers l c -> refers (OCond l o r) c
| rf_rhs l o r c : o <> IS_NULL -> o <> IS_NOT_NULL -> refers r c -> refers (OCond l o r) c
| rf_cond cls o k l y c : In y l -> refers y c -> refers (OBoolC cls o k l) c
| rf_order e d c : refers e c -> refers (OOrderBy e d) c
| rf_limitby k l n c : In c l -> refers (OLimitBy k l n) c.
(** the expressions of a clause *)
Definition clause_item (k : clause) (o x : obj) : Prop :=
  match snql_separator k with
  | Some _ => exists l, list_or_tuple o l /\ In x l
  | None => x = o
  end.
Definition query_refers (q : query) (c : column) : Prop :=
  exists k x, clause_item k (get k (q_clauses q)) x /\ refers x c.
(** the same, but also looking into arrays and tuples *)
Inductive mentions : obj -> column -> Prop :=
| mn_refers o c : refers o c -> mentions o c
| mn_list l y c : In y l -> mentions y c -> mentions (OList l) c
| mn_tuple l y c : In y l -> mentions y c -> mentions (OTuple l) c
| mn_param f n ik il pk pl a y c : In y pl -> mentions y c -> mentions (OFunc f n ik il pk pl a) c
| mn_body k ids b c : mentions b c -> mentions (OLambda k ids b) c
| mn_lhs l o r c : mentions l c -> mentions (OCond l o r) c
| mn_rhs l o r c : o <> IS_NULL -> o <> IS_NOT_NULL -> mentions r c -> mentions (OCond l o r) c
| mn_cond cls o k l y c : In y l -> mentions y c -> mentions (OBoolC cls o k l) c
| mn_order e d c : mentions e c -> mentions (OOrderBy e d) c.
Definition query_mentions (q : query) (c : column) : Prop :=
  exists k x, clause_item k (get k (q_clauses q)) x /\ mentions x c.

(** ** The rules for columns *)
(** some entity of the join has this alias and name *)
Definition joined (rels : list relationship) (alias name : str) : Prop :=
  exists r e, In r rels /\ (e = r_lhs r \/ e = r_rhs r) /\ e_alias e = Some alias /\ e_name e = name.
(** the names a subquery offers: its columns and the aliases of its functions *)
Definition offered (inner : query) (n : str) : Prop :=
  exists l x, list_or_tuple (c_select (q_clauses inner)) l /\ In x l /\
    ((exists c, x = OColumn c /\ c_name c = n)
     \/ exists f m ik il pk pl, x = OFunc f m ik il pk pl (Some n)).
(** the text before the first bracket, or everything *)
Definition base_name (n b : str) : Prop :=
  ~ In 91%N b /\ (n = b \/ exists key, n = b ++ [91%N] ++ key).
Definition has_column (d : data_model) (c : column) : Prop :=
  exists b, base_name (c_name c) b /\ In b (map sc_name (dm_columns d)).
Definition match_rule (q : query) (c : column) : Prop :=
  match q with
  | QSub inner _ => offered inner (c_name c)
  | QBase (BJoin _ rels) _ =>
      exists e a, c_entity c = Some e /\ e_alias e = Some a /\ joined rels a (e_name e)
  | QBase (BStorage s) _ => forall d, st_dm s = Some d -> has_column d c
  | QBase (BEntity e) _ => forall d, e_dm e = Some d -> has_column d c
  end.

(** ** Queries that respect the type annotations of Query *)
Definition item_class (k : clause) (x : obj) : Prop :=
  match k with
  | CSelect | CGroupby => selectable x
  | CArrayJoin => a_column x
  | CWhere | CHaving => a_condition x
  | COrderby => an_orderby x
  | CLimitby => exists sk l n, x = OLimitBy sk l n
  | CLimit => exists n, x = OLimit n
  | COffset => exists n, x = OOffset n
  | CGranularity => exists n, x = OGranularity n
  | CTotals => exists b, x = OTotals b
  end.
Definition class_typed (c : clauses) : Prop :=
  forall k, get k c = ONone \/
    match snql_separator k with
    | Some _ => exists l, list_or_tuple (get k c) l /\ Forall (item_class k) l
    | None => item_class k (get k c)
    end.
Fixpoint class_typed_query (q : query) : Prop :=
  match q with
  | QBase _ c => class_typed c
  | QSub i c => class_typed_query i /\ class_typed c
  end.

(** ** C28: valid queries *)
Definition select_rule (c : clauses) : Prop := exists x l, list_or_tuple (c_select c) (x :: l).
Definition totals_rule (c : clauses) : Prop :=
  c_totals c = OTotals true -> exists x l, list_or_tuple (c_groupby c) (x :: l).
Fixpoint valid_query (q : query) : Prop :=
  match q with QBase _ _ => True | QSub i _ => valid_query i end
  /\ select_rule (q_clauses q) /\ totals_rule (q_clauses q)
  /\ forall c, query_refers q c -> match_rule q c.
(** what validate() demands in addition: a column that is itself an item of select, groupby or
    array_join must have its base in the data model of its own entity *)
Definition own_models (c : clauses) : Prop :=
  forall k x e d, clause_item k (get k c) (OColumn x) -> c_entity x = Some e -> e_dm e = Some d ->
    has_column d x.
Fixpoint own_models_query (q : query) : Prop :=
  match q with QBase _ c => own_models c | QSub i c => own_models_query i /\ own_models c end.

(** ** C31: conditions reachable through And only *)
Inductive top_level : obj -> obj -> Prop :=
| tl_self c : (forall o k l, c <> OBoolC BAnd o k l) -> top_level c c
| tl_and c o k l y : In y l -> top_level c y -> top_level c (OBoolC BAnd o k l).
(** a condition on the column, with one of the operators; the column has no entity, or one with
    the given alias *)
Definition condition_on (ops : list op) (name : str) (alias : option str) (c : obj) : Prop :=
  exists k o r, c = OCond (OColumn k) o r /\ In o ops /\ c_name k = name
    /\ forall e, c_entity k = Some e -> e_alias e = alias.
Definition required_ok (d : data_model) (alias : option str) (where_ : obj) : Prop :=
  exists l, list_or_tuple where_ l /\
    let has ops name := exists x c, In x l /\ top_level c x /\ condition_on ops name alias c in
    (forall r, In r (dm_columns d) -> sc_required r = true -> has [EQ; IN] (sc_name r))
    /\ has [GTE] (sc_name (dm_time d)) /\ has [LT] (sc_name (dm_time d)).
Definition entity_required_ok (e : entity) (where_ : obj) : Prop :=
  forall d, e_dm e = Some d -> required_ok d (e_alias e) where_.
Fixpoint query_required_ok (q : query) : Prop :=
  match q with
  | QSub inner _ => query_required_ok inner
  | QBase (BEntity e) c => entity_required_ok e (c_where c)
  | QBase (BJoin _ rels) c =>
      forall r, In r rels -> entity_required_ok (r_lhs r) (c_where c) /\ entity_required_ok (r_rhs r) (c_where c)
  | QBase (BStorage _) _ => True
  end.
