(** Specification for C18-C24: what the text of a query is made of, and what setters do.
    Uses only the printing of single expressions outside of joins ([visit false false]). *)
From Verif Require Import PyBase Objects Exprs Translate Query SpecExpr.

(** ** Renaming every column and every entity of an object *)
Definition rename_rel (fe : entity -> entity) (r : relationship) : relationship :=
  mkRel (fe (r_lhs r)) (r_name r) (fe (r_rhs r)).
Fixpoint rename (fc : column -> column) (fe : entity -> entity) (o : obj) : obj :=
  match o with
  | OList l => OList (map (rename fc fe) l)
  | OTuple l => OTuple (map (rename fc fe) l)
  | OColumn c => OColumn (fc c)
  | OAliased c a => OAliased (fc c) a
  | OFunc f n ik il pk pl a => OFunc f n ik (map (rename fc fe) il) pk (map (rename fc fe) pl) a
  | OLambda k ids b => OLambda k ids (rename fc fe b)
  | OEntity e => OEntity (fe e)
  | ORel r => ORel (rename_rel fe r)
  | OJoin k rels => OJoin k (map (rename_rel fe) rels)
  | OCond l p r => OCond (rename fc fe l) p (rename fc fe r)
  | OBoolC c p k l => OBoolC c p k (map (rename fc fe) l)
  | OOrderBy e d => OOrderBy (rename fc fe e) d
  | OLimitBy k cols n => OLimitBy k (map fc cols) n
  | _ => o
  end.

(** the column alias.name, the entity alias: name *)
Definition qualified_column (c : column) : column :=
  match c_entity c with
  | Some e => match e_alias e with
              | Some a => mkColumn (a ++ $"." ++ c_name c) None (c_sub c) (c_key c)
              | None => c
              end
  | None => c
  end.
Definition qualified_entity (e : entity) : entity :=
  match e_alias e with
  | Some a => mkEntity (a ++ $": " ++ e_name e) None (e_sample e) (e_dm e)
  | None => e
  end.
Definition qualified : obj -> obj := rename qualified_column qualified_entity.
(** the same without any alias *)
Definition bare_column (c : column) : column := mkColumn (c_name c) None (c_sub c) (c_key c).
Definition bare_entity (e : entity) : entity := mkEntity (e_name e) None (e_sample e) (e_dm e).
Definition bare : obj -> obj := rename bare_column bare_entity.

(** ** The clauses of SnQL, in order, with their keywords *)
Definition snql_order : list clause :=
  [CSelect; CGroupby; CArrayJoin; CWhere; CHaving; COrderby; CLimitby; CLimit; COffset;
   CGranularity; CTotals].
Definition snql_keyword (k : clause) : str :=
  match k with
  | CSelect => $"SELECT" | CGroupby => $"BY" | CArrayJoin => $"ARRAY JOIN" | CWhere => $"WHERE"
  | CHaving => $"HAVING" | COrderby => $"ORDER BY" | CLimitby => $"LIMIT" | CLimit => $"LIMIT"
  | COffset => $"OFFSET" | CGranularity => $"GRANULARITY" | CTotals => $"TOTALS"
  end.
(** clauses holding a sequence, with the text between the items *)
Definition snql_separator (k : clause) : option str :=
  match k with
  | CSelect | CGroupby | CArrayJoin | COrderby => Some ($", ")
  | CWhere | CHaving => Some ($" AND ")
  | _ => None
  end.

(** sequence clauses hold nothing, a list or a tuple *)
Definition seq_typed (c : clauses) : Prop :=
  forall k sep, snql_separator k = Some sep -> get k c = ONone \/ exists l, list_or_tuple (get k c) l.
Fixpoint seq_typed_query (q : query) : Prop :=
  match q with
  | QBase _ c => seq_typed c
  | QSub i c => seq_typed_query i /\ seq_typed c
  end.

Section Spec.
Context {RT : PyRT}.

(** values built with the API everywhere in the query *)
Definition api_clauses (c : clauses) : Prop := forall k, api (get k c).
Fixpoint api_query (q : query) : Prop :=
  match q with
  | QBase b c => api (obj_of_base b) /\ api_clauses c
  | QSub i c => api_query i /\ api_clauses c
  end.

Definition item_text (joined : bool) (o : obj) (s : str) : Prop :=
  visit false false (if joined then qualified o else bare o) = Ok s.

(** the text of one clause: none when it is not set or an empty sequence *)
Inductive clause_text (joined : bool) (k : clause) : obj -> list str -> Prop :=
| ct_unset : clause_text joined k ONone []
| ct_empty o sep : snql_separator k = Some sep -> list_or_tuple o [] -> clause_text joined k o []
| ct_items o sep x l ss : snql_separator k = Some sep -> list_or_tuple o (x :: l) ->
    Forall2 (item_text joined) (x :: l) ss ->
    clause_text joined k o [snql_keyword k ++ $" " ++ join sep ss]
| ct_one o s : snql_separator k = None -> o <> ONone -> item_text joined o s ->
    clause_text joined k o [snql_keyword k ++ $" " ++ s].
Definition clauses_text (joined : bool) (c : clauses) (parts : list str) : Prop :=
  exists ps, Forall2 (fun k p => clause_text joined k (get k c) p) snql_order ps
             /\ parts = List.concat ps.

Definition rel_text (r : relationship) (s : str) : Prop :=
  exists lt rt, item_text true (OEntity (r_lhs r)) lt /\ item_text true (OEntity (r_rhs r)) rt
    /\ s = lt ++ $" -[" ++ r_name r ++ $"]-> " ++ rt.
Inductive base_text : base -> bool -> str -> Prop :=
| bt_entity e s : item_text false (OEntity e) s -> base_text (BEntity e) false s
| bt_storage st s : visit false false (OStorage st) = Ok s -> base_text (BStorage st) false s
| bt_join k rels ss : Forall2 rel_text rels ss -> base_text (BJoin k rels) true (join ($", ") ss).

(** the parts of the whole query: MATCH and the clauses; inner queries are written with a space
    between their parts *)
Inductive query_parts : query -> list str -> Prop :=
| qt_base b c joined m parts : base_text b joined m -> clauses_text joined c parts ->
    query_parts (QBase b c) (($"MATCH " ++ m) :: parts)
| qt_sub i c ps parts : query_parts i ps -> clauses_text false c parts ->
    query_parts (QSub i c) (($"MATCH { " ++ join ($" ") ps ++ $" }") :: parts).

(** ** C21: names printed as they are, without a newline *)
Definition one_line (s : str) : Prop := ~ In 10%N s.
(** every name held by this object itself (not by the objects in it) satisfies P *)
Definition opt_is (P : str -> Prop) (s : option str) : Prop := forall t, s = Some t -> P t.
Definition names_are (P : str -> Prop) (o : obj) : Prop :=
  match o with
  | OColumn c => P (c_name c)
  | OAliased _ a => opt_is P a
  | OFunc _ n _ _ _ _ a => P n /\ opt_is P a
  | OIdent n => P n
  | OLambda _ ids _ => Forall P ids
  | OEntity e => P (e_name e) /\ opt_is P (e_alias e)
  | OStorage s => P (st_name s)
  | ORel r => P (r_name r)
  | _ => True
  end.
(** no name ends in a newline *)
Definition no_final_newline (s : str) : Prop := forall s', s <> s' ++ [10%N].
End Spec.

(** ** the parts of a query: what it matches and its clauses, also of inner queries *)
Inductive part_of : obj -> query -> Prop :=
| po_base b c : part_of (obj_of_base b) (QBase b c)
| po_clause b c k : part_of (get k c) (QBase b c)
| po_sub_clause i c k : part_of (get k c) (QSub i c)
| po_inner o i c : part_of o i -> part_of o (QSub i c).
