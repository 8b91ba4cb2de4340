(** Specification for C63: SnQL as trees. A tree type for expressions, conditions and whole
    queries with their texts (the grammar, written as a linearization), and which tree an
    SDK object stands for. Written without the printer of the model. *)
From Verif Require Import PyBase DateTime SpecTime Objects SpecOps SpecExpr SpecText SpecRefs Query.

(** ** Expressions *)
Inductive expr :=
| EWord (w : str) (groups : list (list expr)) (alias : option str)  (* w(..)(..) AS `alias` *)
| EText (s : str)                                                    (* 's' *)
| EIdent (n : str)                                                   (* `n` *)
| ELambda (ids : list str) (body : expr).                            (* (`x`, `y`) -> body *)

(** quotes, backslashes and newlines in a text are escaped *)
Definition escaped (s : str) : str :=
  List.concat (map (fun c => if (N.eqb c 92 || N.eqb c 39)%bool then [92; c]%N
                             else if N.eqb c 10 then [92; 110]%N else [c]) s).
Definition text_of_string (s : str) : str := $"'" ++ escaped s ++ $"'".
Definition text_of_ident (n : str) : str := $"`" ++ n ++ $"`".
Definition text_of_alias (a : option str) : str :=
  match a with Some s => $" AS " ++ text_of_ident s | None => [] end.
Definition listing (l : list str) : str := $"(" ++ join ($", ") l ++ $")".
Fixpoint text_of (e : expr) : str :=
  match e with
  | EWord w gs a => w ++ List.concat (map (fun g => listing (map text_of g)) gs) ++ text_of_alias a
  | EText s => text_of_string s
  | EIdent n => text_of_ident n
  | ELambda ids b => listing (map text_of_ident ids) ++ $" -> " ++ text_of b
  end.

(** words: no quotes, brackets, parentheses, spaces or commas, except that one pair of square
    brackets may enclose anything but brackets *)
Definition word_text (s : str) : Prop := Forall (fun c => ~ In c ([39; 96; 91; 93; 40; 41; 32; 44]%N)) s.
Definition a_word (w : str) : Prop :=
  (w <> [] /\ word_text w)
  \/ exists a k b, w = a ++ $"[" ++ k ++ $"]" ++ b /\ a <> [] /\ word_text a /\ word_text b /\ no_brackets k.
Definition no_backquote (s : str) : Prop := ~ In 96%N s.
Inductive good_expr : expr -> Prop :=
| ge_word w gs a : a_word w -> Forall (Forall good_expr) gs -> (forall s, a = Some s -> no_backquote s) ->
    good_expr (EWord w gs a)
| ge_text s : good_expr (EText s)
| ge_ident n : no_backquote n -> good_expr (EIdent n)
| ge_lambda ids b : Forall no_backquote ids -> good_expr b -> good_expr (ELambda ids b).

(** ** Conditions *)
Inductive cond :=
| CAtom (l : expr) (o : op) (r : option expr)
| CNode (o : boolop) (cs : list cond).
Fixpoint text_of_cond (c : cond) : str :=
  match c with
  | CAtom l o r => text_of l ++ $" " ++ op_text o ++ match r with Some e => $" " ++ text_of e | None => [] end
  | CNode o cs => $"(" ++ join ($" " ++ boolop_text o ++ $" ") (map text_of_cond cs) ++ $")"
  end.
Inductive good_cond : cond -> Prop :=
| gc_atom w gs a o r : good_expr (EWord w gs a) -> (r = None <-> o = IS_NULL \/ o = IS_NOT_NULL) ->
    (forall e, r = Some e -> good_expr e) -> good_cond (CAtom (EWord w gs a) o r)
| gc_node o cs : (2 <= List.length cs)%nat -> Forall good_cond cs -> good_cond (CNode o cs).

(** ** Clauses *)
Inductive part :=
| PExprs (l : list expr)                    (* SELECT, BY, ARRAY JOIN *)
| PConds (l : list cond)                    (* WHERE, HAVING *)
| POrders (l : list (expr * direction))     (* ORDER BY *)
| PLimitBy (n : str) (cols : list str)      (* LIMIT n BY *)
| PWord (n : str).                          (* LIMIT, OFFSET, GRANULARITY, TOTALS *)
Definition keyword (k : clause) : str :=
  match k with
  | CSelect => $"SELECT" | CGroupby => $"BY" | CArrayJoin => $"ARRAY JOIN" | CWhere => $"WHERE"
  | CHaving => $"HAVING" | COrderby => $"ORDER BY" | CLimitby => $"LIMIT" | CLimit => $"LIMIT"
  | COffset => $"OFFSET" | CGranularity => $"GRANULARITY" | CTotals => $"TOTALS"
  end.
Definition text_of_order (x : expr * direction) : str := text_of (fst x) ++ $" " ++ direction_text (snd x).
Definition text_of_part (p : part) : str :=
  match p with
  | PExprs l => join ($", ") (map text_of l)
  | PConds l => join ($" AND ") (map text_of_cond l)
  | POrders l => join ($", ") (map text_of_order l)
  | PLimitBy n cols => n ++ $" BY " ++ join ($",") cols
  | PWord n => n
  end.
Inductive good_part : clause -> part -> Prop :=
| gp_exprs k l : In k [CSelect; CGroupby; CArrayJoin] -> l <> [] -> Forall good_expr l -> good_part k (PExprs l)
| gp_conds k l : In k [CWhere; CHaving] -> l <> [] -> Forall good_cond l -> good_part k (PConds l)
| gp_orders l : l <> [] -> Forall (fun x => good_expr (fst x)) l -> good_part COrderby (POrders l)
| gp_limitby n cols : a_word n -> cols <> [] -> Forall a_word cols -> good_part CLimitby (PLimitBy n cols)
| gp_word k n : In k [CLimit; COffset; CGranularity; CTotals] -> a_word n -> good_part k (PWord n).

(** ** Queries *)
Inductive ent := Ent (alias : option str) (name : str) (sample : option str).
Inductive qtree :=
| QTree (m : qmatch) (parts : clause -> option part)
with qmatch :=
| MEntity (name : str) (sample : option str)
| MStorage (name : str) (sample : option str)
| MJoin (rels : list (ent * str * ent))
| MSub (q : qtree).
Definition text_of_sample (s : option str) : str := match s with Some t => $" SAMPLE " ++ t | None => [] end.
Definition text_of_ent (e : ent) : str :=
  let 'Ent a n s := e in $"(" ++ match a with Some x => x ++ $": " | None => [] end ++ n ++ text_of_sample s ++ $")".
Definition text_of_rel (r : ent * str * ent) : str :=
  let '(a, n, b) := r in text_of_ent a ++ $" -[" ++ n ++ $"]-> " ++ text_of_ent b.
Definition order : list clause :=
  [CSelect; CGroupby; CArrayJoin; CWhere; CHaving; COrderby; CLimitby; CLimit; COffset; CGranularity; CTotals].
Definition text_of_parts (parts : clause -> option part) (ks : list clause) : str :=
  List.concat (map (fun k => match parts k with Some p => $" " ++ keyword k ++ $" " ++ text_of_part p | None => [] end) ks).
Fixpoint text_of_query (q : qtree) : str :=
  let 'QTree m parts := q in
  $"MATCH " ++
  match m with
  | MEntity n s => text_of_ent (Ent None n s)
  | MStorage n s => $"STORAGE" ++ text_of_ent (Ent None n s)
  | MJoin rels => join ($", ") (map text_of_rel rels)
  | MSub i => $"{ " ++ text_of_query i ++ $" }"
  end ++ text_of_parts parts order.

(** entity aliases, names and samples in matches *)
Definition name_text (s : str) : Prop := Forall (fun c => ~ In c ([32; 40; 41; 58]%N)) s.
Definition good_ent (e : ent) : Prop :=
  let 'Ent a n s := e in (forall x, a = Some x -> name_text x) /\ name_text n /\ (forall x, s = Some x -> name_text x).
Definition good_rel (r : ent * str * ent) : Prop :=
  let '(a, n, b) := r in good_ent a /\ good_ent b /\ ~ In 93%N n.
Definition good_parts (parts : clause -> option part) : Prop := forall k p, parts k = Some p -> good_part k p.
Inductive good_query : qtree -> Prop :=
| gq_entity n s parts : good_ent (Ent None n s) -> good_parts parts -> good_query (QTree (MEntity n s) parts)
| gq_storage n s parts : good_ent (Ent None n s) -> good_parts parts -> good_query (QTree (MStorage n s) parts)
| gq_join rels parts : rels <> [] -> Forall good_rel rels -> good_parts parts -> good_query (QTree (MJoin rels) parts)
| gq_sub i parts : good_query i -> good_parts parts -> good_query (QTree (MSub i) parts).
(** equal trees, the functions giving the parts being compared clause by clause *)
Inductive same_query : qtree -> qtree -> Prop :=
| sq_sub i i' p p' : same_query i i' -> (forall k, p k = p' k) -> same_query (QTree (MSub i) p) (QTree (MSub i') p')
| sq_same m p p' : (forall k, p k = p' k) -> same_query (QTree m p) (QTree m p').

(** ** What objects stand for; [al]: inside a join query *)
Section Denotes.
Context {RT : PyRT}.
Definition column_word (al : bool) (c : column) (w : str) : Prop :=
  match al, c_entity c with
  | true, Some e => exists a, e_alias e = Some a /\ w = a ++ $"." ++ c_name c
  | _, _ => w = c_name c
  end.
(** arguments that were given *)
Definition given (k : seqk) (es : list expr) : list (list expr) := match k with KNone => [] | _ => [es] end.
Inductive denotes (al : bool) : obj -> expr -> Prop :=
| d_none : denotes al ONone (EWord ($"NULL") [] None)
| d_true : denotes al (OBool true) (EWord ($"TRUE") [] None)
| d_false : denotes al (OBool false) (EWord ($"FALSE") [] None)
| d_int z : denotes al (OInt z) (EWord (dec_of_Z z) [] None)
| d_float f : denotes al (OFloat f) (EWord (float_repr f) [] None)
| d_str s : denotes al (OStr s) (EText s)
| d_bytes s : forallb scalar_value s = true -> denotes al (OBytes (utf8_encode s)) (EText s)
| d_date d iso : iso_date_text d iso -> denotes al (ODate d) (EWord ($"toDateTime") [[EText iso]] None)
| d_datetime t u i iso : instant t i -> real_datetime u -> dt_tz u = None -> instant u i -> iso_text u iso ->
    denotes al (ODateTime t) (EWord ($"toDateTime") [[EText iso]] None)
| d_list l es : Forall2 (denotes al) l es -> denotes al (OList l) (EWord ($"array") [es] None)
| d_tuple l es : Forall2 (denotes al) l es -> denotes al (OTuple l) (EWord ($"tuple") [es] None)
| d_column c w : column_word al c w -> denotes al (OColumn c) (EWord w [] None)
| d_aliased c w a : column_word al c w -> denotes al (OAliased c a) (EWord w [] a)
| d_func f n ik il pk pl a is ps : Forall2 (denotes al) il is -> Forall2 (denotes al) pl ps ->
    denotes al (OFunc f n ik il pk pl a) (EWord n (given ik is ++ given pk ps) a)
| d_ident n : denotes al (OIdent n) (EIdent n)
| d_lambda k ids b e : denotes al b e -> denotes al (OLambda k ids b) (ELambda ids e).
Inductive denotes_cond (al : bool) : obj -> cond -> Prop :=
| dc_unary l o r e : denotes al l e -> o = IS_NULL \/ o = IS_NOT_NULL -> denotes_cond al (OCond l o r) (CAtom e o None)
| dc_binary l o r e e' : denotes al l e -> o <> IS_NULL -> o <> IS_NOT_NULL -> denotes al r e' ->
    denotes_cond al (OCond l o r) (CAtom e o (Some e'))
| dc_bool c o k l ts : Forall2 (denotes_cond al) l ts -> denotes_cond al (OBoolC c o k l) (CNode o ts).
Inductive denotes_order (al : bool) : obj -> expr * direction -> Prop :=
| do_order o e d : denotes al o e -> denotes_order al (OOrderBy o d) (e, d).

Definition number_word (i : pyint) : str := dec_of_Z (match i with PInt z => z | PBool b => if b then 1 else 0 end)%Z.
Definition bool_word (b : bool) : str := if b then $"True" else $"False".
(** LimitBy prints its count as Python does: a bool is True or False *)
Definition count_word (i : pyint) : str := match i with PInt z => dec_of_Z z | PBool b => bool_word b end.
Inductive denotes_part (al : bool) : clause -> obj -> option part -> Prop :=
| dp_unset k : denotes_part al k ONone None
| dp_empty k o : list_or_tuple o [] -> denotes_part al k o None
| dp_exprs k o x l es : In k [CSelect; CGroupby; CArrayJoin] -> list_or_tuple o (x :: l) ->
    Forall2 (denotes al) (x :: l) es -> denotes_part al k o (Some (PExprs es))
| dp_conds k o x l ts : In k [CWhere; CHaving] -> list_or_tuple o (x :: l) ->
    Forall2 (denotes_cond al) (x :: l) ts -> denotes_part al k o (Some (PConds ts))
| dp_orders o x l xs : list_or_tuple o (x :: l) -> Forall2 (denotes_order al) (x :: l) xs ->
    denotes_part al COrderby o (Some (POrders xs))
| dp_limitby k cols n ws : Forall2 (column_word al) cols ws ->
    denotes_part al CLimitby (OLimitBy k cols n) (Some (PLimitBy (count_word n) ws))
| dp_limit n : denotes_part al CLimit (OLimit n) (Some (PWord (number_word n)))
| dp_offset n : denotes_part al COffset (OOffset n) (Some (PWord (number_word n)))
| dp_granularity n : denotes_part al CGranularity (OGranularity n) (Some (PWord (number_word n)))
| dp_totals b : denotes_part al CTotals (OTotals b) (Some (PWord (bool_word b))).

(** the text of a sample rate: C16 says which decimal it is *)
Definition denotes_sample (s : option flt) (t : option str) : Prop :=
  match s, t with
  | None, None => True
  | Some FNan, Some w => w = $"nan"
  | Some (FInf _), Some w => w = $"inf"
  | Some (FFin _ m e), Some w => exists num p, decimal_text w num p /\ nearest num p m e
  | _, _ => False
  end.
Inductive denotes_ent : entity -> ent -> Prop :=
| de_entity n a sm dm t : denotes_sample sm t -> denotes_ent (mkEntity n a sm dm) (Ent a n t).
Inductive denotes_rel : relationship -> ent * str * ent -> Prop :=
| dr_rel l n r a b : denotes_ent l a -> denotes_ent r b -> denotes_rel (mkRel l n r) (a, n, b).
Inductive denotes_query : query -> qtree -> Prop :=
| dq_entity e n a s cl parts : denotes_ent e (Ent a n s) ->
    (forall k, denotes_part false k (get k cl) (parts k)) ->
    denotes_query (QBase (BEntity e) cl) (QTree (MEntity n s) parts)
| dq_storage st s cl parts : denotes_sample (st_sample st) s ->
    (forall k, denotes_part false k (get k cl) (parts k)) ->
    denotes_query (QBase (BStorage st) cl) (QTree (MStorage (st_name st) s) parts)
| dq_join kk rels ts cl parts : Forall2 denotes_rel rels ts ->
    (forall k, denotes_part true k (get k cl) (parts k)) ->
    denotes_query (QBase (BJoin kk rels) cl) (QTree (MJoin ts) parts)
| dq_sub i t cl parts : denotes_query i t ->
    (forall k, denotes_part false k (get k cl) (parts k)) ->
    denotes_query (QSub i cl) (QTree (MSub t) parts).

(** the names that are printed as they are must be words; items of arrays must be expressions *)
Inductive sayable : obj -> Prop :=
| sy_literal o : literal o -> sayable o
| sy_list l : sayable (OList l)
| sy_tuple l : sayable (OTuple l)
| sy_param o : a_param_expr o -> sayable o
| sy_aliased c a : sayable (OAliased c a).
Definition snql_names (o : obj) : Prop :=
  match o with
  | OFunc _ n _ _ _ _ _ => word_text n
  | OFloat f => float_repr f <> [] /\ word_text (float_repr f)
  | OEntity e => forall a, e_alias e = Some a -> word_text a /\ name_text a
  | ORel r => ~ In 93%N (r_name r)
  | OList l | OTuple l => Forall sayable l
  | _ => True
  end.
End Denotes.
(** what a query matches and the items of its clauses, also of inner queries *)
Inductive item_of : obj -> query -> Prop :=
| io_base b c : item_of (obj_of_base b) (QBase b c)
| io_clause b c k x : clause_item k (get k c) x -> item_of x (QBase b c)
| io_sub_clause i c k x : clause_item k (get k c) x -> item_of x (QSub i c)
| io_inner o i c : item_of o i -> item_of o (QSub i c).
