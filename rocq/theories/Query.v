(** query.py, query_visitors.py (Printer, ExpressionSearcher, Validator) and
    query_validation.py. *)
From Verif Require Import PyBase Objects Exprs Translate Finder Optimizer.

(** * Queries. The fields are set without validation by the dataclass constructor
    (query.py:66-95), so they hold arbitrary objects; ONone is "not set".
    Simplification: a Query object is not itself a value inside a clause. *)

(** the clauses, query.py:68-78 *)
Inductive clause := CSelect | CGroupby | CArrayJoin | CWhere | CHaving | COrderby | CLimitby
                  | CLimit | COffset | CGranularity | CTotals.
Record clauses := mkClauses {
  c_select : obj; c_groupby : obj; c_array_join : obj; c_where : obj; c_having : obj;
  c_orderby : obj; c_limitby : obj; c_limit : obj; c_offset : obj; c_granularity : obj;
  c_totals : obj }.
Definition no_clauses : clauses :=
  mkClauses ONone ONone ONone ONone ONone ONone ONone ONone ONone ONone ONone.

Definition get (c : clause) (x : clauses) : obj :=
  match c with
  | CSelect => c_select x | CGroupby => c_groupby x | CArrayJoin => c_array_join x
  | CWhere => c_where x | CHaving => c_having x | COrderby => c_orderby x
  | CLimitby => c_limitby x | CLimit => c_limit x | COffset => c_offset x
  | CGranularity => c_granularity x | CTotals => c_totals x
  end.
Definition upd (c : clause) (v : obj) (x : clauses) : clauses :=
  let '(mkClauses s g a w h o lb l f gr t) := x in
  match c with
  | CSelect => mkClauses v g a w h o lb l f gr t
  | CGroupby => mkClauses s v a w h o lb l f gr t
  | CArrayJoin => mkClauses s g v w h o lb l f gr t
  | CWhere => mkClauses s g a v h o lb l f gr t
  | CHaving => mkClauses s g a w v o lb l f gr t
  | COrderby => mkClauses s g a w h v lb l f gr t
  | CLimitby => mkClauses s g a w h o v l f gr t
  | CLimit => mkClauses s g a w h o lb v f gr t
  | COffset => mkClauses s g a w h o lb l v gr t
  | CGranularity => mkClauses s g a w h o lb l f v t
  | CTotals => mkClauses s g a w h o lb l f gr v
  end.

(** what can be matched, apart from a subquery *)
Inductive base := BEntity (e : entity) | BStorage (s : storage)
                | BJoin (k : seqk) (rels : list relationship).
Inductive query := QBase (b : base) (c : clauses) | QSub (inner : query) (c : clauses).

(** an arbitrary argument for the parameter [match] *)
Inductive match_arg := MQuery (q : query) | MObj (o : obj).

Definition q_clauses (q : query) : clauses :=
  match q with QBase _ c => c | QSub _ c => c end.
Definition q_with (q : query) (c : clauses) : query :=
  match q with QBase b _ => QBase b c | QSub i _ => QSub i c end.
Definition base_of (o : obj) : option base :=
  match o with
  | OEntity e => Some (BEntity e) | OStorage s => Some (BStorage s)
  | OJoin k r => Some (BJoin k r) | _ => None
  end.
Definition obj_of_base (b : base) : obj :=
  match b with BEntity e => OEntity e | BStorage s => OStorage s | BJoin k r => OJoin k r end.

Section Query.
Context {RT : PyRT}.

(** bool(o) *)
Definition truthy (o : obj) : bool :=
  match o with
  | ONone | OBool false | OStr [] | OBytes [] | OList [] | OTuple [] | ODict [] _ => false
  | OInt z => negb (z =? 0)%Z
  | OFloat (FFin _ m _) => negb (N.eqb m 0)
  | _ => true
  end.
(** iteration over o, and len(o) *)
Definition iter (o : obj) : result (list obj) :=
  match o with
  | OList l | OTuple l => Ok l
  | OStr s => Ok (map (fun c => OStr [c]) s)
  | OBytes b => Ok (map (fun n => OInt (Z.of_N n)) b)
  | ODict ks _ => Ok (map OStr ks)
  | _ => Raise TypeError
  end.
Definition is_none (o : obj) : bool := match o with ONone => true | _ => false end.

(** * ExpressionSearcher, query_visitors.py:230-287 *)

(** __aggregate, query_visitors.py:246-251 *)
Definition search_terms (t : ety) (o : obj) : result (list obj) :=
  if truthy o
  then let! l := iter o in let! fs := mapM (find t) l in Ok (List.concat fs)
  else Ok [].
(** query_visitors.py:273-287 *)
Definition search_one (t : ety) (o : obj) : result (list obj) :=
  if truthy o then find t o else Ok [].
(** _visit_match, query_visitors.py:241-244 *)
Definition search_match (t : ety) (q : query) : result (list obj) :=
  match q with
  | QBase (BEntity e) _ => find t (OEntity e)
  | QBase (BJoin k r) _ => find t (OJoin k r)
  | _ => Ok []
  end.
(** how each clause is searched *)
Definition is_list_clause (c : clause) : bool :=
  match c with
  | CSelect | CGroupby | CArrayJoin | CWhere | CHaving | COrderby => true
  | _ => false
  end.
Definition search_clause (t : ety) (c : clause) (o : obj) : result (list obj) :=
  if is_list_clause c then search_terms t o else search_one t o.
Definition all_clauses : list clause :=
  [CSelect; CGroupby; CArrayJoin; CWhere; CHaving; COrderby; CLimitby; CLimit; COffset;
   CGranularity; CTotals].
(** visit + _combine, query_visitors.py:68-74, 234-240 *)
Definition search (t : ety) (q : query) : result (list obj) :=
  let! m := search_match t q in
  let! cs := mapM (fun c => search_clause t c (get c (q_clauses q))) all_clauses in
  Ok (m ++ List.concat cs).

(** * query_validation.py *)

Definition as_column (o : obj) : option column :=
  match o with OColumn c => Some c | _ => None end.

(** the names offered by a subquery, query_validation.py:59-68; a function without alias
    adds None, which no column name equals *)
Definition inner_names (select : list obj) : list str :=
  flat_map (fun s => match s with
                     | OFunc _ _ _ _ _ _ (Some a) => [a]
                     | OColumn c => [c_name c]
                     | _ => []
                     end) select.

Fixpoint check_all {A} (f : A -> result unit) (l : list A) : result unit :=
  match l with [] => Ok tt | x :: l' => f x ;! check_all f l' end.

(** _validate_subquery, query_validation.py:50-76 *)
Definition validate_subquery (inner : query) (cols : list obj) : result unit :=
  if is_none (c_select (q_clauses inner)) then Raise AssertionError
  else
    let! sel := iter (c_select (q_clauses inner)) in
    check_all (fun o => match o with
                        | OColumn c => assert_ (mem_str (c_name c) (inner_names sel)) InvalidMatchError
                        | _ => Ok tt
                        end) cols.

(** {alias: entity for ...}: the last assignment of an alias wins *)
Definition alias_dict (maps : list (str * str)) : list (str * str) := rev maps.
(** _validate_join, query_validation.py:79-102; [maps] is the iteration order of the set *)
Definition validate_join_with (maps : list (str * str)) (cols : list obj) : result unit :=
  check_all (fun o =>
    match o with
    | OColumn c =>
        match c_entity c with
        | None => Raise InvalidMatchError
        | Some e =>
            match e_alias e with
            | None => Raise InvalidMatchError
            | Some a =>
                match assoc a (alias_dict maps) with
                | None => Raise InvalidMatchError
                | Some n => assert_ (str_eqb n (e_name e)) InvalidMatchError
                end
            end
        end
    | _ => Raise AssertionError
    end) cols.

(** _validate_storage / _validate_entity, query_validation.py:105-130 *)
Definition validate_dm (dm : option data_model) (cols : list obj) : result unit :=
  check_all (fun o => match o with
                      | OColumn c => validate_data_model dm (c_name c) (c_sub c)
                      | _ => Raise AssertionError
                      end) cols.

(** validate_match, query_validation.py:27-47 *)
Definition validate_match (q : query) : result unit :=
  let! cols := search TColumn q in
  match q with
  | QSub inner _ => validate_subquery inner cols
  | QBase (BJoin _ rels) _ => validate_join_with (alias_mappings rels) cols
  | QBase (BStorage s) _ => validate_dm (st_dm s) cols
  | QBase (BEntity e) _ => validate_dm (e_dm e) cols
  end.

(** * Validator, query_visitors.py:290-348 *)

Definition list_validate (o : obj) : result unit :=
  if is_none o then Ok tt else let! l := iter o in check_all revalidate l.
Definition opt_validate (o : obj) : result unit :=
  if is_none o then Ok tt else revalidate o.
Definition validate_clause (c : clause) (o : obj) : result unit :=
  if is_list_clause c then list_validate o else opt_validate o.

(** Validator._combine, query_visitors.py:295-302 *)
Definition validate_combine (q : query) : result unit :=
  let c := q_clauses q in
  validate_match q ;!
  (if is_none (c_select c) then Raise InvalidQueryError
   else let! l := iter (c_select c) in
        if Nat.eqb (List.length l) 0 then Raise InvalidQueryError else Ok tt) ;!
  (if truthy (c_totals c) then
     match c_totals c with
     | OTotals b => if b && negb (truthy (c_groupby c)) then Raise InvalidQueryError else Ok tt
     | _ => Raise AttributeError
     end
   else Ok tt).

Definition base_validate (b : base) : result unit := revalidate (obj_of_base b).

(** Query.validate, query.py:163-164: match first, then the clauses in field order *)
Fixpoint validate (q : query) : result unit :=
  match q with
  | QBase b c =>
      base_validate b ;!
      check_all (fun k => validate_clause k (get k c)) all_clauses ;!
      validate_combine q
  | QSub inner c =>
      validate inner ;!
      check_all (fun k => validate_clause k (get k c)) all_clauses ;!
      validate_combine q
  end.

(** * Query, query.py *)

(** __post_init__, query.py:80-95 *)
Definition post_init (q : query) : result query :=
  match q with
  | QBase _ _ => Ok q
  | QSub inner _ => if is_ok (validate inner) then Ok q else Raise InvalidQueryError
  end.
(** Query(match, select=..., ...) *)
Definition mk_query (m : match_arg) (c : clauses) : result query :=
  match m with
  | MQuery inner => post_init (QSub inner c)
  | MObj o => match base_of o with
              | Some b => post_init (QBase b c)
              | None => Raise InvalidQueryError
              end
  end.
(** _replace, query.py:97-99: dataclasses.replace calls __init__ and __post_init__ again *)
Definition replace_clause (q : query) (c : clause) (v : obj) : result query :=
  post_init (q_with q (upd c v (q_clauses q))).

(** set_match, query.py:101-112: (Entity, Join, Query) - Storage is not accepted *)
Definition set_match (q : query) (m : match_arg) : result query :=
  match m with
  | MQuery inner =>
      if is_ok (validate inner) then mk_query m (q_clauses q) else Raise InvalidQueryError
  | MObj (OEntity e) => mk_query m (q_clauses q)
  | MObj (OJoin k r) => mk_query m (q_clauses q)
  | MObj _ => Raise InvalidQueryError
  end.

(** SelectableExpressionType, query.py:26-31 *)
Definition is_selectable (o : obj) : bool :=
  match o with OAliased _ _ | OColumn _ | OFunc _ _ _ _ _ _ _ => true | _ => false end.
(** list_type, expressions.py:55-58 *)
Definition list_type (o : obj) (f : obj -> bool) : bool :=
  match o with OList l => forallb f l | _ => false end.
Definition is_column_obj (o : obj) : bool := match o with OColumn _ => true | _ => false end.
Definition is_orderby_obj (o : obj) : bool := match o with OOrderBy _ _ => true | _ => false end.
Definition is_limitby_obj (o : obj) : bool := match o with OLimitBy _ _ _ => true | _ => false end.

(** the value a setter stores, query.py:114-161 *)
Definition setter_value (c : clause) (v : obj) : result obj :=
  match c with
  | CSelect => assert_ (list_type v is_selectable && truthy v) InvalidQueryError ;! Ok v
  | CGroupby => assert_ (list_type v is_selectable) InvalidQueryError ;! Ok v
  | CArrayJoin => assert_ (list_type v is_column_obj && truthy v) InvalidQueryError ;! Ok v
  | CWhere | CHaving => assert_ (list_type v is_condition_obj) InvalidQueryError ;! Ok v
  | COrderby => assert_ (list_type v is_orderby_obj) InvalidQueryError ;! Ok v
  | CLimitby => assert_ (is_limitby_obj v) InvalidQueryError ;! Ok v
  | CLimit => mk_limit v
  | COffset => mk_offset v
  | CGranularity => mk_granularity v
  | CTotals => mk_totals v
  end.
(** set_select ... set_totals, query.py:114-161 *)
Definition set_clause (c : clause) (q : query) (v : obj) : result query :=
  let! x := setter_value c v in replace_clause q c x.

(** * Printer, query_visitors.py:137-228 *)

Definition clause_keyword (c : clause) : str :=
  match c with
  | CSelect => $"SELECT " | CGroupby => $"BY " | CArrayJoin => $"ARRAY JOIN "
  | CWhere => $"WHERE " | CHaving => $"HAVING " | COrderby => $"ORDER BY "
  | CLimitby | CLimit => $"LIMIT " | COffset => $"OFFSET " | CGranularity => $"GRANULARITY "
  | CTotals => $"TOTALS "
  end.
Definition clause_sep (c : clause) : str :=
  match c with CWhere | CHaving => $" AND " | _ => $", " end.
(** _visit_select ... _visit_totals, query_visitors.py:172-228 *)
Definition print_clause (al : bool) (c : clause) (o : obj) : result str :=
  if is_list_clause c then
    if truthy o
    then let! l := iter o in
         let! ss := mapM (visit false al) l in
         Ok (clause_keyword c ++ join (clause_sep c) ss)
    else Ok []
  else if is_none o then Ok []
  else let! s := visit false al o in Ok (clause_keyword c ++ s).

Definition nonempty (s : str) : bool := match s with [] => false | _ => true end.
(** Printer.visit/_combine with separator [sep], query_visitors.py:143-160. Aliases are used
    iff the match is a Join; an inner query always uses the separator " ". *)
Fixpoint print_query (sep : str) (q : query) : result str :=
  let clauses_s al c := mapM (fun k => print_clause al k (get k c)) all_clauses in
  match q with
  | QBase b c =>
      let al := match b with BJoin _ _ => true | _ => false end in
      let! m := visit false al (obj_of_base b) in
      let! cs := clauses_s al c in
      Ok (join sep (filter nonempty (($"MATCH " ++ m) :: cs)))
  | QSub inner c =>
      let! s := print_query ($" ") inner in
      let! cs := clauses_s false c in
      Ok (join sep (filter nonempty (($"MATCH { " ++ s ++ $" }") :: cs)))
  end.

(** _optimize, query.py:181-187 *)
Definition optimize_query (q : query) : result query :=
  let w := c_where (q_clauses q) in
  if is_none w then Ok q
  else let! l := iter w in
       let! r := optimize l in
       match r with
       | None => Ok q
       | Some l' => replace_clause q CWhere (OList l')
       end.
(** serialize, query.py:169-172 *)
Definition serialize (q : query) : result str :=
  validate q ;! let! o := optimize_query q in print_query ($" ") o.
(** print, query.py:174-176 *)
Definition print (q : query) : result str :=
  validate q ;! print_query [NL] q.

(** * Required columns, query_validation.py:133-229 *)

(** _matching_condition_exists, query_validation.py:195-211 *)
Definition matching_cond (ops : list op) (col : str) (alias : option str) (c : obj) : bool :=
  match c with
  | OCond (OColumn k) o _ =>
      (match c_entity k with
       | None => true
       | Some e => option_eqb str_eqb (e_alias e) alias
       end)
      && str_eqb (c_name k) col && existsb (op_eqb o) ops
  | _ => false
  end.

(** _check_entity_required_columns_in_conditions, query_validation.py:137-192, for the
    required columns in a given iteration order *)
Definition check_required_with (req : list schema_col) (time : schema_col)
  (alias : option str) (conditions : obj) : result unit :=
  if negb (truthy conditions) then Raise RequiredColumnError
  else
    let! l := iter conditions in
    let top := get_first_level_and_conditions l in
    (if forallb (fun r => existsb (matching_cond [EQ; IN] (sc_name r) alias) top) req
     then Ok tt else Raise RequiredColumnError) ;!
    (if forallb (fun o => existsb (matching_cond [o] (sc_name time) alias) top) [GTE; LT]
     then Ok tt else Raise RequiredColumnError).
Definition check_entity_required (e : entity) (conditions : obj) : result unit :=
  match e_dm e with
  | None => Ok tt
  | Some d => check_required_with (dm_required d) (dm_time d) (e_alias e) conditions
  end.

(** validate_required_columns, query_validation.py:214-229; the outer query's conditions
    are not looked at when there is a subquery *)
Fixpoint validate_required_columns (q : query) : result unit :=
  match q with
  | QSub inner _ => validate_required_columns inner
  | QBase (BEntity e) c => check_entity_required e (c_where c)
  | QBase (BJoin _ rels) c =>
      check_all (fun e => check_entity_required e (c_where c)) (join_entities rels)
  | QBase (BStorage _) _ => Ok tt
  end.

End Query.
