(** Specification for C30, C36. C30: the functions that iterate over Python sets, run with an arbitrary
    iteration order of every set; C36: queries that differ only in WHERE. *)
From Verif Require Import PyBase Objects Exprs Finder Query SpecExpr SpecSetters.

(** an order gives the items of a set in some order, possibly dropping repetitions *)
Definition reorders {A} (f : list A -> list A) : Prop := forall l x, In x (f l) <-> In x l.

Section Orders.
Context {RT : PyRT}.
(** the order of the set of referenced columns, of the set of (alias, entity name) pairs, of the set of
    joined entities and of the set of required columns *)
Variable columns_order : list obj -> list obj.
Variable aliases_order : list (str * str) -> list (str * str).
Variable entities_order : list entity -> list entity.
Variable required_order : list schema_col -> list schema_col.

Definition join_in_order (rels : obj) : result obj :=
  match as_list_or_tuple rels with
  | None | Some (_, []) => Raise InvalidExpressionError
  | Some (k, l) =>
      match all_rels l with
      | None => Raise InvalidExpressionError
      | Some rs => join_check [] (aliases_order (alias_mappings rs)) ;! Ok (OJoin k rs)
      end
  end.

Definition base_in_order (b : base) : result unit :=
  match b with
  | BJoin _ (r :: rels) => join_check [] (aliases_order (alias_mappings (r :: rels)))
  | _ => base_validate b
  end.
Definition match_in_order (q : query) : result unit :=
  let! cols := search TColumn q in
  match q with
  | QSub inner _ => validate_subquery inner (columns_order cols)
  | QBase (BJoin _ rels) _ => validate_join_with (aliases_order (alias_mappings rels)) (columns_order cols)
  | QBase (BStorage s) _ => validate_dm (st_dm s) (columns_order cols)
  | QBase (BEntity e) _ => validate_dm (e_dm e) (columns_order cols)
  end.
Definition combine_in_order (q : query) : result unit :=
  let c := q_clauses q in
  match_in_order q ;!
  (if is_none (c_select c) then Raise InvalidQueryError
   else let! l := iter (c_select c) in
        if Nat.eqb (List.length l) 0 then Raise InvalidQueryError else Ok tt) ;!
  (if truthy (c_totals c) then
     match c_totals c with
     | OTotals b => if b && negb (truthy (c_groupby c)) then Raise InvalidQueryError else Ok tt
     | _ => Raise AttributeError
     end
   else Ok tt).
Fixpoint validate_in_order (q : query) : result unit :=
  match q with
  | QBase b c =>
      base_in_order b ;!
      check_all (fun k => validate_clause k (get k c)) all_clauses ;!
      combine_in_order q
  | QSub inner c =>
      validate_in_order inner ;!
      check_all (fun k => validate_clause k (get k c)) all_clauses ;!
      combine_in_order q
  end.

Definition entity_required_in_order (e : entity) (conditions : obj) : result unit :=
  match e_dm e with
  | None => Ok tt
  | Some d => check_required_with (required_order (dm_required d)) (dm_time d) (e_alias e) conditions
  end.
Fixpoint required_in_order (q : query) : result unit :=
  match q with
  | QSub inner _ => required_in_order inner
  | QBase (BEntity e) c => entity_required_in_order e (c_where c)
  | QBase (BJoin _ rels) c =>
      check_all (fun e => entity_required_in_order e (c_where c)) (entities_order (join_entities rels))
  | QBase (BStorage _) _ => Ok tt
  end.
End Orders.

(** ** C36 *)
Definition same_but_where (q q' : query) : Prop :=
  q_match q' = q_match q /\ forall k, k <> CWhere -> get k (q_clauses q') = get k (q_clauses q).
(** the conditions in WHERE *)
Definition filters (q : query) (l : list obj) : Prop :=
  (c_where (q_clauses q) = ONone /\ l = []) \/ list_or_tuple (c_where (q_clauses q)) l.
