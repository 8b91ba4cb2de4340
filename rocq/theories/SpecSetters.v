(** Specification for C22-C24: which value every setter accepts, what it stores, and what a
    history of calls leaves in a query. *)
From Verif Require Import PyBase Objects SpecExpr Query.

Inductive selectable : obj -> Prop :=
| se_column c : selectable (OColumn c)
| se_aliased c a : selectable (OAliased c a)
| se_func f n ik il pk pl a : selectable (OFunc f n ik il pk pl a).
Inductive an_orderby : obj -> Prop := is_an_orderby e d : an_orderby (OOrderBy e d).

(** [stores k v x]: the setter of clause k accepts v and stores x *)
Inductive stores : clause -> obj -> obj -> Prop :=
| st_select l : l <> [] -> Forall selectable l -> stores CSelect (OList l) (OList l)
| st_groupby l : Forall selectable l -> stores CGroupby (OList l) (OList l)
| st_array_join l : l <> [] -> Forall a_column l -> stores CArrayJoin (OList l) (OList l)
| st_where l : Forall a_condition l -> stores CWhere (OList l) (OList l)
| st_having l : Forall a_condition l -> stores CHaving (OList l) (OList l)
| st_orderby l : Forall an_orderby l -> stores COrderby (OList l) (OList l)
| st_limitby k l n : stores CLimitby (OLimitBy k l n) (OLimitBy k l n)
| st_limit z : (1 <= z <= 10000)%Z -> stores CLimit (OInt z) (OLimit (PInt z))
| st_limit_true : stores CLimit (OBool true) (OLimit (PBool true))
| st_offset z : (0 <= z)%Z -> stores COffset (OInt z) (OOffset (PInt z))
| st_offset_bool b : stores COffset (OBool b) (OOffset (PBool b))
| st_granularity z : (1 <= z)%Z -> stores CGranularity (OInt z) (OGranularity (PInt z))
| st_granularity_true : stores CGranularity (OBool true) (OGranularity (PBool true))
| st_totals b : stores CTotals (OBool b) (OTotals b).

(** what a query matches *)
Definition q_match (q : query) : match_arg :=
  match q with QBase b _ => MObj (obj_of_base b) | QSub i _ => MQuery i end.

Section Spec.
Context {RT : PyRT}.

(** one call of a setter *)
Inductive call := CallSet (k : clause) (v : obj) | CallMatch (m : match_arg).
Definition do_call (q : query) (c : call) : result query :=
  match c with CallSet k v => set_clause k q v | CallMatch m => set_match q m end.
Fixpoint do_calls (q : query) (cs : list call) : result query :=
  match cs with [] => Ok q | c :: cs' => let! q' := do_call q c in do_calls q' cs' end.

(** what set_match accepts: an Entity, a Join, a valid Query *)
Inductive matchable : match_arg -> Prop :=
| ma_entity e : matchable (MObj (OEntity e))
| ma_join k rels : matchable (MObj (OJoin k rels))
| ma_query i : validate i = Ok tt -> matchable (MQuery i).
Inductive acceptable : call -> Prop :=
| ac_set k v x : stores k v x -> acceptable (CallSet k v)
| ac_match m : matchable m -> acceptable (CallMatch m).

(** [clause_after k cs x y]: clause k holds y if it held x before the calls cs *)
Inductive clause_after (k : clause) : list call -> obj -> obj -> Prop :=
| ca_nil x : clause_after k [] x x
| ca_set v cs x x' y : stores k v x' -> clause_after k cs x' y -> clause_after k (CallSet k v :: cs) x y
| ca_other k' v cs x y : k' <> k -> clause_after k cs x y -> clause_after k (CallSet k' v :: cs) x y
| ca_match m cs x y : clause_after k cs x y -> clause_after k (CallMatch m :: cs) x y.
Inductive match_after : list call -> match_arg -> match_arg -> Prop :=
| mf_nil m : match_after [] m m
| mf_set k v cs m m' : match_after cs m m' -> match_after (CallSet k v :: cs) m m'
| mf_match m0 cs m m' : match_after cs m0 m' -> match_after (CallMatch m0 :: cs) m m'.

(** the queries a program can have: Query(match, clauses...) and any calls after that *)
Inductive made : query -> Prop :=
| made_query m c q : mk_query m c = Ok q -> made q
| made_call q c q' : made q -> do_call q c = Ok q' -> made q'.
(** Query(match) without clauses, and any calls after that *)
Inductive built : query -> Prop :=
| built_query m q : mk_query m no_clauses = Ok q -> (forall i, m = MQuery i -> built i) -> built q
| built_call q c q' : built q -> do_call q c = Ok q' ->
    (forall i, c = CallMatch (MQuery i) -> built i) -> built q'.

(** ** C23: a query all of whose clauses hold what the setters store (or nothing) *)
Definition clause_typed (c : clauses) : Prop :=
  forall k, get k c = ONone \/ exists v, stores k v (get k c).
Fixpoint typed_query (q : query) : Prop :=
  match q with QBase _ c => clause_typed c | QSub i c => typed_query i /\ clause_typed c end.
End Spec.
