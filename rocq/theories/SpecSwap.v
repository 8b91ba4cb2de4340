(** Specification vocabulary for C79: two queries that differ in some of their string values,
    and two texts that differ in string literals only. *)
From Verif Require Import PyBase Objects Query SpecExpr SpecQuery SpecSnql SpecLogic.

(** ** Texts. The list holds the pairs of strings that differ, in reading order: each is
    written as a literal, and everything around the literals is the same. *)
Inductive text_swapped : list (str * str) -> str -> str -> Prop :=
| ts_end : text_swapped [] [] []
| ts_same c l t t' : text_swapped l t t' -> text_swapped l (c :: t) (c :: t')
| ts_literal s s' l t t' : text_swapped l t t' ->
    text_swapped ((s, s') :: l) (text_of_string s ++ t) (text_of_string s' ++ t').

(** ** Objects. A string value is an argument of a function, a right-hand side, or an item of
    a list or tuple; names, aliases and keys are the same on both sides. *)
Inductive swap : list (str * str) -> obj -> obj -> Prop :=
| sw_same o : swap [] o o
| sw_str s s' : s <> s' -> swap [(s, s')] (OStr s) (OStr s')
| sw_list l a b : swaps l a b -> swap l (OList a) (OList b)
| sw_tuple l a b : swaps l a b -> swap l (OTuple a) (OTuple b)
| sw_func l1 l2 f n ik il il' pk pl pl' a : swaps l1 il il' -> swaps l2 pl pl' ->
    swap (l1 ++ l2) (OFunc f n ik il pk pl a) (OFunc f n ik il' pk pl' a)
| sw_lambda l k ids b b' : swap l b b' -> swap l (OLambda k ids b) (OLambda k ids b')
| sw_cond l1 l2 x x' o y y' : swap l1 x x' -> swap l2 y y' -> swap (l1 ++ l2) (OCond x o y) (OCond x' o y')
| sw_bool l c o k a b : swaps l a b -> swap l (OBoolC c o k a) (OBoolC c o k b)
| sw_order l e e' d : swap l e e' -> swap l (OOrderBy e d) (OOrderBy e' d)
with swaps : list (str * str) -> list obj -> list obj -> Prop :=
| sws_nil : swaps [] [] []
| sws_cons l1 l2 x y a b : swap l1 x y -> swaps l2 a b -> swaps (l1 ++ l2) (x :: a) (y :: b).

(** ** Queries *)
Definition clause_values (c : clauses) : list obj := map (fun k => get k c) snql_order.
Inductive swap_query : list (str * str) -> query -> query -> Prop :=
| swq_base l b c c' : swaps l (clause_values c) (clause_values c') -> swap_query l (QBase b c) (QBase b c')
| swq_sub l1 l2 i i' c c' : swap_query l1 i i' -> swaps l2 (clause_values c) (clause_values c') ->
    swap_query (l1 ++ l2) (QSub i c) (QSub i' c').

(** no string differs on the left of a comparison *)
Inductive same_left : obj -> obj -> Prop :=
| sl_cond x o y y' : same_left (OCond x o y) (OCond x o y')
| sl_bool c o k a b : Forall2 same_left a b -> same_left (OBoolC c o k a) (OBoolC c o k b).
(** ... unless it is in a condition that does not become an IN, neither before nor after *)
Definition merged_alike (x y : obj) : Prop := same_left x y \/ (~ mergeable x /\ ~ mergeable y).
Definition merged_alike_where (q q' : query) : Prop := forall a b,
  list_or_tuple (get CWhere (q_clauses q)) a -> list_or_tuple (get CWhere (q_clauses q')) b -> Forall2 merged_alike a b.
