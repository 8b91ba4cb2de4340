(** Specification for C106: the rows a legacy body asks for, in terms of the expressions
    and comparisons that a server reads. *)
From Verif Require Import PyBase Objects SpecOps Exprs SpecExpr SpecLogic Query Strptime SpecSnql SpecServer SpecLegacy.

Section Asked.
Context {RT : PyRT} {CV : PyConv}.

(** what a comparison of SDK objects says about a row *)
Inductive says (R : row) (l : obj) (o : op) (r : obj) : tv -> Prop :=
| says_null e : o = IS_NULL \/ o = IS_NOT_NULL -> denotes false l e -> says R l o r (R e o None)
| says_test e e' : o <> IS_NULL -> o <> IS_NOT_NULL -> denotes false l e -> denotes false r e' -> says R l o r (R e o (Some e')).
(** a condition of a body, an item of its list (a condition or the OR of a list of
    conditions), the list (the AND of its items) *)
Inductive asks_cond (R : row) (t : obj) : tv -> Prop :=
| ak_cond l o r v : legacy_cond t l o r -> says R l o r v -> asks_cond R t v.
Inductive asks_item (R : row) (t : obj) : tv -> Prop :=
| ak_triple v : triple t -> asks_cond R t v -> asks_item R t v
| ak_or l vs : ~ triple t -> items_of t l -> Forall2 (asks_cond R) l vs -> asks_item R t (any3 vs).
Definition asks (R : row) (items : list obj) (v : tv) : Prop := exists vs, Forall2 (asks_item R) items vs /\ v = all3 vs.
(** organization, project and time bounds, as comparisons *)
Definition bound_says (R : row) (c : obj) (v : tv) : Prop := exists l o r, c = OCond l o r /\ says R l o r v.
Definition bounds_say (R : row) (body : obj) (entity : str) (v : tv) : Prop :=
  exists cs vs, extension_conditions body entity cs /\ Forall2 (bound_says R) cs vs /\ v = all3 vs.

(** in one OR, left-hand sides that are equal in Python are written alike *)
Definition exact_sides (items : list obj) : Prop :=
  forall x ts t t' a o r b p s, In x items -> ~ triple x -> items_of x ts -> In t ts -> In t' ts ->
  legacy_cond t a o r -> legacy_cond t' b p s -> py_eq a b = true -> written_alike a b.
End Asked.
