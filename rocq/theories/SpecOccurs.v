(** Specification: which objects occur in an object, at any depth. *)
From Verif Require Import PyBase Objects.

Inductive occurs : obj -> obj -> Prop :=
| oc_self x : occurs x x
| oc_list x y l : In y l -> occurs x y -> occurs x (OList l)
| oc_tuple x y l : In y l -> occurs x y -> occurs x (OTuple l)
| oc_init x y f n ik il pk pl a : In y il -> occurs x y -> occurs x (OFunc f n ik il pk pl a)
| oc_param x y f n ik il pk pl a : In y pl -> occurs x y -> occurs x (OFunc f n ik il pk pl a)
| oc_body x k ids b : occurs x b -> occurs x (OLambda k ids b)
| oc_lhs x l o r : occurs x l -> occurs x (OCond l o r)
| oc_rhs x l o r : occurs x r -> occurs x (OCond l o r)
| oc_cond x y c o k l : In y l -> occurs x y -> occurs x (OBoolC c o k l)
| oc_order x e d : occurs x e -> occurs x (OOrderBy e d)
| oc_aliased x c a : occurs x (OColumn c) -> occurs x (OAliased c a)
| oc_limitby x c k l n : In c l -> occurs x (OColumn c) -> occurs x (OLimitBy k l n)
| oc_rel_l x r : occurs x (OEntity (r_lhs r)) -> occurs x (ORel r)
| oc_rel_r x r : occurs x (OEntity (r_rhs r)) -> occurs x (ORel r)
| oc_join x r k l : In r l -> occurs x (ORel r) -> occurs x (OJoin k l)
| oc_entity x c e : c_entity c = Some e -> occurs x (OEntity e) -> occurs x (OColumn c).
