(** Specification vocabulary for C75: equality of queries, and values that are equal in
    Python but are not written in the same way. *)
From Verif Require Import PyBase Objects Query SpecOccurs SpecQuery.

(** the generated __eq__ of the dataclass Query, query.py:55-56: all fields are equal *)
Definition clauses_eq (c c' : clauses) : Prop := forall k, py_eq (get k c) (get k c') = true.
Fixpoint query_eq (q q' : query) : Prop :=
  match q, q' with
  | QBase b c, QBase b' c' => py_eq (obj_of_base b) (obj_of_base b') = true /\ clauses_eq c c'
  | QSub i c, QSub i' c' => query_eq i i' /\ clauses_eq c c'
  | _, _ => False
  end.
(** two equal values are of one type and have the same alias: not 1 and True or 1.0, not
    quantile(0.5)(a) AS x and quantile(0.5)(a), and not two dictionaries with the same keys in
    another order *)
Definition look_same (x y : obj) : Prop :=
  match x, y with
  | OBool _, _ | OInt _, _ | OFloat _, _ => x = y
  | OFunc f _ _ _ _ _ a, OFunc f' _ _ _ _ _ a' => f = f' /\ a = a'
  | OEntity e, OEntity e' => e_sample e = e_sample e'
  | OStorage s, OStorage s' => st_sample s = st_sample s'
  | OLimitBy _ _ n, OLimitBy _ _ n' => n = n'
  | ODict ks _, ODict ks' _ => ks = ks'
  | _, _ => True
  end.
Definition no_lookalikes (q q' : query) : Prop := forall o o' x y,
  part_of o q -> part_of o' q' -> occurs x o -> occurs y o' -> py_eq x y = true -> look_same x y.
(** objects that only equal objects of the same look *)
Definition one_look (x : obj) : Prop :=
  match x with
  | OBool _ | OFloat _ | ODict _ _ => False
  | OFunc f _ _ _ _ _ _ => f = true
  | OEntity e => e_sample e = None
  | OStorage s => st_sample s = None
  | OLimitBy _ _ n => exists z, n = PInt z
  | _ => True
  end.

(** x is selected by a query inside of q *)
Inductive selected_inside (x : obj) : query -> Prop :=
| sel_list i c l : get CSelect (q_clauses i) = OList l \/ get CSelect (q_clauses i) = OTuple l -> In x l -> selected_inside x (QSub i c)
| sel_deeper i c : selected_inside x i -> selected_inside x (QSub i c).
Definition alias_of (x : obj) : option str := match x with OFunc _ _ _ _ _ _ a => a | _ => None end.
(** equal functions selected by subqueries have the same alias *)
Definition same_inner_aliases (q q' : query) : Prop := forall x y,
  selected_inside x q -> selected_inside y q' -> py_eq x y = true -> alias_of x = alias_of y.
