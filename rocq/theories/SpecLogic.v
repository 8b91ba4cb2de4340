(** Specification for C20, C32, C34-C36: the meaning of conditions, and the ORs that the
    SDK is allowed to rewrite. *)
From Verif Require Import PyBase Objects Translate Query.

(** ** Three-valued logic (NULL makes comparisons unknown) *)
Inductive tv := TTrue | TFalse | TUnknown.
Definition and3 (a b : tv) : tv :=
  match a, b with
  | TFalse, _ | _, TFalse => TFalse
  | TTrue, TTrue => TTrue
  | _, _ => TUnknown
  end.
Definition or3 (a b : tv) : tv :=
  match a, b with
  | TTrue, _ | _, TTrue => TTrue
  | TFalse, TFalse => TFalse
  | _, _ => TUnknown
  end.
Definition all3 (l : list tv) : tv := fold_right and3 TTrue l.
Definition any3 (l : list tv) : tv := fold_right or3 TFalse l.

(** An interpretation says, for one row, what every comparison of a left-hand side with a
    right-hand side evaluates to. *)
Definition interpretation := obj -> op -> obj -> tv.
(** x IN (v1, ..., vn) means x = v1 OR ... OR x = vn *)
Definition in_is_any (I : interpretation) : Prop :=
  forall lhs vs, I lhs IN (OList vs) = any3 (map (fun v => I lhs EQ v) vs).
(** the meaning of a condition *)
Fixpoint truth (I : interpretation) (c : obj) : tv :=
  match c with
  | OCond lhs o rhs => I lhs o rhs
  | OBoolC _ AND _ l => all3 (map (truth I) l)
  | OBoolC _ OR _ l => any3 (map (truth I) l)
  | _ => TUnknown
  end.
(** the meaning of WHERE / HAVING: the conjunction of the list *)
Definition group_truth (I : interpretation) (l : list obj) : tv := all3 (map (truth I) l).

(** an interpretation that sees of a left-hand side only the text sent to the server *)
Definition sees_text {RT : PyRT} (I : interpretation) : Prop :=
  forall l l', (forall al, visit false al l = visit false al l') -> I l = I l'.
(** an interpretation that treats left-hand sides equal in Python alike *)
Definition sees_python_equality (I : interpretation) : Prop :=
  forall l l', py_eq l l' = true -> forall o r, I l o r = I l' o r.

(** ** ORs of = conditions with one left-hand side *)
Inductive mergeable : obj -> Prop :=
| mergeable_or cls k lhs rhs rest :
    Forall (fun x => exists l r, x = OCond l EQ r /\ py_eq l lhs = true) rest ->
    mergeable (OBoolC cls OR k (OCond lhs EQ rhs :: rest)).
Definition rhs_of (c : obj) : obj := match c with OCond _ _ r => r | _ => ONone end.
(** the rewritten form: lhs IN (all right-hand sides, in order) *)
Inductive merged : obj -> obj -> Prop :=
| merged_or cls k lhs rhs rest :
    merged (OBoolC cls OR k (OCond lhs EQ rhs :: rest))
           (OCond lhs IN (OList (rhs :: map rhs_of rest))).
(** what the optimizer may do at one position of the list *)
Definition optimized_at (c c' : obj) : Prop :=
  (mergeable c /\ merged c c') \/ (~ mergeable c /\ c' = c).

(** ** C32: And nodes *)
Definition is_and (c : obj) : Prop := exists o k l, c = OBoolC BAnd o k l.
(** [leaves c l]: l lists the conditions under the And nodes of c, from left to right *)
Inductive leaves : obj -> list obj -> Prop :=
| lv_leaf c : ~ is_and c -> leaves c [c]
| lv_and o k cs ls : leaves_all cs ls -> leaves (OBoolC BAnd o k cs) ls
with leaves_all : list obj -> list obj -> Prop :=
| lv_nil : leaves_all [] []
| lv_cons c cs l ls : leaves c l -> leaves_all cs ls -> leaves_all (c :: cs) (l ++ ls).
(** two-valued meaning with And as conjunction; v gives the truth of everything else *)
Fixpoint holds (v : obj -> bool) (c : obj) : bool :=
  match c with
  | OBoolC BAnd _ _ l => forallb (holds v) l
  | _ => v c
  end.

(** ** C34: expressions for which Python equality means the same text: no bool or float,
    and no alias on a function, at any depth (other SDK objects, which can only occur
    inside arrays, are left out too) *)
Inductive exact_expr : obj -> Prop :=
| xe_none : exact_expr ONone
| xe_int z : exact_expr (OInt z)
| xe_str s : exact_expr (OStr s)
| xe_bytes b : exact_expr (OBytes b)
| xe_date d : exact_expr (ODate d)
| xe_datetime t : exact_expr (ODateTime t)
| xe_list l : Forall exact_expr l -> exact_expr (OList l)
| xe_tuple l : Forall exact_expr l -> exact_expr (OTuple l)
| xe_column c : exact_expr (OColumn c)
| xe_aliased c a : exact_expr (OAliased c a)
| xe_ident n : exact_expr (OIdent n)
| xe_lambda k ids b : exact_expr b -> exact_expr (OLambda k ids b)
| xe_func f n ik il pk pl : Forall exact_expr il -> Forall exact_expr pl ->
    exact_expr (OFunc f n ik il pk pl None).
(** every left-hand side of a condition tree is such an expression *)
Inductive exact_lhs : obj -> Prop :=
| xl_cond l o r : exact_expr l -> exact_lhs (OCond l o r)
| xl_bool c o k l : Forall exact_lhs l -> exact_lhs (OBoolC c o k l).
(** two left-hand sides are written alike: they are the same, or such that Python equality means
    the same text *)
Definition written_alike (a b : obj) : Prop := a = b \/ (exact_expr a /\ exact_expr b).
(** whatever Python equality lets an OR of = conditions merge is written alike *)
Definition merges_exactly (c : obj) : Prop := forall cls k l a r b s,
  c = OBoolC cls OR k l -> In (OCond a EQ r) l -> In (OCond b EQ s) l -> py_eq a b = true -> written_alike a b.
