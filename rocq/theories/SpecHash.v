(** What it means for objects to be usable in sets and as dictionary keys (C98). *)
From Verif Require Import PyBase DateTime Objects Hash SpecOccurs.

(** the built-in values that hold nothing else *)
Definition builtin_value (o : obj) : Prop :=
  match o with
  | ONone | OBool _ | OInt _ | OFloat _ | OStr _ | OBytes _ | ODate _ | ODateTime _
  | OOp _ | OBoolOp _ | ODir _ | OOther _ => True
  | _ => False
  end.

(** Python's own promise: built-in values that are equal have equal hashes *)
Definition good_hash (HA : PyHash) : Prop :=
  forall x y, builtin_value x -> builtin_value y -> py_eq x y = true -> prim_hash x = prim_hash y.

(** the value of a field that holds a sequence *)
Definition held (k : seqk) (l : list obj) : obj :=
  match k with KNone => ONone | KList => OList l | _ => OTuple l end.

(** [part x o]: [x] is a field, or an item of the tuple, that hash(o) looks at *)
Inductive part : obj -> obj -> Prop :=
| P_item x l : In x l -> part x (OTuple l)
| P_inits f n ik il pk pl a : part (held ik il) (OFunc f n ik il pk pl a)
| P_params f n ik il pk pl a : part (held pk pl) (OFunc f n ik il pk pl a)
| P_ids k ids b : part (held k (map OStr ids)) (OLambda k ids b)
| P_body k ids b : part b (OLambda k ids b)
| P_rels k l : part (held k (map ORel l)) (OJoin k l)
| P_lhs l o r : part l (OCond l o r)
| P_rhs l o r : part r (OCond l o r)
| P_conds c o k l : part (held k l) (OBoolC c o k l)
| P_exp e d : part e (OOrderBy e d)
| P_cols k l n : part (held k (map OColumn l)) (OLimitBy k l n).

(** lists, dictionaries and data models have no hash, and neither has what holds them *)
Inductive holds_mutable : obj -> Prop :=
| M_list l : holds_mutable (OList l)
| M_dict ks vs : holds_mutable (ODict ks vs)
| M_model d : holds_mutable (ODataModel d)
| M_part x o : part x o -> holds_mutable x -> holds_mutable o.

(** [x in set(l)] looks only at members with the hash of [x]; [x in l] looks at all of them *)
Definition in_set {HA : PyHash} (x : obj) (l : list obj) : Prop :=
  exists y h, In y l /\ py_hash y = Ok h /\ py_hash x = Ok h /\ py_eq y x = true.
Definition in_list (x : obj) (l : list obj) : Prop := exists y, In y l /\ py_eq y x = true.

(** no CurriedFunction (nor a dictionary) at any depth; objects of the class Function are fine *)
Definition only_functions (o : obj) : Prop :=
  forall x, occurs x o ->
    match x with OFunc f _ _ _ _ _ _ => f = true | ODict _ _ => False | _ => True end.
