(** hash() of the objects of the SDK *)
From Verif Require Import PyBase DateTime Objects.

(** hash() of the values that are no SDK objects, and how the hashes of the items of a tuple
    are combined: left open. Python 3.8-3.12 hash a frozen dataclass as the tuple of its fields,
    e.g. entity.py:15. *)
Class PyHash := { prim_hash : obj -> Z; tuple_hash : list Z -> Z }.

Section Hash.
Context {HA : PyHash}.

(** fields of the types str, int and float, and optional ones, e.g. column.py:36-39, expressions.py:91,
    entity.py:17-19 *)
Definition str_hash (s : str) : Z := prim_hash (OStr s).
Definition opt_hash {A} (f : A -> Z) (x : option A) : Z := match x with Some a => f a | None => prim_hash ONone end.
Definition int_hash (i : pyint) : Z := prim_hash (match i with PInt z => OInt z | PBool b => OBool b end).
Definition flt_hash (f : flt) : Z := prim_hash (OFloat f).
(** Entity: name, alias, sample; the data_model has hash=False, entity.py:15-20 *)
Definition entity_hash (e : entity) : Z :=
  tuple_hash [str_hash (e_name e); opt_hash str_hash (e_alias e); opt_hash flt_hash (e_sample e)].
(** Storage: name, sample; the data_model has hash=False, storage.py:15-19 *)
Definition storage_hash (s : storage) : Z :=
  tuple_hash [str_hash (st_name s); opt_hash flt_hash (st_sample s)].
(** Column: name, entity, subscriptable, key, column.py:17-28 *)
Definition column_hash (c : column) : Z :=
  tuple_hash [str_hash (c_name c); opt_hash entity_hash (c_entity c); opt_hash str_hash (c_sub c); opt_hash str_hash (c_key c)].
(** Relationship: lhs, name, rhs, relationships.py:10-24 *)
Definition rel_hash (r : relationship) : Z :=
  tuple_hash [entity_hash (r_lhs r); str_hash (r_name r); entity_hash (r_rhs r)].
(** a field that holds a sequence, with the hashes of its items: a list has no hash.
    Simplified: a str or bytes object is hashed by its items. *)
Definition seq_hash (k : seqk) (items : result (list Z)) : result Z :=
  match k with
  | KNone => Ok (prim_hash ONone)
  | KList => Raise TypeError
  | _ => let! hs := items in Ok (tuple_hash hs)
  end.

(** hash(o): the __hash__ of a frozen dataclass is the hash of the tuple of its fields, in order,
    without the class; function.py:31, 111 (also the alias, which CurriedFunction.__eq__ ignores),
    function.py:125, 134, conditions.py:72, 107, 134, 140, orderby.py:15, 45, expressions.py:90-123,
    relationships.py:50, aliased_expression.py:8. A DataModel holds a set, schema.py:13-33, and
    sets, lists and dictionaries raise TypeError. *)
Fixpoint py_hash (o : obj) : result Z :=
  let all := fix all (l : list obj) : result (list Z) :=
    match l with
    | [] => Ok []
    | x :: l' => let! h := py_hash x in let! hs := all l' in Ok (h :: hs)
    end in
  match o with
  | OList _ | ODict _ _ | ODataModel _ => Raise TypeError
  | OTuple l => let! hs := all l in Ok (tuple_hash hs)
  | OColumn c => Ok (column_hash c)
  | OAliased c a => Ok (tuple_hash [column_hash c; opt_hash str_hash a])
  | OFunc _ n ik il pk pl a =>
      let! i := seq_hash ik (all il) in
      let! p := seq_hash pk (all pl) in
      Ok (tuple_hash [str_hash n; i; p; opt_hash str_hash a])
  | OIdent n => Ok (tuple_hash [str_hash n])
  | OLambda k ids b =>
      let! i := seq_hash k (Ok (map str_hash ids)) in
      let! h := py_hash b in
      Ok (tuple_hash [i; h])
  | OEntity e => Ok (entity_hash e)
  | OStorage s => Ok (storage_hash s)
  | ORel r => Ok (rel_hash r)
  | OJoin k l => let! h := seq_hash k (Ok (map rel_hash l)) in Ok (tuple_hash [h])
  | OCond l op r =>
      let! x := py_hash l in
      let! y := py_hash r in
      Ok (tuple_hash [x; prim_hash (OOp op); y])
  | OBoolC _ op k l => let! h := seq_hash k (all l) in Ok (tuple_hash [prim_hash (OBoolOp op); h])
  | OOrderBy e d => let! h := py_hash e in Ok (tuple_hash [h; prim_hash (ODir d)])
  | OLimitBy k l n => let! h := seq_hash k (Ok (map column_hash l)) in Ok (tuple_hash [h; int_hash n])
  | OLimit n | OOffset n | OGranularity n => Ok (tuple_hash [int_hash n])
  | OTotals b | OExtrapolate b => Ok (tuple_hash [prim_hash (OBool b)])
  | _ => Ok (prim_hash o)
  end.
End Hash.
