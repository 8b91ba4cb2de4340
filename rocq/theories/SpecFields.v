(** Specification for C93: the classes of the SDK and the attributes of their objects. *)
From Verif Require Import PyBase DateTime Objects Exprs Metrics.

Inductive sdk_class :=
| CLimit | COffset | CGranularity | CTotals | CExtrapolate | CEntity | CStorage | CColumn | CAliased
| CCurried | CFunction | CIdentifier | CLambda | CCondition | CBoolean | CAnd | COr | COrderBy | CLimitBy
| CRelationship | CJoin.

Section Fields.
Context {RT : PyRT}.
(** a call of the constructor of a class, with all arguments of the class in order *)
Definition construct (c : sdk_class) (args : list obj) : result obj :=
  match c, args with
  | CLimit, [n] => mk_limit n
  | COffset, [n] => mk_offset n
  | CGranularity, [n] => mk_granularity n
  | CTotals, [b] => mk_totals b
  | CExtrapolate, [b] => mk_extrapolate b
  | CEntity, [name; alias; sample; model] => mk_entity name alias sample model
  | CStorage, [name; sample; model] => mk_storage name sample model
  | CColumn, [name; entity] => mk_column name entity
  | CAliased, [exp; alias] => mk_aliased exp alias
  | CCurried, [function; initializers; parameters; alias] => mk_curried function initializers parameters alias
  | CFunction, [function; parameters; alias] => mk_function function parameters alias
  | CIdentifier, [name] => mk_identifier name
  | CLambda, [identifiers; transformation] => mk_lambda identifiers transformation
  | CCondition, [lhs; o; rhs] => mk_condition lhs o rhs
  | CBoolean, [o; conditions] => mk_boolean_condition o conditions
  | CAnd, [conditions] => mk_and conditions
  | COr, [conditions] => mk_or conditions
  | COrderBy, [exp; dir] => mk_orderby exp dir
  | CLimitBy, [columns; count] => mk_limitby columns count
  | CRelationship, [lhs; name; rhs] => mk_relationship lhs name rhs
  | CJoin, [relationships] => mk_join relationships
  | _, _ => Raise TypeError
  end.
End Fields.

(** attributes that can be None *)
Definition or_none {A} (f : A -> obj) (x : option A) : obj := match x with Some a => f a | None => ONone end.
Definition number (i : pyint) : obj := match i with PInt z => OInt z | PBool b => OBool b end.
(** the sequence with these items, of the class that was given; the items of a str are strs of
    one character, those of bytes are ints *)
Definition sequence_with (k : seqk) (l : list obj) : obj :=
  match k with
  | KNone => ONone
  | KList => OList l
  | KTuple => OTuple l
  | KStr => OStr (List.concat (map (fun o => match o with OStr s => s | _ => [] end) l))
  | KBytes => OBytes (map (fun o => match o with OInt z => Z.to_N z | _ => 0%N end) l)
  end.
(** the class of an object and its attributes; for Column, name and entity (subscriptable and key
    are computed) *)
Definition attributes (o : obj) : option (sdk_class * list obj) :=
  match o with
  | OLimit n => Some (CLimit, [number n])
  | OOffset n => Some (COffset, [number n])
  | OGranularity n => Some (CGranularity, [number n])
  | OTotals b => Some (CTotals, [OBool b])
  | OExtrapolate b => Some (CExtrapolate, [OBool b])
  | OEntity e => Some (CEntity, [OStr (e_name e); or_none OStr (e_alias e); or_none OFloat (e_sample e); or_none ODataModel (e_dm e)])
  | OStorage s => Some (CStorage, [OStr (st_name s); or_none OFloat (st_sample s); or_none ODataModel (st_dm s)])
  | OColumn c => Some (CColumn, [OStr (c_name c); or_none OEntity (c_entity c)])
  | OAliased c a => Some (CAliased, [OColumn c; or_none OStr a])
  | OFunc false n ik il pk pl a => Some (CCurried, [OStr n; sequence_with ik il; sequence_with pk pl; or_none OStr a])
  | OFunc true n _ _ pk pl a => Some (CFunction, [OStr n; sequence_with pk pl; or_none OStr a])
  | OIdent n => Some (CIdentifier, [OStr n])
  | OLambda k l b => Some (CLambda, [sequence_with k (map OStr l); b])
  | OCond l o r => Some (CCondition, [l; OOp o; r])
  | OBoolC BCond o k l => Some (CBoolean, [OBoolOp o; sequence_with k l])
  | OBoolC BAnd o k l => Some (CAnd, [sequence_with k l])
  | OBoolC BOr o k l => Some (COr, [sequence_with k l])
  | OOrderBy e d => Some (COrderBy, [e; ODir d])
  | OLimitBy k cs n => Some (CLimitBy, [sequence_with k (map OColumn cs); number n])
  | ORel r => Some (CRelationship, [OEntity (r_lhs r); OStr (r_name r); OEntity (r_rhs r)])
  | OJoin k rs => Some (CJoin, [sequence_with k (map ORel rs)])
  | _ => None
  end.
