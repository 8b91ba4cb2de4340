(** Python objects as seen by the SDK: built-in values and instances of the SDK classes.

    Frozen dataclasses store typed payloads where their constructor guarantees the
    type (column.py:17, function.py:31, ...); constructors themselves (Exprs.v) take
    arbitrary [obj] arguments.
    Simplifications: objects are immutable values, i.e. mutating a list after handing it
    to a constructor is not represented; object identity is not represented (so NaN
    is never equal to itself). *)
From Verif Require Import PyBase DateTime.

(** * Floats: exact binary values. Value of [FFin neg m e] is (-1)^neg * m * 2^e. *)
Inductive flt := FNan | FInf (neg : bool) | FFin (neg : bool) (m : N) (e : Z).

(** exact comparison of +-m*2^e as integers after scaling by a common power of two *)
Definition flt_num (neg : bool) (m : N) (e base : Z) : Z :=
  (if neg then -1 else 1) * Z.of_N m * 2 ^ (e - base).
Definition fin_cmp (n1 : bool) (m1 : N) (e1 : Z) (n2 : bool) (m2 : N) (e2 : Z) : comparison :=
  let base := Z.min e1 e2 in Z.compare (flt_num n1 m1 e1 base) (flt_num n2 m2 e2 base).
Definition flt_eqb (a b : flt) : bool :=
  match a, b with
  | FInf x, FInf y => Bool.eqb x y
  | FFin n1 m1 e1, FFin n2 m2 e2 =>
      match fin_cmp n1 m1 e1 n2 m2 e2 with Eq => true | _ => false end
  | _, _ => false
  end.
Definition flt_of_Z (z : Z) : flt := FFin (z <? 0)%Z (Z.abs_N z) 0.
(** f <= 0.0 (False for nan) *)
Definition flt_le0 (f : flt) : bool :=
  match f with
  | FNan => false
  | FInf neg => neg
  | FFin neg m _ => neg || N.eqb m 0
  end.

(** The runtime oracle: what Python decides and this model does not compute. *)
Class PyRT := {
  uni_word : N -> bool;        (* \w on code points >= 128 *)
  uni_space : N -> bool;       (* \s / str.strip() on code points >= 128 *)
  uni_digit : N -> bool;       (* \d on code points >= 128 *)
  uni_upper : N -> str;        (* str.upper() of a code point >= 128 *)
  float_repr : flt -> str;     (* repr(f), str(f), f"{f}" *)
  float_of_text : str -> flt;  (* float(text) for text matching [0-9]+(\.[0-9]+)? *)
}.

(** \w : [a-zA-Z0-9_] and non-ASCII alphanumerics *)
Definition is_word {RT : PyRT} (c : N) : bool :=
  if (c <? 128)%N then is_alnum_ c else uni_word c.
(** \s on ASCII: space, \t\n\v\f\r; also \x1c-\x1f *)
Definition is_space {RT : PyRT} (c : N) : bool :=
  if (c <? 128)%N then in_range 9 13 c || N.eqb c 32 || in_range 28 31 c else uni_space c.

(** * Enumerations: conditions.py:21-34, 102-104, orderby.py:10-12 *)
Inductive op := GT | LT | GTE | LTE | EQ | NEQ | IN | NOT_IN | LIKE | NOT_LIKE
              | IS_NULL | IS_NOT_NULL | NOT.
Inductive boolop := AND | OR.
Inductive direction := ASC | DESC.

Definition op_eqb (a b : op) : bool :=
  match a, b with
  | GT, GT | LT, LT | GTE, GTE | LTE, LTE | EQ, EQ | NEQ, NEQ | IN, IN | NOT_IN, NOT_IN
  | LIKE, LIKE | NOT_LIKE, NOT_LIKE | IS_NULL, IS_NULL | IS_NOT_NULL, IS_NOT_NULL
  | NOT, NOT => true
  | _, _ => false
  end.
Definition boolop_eqb (a b : boolop) : bool :=
  match a, b with AND, AND | OR, OR => true | _, _ => false end.
Definition direction_eqb (a b : direction) : bool :=
  match a, b with ASC, ASC | DESC, DESC => true | _, _ => false end.

(** Op.value, conditions.py:21-34 *)
Definition op_value (o : op) : str :=
  match o with
  | GT => $">" | LT => $"<" | GTE => $">=" | LTE => $"<=" | EQ => $"=" | NEQ => $"!="
  | IN => $"IN" | NOT_IN => $"NOT IN" | LIKE => $"LIKE" | NOT_LIKE => $"NOT LIKE"
  | IS_NULL => $"IS NULL" | IS_NOT_NULL => $"IS NOT NULL" | NOT => $"!"
  end.
Definition boolop_value (o : boolop) : str := match o with AND => $"AND" | OR => $"OR" end.
Definition direction_value (d : direction) : str :=
  match d with ASC => $"ASC" | DESC => $"DESC" end.

(** is_unary, conditions.py:68-69 *)
Definition is_unary (o : op) : bool := match o with IS_NULL | IS_NOT_NULL => true | _ => false end.

(** * Plain records *)

(** schema.py:7-10 *)
Record schema_col := mkSC { sc_name : str; sc_required : bool }.
(** schema.py:33-49; the sets are lists, compared as sets. *)
Record data_model := mkDM { dm_columns : list schema_col; dm_time : schema_col }.
(** DataModel.contains, schema.py:25-26, 48-49 *)
Definition dm_contains (d : data_model) (name : str) : bool :=
  mem_str name (map sc_name (dm_columns d)).
(** DataModel.required_columns, schema.py:46 (a set: duplicates do not matter) *)
Definition dm_required (d : data_model) : list schema_col := filter sc_required (dm_columns d).

(** entity.py:15-20 *)
Record entity := mkEntity {
  e_name : str; e_alias : option str; e_sample : option flt; e_dm : option data_model }.
(** storage.py:15-19 *)
Record storage := mkStorage { st_name : str; st_sample : option flt; st_dm : option data_model }.
(** column.py:17, 36-39 *)
Record column := mkColumn {
  c_name : str; c_entity : option entity; c_sub : option str; c_key : option str }.
(** relationships.py:10, 30-32 *)
Record relationship := mkRel { r_lhs : entity; r_name : str; r_rhs : entity }.

(** An int-typed field may hold a bool (bool is a subclass of int). *)
Inductive pyint := PInt (z : Z) | PBool (b : bool).
Definition pyint_Z (i : pyint) : Z :=
  match i with PInt z => z | PBool b => if b then 1%Z else 0%Z end.

(** How a Sequence-typed argument was given. [KNone]: the argument was None.
    A str (bytes) argument is a Sequence of one-character strings (ints). *)
Inductive seqk := KNone | KList | KTuple | KStr | KBytes.
Definition seqk_eqb (a b : seqk) : bool :=
  match a, b with
  | KNone, KNone | KList, KList | KTuple, KTuple | KStr, KStr | KBytes, KBytes => true
  | _, _ => false
  end.

(** class of a boolean condition object: conditions.py:107, 134, 140 *)
Inductive bcls := BCond | BAnd | BOr.
Definition bcls_eqb (a b : bcls) : bool :=
  match a, b with BCond, BCond | BAnd, BAnd | BOr, BOr => true | _, _ => false end.

Inductive obj : Type :=
| ONone
| OBool (b : bool)
| OInt (z : Z)
| OFloat (f : flt)
| OStr (s : str)
| OBytes (b : list N)
| ODate (d : date)
| ODateTime (t : datetime)
| OList (l : list obj)
| OTuple (l : list obj)
| ODict (keys : list str) (vals : list obj)          (* str-keyed dictionaries only *)
| OOp (o : op)
| OBoolOp (o : boolop)
| ODir (d : direction)
| OColumn (c : column)
| OAliased (c : column) (alias : option str)
  (* CurriedFunction ([is_function]=false) or Function; initializers and parameters as
     kind + items; Function always has initializers None (function.py:111-115) *)
| OFunc (is_function : bool) (name : str) (ik : seqk) (inits : list obj)
        (pk : seqk) (params : list obj) (alias : option str)
| OIdent (name : str)
| OLambda (k : seqk) (ids : list str) (body : obj)
| OEntity (e : entity)
| OStorage (s : storage)
| ODataModel (d : data_model)
| ORel (r : relationship)
| OJoin (k : seqk) (rels : list relationship)
| OCond (lhs : obj) (o : op) (rhs : obj)
| OBoolC (cls : bcls) (o : boolop) (k : seqk) (conds : list obj)
| OOrderBy (exp : obj) (d : direction)
| OLimitBy (k : seqk) (cols : list column) (count : pyint)
| OLimit (n : pyint)
| OOffset (n : pyint)
| OGranularity (n : pyint)
| OTotals (b : bool)
| OExtrapolate (b : bool)
| OOther (id : N).                                   (* any other object *)

Section ObjInd.
  Variable P : obj -> Prop.
  Hypothesis Hnone : P ONone.
  Hypothesis Hbool : forall b, P (OBool b).
  Hypothesis Hint : forall z, P (OInt z).
  Hypothesis Hfloat : forall f, P (OFloat f).
  Hypothesis Hstr : forall s, P (OStr s).
  Hypothesis Hbytes : forall b, P (OBytes b).
  Hypothesis Hdate : forall d, P (ODate d).
  Hypothesis Hdatetime : forall t, P (ODateTime t).
  Hypothesis Hlist : forall l, Forall P l -> P (OList l).
  Hypothesis Htuple : forall l, Forall P l -> P (OTuple l).
  Hypothesis Hdict : forall ks vs, Forall P vs -> P (ODict ks vs).
  Hypothesis Hop : forall o, P (OOp o).
  Hypothesis Hboolop : forall o, P (OBoolOp o).
  Hypothesis Hdir : forall d, P (ODir d).
  Hypothesis Hcolumn : forall c, P (OColumn c).
  Hypothesis Haliased : forall c a, P (OAliased c a).
  Hypothesis Hfunc : forall f n ik il pk pl a, Forall P il -> Forall P pl ->
    P (OFunc f n ik il pk pl a).
  Hypothesis Hident : forall n, P (OIdent n).
  Hypothesis Hlambda : forall k ids b, P b -> P (OLambda k ids b).
  Hypothesis Hentity : forall e, P (OEntity e).
  Hypothesis Hstorage : forall s, P (OStorage s).
  Hypothesis Hdm : forall d, P (ODataModel d).
  Hypothesis Hrel : forall r, P (ORel r).
  Hypothesis Hjoin : forall k l, P (OJoin k l).
  Hypothesis Hcond : forall l o r, P l -> P r -> P (OCond l o r).
  Hypothesis Hboolc : forall c o k l, Forall P l -> P (OBoolC c o k l).
  Hypothesis Horderby : forall e d, P e -> P (OOrderBy e d).
  Hypothesis Hlimitby : forall k l n, P (OLimitBy k l n).
  Hypothesis Hlimit : forall n, P (OLimit n).
  Hypothesis Hoffset : forall n, P (OOffset n).
  Hypothesis Hgran : forall n, P (OGranularity n).
  Hypothesis Htotals : forall b, P (OTotals b).
  Hypothesis Hextra : forall b, P (OExtrapolate b).
  Hypothesis Hother : forall i, P (OOther i).

  Fixpoint obj_ind' (o : obj) : P o :=
    let all := fix all (l : list obj) : Forall P l :=
      match l with [] => Forall_nil P | x :: l' => Forall_cons x (obj_ind' x) (all l') end in
    match o with
    | ONone => Hnone | OBool b => Hbool b | OInt z => Hint z | OFloat f => Hfloat f
    | OStr s => Hstr s | OBytes b => Hbytes b | ODate d => Hdate d
    | ODateTime t => Hdatetime t
    | OList l => Hlist l (all l) | OTuple l => Htuple l (all l)
    | ODict ks vs => Hdict ks vs (all vs)
    | OOp o => Hop o | OBoolOp o => Hboolop o | ODir d => Hdir d
    | OColumn c => Hcolumn c | OAliased c a => Haliased c a
    | OFunc f n ik il pk pl a => Hfunc f n ik il pk pl a (all il) (all pl)
    | OIdent n => Hident n | OLambda k ids b => Hlambda k ids b (obj_ind' b)
    | OEntity e => Hentity e | OStorage s => Hstorage s | ODataModel d => Hdm d
    | ORel r => Hrel r | OJoin k l => Hjoin k l
    | OCond l o r => Hcond l o r (obj_ind' l) (obj_ind' r)
    | OBoolC c o k l => Hboolc c o k l (all l)
    | OOrderBy e d => Horderby e d (obj_ind' e)
    | OLimitBy k l n => Hlimitby k l n | OLimit n => Hlimit n | OOffset n => Hoffset n
    | OGranularity n => Hgran n | OTotals b => Htotals b | OExtrapolate b => Hextra b
    | OOther i => Hother i
    end.
End ObjInd.

(** * isinstance tests *)

(** isinstance(v, tuple(Scalar)), expressions.py:32-41, 61-65 *)
Definition is_literal (o : obj) : bool :=
  match o with
  | ONone | OBool _ | OInt _ | OFloat _ | OStr _ | OBytes _ | ODate _ | ODateTime _ => true
  | _ => false
  end.

(** isinstance(v, Expression): all subclasses of Expression in the package.
    (Query, Timeseries, Formula, DataModel are not Expressions.) *)
Definition is_expression (o : obj) : bool :=
  match o with
  | OColumn _ | OAliased _ _ | OFunc _ _ _ _ _ _ _ | OIdent _ | OLambda _ _ _ | OEntity _
  | OStorage _ | ORel _ | OJoin _ _ | OCond _ _ _ | OBoolC _ _ _ _ | OOrderBy _ _
  | OLimitBy _ _ _ | OLimit _ | OOffset _ | OGranularity _ | OTotals _ | OExtrapolate _ => true
  | _ => false
  end.

(** isinstance(v, (Column, CurriedFunction, Function)) *)
Definition is_col_or_func (o : obj) : bool :=
  match o with OColumn _ | OFunc _ _ _ _ _ _ _ => true | _ => false end.
(** isinstance(v, (Column, CurriedFunction, Function, Identifier, Lambda)) *)
Definition is_param_expr (o : obj) : bool :=
  match o with
  | OColumn _ | OFunc _ _ _ _ _ _ _ | OIdent _ | OLambda _ _ _ => true | _ => false end.
(** isinstance(v, (Condition, BooleanCondition)) *)
Definition is_condition_obj (o : obj) : bool :=
  match o with OCond _ _ _ | OBoolC _ _ _ _ => true | _ => false end.

(** isinstance(v, Sequence) together with its items *)
Definition as_seq (o : obj) : option (seqk * list obj) :=
  match o with
  | OList l => Some (KList, l)
  | OTuple l => Some (KTuple, l)
  | OStr s => Some (KStr, map (fun c => OStr [c]) s)
  | OBytes b => Some (KBytes, map (fun n => OInt (Z.of_N n)) b)
  | _ => None
  end.

(** * Python equality (==) *)

Definition num_of (o : obj) : option (Z + flt) :=
  match o with
  | OBool b => Some (inl (if b then 1%Z else 0%Z))
  | OInt z => Some (inl z)
  | OFloat f => Some (inr f)
  | _ => None
  end.
Definition num_eqb (a b : Z + flt) : bool :=
  match a, b with
  | inl x, inl y => Z.eqb x y
  | inl x, inr f | inr f, inl x => flt_eqb (flt_of_Z x) f
  | inr f, inr g => flt_eqb f g
  end.

(** set(columns) == set(columns) of schema columns *)
Definition sc_eqb (a b : schema_col) : bool :=
  str_eqb (sc_name a) (sc_name b) && Bool.eqb (sc_required a) (sc_required b).
Definition sc_incl (a b : list schema_col) : bool :=
  forallb (fun x => existsb (sc_eqb x) b) a.
Definition dm_eqb (a b : data_model) : bool :=
  sc_incl (dm_columns a) (dm_columns b) && sc_incl (dm_columns b) (dm_columns a)
  && sc_eqb (dm_time a) (dm_time b).
Definition entity_eqb (a b : entity) : bool :=
  str_eqb (e_name a) (e_name b) && option_eqb str_eqb (e_alias a) (e_alias b)
  && option_eqb flt_eqb (e_sample a) (e_sample b) && option_eqb dm_eqb (e_dm a) (e_dm b).
Definition storage_eqb (a b : storage) : bool :=
  str_eqb (st_name a) (st_name b) && option_eqb flt_eqb (st_sample a) (st_sample b)
  && option_eqb dm_eqb (st_dm a) (st_dm b).
Definition column_eqb (a b : column) : bool :=
  str_eqb (c_name a) (c_name b) && option_eqb entity_eqb (c_entity a) (c_entity b)
  && option_eqb str_eqb (c_sub a) (c_sub b) && option_eqb str_eqb (c_key a) (c_key b).
Definition rel_eqb (a b : relationship) : bool :=
  entity_eqb (r_lhs a) (r_lhs b) && str_eqb (r_name a) (r_name b)
  && entity_eqb (r_rhs a) (r_rhs b).
Fixpoint list_eqb {A} (f : A -> A -> bool) (a b : list A) : bool :=
  match a, b with
  | [], [] => true
  | x :: a', y :: b' => f x y && list_eqb f a' b'
  | _, _ => false
  end.

(** d[k], if there is such a key; the keys and values of a dictionary are in two lists *)
Fixpoint dict_item (k : str) (ks : list str) (vs : list obj) : option obj :=
  match ks, vs with
  | k' :: ks', v :: vs' => if str_eqb k' k then Some v else dict_item k ks' vs'
  | _, _ => None
  end.
(** the keys of the first dictionary are keys of the second *)
Definition dict_within (ks : list str) (vs : list obj) (ks' : list str) (vs' : list obj) : bool :=
  forallb (fun k => match dict_item k ks vs, dict_item k ks' vs' with Some _, None => false | _, _ => true end) ks.

(** a == b. Dataclass equality requires the same class and equal fields.
    Function objects: CurriedFunction.__eq__ (function.py:99-108) ignores the alias and
    accepts any CurriedFunction; the dataclass decorator generates a new __eq__ for the
    subclass Function (function.py:111), which compares all fields including the alias
    and returns NotImplemented unless both are Functions, so a Function and a
    CurriedFunction are compared by CurriedFunction.__eq__.
    Dictionaries are equal if they have the same keys, in any order, and equal values. *)
Fixpoint py_eq (a b : obj) {struct a} : bool :=
  let eql := fix eql (l1 l2 : list obj) {struct l1} : bool :=
    match l1, l2 with
    | [], [] => true
    | x :: l1', y :: l2' => py_eq x y && eql l1' l2'
    | _, _ => false
    end in
  let eqd := fix eqd (seen ks : list str) (vs : list obj) (ks' : list str) (vs' : list obj) {struct vs} : bool :=
    match ks, vs with
    | k :: ks1, v :: vs1 =>
        (mem_str k seen || match dict_item k ks' vs' with Some w => py_eq v w | None => false end)
        && eqd (k :: seen) ks1 vs1 ks' vs'
    | _, _ => true
    end in
  match a, b with
  | ONone, ONone => true
  | OStr s, OStr t => str_eqb s t
  | OBytes s, OBytes t => str_eqb s t
  | ODate d, ODate e => date_eqb d e
  | ODateTime d, ODateTime e => datetime_eqb d e
  | OList l, OList m => eql l m
  | OTuple l, OTuple m => eql l m
  | ODict ks vs, ODict ks' vs' => Nat.eqb (List.length ks) (List.length ks') && dict_within ks' vs' ks vs && eqd [] ks vs ks' vs'
  | OOp o, OOp o' => op_eqb o o'
  | OBoolOp o, OBoolOp o' => boolop_eqb o o'
  | ODir d, ODir d' => direction_eqb d d'
  | OColumn c, OColumn c' => column_eqb c c'
  | OAliased c al, OAliased c' al' => column_eqb c c' && option_eqb str_eqb al al'
  | OFunc f n ik il pk pl al, OFunc f' n' ik' il' pk' pl' al' =>
      str_eqb n n' && seqk_eqb ik ik' && eql il il' && seqk_eqb pk pk' && eql pl pl'
      && (if f && f' then option_eqb str_eqb al al' else true)
  | OIdent n, OIdent n' => str_eqb n n'
  | OLambda k ids b, OLambda k' ids' b' =>
      seqk_eqb k k' && list_eqb str_eqb ids ids' && py_eq b b'
  | OEntity e, OEntity e' => entity_eqb e e'
  | OStorage e, OStorage e' => storage_eqb e e'
  | ODataModel d, ODataModel d' => dm_eqb d d'
  | ORel r, ORel r' => rel_eqb r r'
  | OJoin k l, OJoin k' l' => seqk_eqb k k' && list_eqb rel_eqb l l'
  | OCond l o r, OCond l' o' r' => py_eq l l' && op_eqb o o' && py_eq r r'
  | OBoolC c o k l, OBoolC c' o' k' l' =>
      bcls_eqb c c' && boolop_eqb o o' && seqk_eqb k k' && eql l l'
  | OOrderBy e d, OOrderBy e' d' => py_eq e e' && direction_eqb d d'
  | OLimitBy k l n, OLimitBy k' l' n' =>
      seqk_eqb k k' && list_eqb column_eqb l l' && Z.eqb (pyint_Z n) (pyint_Z n')
  | OLimit n, OLimit n' | OOffset n, OOffset n' | OGranularity n, OGranularity n' =>
      Z.eqb (pyint_Z n) (pyint_Z n')
  | OTotals x, OTotals y | OExtrapolate x, OExtrapolate y => Bool.eqb x y
  | OOther i, OOther j => N.eqb i j
  | _, _ =>
      match num_of a, num_of b with
      | Some x, Some y => num_eqb x y
      | _, _ => false
      end
  end.
