(** Constructors of the SDK expression classes, on arbitrary arguments.
    A constructor is [C(args)]: store the arguments, then [__post_init__] -> [validate]
    (expressions.py:14-20). [mk_x args] models it: [Ok o] is the constructed object.
    Error messages are not modelled. Simplification: Sequence types other than list,
    tuple, str and bytes (e.g. range) are not represented. *)
From Verif Require Import PyBase Regex DateTime Objects.

Section Exprs.
Context {RT : PyRT}.

(** * Regular expressions *)

(** [[a-zA-Z0-9_\.\+\*\/:\-\[\]\(\)\@]], expressions.py:23 *)
Definition alias_char (c : N) : bool := is_alnum_ c || one_of ".+*/:-[]()@" c.
(** ALIAS_RE, expressions.py:23 *)
Definition alias_re : re := RSeq (RStar (RClass alias_char)) REnd.

(** column_name_re, column.py:14:
    letter or underscore, then (\w or . : / @) repeated, then optionally a bracketed
    text without brackets, then $ *)
Definition column_name_re : re :=
  RSeq (RClass (fun c => is_alpha c || N.eqb c 95))
  (RSeq (RStar (RAlt (RClass is_word) (RAlt (RChar 46) (RAlt (RChar 58)
               (RAlt (RChar 47) (RChar 64))))))
  (RSeq (ROpt (RSeq (RChar LBR) (RSeq (RStar (RClass (fun c => negb (one_of "[]" c))))
                                      (RChar RBR))))
        REnd)).

(** function_name_re, function.py:28:
    letter, then one or more of: \w, parentheses, . , + : single or double quote,
    space, brackets, minus; then $ *)
Definition function_name_re : re :=
  RSeq (RClass is_alpha)
  (RSeq (RPlus (RAlt (RClass is_word)
               (RAlt (RClass (fun c => one_of "().,+':" c || N.eqb c DQ))
               (RAlt (RChar 32) (RAlt (RChar LBR) (RAlt (RChar RBR) (RChar 45)))))))
        REnd).

(** identifier_re, function.py:118: [^[a-zA-Z_][a-zA-Z0-9_]*$] *)
Definition identifier_re : re :=
  RSeq (RClass (fun c => is_alpha c || N.eqb c 95)) (RSeq (RStar (RClass is_alnum_)) REnd).

(** entity_name_re / storage_name_re, entity.py:8, storage.py:8: [^[a-zA-Z_]+$] *)
Definition word_name_re : re :=
  RSeq (RPlus (RClass (fun c => is_alpha c || N.eqb c 95))) REnd.

(** * expressions.py *)

(** is_scalar, expressions.py:68-76 (visited left to right, short-circuiting; both ways
    of failing raise the same exception) *)
Fixpoint is_scalar (o : obj) : result bool :=
  let all := fix all (l : list obj) : result bool :=
    match l with
    | [] => Ok true
    | v :: l' =>
        let! b := is_scalar v in
        if b || is_expression v then all l' else Raise InvalidExpressionError
    end in
  if is_literal o then Ok true
  else match o with
       | OList l => all l
       | OTuple l => all l
       | _ => Ok false
       end.

(** a value of type int (bool is a subclass) *)
Definition as_int (o : obj) : option pyint :=
  match o with OInt z => Some (PInt z) | OBool b => Some (PBool b) | _ => None end.

(** _validate_int_literal, expressions.py:79-87 *)
Definition validate_int_literal (z : Z) (minn maxn : option Z) : result unit :=
  if match minn with Some m => (z <? m)%Z | None => false end
  then Raise InvalidExpressionError
  else if match maxn with Some m => (z >? m)%Z | None => false end
  then Raise InvalidExpressionError
  else Ok tt.

Definition int_clause (o : obj) (minn maxn : option Z) (k : pyint -> obj) : result obj :=
  match as_int o with
  | None => Raise InvalidExpressionError
  | Some i => validate_int_literal (pyint_Z i) minn maxn ;! Ok (k i)
  end.

(** Limit / Offset / Granularity, expressions.py:90-111 *)
Definition mk_limit (o : obj) : result obj := int_clause o (Some 1%Z) (Some 10000%Z) OLimit.
Definition mk_offset (o : obj) : result obj := int_clause o (Some 0%Z) None OOffset.
Definition mk_granularity (o : obj) : result obj := int_clause o (Some 1%Z) None OGranularity.

(** Totals / Extrapolate, expressions.py:114-129 *)
Definition mk_totals (o : obj) : result obj :=
  match o with OBool b => Ok (OTotals b) | _ => Raise InvalidExpressionError end.
Definition mk_extrapolate (o : obj) : result obj :=
  match o with OBool b => Ok (OExtrapolate b) | _ => Raise InvalidExpressionError end.

(** * entity.py, storage.py *)

(** the sample checks, entity.py:27-31, storage.py:24-28 *)
Definition check_sample (sample : obj) (e : exn) : result (option flt) :=
  match sample with
  | ONone => Ok None
  | OFloat f => if flt_le0 f then Raise e else Ok (Some f)
  | _ => Raise e
  end.
Definition check_dm (dm : obj) (e : exn) : result (option data_model) :=
  match dm with
  | ONone => Ok None
  | ODataModel d => Ok (Some d)
  | _ => Raise e
  end.
Definition check_word (name : obj) (e : exn) : result str :=
  match name with
  | OStr s => if re_matches word_name_re s then Ok s else Raise e
  | _ => Raise e
  end.

(** Entity.validate, entity.py:22-39 *)
Definition mk_entity (name alias sample dm : obj) : result obj :=
  let! n := check_word name InvalidEntityError in
  let! s := check_sample sample InvalidEntityError in
  let! a := match alias with
            | ONone => Ok None
            | OStr [] => Raise InvalidEntityError
            | OStr a => Ok (Some a)
            | _ => Raise InvalidEntityError
            end in
  let! d := check_dm dm InvalidEntityError in
  Ok (OEntity (mkEntity n a s d)).

(** Storage.validate, storage.py:20-32 *)
Definition mk_storage (name sample dm : obj) : result obj :=
  let! n := check_word name InvalidStorageError in
  let! s := check_sample sample InvalidStorageError in
  let! d := check_dm dm InvalidStorageError in
  Ok (OStorage (mkStorage n s d)).

(** * column.py *)

(** Column.validate_data_model, column.py:67-75; [sub] is self.subscriptable at the time
    of the call ([if self.subscriptable]: None and "" are falsy). *)
Definition validate_data_model (dm : option data_model) (name : str) (sub : option str)
  : result unit :=
  match dm with
  | None => Ok tt
  | Some d =>
      let to_check := match sub with Some (c :: s) => c :: s | _ => name end in
      if dm_contains d to_check then Ok tt else Raise InvalidColumnError
  end.

(** the entity part of Column.validate, column.py:49-57, for an Entity argument *)
Definition column_entity_check (name : str) (sub : option str) (e : entity) : result unit :=
  match e_alias e with
  | None | Some [] => Raise InvalidColumnError
  | Some _ => validate_data_model (e_dm e) name sub
  end.

(** column.py:61-65: name.split("[", 1) and key.strip("]") *)
Definition column_parts (name : str) : option str * option str :=
  match split_once LBR name with
  | Some (sub, key) => (Some sub, Some (strip (N.eqb RBR) key))
  | None => (None, None)
  end.

(** Column(name, entity), column.py:36-65. During construction self.subscriptable is
    still None when the data model is checked. *)
Definition mk_column (name ent : obj) : result obj :=
  match name with
  | OStr n =>
      if re_matches column_name_re n then
        let! e := match ent with
                  | ONone => Ok None
                  | OEntity e => column_entity_check n None e ;! Ok (Some e)
                  | _ => Raise InvalidColumnError
                  end in
        let (sub, key) := column_parts n in
        Ok (OColumn (mkColumn n e sub key))
      else Raise InvalidColumnError
  | _ => Raise InvalidColumnError
  end.

(** column.validate() on an already constructed column: self.subscriptable is set now *)
Definition column_validate (c : column) : result unit :=
  if re_matches column_name_re (c_name c) then
    match c_entity c with
    | None => Ok tt
    | Some e => column_entity_check (c_name c) (c_sub c) e
    end
  else Raise InvalidColumnError.

(** * aliased_expression.py, function.py *)

(** the alias checks: aliased_expression.py:32-40, function.py:74-82 *)
Definition check_alias (alias : obj) (e : exn) : result (option str) :=
  match alias with
  | ONone => Ok None
  | OStr [] => Raise e
  | OStr a => if re_matches alias_re a then Ok (Some a) else Raise e
  | _ => Raise e
  end.

(** AliasedExpression, aliased_expression.py:26-40 *)
Definition mk_aliased (exp alias : obj) : result obj :=
  match exp with
  | OColumn c => let! a := check_alias alias InvalidExpressionError in Ok (OAliased c a)
  | _ => Raise InvalidExpressionError
  end.

(** isinstance(param, Column) or is_literal(param), function.py:66-69 *)
Definition init_ok (o : obj) : bool :=
  match o with OColumn _ => true | _ => is_literal o end.

(** function.py:61-72 *)
Definition check_inits (inits : obj) : result (seqk * list obj) :=
  match inits with
  | ONone => Ok (KNone, [])
  | _ => match as_seq inits with
         | None => Raise InvalidFunctionError
         | Some (k, l) => if forallb init_ok l then Ok (k, l) else Raise InvalidFunctionError
         end
  end.

(** the loop of function.py:89-97 *)
Fixpoint check_param_items (l : list obj) : result unit :=
  match l with
  | [] => Ok tt
  | p :: l' =>
      if is_param_expr p then check_param_items l'
      else let! b := is_scalar p in
           if b then check_param_items l' else Raise InvalidFunctionError
  end.
Definition check_params (params : obj) : result (seqk * list obj) :=
  match params with
  | ONone => Ok (KNone, [])
  | _ => match as_seq params with
         | None => Raise InvalidFunctionError
         | Some (k, l) => check_param_items l ;! Ok (k, l)
         end
  end.

(** function.py:50-59 *)
Definition check_function_name (f : obj) : result str :=
  match f with
  | OStr [] => Raise InvalidFunctionError
  | OStr n => if re_matches function_name_re n then Ok n else Raise InvalidFunctionError
  | _ => Raise InvalidFunctionError
  end.

(** CurriedFunction, function.py:31-97; [is_function] = true is the subclass Function,
    whose initializers are fixed to None (function.py:111-115) *)
Definition mk_func (is_function : bool) (f inits params alias : obj) : result obj :=
  let! n := check_function_name f in
  let! (ik, il) := check_inits inits in
  let! a := check_alias alias InvalidFunctionError in
  let! (pk, pl) := check_params params in
  Ok (OFunc is_function n ik il pk pl a).
Definition mk_curried (f inits params alias : obj) : result obj :=
  mk_func false f inits params alias.
Definition mk_function (f params alias : obj) : result obj :=
  mk_func true f ONone params alias.

(** Identifier, function.py:125-131 *)
Definition mk_identifier (name : obj) : result obj :=
  match name with
  | OStr n => if re_matches identifier_re n then Ok (OIdent n) else Raise InvalidLambdaError
  | _ => Raise InvalidLambdaError
  end.

(** the loop of Lambda.validate, function.py:142-144 *)
Fixpoint check_idents (l : list obj) : result (list str) :=
  match l with
  | [] => Ok []
  | OStr i :: l' =>
      if re_matches identifier_re i
      then let! r := check_idents l' in Ok (i :: r)
      else Raise InvalidLambdaError
  | _ => Raise InvalidLambdaError
  end.
(** isinstance(x, (tuple, list)) with its items *)
Definition as_list_or_tuple (o : obj) : option (seqk * list obj) :=
  match o with OList l => Some (KList, l) | OTuple l => Some (KTuple, l) | _ => None end.
Definition is_func (o : obj) : bool := match o with OFunc _ _ _ _ _ _ _ => true | _ => false end.
(** Lambda, function.py:134-146 *)
Definition mk_lambda (ids body : obj) : result obj :=
  match as_list_or_tuple ids with
  | None => Raise InvalidLambdaError
  | Some (k, l) =>
      let! names := check_idents l in
      if is_func body then Ok (OLambda k names body) else Raise InvalidLambdaError
  end.

(** * conditions.py *)

(** Condition.validate, conditions.py:78-99, on stored fields *)
Definition check_condition (lhs : obj) (o : op) (rhs : obj) : result unit :=
  if negb (is_col_or_func lhs) then Raise InvalidConditionError
  else if is_unary o && negb (match rhs with ONone => true | _ => false end)
  then Raise InvalidConditionError
  else if is_col_or_func rhs then Ok tt
  else let! b := is_scalar rhs in if b then Ok tt else Raise InvalidConditionError.
Definition mk_condition (lhs o rhs : obj) : result obj :=
  if negb (is_col_or_func lhs) then Raise InvalidConditionError
  else match o with
       | OOp o => check_condition lhs o rhs ;! Ok (OCond lhs o rhs)
       | _ => Raise InvalidConditionError
       end.

(** BooleanCondition.validate, conditions.py:112-131 *)
Definition check_bool_items (l : list obj) : result unit :=
  if Nat.ltb (List.length l) 2 then Raise InvalidConditionError
  else assert_ (forallb is_condition_obj l) InvalidConditionError.
Definition mk_boolean (cls : bcls) (o conds : obj) : result obj :=
  match o with
  | OBoolOp o =>
      match as_list_or_tuple conds with
      | None => Raise InvalidConditionError
      | Some (k, l) => check_bool_items l ;! Ok (OBoolC cls o k l)
      end
  | _ => Raise InvalidConditionError
  end.
Definition mk_boolean_condition (o conds : obj) : result obj := mk_boolean BCond o conds.
(** And / Or, conditions.py:134-143: op is not an argument *)
Definition mk_and (conds : obj) : result obj := mk_boolean BAnd (OBoolOp AND) conds.
Definition mk_or (conds : obj) : result obj := mk_boolean BOr (OBoolOp OR) conds.

(** get_first_level_and_conditions, conditions.py:149-158; [flatten1] is the treatment
    of one list element. isinstance(cond, And) holds for class And only. *)
Fixpoint flatten1 (c : obj) : list obj :=
  let all := fix all (l : list obj) : list obj :=
    match l with [] => [] | x :: l' => flatten1 x ++ all l' end in
  match c with
  | OBoolC BAnd _ _ l => all l
  | _ => [c]
  end.
Definition get_first_level_and_conditions (l : list obj) : list obj := flat_map flatten1 l.

(** * orderby.py *)

(** OrderBy, orderby.py:15-26 *)
Definition mk_orderby (exp dir : obj) : result obj :=
  if negb (is_col_or_func exp) then Raise InvalidExpressionError
  else match dir with ODir d => Ok (OOrderBy exp d) | _ => Raise InvalidExpressionError end.

Fixpoint all_columns (l : list obj) : option (list column) :=
  match l with
  | [] => Some []
  | OColumn c :: l' => match all_columns l' with Some r => Some (c :: r) | None => None end
  | _ => None
  end.
(** LimitBy, orderby.py:29-55 *)
Definition mk_limitby (cols count : obj) : result obj :=
  match as_seq cols with
  | None => Raise InvalidExpressionError
  | Some (k, l) =>
      if Nat.ltb (List.length l) 1 then Raise InvalidExpressionError
      else match all_columns l with
           | None => Raise InvalidExpressionError
           | Some cs =>
               match as_int count with
               | None => Raise InvalidExpressionError
               | Some i =>
                   if (pyint_Z i <=? 0)%Z || (pyint_Z i >? 10000)%Z
                   then Raise InvalidExpressionError
                   else Ok (OLimitBy k cs i)
               end
           end
  end.

(** * relationships.py *)

(** Relationship.validate, relationships.py:34-47 *)
Definition mk_relationship (lhs name rhs : obj) : result obj :=
  let valid_entity o :=
    match o with
    | OEntity e => match e_alias e with None => Raise InvalidExpressionError | _ => Ok e end
    | _ => Raise InvalidExpressionError
    end in
  let! l := valid_entity lhs in
  let! r := valid_entity rhs in
  match name with
  | OStr [] => Raise InvalidExpressionError
  | OStr n => Ok (ORel (mkRel l n r))
  | _ => Raise InvalidExpressionError
  end.

(** Join.get_alias_mappings, relationships.py:66-74: the set as the list of its insertions
    (possibly with repetitions); users of it are proved independent of the order. *)
Definition alias_pair (e : entity) : list (str * str) :=
  match e_alias e with Some a => [(a, e_name e)] | None => [] end.
Definition alias_mappings (rels : list relationship) : list (str * str) :=
  flat_map (fun r => alias_pair (r_lhs r) ++ alias_pair (r_rhs r)) rels.

(** Join.get_entities, relationships.py:76-81 *)
Definition join_entities (rels : list relationship) : list entity :=
  flat_map (fun r => [r_lhs r; r_rhs r]) rels.

Fixpoint assoc (k : str) (l : list (str * str)) : option str :=
  match l with
  | [] => None
  | (a, b) :: l' => if str_eqb a k then Some b else assoc k l'
  end.
(** the loop of Join.validate, relationships.py:89-97, over the mappings in a given
    iteration order; [seen] holds the assignments, latest first *)
Fixpoint join_check (seen : list (str * str)) (maps : list (str * str)) : result unit :=
  match maps with
  | [] => Ok tt
  | (alias, ent) :: rest =>
      match assoc alias seen with
      | Some e => if str_eqb e ent then join_check ((alias, ent) :: seen) rest
                  else Raise InvalidExpressionError
      | None => join_check ((alias, ent) :: seen) rest
      end
  end.

Fixpoint all_rels (l : list obj) : option (list relationship) :=
  match l with
  | [] => Some []
  | ORel r :: l' => match all_rels l' with Some x => Some (r :: x) | None => None end
  | _ => None
  end.
(** Join, relationships.py:50-97 *)
Definition mk_join (rels : obj) : result obj :=
  match as_list_or_tuple rels with
  | None | Some (_, []) => Raise InvalidExpressionError
  | Some (k, l) =>
      match all_rels l with
      | None => Raise InvalidExpressionError
      | Some rs => join_check [] (alias_mappings rs) ;! Ok (OJoin k rs)
      end
  end.

(** * x.validate() on an existing object, used by Query.validate (query_visitors.py:290-348).
    The stored fields are checked again; only Column depends on fields set after the
    first validation. An object without a validate method raises AttributeError. *)
Definition optstr_alias_ok (a : option str) : bool :=
  match a with None => true | Some [] => false | Some s => re_matches alias_re s end.
Definition sample_ok (s : option flt) : bool :=
  match s with None => true | Some f => negb (flt_le0 f) end.

Definition entity_validate (e : entity) : result unit :=
  assert_ (re_matches word_name_re (e_name e)
           && sample_ok (e_sample e)
           && match e_alias e with Some [] => false | _ => true end) InvalidEntityError.
Definition storage_validate (s : storage) : result unit :=
  assert_ (re_matches word_name_re (st_name s) && sample_ok (st_sample s)) InvalidStorageError.
Definition has_alias (e : entity) : bool :=
  match e_alias e with None => false | Some _ => true end.
Definition rel_validate (r : relationship) : result unit :=
  assert_ (has_alias (r_lhs r) && has_alias (r_rhs r)
           && negb (match r_name r with [] => true | _ => false end)) InvalidExpressionError.
Definition join_validate (rels : list relationship) : result unit :=
  match rels with
  | [] => Raise InvalidExpressionError
  | _ => join_check [] (alias_mappings rels)
  end.

Definition revalidate (o : obj) : result unit :=
  match o with
  | OColumn c => column_validate c
  | OAliased _ a => assert_ (optstr_alias_ok a) InvalidExpressionError
  | OFunc _ n ik il pk pl a =>
      assert_ (re_matches function_name_re n && forallb init_ok il && optstr_alias_ok a)
        InvalidFunctionError ;!
      check_param_items pl
  | OIdent n => assert_ (re_matches identifier_re n) InvalidLambdaError
  | OLambda _ ids b =>
      assert_ (forallb (re_matches identifier_re) ids && is_func b) InvalidLambdaError
  | OEntity e => entity_validate e
  | OStorage s => storage_validate s
  | ORel r => rel_validate r
  | OJoin _ rels => join_validate rels
  | OCond lhs o rhs => check_condition lhs o rhs
  | OBoolC _ _ _ l => check_bool_items l
  | OOrderBy e _ => assert_ (is_col_or_func e) InvalidExpressionError
  | OLimitBy _ cols n =>
      assert_ (negb (Nat.ltb (List.length cols) 1) && (0 <? pyint_Z n)%Z
               && (pyint_Z n <=? 10000)%Z) InvalidExpressionError
  | OLimit n => validate_int_literal (pyint_Z n) (Some 1%Z) (Some 10000%Z)
  | OOffset n => validate_int_literal (pyint_Z n) (Some 0%Z) None
  | OGranularity n => validate_int_literal (pyint_Z n) (Some 1%Z) None
  | OTotals _ | OExtrapolate _ => Ok tt
  | _ => Raise AttributeError
  end.

(** * Values reachable through the API: built-in values and what the constructors return *)
Definition valid_char (c : N) : Prop := (c < 1114112)%N.
Inductive api : obj -> Prop :=
| api_none : api ONone
| api_bool b : api (OBool b)
| api_int z : api (OInt z)
| api_float f : api (OFloat f)
| api_str s : Forall valid_char s -> api (OStr s)
| api_bytes b : Forall (fun x => (x < 256)%N) b -> api (OBytes b)
| api_date d : valid_date d -> api (ODate d)
| api_datetime t : valid_datetime t -> api (ODateTime t)
| api_list l : Forall api l -> api (OList l)
| api_tuple l : Forall api l -> api (OTuple l)
| api_dict ks vs : Forall api vs -> api (ODict ks vs)
| api_op o : api (OOp o)
| api_boolop o : api (OBoolOp o)
| api_dir d : api (ODir d)
| api_dm d : api (ODataModel d)
| api_other i : api (OOther i)
| api_limit a o : api a -> mk_limit a = Ok o -> api o
| api_offset a o : api a -> mk_offset a = Ok o -> api o
| api_granularity a o : api a -> mk_granularity a = Ok o -> api o
| api_totals a o : api a -> mk_totals a = Ok o -> api o
| api_extrapolate a o : api a -> mk_extrapolate a = Ok o -> api o
| api_entity n a s d o : api n -> api a -> api s -> api d -> mk_entity n a s d = Ok o -> api o
| api_storage n s d o : api n -> api s -> api d -> mk_storage n s d = Ok o -> api o
| api_column n e o : api n -> api e -> mk_column n e = Ok o -> api o
| api_aliased e a o : api e -> api a -> mk_aliased e a = Ok o -> api o
| api_curried f i p a o : api f -> api i -> api p -> api a -> mk_curried f i p a = Ok o -> api o
| api_function f p a o : api f -> api p -> api a -> mk_function f p a = Ok o -> api o
| api_identifier n o : api n -> mk_identifier n = Ok o -> api o
| api_lambda i b o : api i -> api b -> mk_lambda i b = Ok o -> api o
| api_condition l p r o : api l -> api p -> api r -> mk_condition l p r = Ok o -> api o
| api_boolean_condition p l o : api p -> api l -> mk_boolean_condition p l = Ok o -> api o
| api_and l o : api l -> mk_and l = Ok o -> api o
| api_or l o : api l -> mk_or l = Ok o -> api o
| api_orderby e d o : api e -> api d -> mk_orderby e d = Ok o -> api o
| api_limitby l n o : api l -> api n -> mk_limitby l n = Ok o -> api o
| api_relationship l n r o : api l -> api n -> api r -> mk_relationship l n r = Ok o -> api o
| api_join l o : api l -> mk_join l = Ok o -> api o.

End Exprs.
