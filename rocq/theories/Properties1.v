(** C01-C11: what the constructors accept, and function equality.
    Only theorem statements; the proofs are in ExprFacts.v, ExprProps.v, PyEqFacts.v. *)
From Verif Require Import PyBase Objects Exprs Translate SpecExpr ExprFacts ExprProps PyEqFacts
  Concrete.

Section P.
Context {RT : PyRT}.

(** ** C01 Column construction accepts exactly the column-name language *)
Theorem C01_column_accepts : forall name ent,
  (exists o, mk_column name ent = Ok o) <->
  exists n, name = OStr n /\ column_name n /\ column_entity_ok n ent.
Proof. exact c01_accept. Qed.
Theorem C01_column_stores : forall name ent o, mk_column name ent = Ok o ->
  exists c, o = OColumn c /\ name = OStr (c_name c)
    /\ ent = match c_entity c with Some e => OEntity e | None => ONone end.
Proof. exact c01_stores. Qed.
Theorem C01_column_refuses : forall name ent x, mk_column name ent = Raise x -> x = InvalidColumnError.
Proof. exact mk_column_Raise. Qed.

(** ** C02 Subscripted columns decompose into subscriptable and key.
    Missing: names that end in a newline (accepted because Python's $ matches before a final
    newline); for those the statement is false. *)
Theorem C02_decomposes_partial : forall name ent c, mk_column name ent = Ok (OColumn c) ->
  (forall p, c_name c <> p ++ [10%N]) -> decomposed c.
Proof. exact c02_lemma. Qed.
Theorem C02_decomposes_refuted : exists c,
  mk_column (OStr ($"a[b]" ++ [10%N])) ONone = Ok (OColumn c) /\ ~ decomposed c.
Proof. exact c02_witness. Qed.

(** ** C03 A subscripted column of an entity whose schema has the base column is accepted.
    False: the constructor looks the whole text "tags[k]" up in the schema. *)
Theorem C03_subscript_schema_partial : forall base key e a d,
  column_name (sub_name base key) -> e_alias e = Some a -> a <> [] -> e_dm e = Some d ->
  (exists o, mk_column (OStr (sub_name base key)) (OEntity e) = Ok o)
  <-> In (sub_name base key) (map sc_name (dm_columns d)).
Proof. exact c03_exact. Qed.
Theorem C03_subscript_schema_refuted : exists base key e a,
  column_name (sub_name base key) /\ e_alias e = Some a /\ a <> [] /\ schema_has e base
  /\ mk_column (OStr (sub_name base key)) (OEntity e) = Raise InvalidColumnError.
Proof. exact c03_refuted. Qed.

(** ** C04 An alias can never break out of its back-quotes *)
Theorem C04_alias_read_back : forall mql al o s text rest,
  (exists e a, mk_aliased e a = Ok o) \/ (exists isf f i p a, mk_func isf f i p a = Ok o) ->
  alias_of o = Some s -> visit mql al o = Ok text ->
  alias_name s /\ exists body, text ++ rest = body ++ $" AS `" ++ s ++ $"`" ++ rest
    /\ read_until_backquote (s ++ $"`" ++ rest) = Some (s, rest).
Proof. exact c04_lemma. Qed.
Theorem C04_alias_safe : forall a c, alias_name a -> In c a ->
  c <> 96%N /\ c <> 39%N /\ c <> 34%N /\ c <> 92%N /\ c <> 32%N.
Proof. exact alias_name_safe. Qed.
Theorem C04_aliased_accepts : forall e a, (exists o, mk_aliased e a = Ok o) <-> a_column e /\ opt_alias a.
Proof. exact c04_aliased_iff. Qed.

(** ** C05 Function construction accepts exactly the documented shapes *)
Theorem C05_function_accepts : forall isf f i p a, (exists o, mk_func isf f i p a = Ok o) <->
  (exists n, f = OStr n /\ function_name n) /\ inits_ok i /\ opt_alias a /\ params_ok p.
Proof. exact c05_accept. Qed.
Theorem C05_function_stores : forall isf f i p a o, mk_func isf f i p a = Ok o ->
  exists n ik il pk pl al, o = OFunc isf n ik il pk pl al
    /\ f = OStr n /\ a = match al with Some s => OStr s | None => ONone end
    /\ (i = ONone /\ ik = KNone /\ il = [] \/ sequence i il)
    /\ (p = ONone /\ pk = KNone /\ pl = [] \/ sequence p pl).
Proof. exact c05_stores. Qed.
Theorem C05_function_refuses : forall isf f i p a e, mk_func isf f i p a = Raise e ->
  e = InvalidFunctionError \/ e = InvalidExpressionError.
Proof. exact c05_raise. Qed.

(** ** C06 Entity, storage, identifier and relationship names are safe words *)
Theorem C06_entity_accepts : forall n a s d, (exists o, mk_entity n a s d = Ok o) <->
  (exists w, n = OStr w /\ entity_name w) /\ entity_alias_ok a /\ sample_arg_ok s /\ dm_arg_ok d.
Proof. exact c06_entity. Qed.
Theorem C06_storage_accepts : forall n s d, (exists o, mk_storage n s d = Ok o) <->
  (exists w, n = OStr w /\ entity_name w) /\ sample_arg_ok s /\ dm_arg_ok d.
Proof. exact c06_storage. Qed.
Theorem C06_identifier_accepts : forall n, (exists o, mk_identifier n = Ok o) <->
  exists w, n = OStr w /\ identifier_name w.
Proof. exact c06_identifier. Qed.
Theorem C06_lambda_accepts : forall ids b, (exists o, mk_lambda ids b = Ok o) <->
  (exists l, list_or_tuple ids (map OStr l) /\ Forall identifier_name l) /\ a_function b.
Proof. exact c06_lambda. Qed.
Theorem C06_relationship_accepts : forall l n r, (exists o, mk_relationship l n r = Ok o) <->
  (exists e a, l = OEntity e /\ e_alias e = Some a) /\
  (exists e a, r = OEntity e /\ e_alias e = Some a) /\
  exists s, n = OStr s /\ s <> [].
Proof. exact c06_relationship. Qed.

(** ** C07 Numeric clauses stay inside their documented bounds (True/False count as 1/0) *)
Theorem C07_limit_bounds : forall o, (exists r, mk_limit o = Ok r) <->
  exists z, int_value o z /\ (1 <= z <= 10000)%Z.
Proof. exact c07_limit. Qed.
Theorem C07_offset_bounds : forall o, (exists r, mk_offset o = Ok r) <->
  exists z, int_value o z /\ (0 <= z)%Z.
Proof. exact c07_offset. Qed.
Theorem C07_granularity_bounds : forall o, (exists r, mk_granularity o = Ok r) <->
  exists z, int_value o z /\ (1 <= z)%Z.
Proof. exact c07_granularity. Qed.
Theorem C07_limitby_bounds : forall cols n, (exists o, mk_limitby cols n = Ok o) <->
  (exists cs, sequence cols (map OColumn cs) /\ cs <> []) /\
  (exists z, int_value n z /\ (1 <= z <= 10000)%Z).
Proof. exact c07_limitby. Qed.
Theorem C07_clauses_print_numeral : forall o r z,
  mk_limit o = Ok r \/ mk_offset o = Ok r \/ mk_granularity o = Ok r ->
  int_value o z -> forall mql al, visit mql al r = Ok (dec_of_Z z).
Proof. exact c07_print. Qed.
(** Missing: a count given as a bool; for it the statement is false *)
Theorem C07_limitby_prints_numeral_partial : forall cols z o mql al text,
  mk_limitby cols (OInt z) = Ok o -> visit mql al o = Ok text ->
  exists rest, text = dec_of_Z z ++ $" BY " ++ rest.
Proof. exact c07_print_limitby. Qed.
Theorem C07_limitby_prints_numeral_refuted : exists cols n o z text,
  mk_limitby cols n = Ok o /\ int_value n z /\ visit false false o = Ok text
  /\ text = $"True BY a" /\ ~ exists rest, text = dec_of_Z z ++ rest.
Proof. exact c07_refuted. Qed.

(** ** C08 Condition construction accepts exactly well-typed conditions *)
Theorem C08_condition_accepts : forall lhs p rhs,
  (exists o, mk_condition lhs p rhs = Ok o) <-> condition_ok lhs p rhs.
Proof. exact c08_accept. Qed.
Theorem C08_condition_stores : forall lhs p rhs o, mk_condition lhs p rhs = Ok o ->
  exists q, p = OOp q /\ o = OCond lhs q rhs.
Proof. exact c08_stores. Qed.
Theorem C08_condition_refuses : forall lhs p rhs e, mk_condition lhs p rhs = Raise e ->
  e = InvalidConditionError \/ e = InvalidExpressionError.
Proof. exact c08_raise. Qed.

(** ** C09 BooleanCondition construction accepts exactly lists of two or more conditions.
    [cls] is the class (BooleanCondition, And, Or); And/Or fix the operator. *)
Theorem C09_boolean_accepts : forall cls p conds, (exists o, mk_boolean cls p conds = Ok o) <->
  (exists q, p = OBoolOp q) /\
  exists l, list_or_tuple conds l /\ (2 <= List.length l)%nat /\ Forall a_condition l.
Proof. exact c09_accept. Qed.
Theorem C09_and_or : forall conds,
  ((exists o, mk_and conds = Ok o) <->
     exists l, list_or_tuple conds l /\ (2 <= List.length l)%nat /\ Forall a_condition l)
  /\ ((exists o, mk_or conds = Ok o) <->
     exists l, list_or_tuple conds l /\ (2 <= List.length l)%nat /\ Forall a_condition l)
  /\ (forall o, mk_and conds = Ok o -> exists k l, o = OBoolC BAnd AND k l /\ list_or_tuple conds l)
  /\ (forall o, mk_or conds = Ok o -> exists k l, o = OBoolC BOr OR k l /\ list_or_tuple conds l).
Proof. exact c09_and_or. Qed.
Theorem C09_boolean_refuses : forall cls p conds e,
  mk_boolean cls p conds = Raise e -> e = InvalidConditionError.
Proof. exact c09_raise. Qed.

(** ** C10 Scalar recognition is exact at every nesting depth *)
Theorem C10_is_scalar_exact : forall o,
  (is_scalar o = Ok true <-> scalar o)
  /\ (is_scalar o = Raise InvalidExpressionError <-> (exists l, list_or_tuple o l) /\ ~ scalar o)
  /\ (is_scalar o = Ok false <-> ~ scalar o /\ ~ exists l, list_or_tuple o l).
Proof. exact c10_exact. Qed.

(** ** C11 Function equality ignores the alias.
    Missing: two objects of class Function (their dataclass-generated __eq__ compares the
    alias), and the hash. Equality with NaN inside is excluded as Python's NaN is not
    equal to itself. *)
Theorem C11_alias_ignored_partial : forall f f' n ik il pk pl a a',
  f && f' = false -> nan_free (OFunc f n ik il pk pl a) = true ->
  py_eq (OFunc f n ik il pk pl a) (OFunc f' n ik il pk pl a') = true.
Proof. exact curried_alias_ignored. Qed.
Theorem C11_eq_symmetric : forall a b, py_eq a b = py_eq b a.
Proof. exact py_eq_sym. Qed.
Theorem C11_eq_reflexive : forall a, nan_free a = true -> py_eq a a = true.
Proof. exact py_eq_refl. Qed.
Theorem C11_function_alias_counts_refuted : forall n pk pl a a', a <> a' ->
  py_eq (OFunc true n KNone [] pk pl a) (OFunc true n KNone [] pk pl a') = false.
Proof. exact function_alias_counts. Qed.
(** so equality of functions is not transitive, and equal functions need not hash equal *)
Theorem C11_eq_transitive_refuted : exists a b c,
  mk_function (OStr ($"count")) (OList []) (OStr ($"x")) = Ok a
  /\ mk_curried (OStr ($"count")) ONone (OList []) ONone = Ok b
  /\ mk_function (OStr ($"count")) (OList []) (OStr ($"y")) = Ok c
  /\ py_eq a b = true /\ py_eq b c = true /\ py_eq a c = false.
Proof. exact c11_not_transitive. Qed.
Theorem C11_hash_refuted : exists a b,
  mk_curried (OStr ($"count")) ONone (OList []) (OStr ($"x")) = Ok a
  /\ mk_curried (OStr ($"count")) ONone (OList []) (OStr ($"y")) = Ok b
  /\ py_eq a b = true /\ hash_key a <> hash_key b.
Proof. exact c11_hash. Qed.

End P.

(** ** Concrete cases meeting the hypotheses *)
#[local] Existing Instance demoRT.
Example C01_case : exists o, mk_column (OStr ($"tags[user.id]")) ONone = Ok o.
Proof. eexists; reflexivity. Qed.
Example C01_case_entity : exists o,
  mk_column (OStr ($"a")) (OEntity (mkEntity ($"events") (Some ($"e")) None
     (Some (mkDM [mkSC ($"a") false] (mkSC ($"t") true))))) = Ok o.
Proof. eexists; reflexivity. Qed.
Example C01_case_no : mk_column (OStr ($"a-b")) ONone = Raise InvalidColumnError
  /\ mk_column (OInt 3) ONone = Raise InvalidColumnError.
Proof. split; reflexivity. Qed.
Example C02_case : exists c, mk_column (OStr ($"tags[user.id]")) ONone = Ok (OColumn c)
  /\ c_sub c = Some ($"tags") /\ c_key c = Some ($"user.id").
Proof. eexists; split; [reflexivity|split; reflexivity]. Qed.
Example C04_case : exists o, mk_function (OStr ($"count")) (OList []) (OStr ($"p95(x)")) = Ok o
  /\ alias_of o = Some ($"p95(x)") /\ visit false false o = Ok ($"count() AS `p95(x)`").
Proof. eexists; split; [reflexivity|split; reflexivity]. Qed.
Example C05_case : exists o, mk_curried (OStr ($"quantiles")) (OTuple [OInt 1; OStr ($"x")])
  (OList [OColumn (mkColumn ($"a") None None None); OTuple [OInt 1; OList [ONone]]]) (OStr ($"q")) = Ok o.
Proof. eexists; reflexivity. Qed.
Example C06_case : exists o, mk_relationship
  (OEntity (mkEntity ($"a") (Some ($"x")) None None)) (OStr ($"has"))
  (OEntity (mkEntity ($"b") (Some ($"y")) None None)) = Ok o.
Proof. eexists; reflexivity. Qed.
Example C07_case : (exists r, mk_limit (OInt 10000) = Ok r) /\ mk_limit (OInt 10001) = Raise InvalidExpressionError
  /\ (exists o, mk_limitby (OList [OColumn (mkColumn ($"a") None None None)]) (OInt 12) = Ok o
        /\ visit false false o = Ok ($"12 BY a")).
Proof. split; [eexists; reflexivity|]. split; [reflexivity|]. eexists; split; reflexivity. Qed.
Example C08_case : exists o, mk_condition (OColumn (mkColumn ($"a") None None None)) (OOp IN)
  (OTuple [OInt 1; OList [OStr ($"x")]]) = Ok o.
Proof. eexists; reflexivity. Qed.
Example C09_case : exists o, mk_or (OList [OCond (OColumn (mkColumn ($"a") None None None)) EQ (OInt 1);
   OCond (OColumn (mkColumn ($"a") None None None)) EQ (OInt 2)]) = Ok o.
Proof. eexists; reflexivity. Qed.
Example C10_case : is_scalar (OTuple [OInt 1; OList [OIdent ($"x")]]) = Ok true
  /\ is_scalar (OTuple [OInt 1; OList [OOp EQ]]) = Raise InvalidExpressionError
  /\ is_scalar (OIdent ($"x")) = Ok false.
Proof. repeat split; reflexivity. Qed.
Example C11_case : nan_free (OFunc false ($"count") KNone [] KList [OInt 1] None) = true.
Proof. reflexivity. Qed.

Print Assumptions C01_column_accepts.
Print Assumptions C01_column_stores.
Print Assumptions C01_column_refuses.
Print Assumptions C02_decomposes_partial.
Print Assumptions C02_decomposes_refuted.
Print Assumptions C03_subscript_schema_partial.
Print Assumptions C03_subscript_schema_refuted.
Print Assumptions C04_alias_read_back.
Print Assumptions C04_alias_safe.
Print Assumptions C04_aliased_accepts.
Print Assumptions C05_function_accepts.
Print Assumptions C05_function_stores.
Print Assumptions C05_function_refuses.
Print Assumptions C06_entity_accepts.
Print Assumptions C06_storage_accepts.
Print Assumptions C06_identifier_accepts.
Print Assumptions C06_lambda_accepts.
Print Assumptions C06_relationship_accepts.
Print Assumptions C07_limit_bounds.
Print Assumptions C07_offset_bounds.
Print Assumptions C07_granularity_bounds.
Print Assumptions C07_limitby_bounds.
Print Assumptions C07_clauses_print_numeral.
Print Assumptions C07_limitby_prints_numeral_partial.
Print Assumptions C07_limitby_prints_numeral_refuted.
Print Assumptions C08_condition_accepts.
Print Assumptions C08_condition_stores.
Print Assumptions C08_condition_refuses.
Print Assumptions C09_boolean_accepts.
Print Assumptions C09_and_or.
Print Assumptions C09_boolean_refuses.
Print Assumptions C10_is_scalar_exact.
Print Assumptions C11_alias_ignored_partial.
Print Assumptions C11_eq_symmetric.
Print Assumptions C11_eq_reflexive.
Print Assumptions C11_function_alias_counts_refuted.
Print Assumptions C11_eq_transitive_refuted.
Print Assumptions C11_hash_refuted.
