(** Specification for C81: legacy bodies of the expected shape. Names, operands and numbers may
    be anything; lists must have their items in their places, operators must be operators
    written in capitals, dates must be readable. *)
From Verif Require Import PyBase DateTime Objects Exprs SpecExpr Query SpecMetricsQuery Request SpecRequest Strptime SpecLegacy SpecBody SpecErrors.

(** what the documentation of json_to_snql names: InvalidExpressionError (with its subclasses
    InvalidColumnError, InvalidFunctionError and InvalidConditionError), InvalidQueryError and
    InvalidRequestError *)
Definition documented : list exn :=
  [InvalidExpressionError; InvalidColumnError; InvalidFunctionError; InvalidConditionError;
   InvalidQueryError; InvalidRequestError].

(** every exception that any body may lead to *)
Definition legacy_errors : list exn :=
  [InvalidExpressionError; InvalidColumnError; InvalidFunctionError; InvalidConditionError; InvalidQueryError; InvalidEntityError;
   ValueError; TypeError; OverflowError; IndexError; KeyError; AttributeError; UnboundLocalError].

Section Spec.
Context {RT : PyRT} {CV : PyConv}.

(** what int() and float() raise *)
Definition conversions_raise : Prop := forall o,
  raises_only [ValueError; TypeError; OverflowError] (to_int o) /\ raises_only [ValueError; TypeError; OverflowError] (to_float o).
(** the operator of a condition *)
Definition operator (b : obj) : Prop := exists o, denotes_op b o.
(** the operator of a condition inside an expression: there is no function for NOT *)
Definition function_operator (b : obj) : Prop := exists o, denotes_op b o /\ o <> NOT.
(** an alias is a text, or an empty value *)
Definition alias_shape (r : list obj) : Prop :=
  forall a r', r = a :: r' -> (exists s, a = OStr s) \/ truthy a = false.
(** an expression: a text, a value, [name, arguments, alias...] or [lhs, operator, rhs] *)
Inductive exp_shape : obj -> Prop :=
| es_text s : exp_shape (OStr s)
| es_value v : (forall s, v <> OStr s) -> (forall l, v <> OList l) -> exp_shape v
| es_condition a b c : triple (OList [a; b; c]) -> exp_shape a -> function_operator b -> exp_shape (OList [a; b; c])
| es_args n args r : ~ triple (OList (OStr n :: OList args :: r)) -> exps_shape args -> alias_shape r ->
    exp_shape (OList (OStr n :: OList args :: r))
| es_arg n b r : ~ triple (OList (OStr n :: b :: r)) -> (forall l, b <> OList l) -> alias_shape r ->
    exp_shape (OList (OStr n :: b :: r))
with exps_shape : list obj -> Prop :=
| ess_nil : exps_shape []
| ess_cons x l : exp_shape x -> exps_shape l -> exps_shape (x :: l).
(** a condition: lhs, operator and rhs, without the rhs for IS NULL and IS NOT NULL *)
Definition cond_shape (t : obj) : Prop :=
  exists a b r, sequence t (a :: b :: r) /\ exp_shape a /\ operator b /\ (r <> [] \/ null_test b).
(** an item of conditions or having: a condition, or a list of conditions *)
Inductive item_shape (t : obj) : Prop :=
| is_cond : triple t -> cond_shape t -> item_shape t
| is_or l : ~ triple t -> sequence t l -> Forall cond_shape l -> item_shape t.
Definition row_shape (v : obj) : Prop :=
  match v with OTuple l => exp_shape (OList l) | _ => exp_shape v end.
Definition aggregation_shape (v : obj) : Prop := exists l, items_of v l /\ exp_shape (OList l).
(** an item of orderby: a text or an expression, with minus signs in front *)
Inductive order_shape : obj -> Prop :=
| os_text s : order_shape (OStr s)
| os_list l : l <> [] -> (forall s r, l = OStr s :: r -> no_minus s) -> exp_shape (OList l) -> order_shape (OList l)
| os_minus s s' r : minus_signs s s' -> exp_shape (OList (OStr s' :: r)) -> order_shape (OList (OStr s :: r)).

(** the items under a key, if there is such a key *)
Definition all_items (body : obj) (k : str) (shape : obj -> Prop) : Prop :=
  forall v, dict_entry body k v -> exists l, items_of v l /\ Forall shape l.
Definition date_shape (body : obj) (k : str) : Prop :=
  forall v, given body k v -> exists s t, v = OStr s /\ parse_datetime s = Some t.
Record body_shape (body : obj) : Prop := {
  sh_dict : exists ks vs, body = ODict ks vs;
  sh_sample : forall v, dict_entry body ($"sample") v -> v = ONone \/ (exists f, v = OFloat f) \/ exists f, to_float v = Ok f;
  sh_aggregations : all_items body ($"aggregations") aggregation_shape;
  sh_selected : all_items body ($"selected_columns") row_shape;
  sh_groupby : forall v, dict_entry body ($"groupby") v ->
    match v with
    | OList l => Forall row_shape l
    | _ => if truthy v then row_shape v else items_of v []
    end;
  sh_from : date_shape body ($"from_date");
  sh_to : date_shape body ($"to_date");
  sh_conditions : all_items body ($"conditions") item_shape;
  sh_having : all_items body ($"having") item_shape;
  sh_orderby : forall v, given body ($"orderby") v ->
    match v with OList l => Forall order_shape l | _ => order_shape v end;
  sh_limitby : forall v, given body ($"limitby") v -> exists lim name z, items_of v [lim; name] /\ whole lim z;
}.
(** the sampling rate of a body and the name of the entity are accepted *)
Definition entity_fine (body entity : obj) : Prop :=
  forall sample, sample_of body sample -> exists e, mk_entity entity ONone sample ONone = Ok e.
End Spec.
