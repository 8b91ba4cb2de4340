(** Specification for C62: what each part of a legacy body becomes. Written without the
    conversion functions of the model. *)
From Verif Require Import PyBase DateTime Objects Exprs SpecExpr SpecLogic Query SpecSetters Metrics Mql MetricsQuery SpecMetricsQuery
  Request Strptime SpecLegacy.

Section Spec.
Context {RT : PyRT} {CV : PyConv}.

(** a key with a value that counts: not None, 0, False or empty *)
Definition given (body : obj) (k : str) (v : obj) : Prop := dict_entry body k v /\ truthy v = true.
Definition not_given (body : obj) (k : str) : Prop := no_key body k \/ exists v, dict_entry body k v /\ truthy v = false.
(** body.get(k) is None *)
Definition none_at (body : obj) (k : str) : Prop := no_key body k \/ dict_entry body k ONone.

(** ** SELECT: every aggregation and then every selected column *)
Definition aggregation_exp (a e : obj) : Prop := exists l, items_of a l /\ legacy_exp (OList l) e.
(** a tuple is read as a list *)
Inductive row_exp : obj -> obj -> Prop :=
| re_tuple l e : legacy_exp (OList l) e -> row_exp (OTuple l) e
| re_other v e : (forall l, v <> OTuple l) -> legacy_exp v e -> row_exp v e.

(** ** ARRAY JOIN *)
Inductive array_join_of (body : obj) : obj -> Prop :=
| aj_none : not_given body ($"arrayjoin") -> array_join_of body ONone
| aj_column v c : given body ($"arrayjoin") v -> mk_column v ONone = Ok c -> array_join_of body (OList [c]).

(** ** GROUP BY: a list of expressions, or one expression *)
Inductive grouped (body : obj) : list obj -> Prop :=
| gr_absent : no_key body ($"groupby") -> grouped body []
| gr_list l : dict_entry body ($"groupby") (OList l) -> grouped body l
| gr_one v : given body ($"groupby") v -> (forall l, v <> OList l) -> grouped body [v]
| gr_empty v : dict_entry body ($"groupby") v -> truthy v = false -> items_of v [] -> grouped body [].

(** ** ORDER BY: minus signs in front mean descending *)
Definition no_minus (s : str) : Prop := forall t, s <> $"-" ++ t.
Definition minus_signs (s s' : str) : Prop := exists n, s = repeat 45%N (S n) ++ s' /\ no_minus s'.
Inductive order_exp : obj -> obj -> direction -> Prop :=
| oe_text s e : no_minus s -> legacy_exp (OStr s) e -> order_exp (OStr s) e ASC
| oe_text_desc s s' e : minus_signs s s' -> legacy_exp (OStr s') e -> order_exp (OStr s) e DESC
| oe_list_desc s s' r e : minus_signs s s' -> legacy_exp (OList (OStr s' :: r)) e -> order_exp (OList (OStr s :: r)) e DESC
| oe_list l e : l <> [] -> (forall s r, l = OStr s :: r -> no_minus s) -> legacy_exp (OList l) e -> order_exp (OList l) e ASC.
Inductive column_or_function : obj -> Prop :=
| cf_column c : column_or_function (OColumn c)
| cf_function f n ik il pk pl a : column_or_function (OFunc f n ik il pk pl a).
Definition readable_order (o : obj) : Prop := (exists s, o = OStr s) \/ exists l, o = OList l.
(** the code: an item that is neither a list nor a text repeats the previous expression *)
Inductive orders_from : option obj -> list obj -> list obj -> Prop :=
| of_nil p : orders_from p [] []
| of_item p o e d l obs : order_exp o e d -> column_or_function e -> orders_from (Some e) l obs ->
    orders_from p (o :: l) (OOrderBy e d :: obs)
| of_repeat e o l obs : ~ readable_order o -> column_or_function e -> orders_from (Some e) l obs ->
    orders_from (Some e) (o :: l) (OOrderBy e ASC :: obs).
Inductive ordered (body : obj) : obj -> Prop :=
| or_none : not_given body ($"orderby") -> ordered body ONone
| or_list l obs : given body ($"orderby") (OList l) -> orders_from None l obs -> ordered body (OList obs)
| or_one v obs : given body ($"orderby") v -> (forall l, v <> OList l) -> orders_from None [v] obs -> ordered body (OList obs).

(** ** LIMIT BY: a pair of a limit and a column *)
Inductive whole : obj -> Z -> Prop :=
| wh_int z : whole (OInt z) z
| wh_bool b : whole (OBool b) (if b then 1 else 0)
| wh_other v z : (forall i, v <> OInt i) -> (forall b, v <> OBool b) -> to_int v = Ok z -> whole v z.
Inductive limitby_of (body : obj) : obj -> Prop :=
| lb_none : not_given body ($"limitby") -> limitby_of body ONone
| lb_given v lim name c z : given body ($"limitby") v -> items_of v [lim; name] ->
    mk_column name ONone = Ok (OColumn c) -> whole lim z -> (1 <= z <= 10000)%Z ->
    limitby_of body (OLimitBy KList [c] (PInt z)).

(** ** LIMIT, OFFSET, GRANULARITY, TOTALS: as the setters take them (C22-C24) *)
Inductive setting (body : obj) (k : str) (c : clause) : obj -> Prop :=
| se_none : none_at body k -> setting body k c ONone
| se_given v x : dict_entry body k v -> v <> ONone -> stores c v x -> setting body k c x.

(** ** The entity, its sample *)
Inductive sample_of (body : obj) : obj -> Prop :=
| sa_none : none_at body ($"sample") -> sample_of body ONone
| sa_float f : dict_entry body ($"sample") (OFloat f) -> sample_of body (OFloat f)
| sa_other v f : dict_entry body ($"sample") v -> v <> ONone -> (forall f, v <> OFloat f) ->
    to_float v = Ok f -> sample_of body (OFloat f).

(** ** Request: a value of the body, or a default *)
Inductive value_or (body : obj) (k : str) (d : obj) : obj -> Prop :=
| vo_given v : given body k v -> value_or body k d v
| vo_default : not_given body k -> value_or body k d d.

(** ** The whole *)
Inductive converted (body entity : obj) : request -> Prop :=
| cv n sample e aggs aes sels ses aj gs ges ext items css hitems hs ob lb li off gr to
     dataset app tenants consistent turbo debug dry :
    (exists ks vs, body = ODict ks vs) -> entity = OStr n ->
    sample_of body sample -> mk_entity entity ONone sample ONone = Ok (OEntity e) ->
    listed body ($"aggregations") aggs -> Forall2 aggregation_exp aggs aes ->
    listed body ($"selected_columns") sels -> Forall2 row_exp sels ses ->
    aes ++ ses <> [] -> Forall selectable (aes ++ ses) ->
    array_join_of body aj ->
    grouped body gs -> Forall2 row_exp gs ges -> Forall selectable ges ->
    extension_conditions body n ext -> listed body ($"conditions") items -> Forall2 where_object items css ->
    listed body ($"having") hitems -> Forall2 having_object hitems hs ->
    ordered body ob -> limitby_of body lb ->
    setting body ($"limit") CLimit li -> setting body ($"offset") COffset off ->
    setting body ($"granularity") CGranularity gr -> setting body ($"totals") CTotals to ->
    value_or body ($"dataset") entity dataset -> value_or body ($"app_id") (OStr ($"legacy")) app ->
    value_or body ($"tenant_ids") (ODict [$"legacy"] [OStr ($"legacy")]) tenants ->
    value_or body ($"consistent") ONone consistent -> value_or body ($"turbo") ONone turbo ->
    value_or body ($"debug") ONone debug -> value_or body ($"dry_run") ONone dry ->
    converted body entity
      (mkRequest dataset app
        (RQuery (QBase (BEntity e)
          (mkClauses (OList (aes ++ ses)) (OList ges) aj (OList (ext ++ List.concat css)) (OList hs) ob lb li off gr to)))
        (RFlags (mkFlags ONone consistent turbo debug dry (OBool true))) (OStr ($"<unknown>")) tenants).
(** the bodies whose conditions are sequences *)
Definition sequences (body : obj) (k : str) : Prop :=
  forall items t, listed body k items -> In t items -> exists l, sequence t l.
End Spec.
