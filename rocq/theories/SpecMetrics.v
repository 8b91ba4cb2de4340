(** Specification vocabulary for the metrics API (C37-C39, C47-C50), written without the
    model's checking functions. *)
From Verif Require Import PyBase DateTime Objects SpecExpr Metrics.
Local Open Scope Z_scope.

(** the Python number o is the integer k *)
Inductive number_value : obj -> Z -> Prop :=
| nv_int o z : int_value o z -> number_value o z
| nv_float neg m e k :
    k * 2 ^ Z.max 0 (- e) = (if neg : bool then -1 else 1) * Z.of_N m * 2 ^ Z.max 0 e ->
    number_value (OFloat (FFin neg m e)) k.
(** values that Python treats as false *)
Inductive falsy : obj -> Prop :=
| fa_none : falsy ONone
| fa_zero o : number_value o 0 -> falsy o
| fa_str : falsy (OStr [])
| fa_bytes : falsy (OBytes [])
| fa_list : falsy (OList [])
| fa_tuple : falsy (OTuple [])
| fa_dict vs : falsy (ODict [] vs).

(** the granularities a rollup may have *)
Definition granularity_allowed (g : obj) : Prop :=
  exists k, In k [10; 60; 3600; 86400] /\ number_value g k.

(** ** C37: what Rollup(interval, totals, orderby, granularity) should accept, given what
    counts as an acceptable granularity *)
Definition rollup_args (gran_ok : obj -> Prop) (i t d g : obj) : Prop :=
  (g = ONone \/ gran_ok g)
  /\ (i = ONone \/ exists n, int_value i n /\ 10 <= n
                   /\ (g = ONone \/ exists k, number_value g k /\ k <= n))
  /\ (t = ONone \/ exists b, t = OBool b)
  /\ (d = ONone \/ exists x, d = ODir x)
  /\ ~ (i = ONone /\ t = ONone)
  /\ (i = ONone \/ d = ONone).

(** ** C38 *)
Definition opt_str (o : obj) (x : option str) : Prop :=
  match x with None => o = ONone | Some s => o = OStr s end.
Definition int_obj (o : obj) (i : pyint) : Prop :=
  match i with PInt z => o = OInt z | PBool b => o = OBool b end.
Definition opt_int (o : obj) (x : option pyint) : Prop :=
  match x with None => o = ONone | Some i => int_obj o i end.
Definition condition_obj (o : obj) : Prop :=
  (exists l p r, o = OCond l p r) \/ (exists c p k l, o = OBoolC c p k l).
Definition groupable (o : obj) : Prop :=
  (exists c, o = OColumn c) \/ (exists c a, o = OAliased c a).
Definition opt_list (P : obj -> Prop) (o : obj) (x : option (list obj)) : Prop :=
  match x with None => o = ONone | Some l => o = OList l /\ Forall P l end.
Definition int_list (o : obj) (l : list pyint) : Prop :=
  exists os, o = OList os /\ Forall2 int_obj os l.

(** ** C39: the tree below a formula *)
Inductive occurs : mval -> mval -> Prop :=
| oc_here v : occurs v v
| oc_below x p n pk ps a f g : In p ps -> occurs x p -> occurs x (VFormula n pk ps a f g).
Definition groupby_of (v : mval) (l : list obj) : Prop :=
  (exists t, v = VTS t /\ ts_groupby t = Some l)
  \/ (exists n pk ps a f, v = VFormula n pk ps a f (OList l)).
(** group-by columns; a column of an entity sampled at nan is not equal to itself and is
    left out *)
Definition groupby_items (l : list obj) : Prop :=
  Forall (fun o => groupable o /\ py_eq o o = true) l.
(** fields of the annotated types, at every depth *)
Inductive typed_tree : mval -> Prop :=
| ty_obj o : typed_tree (VObj o)
| ty_metric m : typed_tree (VMetric m)
| ty_rollup r : typed_tree (VRollup r)
| ty_scope s : typed_tree (VScope s)
| ty_ts t : (forall l, ts_groupby t = Some l -> groupby_items l) -> typed_tree (VTS t)
| ty_formula n k ps a f g : Forall typed_tree ps ->
    (g = ONone \/ exists l, g = OList l /\ groupby_items l) ->
    typed_tree (VFormula n (Some k) ps a f g).
Definition formula_param (v : mval) : Prop :=
  (exists t, v = VTS t) \/ (exists n pk ps a f g, v = VFormula n pk ps a f g)
  \/ (exists o z, v = VObj o /\ int_value o z) \/ (exists x, v = VObj (OFloat x)).
(** equality of group-by lists, column by column *)
Definition same_groupby (l1 l2 : list obj) : Prop :=
  Forall2 (fun x y => py_eq x y = true) l1 l2.
