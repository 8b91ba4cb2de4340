(** Specification for C92: datetimes written with isoformat() in legacy bodies. *)
From Verif Require Import PyBase DateTime SpecTime Objects Exprs SpecExpr SpecMetricsQuery Strptime SpecLegacy SpecKeys.
Local Open Scope Z_scope.

(** t.isoformat() is s, and t has no UTC offset or no microseconds *)
Definition plain_iso (t : datetime) (s : str) : Prop :=
  real_datetime t /\ full_iso_text t s /\ (dt_tz t = None \/ dt_us t = 0).
(** a value, and the same value with datetimes for some of the texts *)
Inductive dated : obj -> obj -> Prop :=
| dd_same v : dated v v
| dd_text t s : plain_iso t s -> dated (OStr s) (ODateTime t)
| dd_items v v' l l' : list_or_tuple v l -> list_or_tuple v' l' -> Forall2 dated l l' -> dated v v'.
Section Bodies.
Context {RT : PyRT} {CV : PyConv}.
(** [lhs, operator, value], where lhs is not one of the columns whose values stay texts *)
Definition cond_dated (c c' : obj) : Prop :=
  exists lhs o r r', list_or_tuple c [lhs; o; r] /\ list_or_tuple c' [lhs; o; r'] /\ dated r r'
    /\ forall e, legacy_exp lhs e -> ~ text_side e.
Definition filter_dated (c c' : obj) : Prop :=
  c = c' \/ (triple c /\ cond_dated c c') \/ pairwise cond_dated c c'.
(** conditions with datetimes for texts under k *)
Definition dated_at (b b' : obj) (k : str) : Prop :=
  same_at b b' k \/ exists v v', dict_entry b k v /\ dict_entry b' k v' /\ pairwise filter_dated v v'.
End Bodies.
