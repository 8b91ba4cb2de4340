(** Specification for C89-C91: which keys of a legacy body count, which keys can be given as
    None, and which lists can be tuples. *)
From Verif Require Import PyBase Objects Exprs SpecExpr SpecMetricsQuery Strptime SpecLegacy.

(** ** C89 *)
Definition list_keys : list str :=
  [ $"aggregations"; $"selected_columns"; $"groupby"; $"conditions"; $"having" ].
Definition optional_keys : list str :=
  [ $"sample"; $"arrayjoin"; $"organization"; $"from_date"; $"to_date"; $"project"; $"orderby";
    $"limitby"; $"limit"; $"offset"; $"granularity"; $"totals"; $"consistent"; $"turbo"; $"debug";
    $"dry_run"; $"dataset"; $"app_id"; $"tenant_ids" ].
Definition known_keys : list str := list_keys ++ optional_keys.
Definition is_dict (b : obj) : Prop := exists ks vs, b = ODict ks vs.
(** both bodies have the same value, or none, under k *)
Definition same_at (b b' : obj) (k : str) : Prop := forall v, dict_entry b k v <-> dict_entry b' k v.

(** ** C90 *)
(** None is as good as no value *)
Definition same_but_none_at (b b' : obj) (k : str) : Prop :=
  forall v, v <> ONone -> (dict_entry b k v <-> dict_entry b' k v).

(** ** C91 *)
(** a value with tuples for lists *)
Fixpoint tuples (o : obj) : obj :=
  match o with
  | OList l | OTuple l => OTuple (map tuples l)
  | _ => o
  end.
(** two values that differ in tuples and lists only *)
Definition alike (v v' : obj) : Prop := tuples v = tuples v'.
(** the same value, or a list and a tuple with the same items *)
Definition same_items (v v' : obj) : Prop := v = v' \/ exists l, list_or_tuple v l /\ list_or_tuple v' l.
(** lists or tuples whose items are pairwise related *)
Definition pairwise (R : obj -> obj -> Prop) (v v' : obj) : Prop :=
  exists l l', list_or_tuple v l /\ list_or_tuple v' l' /\ Forall2 R l l'.
(** [lhs, operator, value] with the same left-hand side *)
Definition cond_alike (c c' : obj) : Prop :=
  exists lhs o r r', list_or_tuple c [lhs; o; r] /\ list_or_tuple c' [lhs; o; r'] /\ alike r r'.
Section Bodies.
Context {RT : PyRT} {CV : PyConv}.
(** a condition, or conditions of which one holds *)
Definition filter_alike (c c' : obj) : Prop :=
  c = c' \/ (triple c /\ cond_alike c c') \/ pairwise cond_alike c c'.
(** where lists and tuples can be exchanged *)
Inductive exchangeable : str -> obj -> obj -> Prop :=
| ex_same k v : exchangeable k v v
| ex_expressions k v v' : In k [ $"aggregations"; $"selected_columns" ] -> pairwise same_items v v' -> exchangeable k v v'
| ex_groupby l l' : Forall2 same_items l l' -> exchangeable ($"groupby") (OList l) (OList l')
| ex_filters k v v' : In k [ $"conditions"; $"having" ] -> pairwise filter_alike v v' -> exchangeable k v v'
| ex_ids k v v' : In k [ $"organization"; $"project" ] -> alike v v' -> exchangeable k v v'
| ex_limitby v v' : same_items v v' -> exchangeable ($"limitby") v v'.
(** both bodies have exchangeable values, or none, under k *)
Definition exchangeable_at (b b' : obj) (k : str) : Prop :=
  (exists v v', dict_entry b k v /\ dict_entry b' k v' /\ exchangeable k v v')
  \/ (no_key b k /\ no_key b' k).
End Bodies.
