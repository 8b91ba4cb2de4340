(** What an assignment to an attribute, an append or an item assignment makes of an object (C101) *)
From Verif Require Import PyBase Objects Query Metrics MetricsQuery Request Sharing.

(** the object that has [v] where the change says so, and is otherwise as before. A dictionary is
    a list of keys and a list of values; a new key comes last. *)
Inductive turned : call -> cell -> cell -> Prop :=
| T_append a v l : turned (Append a v) (KList l) (KList (l ++ [v]))
| T_item_old a k v ks1 ks2 vs1 x vs2 : List.length ks1 = List.length vs1 -> ~ In k ks1 ->
    turned (PutItem a k v) (KDict (ks1 ++ k :: ks2) (vs1 ++ x :: vs2)) (KDict (ks1 ++ k :: ks2) (vs1 ++ v :: vs2))
| T_item_new a k v ks vs : List.length ks = List.length vs -> ~ In k ks ->
    turned (PutItem a k v) (KDict ks vs) (KDict (ks ++ [k]) (vs ++ [v]))
| T_metric a v m y p f g : turned (AssignTimeseries a TMetric v) (KTimeseries m y p f g) (KTimeseries v y p f g)
| T_aggregate a v m y p f g : turned (AssignTimeseries a TAggregate v) (KTimeseries m y p f g) (KTimeseries m v p f g)
| T_params a v m y p f g : turned (AssignTimeseries a TParams v) (KTimeseries m y p f g) (KTimeseries m y v f g)
| T_filters a v m y p f g : turned (AssignTimeseries a TFilters v) (KTimeseries m y p f g) (KTimeseries m y p v g)
| T_groupby a v m y p f g : turned (AssignTimeseries a TGroupby v) (KTimeseries m y p f g) (KTimeseries m y p f v)
| T_orgs a v o p u : turned (AssignScope a SOrgs v) (KScope o p u) (KScope v p u)
| T_projects a v o p u : turned (AssignScope a SProjects v) (KScope o p u) (KScope o v u)
| T_usecase a v o p u : turned (AssignScope a SUseCase v) (KScope o p u) (KScope o p v)
| T_metrics a x v f f' : f' x = v -> (forall y, y <> x -> f' y = f y) -> turned (AssignMetrics a x v) (KMetrics f) (KMetrics f')
| T_request a x v r r' fl : r' x = v -> (forall y, y <> x -> r' y = r y) -> turned (AssignRequest a x v) (KRequest r fl) (KRequest r' fl)
| T_flags a fl r old : turned (AssignFlags a fl) (KRequest r old) (KRequest r fl).

(** the value that is assigned, if it is not a Flags object *)
Definition assigned (c : call) : list slot :=
  match c with
  | Append _ v | PutItem _ _ v | AssignTimeseries _ _ v | AssignScope _ _ v | AssignMetrics _ _ v | AssignRequest _ _ v => [v]
  | _ => []
  end.
(** the call that builds an object with these attributes or items *)
Definition builds (k : cell) : call :=
  match k with
  | KList l => NewList l
  | KDict ks vs => NewDict ks vs
  | KTimeseries m a p f g => NewTimeseries m a p f g
  | KFormula x p a f g => NewFormula x p a f g
  | KScope o p u => NewScope o p u
  | KMetrics f => NewMetrics f
  | KDelete s c => NewDelete s c
  | KRequest r fl => NewRequest r fl
  end.
