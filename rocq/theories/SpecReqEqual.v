(** What it means for two requests to be equal, and when equal values are written alike (C103). *)
From Verif Require Import PyBase DateTime Objects Query Metrics MetricsQuery Request SpecMetricsQuery SpecEqual SpecMEqual.
From Coq Require Import Permutation.

(** the generated __eq__ of DeleteQuery, delete_query.py:11-12, of Flags and of Request,
    request.py:21, 46: the same class and equal fields *)
Definition delete_eq (q q' : delete_query) : Prop :=
  py_eq (dq_storage q) (dq_storage q') = true /\ py_eq (dq_columns q) (dq_columns q') = true.
Definition rquery_eq (q q' : rquery) : Prop :=
  match q, q' with
  | RQuery q, RQuery q' => query_eq q q'
  | RMetrics q, RMetrics q' => mquery_eq q q'
  | RDelete q, RDelete q' => delete_eq q q'
  | ROther o, ROther o' => py_eq o o' = true
  | _, _ => False
  end.
Definition flags_eq (f f' : flags) : Prop :=
  Forall2 (fun x y => py_eq (snd x) (snd y) = true) (flag_fields f) (flag_fields f').
Definition rflags_eq (f f' : rflags) : Prop :=
  match f, f' with
  | RFNone, RFNone => True
  | RFlags f, RFlags f' => flags_eq f f'
  | RFOther o, RFOther o' => py_eq o o' = true
  | _, _ => False
  end.
Definition request_eq (r r' : request) : Prop :=
  py_eq (rq_dataset r) (rq_dataset r') = true /\ py_eq (rq_app r) (rq_app r') = true
  /\ rquery_eq (rq_query r) (rq_query r') /\ rflags_eq (rq_flags r) (rq_flags r')
  /\ py_eq (rq_parent r) (rq_parent r') = true /\ py_eq (rq_tenants r) (rq_tenants r') = true.

(** equal flags are of one type: not True and 1 *)
Definition flags_alike (f f' : rflags) : Prop :=
  match f, f' with
  | RFlags f, RFlags f' => Forall2 (fun x y => look_same (snd x) (snd y)) (flag_fields f) (flag_fields f')
  | _, _ => True
  end.

(** the two are the same but for the order of entries of dictionaries, at any depth *)
Inductive reordered : obj -> obj -> Prop :=
| RO_same o : reordered o o
| RO_list l m : Forall2 reordered l m -> reordered (OList l) (OList m)
| RO_tuple l m : Forall2 reordered l m -> reordered (OTuple l) (OTuple m)
| RO_dict ks vs ks' vs' ws : NoDup ks -> List.length ks = List.length vs -> List.length ks' = List.length vs' ->
    Forall2 reordered vs ws -> Permutation (combine ks ws) (combine ks' vs') -> reordered (ODict ks vs) (ODict ks' vs').

(** a dictionary: a value for every key, no key twice *)
Definition real_dict (o : obj) : Prop :=
  match o with ODict ks vs => NoDup ks /\ List.length ks = List.length vs | _ => True end.

(** the payload has this entry *)
Definition payload_at (k : str) (d : obj) : option obj :=
  match d with ODict ks vs => dict_item k ks vs | _ => None end.
