(** Specification for C70: when two requests say the same. Written without the JSON encoder,
    to_dict and the printers' internals. *)
From Verif Require Import PyBase DateTime Objects Query Metrics MetricsQuery SpecMetricsQuery Request SpecRequest SpecJson.
Require Import Permutation.

Section Spec.
Context {RT : PyRT} {ST : PyStr}.

(** ** The same data: JSON does not tell a list from a tuple, or an order of dictionary entries *)
Inductive sequence_of : obj -> list obj -> Prop :=
| sq_list l : sequence_of (OList l) l
| sq_tuple l : sequence_of (OTuple l) l.
(** a number and the decimal notation that shows it *)
Inductive shown_number : obj -> Z -> Z -> Prop :=
| sn_int z : shown_number (OInt z) z 0
| sn_float f m e : number (float_repr f) m e -> shown_number (OFloat f) m e.
Inductive same_data : obj -> obj -> Prop :=
| sd_none : same_data ONone ONone
| sd_bool b : same_data (OBool b) (OBool b)
| sd_number x y m e : shown_number x m e -> shown_number y m e -> same_data x y
| sd_str s : same_data (OStr s) (OStr s)
| sd_sequence x y l l' : sequence_of x l -> sequence_of y l' -> Forall2 same_data l l' -> same_data x y
| sd_dict ks vs ks' vs' es : List.length ks = List.length vs -> List.length ks' = List.length vs' ->
    Permutation es (combine ks' vs') ->
    Forall2 (fun p p' => fst p = fst p' /\ same_data (snd p) (snd p')) (combine ks vs) es ->
    same_data (ODict ks vs) (ODict ks' vs').

(** ** Values without NaN and the infinities, and without halves of surrogate pairs *)
Inductive plain_data : obj -> Prop :=
| pd_none : plain_data ONone
| pd_bool b : plain_data (OBool b)
| pd_int z : plain_data (OInt z)
| pd_float n m e x y : number (float_repr (FFin n m e)) x y -> plain_data (OFloat (FFin n m e))
| pd_str s : Forall scalar_value s -> plain_data (OStr s)
| pd_list l : Forall plain_data l -> plain_data (OList l)
| pd_tuple l : Forall plain_data l -> plain_data (OTuple l)
| pd_dict ks vs : List.length ks = List.length vs -> Forall (Forall scalar_value) ks -> Forall plain_data vs ->
    plain_data (ODict ks vs).
Definition plain_request (r : request) : Prop := forall k v, payload_entry r k v -> plain_data v.

(** ** The same request *)
(** a flag and the value it was given *)
Definition flag_given (r : request) (n : str) (b : bool) : Prop :=
  exists f, rq_flags r = RFlags f /\ flag_of f n (OBool b).
Inductive same_sent : rquery -> rquery -> Prop :=
| ss_snql q q' s : serialize q = Ok s -> serialize q' = Ok s -> same_sent (RQuery q) (RQuery q')
| ss_mql q q' s c c' : snd (mq_serialize q) = Ok (s, c) -> snd (mq_serialize q') = Ok (s, c') -> same_data c c' ->
    same_sent (RMetrics q) (RMetrics q')
| ss_delete q q' : same_data (dq_columns q) (dq_columns q') -> same_sent (RDelete q) (RDelete q').
(** the dataset is sent except with delete queries *)
Definition same_request (r r' : request) : Prop :=
  (~ is_delete r -> rq_dataset r = rq_dataset r')
  /\ rq_app r = rq_app r' /\ rq_parent r = rq_parent r'
  /\ same_data (rq_tenants r) (rq_tenants r')
  /\ (forall n b, flag_given r n b <-> flag_given r' n b)
  /\ same_sent (rq_query r) (rq_query r').

(** ** The same settings; the granularity and the mappings, which may be any values, as data *)
Definition same_settings (s s' : settings) : Prop :=
  se_start s = se_start s' /\ se_end s = se_end s' /\ se_scope s = se_scope s'
  /\ se_limit s = se_limit s' /\ se_offset s = se_offset s' /\ se_extrapolate s = se_extrapolate s'
  /\ ro_interval (se_rollup s) = ro_interval (se_rollup s') /\ ro_orderby (se_rollup s) = ro_orderby (se_rollup s')
  /\ ro_totals (se_rollup s) = ro_totals (se_rollup s')
  /\ same_data (ro_granularity (se_rollup s)) (ro_granularity (se_rollup s'))
  /\ same_data (ODict (fst (se_indexer s)) (snd (se_indexer s))) (ODict (fst (se_indexer s')) (snd (se_indexer s'))).
End Spec.
