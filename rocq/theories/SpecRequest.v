(** Specification vocabulary for requests (C51-C54), written without to_dict and the
    dictionary operations of the model. *)
From Verif Require Import PyBase DateTime Objects Exprs SpecExpr Query Metrics MetricsQuery SpecMetricsQuery Request.

Section Spec.
Context {RT : PyRT} {ST : PyStr}.

(** ** Flags *)
Inductive flag_of (f : flags) : str -> obj -> Prop :=
| fo_totals : flag_of f ($"totals") (fl_totals f)
| fo_consistent : flag_of f ($"consistent") (fl_consistent f)
| fo_turbo : flag_of f ($"turbo") (fl_turbo f)
| fo_debug : flag_of f ($"debug") (fl_debug f)
| fo_dry_run : flag_of f ($"dry_run") (fl_dry_run f)
| fo_legacy : flag_of f ($"legacy") (fl_legacy f).
Definition none_or_bool (v : obj) : Prop := v = ONone \/ exists b, v = OBool b.
Definition flags_fine (f : flags) : Prop := forall n v, flag_of f n v -> none_or_bool v.

(** ** Valid requests *)
(** a non-empty text of letters, digits and _ . + * / : - [ ], with an optional newline at
    the end *)
Definition safe_char (c : N) : Prop := ascii_word c \/ In c ($".+*/:-[]").
Definition safe_name (o : obj) : Prop :=
  exists body nl, o = OStr (body ++ nl) /\ body ++ nl <> [] /\ Forall safe_char body /\ opt_newline nl.
Definition query_valid (q : rquery) : Prop :=
  match q with
  | RQuery q => validate q = Ok tt
  | RMetrics q => mq_validate q = Ok tt
  | RDelete q => delete_validate q = Ok tt
  | ROther _ => False
  end.
Definition flags_valid (f : rflags) : Prop :=
  match f with RFNone => True | RFlags f => flags_fine f | RFOther _ => False end.
Definition valid_request (r : request) : Prop :=
  safe_name (rq_dataset r) /\ safe_name (rq_app r)
  /\ (exists s, rq_parent r = OStr s /\ s <> [])
  /\ (exists ks vs, rq_tenants r = ODict ks vs)
  /\ query_valid (rq_query r) /\ flags_valid (rq_flags r).

(** ** The payload: key and value *)
Definition is_delete (r : request) : Prop := exists q, rq_query r = RDelete q.
Inductive payload_entry (r : request) : str -> obj -> Prop :=
| pe_flag f n b : rq_flags r = RFlags f -> flag_of f n (OBool b) -> payload_entry r n (OBool b)
| pe_snql q s : rq_query r = RQuery q -> serialize q = Ok s -> payload_entry r ($"query") (OStr s)
| pe_mql q s c : rq_query r = RMetrics q -> snd (mq_serialize q) = Ok (s, c) ->
    payload_entry r ($"query") (OStr s)
| pe_mql_context q s c : rq_query r = RMetrics q -> snd (mq_serialize q) = Ok (s, c) ->
    payload_entry r ($"mql_context") c
| pe_delete q : rq_query r = RDelete q ->
    payload_entry r ($"query") (ODict [$"columns"] [dq_columns q])
| pe_dataset : ~ is_delete r -> payload_entry r ($"dataset") (rq_dataset r)
| pe_app : payload_entry r ($"app_id") (rq_app r)
| pe_tenants : payload_entry r ($"tenant_ids") (rq_tenants r)
| pe_parent : payload_entry r ($"parent_api") (rq_parent r).

(** ** Delete queries: a mapping from columns to non-empty collections *)
Inductive sized : obj -> nat -> Prop :=
| sz_list l : sized (OList l) (List.length l)
| sz_tuple l : sized (OTuple l) (List.length l)
| sz_str s : sized (OStr s) (List.length s)
| sz_bytes s : sized (OBytes s) (List.length s)
| sz_dict ks vs : sized (ODict ks vs) (List.length ks).
Definition deletes_something_bounded (o : obj) : Prop :=
  exists ks vs, o = ODict ks vs /\ ks <> [] /\ Forall (fun v => exists n, sized v n /\ n > 0) vs.
End Spec.
