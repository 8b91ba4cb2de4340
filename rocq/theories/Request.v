(** request.py, delete_query.py *)
From Verif Require Import PyBase DateTime Regex Objects Exprs Translate Query Metrics Mql MetricsQuery Json.

(** DeleteQuery, delete_query.py:11-31: not checked when built *)
Record delete_query := mkDelete { dq_storage : obj; dq_columns : obj }.

(** len(o) *)
Definition py_len (o : obj) : result nat :=
  match o with
  | OList l | OTuple l => Ok (List.length l)
  | OStr s | OBytes s => Ok (List.length s)
  | ODict ks _ => Ok (List.length ks)
  | _ => Raise TypeError
  end.

(** Flags, request.py:21-29: not checked when built *)
Record flags := mkFlags {
  fl_totals : obj; fl_consistent : obj; fl_turbo : obj; fl_debug : obj; fl_dry_run : obj;
  fl_legacy : obj }.
(** fields(self) with their values *)
Definition flag_fields (f : flags) : list (str * obj) :=
  [($"totals", fl_totals f); ($"consistent", fl_consistent f); ($"turbo", fl_turbo f);
   ($"debug", fl_debug f); ($"dry_run", fl_dry_run f); ($"legacy", fl_legacy f)].
Definition no_flags : flags := mkFlags ONone ONone ONone ONone ONone ONone.

(** the query of a request: any object; [RQOther] has no validate method *)
Inductive rquery :=
| RQuery (q : query)
| RMetrics (q : mquery)
| RDelete (q : delete_query)
| ROther (o : obj).
(** the flags of a request *)
Inductive rflags := RFNone | RFlags (f : flags) | RFOther (o : obj).

(** Request, request.py:46-53: not checked when built *)
Record request := mkRequest {
  rq_dataset : obj; rq_app : obj; rq_query : rquery; rq_flags : rflags; rq_parent : obj;
  rq_tenants : obj }.

(** dictionaries as built by a dict display, later entries overwrite earlier ones *)
Fixpoint dict_put (d : list (str * obj)) (k : str) (v : obj) : list (str * obj) :=
  match d with
  | [] => [(k, v)]
  | (k', v') :: d' => if str_eqb k k' then (k', v) :: d' else (k', v') :: dict_put d' k v
  end.
Definition dict_puts (d l : list (str * obj)) : list (str * obj) :=
  fold_left (fun a kv => dict_put a (fst kv) (snd kv)) l d.
Definition dict_obj (d : list (str * obj)) : obj := ODict (map fst d) (map snd d).

Section Request.
Context {RT : PyRT} {ST : PyStr}.

(** DeleteQuery.validate, delete_query.py:33-42. [== {}]: equal to the empty dict; a value
    that is no dict has no items(). *)
Definition delete_validate (q : delete_query) : result unit :=
  match dq_columns q with
  | ODict [] _ => Raise InvalidDeleteQueryError
  | ODict _ vs =>
      check_all (fun v => let! n := py_len v in
                          if Nat.eqb n 0 then Raise InvalidDeleteQueryError else Ok tt) vs
  | _ => Raise AttributeError
  end.
(** DeleteQuery.serialize, delete_query.py:44-47 *)
Definition delete_serialize (q : delete_query) : result obj :=
  delete_validate q ;! Ok (ODict [$"columns"] [dq_columns q]).

(** Flags.validate, Flags.to_dict, request.py:31-41 *)
Definition flag_ok (v : obj) : bool := match v with ONone | OBool _ => true | _ => false end.
Definition flags_validate (f : flags) : result unit :=
  check_all (fun kv => assert_ (flag_ok (snd kv)) InvalidFlagError) (flag_fields f).
Definition flags_to_dict (f : flags) : result (list (str * obj)) :=
  flags_validate f ;! Ok (filter (fun kv => negb (is_none (snd kv))) (flag_fields f)).

(** FLAG_RE, request.py:44 *)
Definition flag_char (c : N) : bool := is_alnum_ c || one_of ".+*/:-[]" c.
Definition flag_re : re := RSeq (RStar (RClass flag_char)) REnd.

(** the checks of dataset and app_id, request.py:56-64, and of parent_api, request.py:66-67 *)
Definition check_safe (o : obj) : result unit :=
  match o with
  | OStr s => assert_ (truthy o && re_matches flag_re s) InvalidRequestError
  | _ => Raise InvalidRequestError
  end.
Definition check_parent (o : obj) : result unit :=
  match o with
  | OStr s => assert_ (truthy o) InvalidRequestError
  | _ => Raise InvalidRequestError
  end.
Definition is_dict (o : obj) : bool := match o with ODict _ _ => true | _ => false end.
(** self.query.validate() *)
Definition rquery_validate (q : rquery) : result unit :=
  match q with
  | RQuery q => validate q
  | RMetrics q => mq_validate q
  | RDelete q => delete_validate q
  | ROther _ => Raise AttributeError
  end.
(** Request.validate, request.py:55-74 *)
Definition rflags_validate (f : rflags) : result unit :=
  match f with
  | RFNone => Ok tt
  | RFlags f => flags_validate f
  | RFOther _ => Raise AttributeError
  end.
Definition request_validate (r : request) : result unit :=
  check_safe (rq_dataset r) ;! check_safe (rq_app r) ;! check_parent (rq_parent r) ;!
  assert_ (is_dict (rq_tenants r)) InvalidRequestError ;!
  rquery_validate (rq_query r) ;! rflags_validate (rq_flags r).
Definition rflags_to_dict (f : rflags) : result (list (str * obj)) :=
  match f with
  | RFNone => Ok []
  | RFlags f => flags_to_dict f
  | RFOther _ => Raise AttributeError
  end.

(** Request.to_dict, request.py:76-111: the request afterwards (serialize() of a
    MetricsQuery changes it) and the payload *)
Definition with_query (r : request) (q : rquery) : request :=
  mkRequest (rq_dataset r) (rq_app r) q (rq_flags r) (rq_parent r) (rq_tenants r).
Definition request_payload (r : request) (fl : list (str * obj)) (query : str) (ctx : list (str * obj)) : obj :=
  dict_obj (dict_puts (dict_puts fl
    [($"query", OStr query); ($"dataset", rq_dataset r); ($"app_id", rq_app r);
     ($"tenant_ids", rq_tenants r); ($"parent_api", rq_parent r)]) ctx).
Definition request_to_dict (r : request) : request * result obj :=
  match request_validate r with
  | Raise e => (r, Raise e)
  | Ok _ =>
      match rflags_to_dict (rq_flags r) with
      | Raise e => (r, Raise e)
      | Ok fl =>
          match rq_query r with
          | RMetrics q =>
              let '(q', res) := mq_serialize q in
              (with_query r (RMetrics q'),
               let! p := res in Ok (request_payload r fl (fst p) [($"mql_context", snd p)]))
          | RDelete q =>
              (r, let! d := delete_serialize q in
                  Ok (dict_obj (dict_puts fl
                    [($"query", d); ($"app_id", rq_app r); ($"tenant_ids", rq_tenants r);
                     ($"parent_api", rq_parent r)])))
          | RQuery q => (r, let! s := serialize q in Ok (request_payload r fl s []))
          | ROther _ => (r, Raise AttributeError)
          end
      end
  end.

(** Request.serialize, serialize_mql, __str__, request.py:113-122 *)
Definition request_serialize (r : request) : request * result str :=
  let '(r', d) := request_to_dict r in (r', let! o := d in json_dumps o).
(** Request.print, request.py:124-127 *)
Definition request_print (r : request) : request * result str :=
  match request_validate r with
  | Raise e => (r, Raise e)
  | Ok _ => let '(r', d) := request_to_dict r in (r', let! o := d in json_pretty true 0 o)
  end.
(** MetricsQuery.__str__ and print, metrics_query.py:89-96 *)
Definition mql_text (p : str * obj) : result str :=
  json_pretty false 0 (ODict [$"mql"; $"mql_context"] [OStr (fst p); snd p]).
Definition mq_str_text (q : mquery) : result str := let! p := mq_payload q in mql_text p.
Definition mq_print_text (q : mquery) : result str := let! p := mq_print q in mql_text p.
End Request.
