(** Threads that call methods of shared MetricsQuery objects and of requests that hold them, at the
    granularity of attribute accesses.

    A MetricsQuery is a mutable dataclass (metrics_query.py:18) whose serialize() assigns self.query
    (metrics_query.py:111). Every load and every assignment of an attribute of a shared MetricsQuery is
    one atomic step here, and between any two steps any other thread may run (CPython switches threads
    between bytecodes; loading and storing an attribute is atomic and sequentially consistent).
    Everything else a method does works on values that no SDK code changes: the Timeseries, Formula,
    Rollup, MetricsScope and clause objects held by the query (replace() makes new ones), the attributes
    of a Request, and the shared printers and validators (MQL_PRINTER, metrics_query.py:114, is only
    assigned to in __init__ methods). Those computations are the functions of MetricsQuery.v and
    Request.v. *)
From Verif Require Import PyBase Objects Exprs Query Optimizer Metrics Mql MetricsQuery Json Request History.

(** what a thread still has to do in a method *)
Inductive code (A : Type) : Type :=
| Done (r : result A)
| New (q : mquery)                                (* return a new MetricsQuery *)
| Load (a : nat) (f : mfield) (k : mval -> code A)   (* the attribute f of the object a *)
| Store (a : nat) (f : mfield) (v : mval) (k : code A).
Arguments Done {A}. Arguments New {A}. Arguments Load {A}. Arguments Store {A}.
Fixpoint cbind {A B} (c : code A) (k : A -> code B) : code B :=
  match c with
  | Done (Ok x) => k x
  | Done (Raise e) => Done (Raise e)
  | New q => New q
  | Load a f g => Load a f (fun v => cbind (g v) k)
  | Store a f v g => Store a f v (cbind g k)
  end.
Notation "'let&' x := a 'in' b" := (cbind a (fun x => b)) (at level 200, x name, a at level 100, b at level 200).
Notation "a ;& b" := (cbind a (fun _ => b)) (at level 100, right associativity).

Section Threads.
Context {RT : PyRT} {ST : PyStr}.

(** getattr(self, f) and what a visitor does with it, metrics_query_visitors.py:23-27, mql_visitor.py:25-29 *)
Definition look {A} (a : nat) (f : mfield) (k : mval -> result A) : code A := Load a f (fun v => Done (k v)).

(** MetricsQuery.validate, metrics_query.py:86-87 *)
Definition validate_code (a : nat) : code unit :=
  look a FQuery check_query ;& look a FStart check_time ;& look a FEnd check_time ;&
  look a FRollup check_rollup ;& look a FScope check_scope ;& look a FLimit check_limit ;&
  look a FOffset check_offset ;& look a FExtrapolate check_extrapolate ;& look a FIndexer check_indexer.

(** v.filters *)
Definition filters_attr (v : mval) : result obj :=
  match v with
  | VTS t => Ok (obj_of_opt OList (ts_filters t))
  | VFormula _ _ _ _ f _ => Ok f
  | _ => Raise AttributeError
  end.
(** replace(v, filters=fs); replace() on a Timeseries runs its validation *)
Definition replace_filters (v : mval) (fs : list obj) : result mval :=
  match v with
  | VTS t => let '((m, a), (p, _, g)) := ts_fields t in
             let! t' := mk_timeseries m a p (OList fs) g in Ok (VTS t')
  | VFormula n pk ps a _ g => Ok (VFormula n pk ps a (OList fs) g)
  | _ => Raise TypeError
  end.
(** MetricsQuery._optimize, metrics_query.py:104-111: self.query is read up to four times *)
Definition optimize_code (a : nat) : code unit :=
  Load a FQuery (fun v1 =>
  if is_formula v1 || is_ts v1 then
    let& f2 := look a FQuery filters_attr in
    if is_none f2 then Done (Ok tt)
    else
      let& o := look a FQuery (fun v3 => let! f := filters_attr v3 in let! fs := iter f in optimize fs) in
      match o with
      | None => Done (Ok tt)
      | Some fs => let& v := look a FQuery (fun v4 => replace_filters v4 fs) in
                   Store a FQuery v (Done (Ok tt))
      end
  else Done (Ok tt)).

(** MQL_PRINTER.visit(self), mql_visitor.py:25-31, 88-106 *)
Definition payload_code (a : nat) : code (str * obj) :=
  let& m := look a FQuery print_mq_query in
  let& st := look a FStart print_time in
  let& en := look a FEnd print_time in
  let& ro := look a FRollup print_rollup in
  let& sc := look a FScope print_scope in
  let& li := look a FLimit print_limit in
  let& off := look a FOffset print_offset in
  let& ex := look a FExtrapolate print_extrapolate in
  let& ix := look a FIndexer print_indexer in
  Done (Ok (m, ODict [$"start"; $"end"; $"rollup"; $"scope"; $"indexer_mappings"; $"limit";
                      $"offset"; $"extrapolate"]
                     [st; en; ro; sc; ix; li; off; ex])).

(** MetricsQuery.serialize, print, __str__, metrics_query.py:89-102 *)
Definition serialize_code (a : nat) : code (str * obj) :=
  validate_code a ;& optimize_code a ;& payload_code a.
Definition str_code (a : nat) : code str := let& p := payload_code a in Done (mql_text p).
Definition print_code (a : nat) : code str := validate_code a ;& str_code a.

(** the setters, metrics_query.py:41-84: the check, then dataclasses.replace(), which reads every other
    field of self in order and makes a new object *)
Definition mfield_eqb (f g : mfield) : bool :=
  match f, g with
  | FQuery, FQuery | FStart, FStart | FEnd, FEnd | FRollup, FRollup | FScope, FScope | FLimit, FLimit
  | FOffset, FOffset | FExtrapolate, FExtrapolate | FIndexer, FIndexer => true
  | _, _ => false
  end.
Definition field_code (a : nat) (f : mfield) (x : mval) (g : mfield) : code mval :=
  if mfield_eqb f g then Done (Ok x) else look a g Ok.
Definition set_code (a : nat) (f : mfield) (v : mval) : code answer :=
  let& x := Done (mq_setter_value f v) in
  let& qu := field_code a f x FQuery in
  let& st := field_code a f x FStart in
  let& en := field_code a f x FEnd in
  let& ro := field_code a f x FRollup in
  let& sc := field_code a f x FScope in
  let& li := field_code a f x FLimit in
  let& off := field_code a f x FOffset in
  let& ex := field_code a f x FExtrapolate in
  let& ix := field_code a f x FIndexer in
  New (mkMQ qu st en ro sc li off ex ix).

(** a Request that holds the MetricsQuery at [sr_query]; its attributes are not assigned to *)
Record shared_request := mkSR {
  sr_dataset : obj; sr_app : obj; sr_query : nat; sr_flags : rflags; sr_parent : obj; sr_tenants : obj }.
(** Request.validate, to_dict, serialize, print, request.py:55-127 *)
Definition request_validate_code (r : shared_request) : code unit :=
  Done (check_safe (sr_dataset r) ;! check_safe (sr_app r) ;! check_parent (sr_parent r) ;!
        assert_ (is_dict (sr_tenants r)) InvalidRequestError) ;&
  validate_code (sr_query r) ;& Done (rflags_validate (sr_flags r)).
(** the request with a value of its query *)
Definition request_on (r : shared_request) (q : mquery) : request :=
  mkRequest (sr_dataset r) (sr_app r) (RMetrics q) (sr_flags r) (sr_parent r) (sr_tenants r).
Definition to_dict_code (r : shared_request) : code obj :=
  request_validate_code r ;&
  let& fl := Done (rflags_to_dict (sr_flags r)) in
  let& p := serialize_code (sr_query r) in
  Done (Ok (request_payload (request_on r mq_default) fl (fst p) [($"mql_context", snd p)])).
Definition request_serialize_code (r : shared_request) : code str :=
  let& o := to_dict_code r in Done (json_dumps o).
Definition request_print_code (r : shared_request) : code str :=
  request_validate_code r ;& let& o := to_dict_code r in Done (json_pretty true 0 o).

(** the calls a thread can make *)
Inductive tcall :=
| TValidate (a : nat) | TSerialize (a : nat) | TPrint (a : nat) | TStr (a : nat)
| TSet (a : nat) (f : mfield) (v : mval)              (* a.set_query(v), ... *)
| TAssign (a : nat) (f : mfield) (v : mval)           (* a.query = v, ... *)
| RValidate (r : shared_request) | RToDict (r : shared_request) | RSerialize (r : shared_request)
| RPrint (r : shared_request).
(** the MetricsQuery that a call is about *)
Definition object_of (c : tcall) : nat :=
  match c with
  | TValidate a | TSerialize a | TPrint a | TStr a | TSet a _ _ | TAssign a _ _ => a
  | RValidate r | RToDict r | RSerialize r | RPrint r => sr_query r
  end.
Definition answers {A} (f : A -> answer) (c : code A) : code answer := let& x := c in Done (Ok (f x)).
Definition code_of (c : tcall) : code answer :=
  match c with
  | TValidate a => answers (fun _ => ANone) (validate_code a)
  | TSerialize a => answers AMql (serialize_code a)
  | TPrint a => answers AText (print_code a)
  | TStr a => answers AText (str_code a)
  | TSet a f v => set_code a f v
  | TAssign a f v => Store a f v (Done (Ok ANone))
  | RValidate r => answers (fun _ => ANone) (request_validate_code r)
  | RToDict r => answers AObj (to_dict_code r)
  | RSerialize r => answers AText (request_serialize_code r)
  | RPrint r => answers AText (request_print_code r)
  end.

(** A caller: what it does next depends on the answers it got ([k]); a call that is interrupted at any
    point (KeyboardInterrupt, a signal handler or an async exception that raises) goes on with [x]. *)
Inductive client := Stop | Then (c : tcall) (k : answer -> client) (x : client).
Inductive thread := Idle (c : client) | Busy (c : tcall) (p : code answer) (k : answer -> client) (x : client).
(** what can be seen of an execution: calls, new objects with their value, answers *)
Inductive event := Called (c : tcall) | Made (a : nat) (q : mquery) | Answered (c : tcall) (r : answer).
Definition answer_of (r : result answer) : answer := match r with Ok x => x | Raise e => ARaise e end.

(** one step of one thread: the heap and the thread before and after *)
Inductive acts : list mquery -> thread -> list event -> list mquery -> thread -> Prop :=
| act_call h c k x q : nth_error h (object_of c) = Some q ->
    acts h (Idle (Then c k x)) [Called c] h (Busy c (code_of c) k x)
| act_load h c a f g k x q : nth_error h a = Some q ->
    acts h (Busy c (Load a f g) k x) [] h (Busy c (g (mq_get f q)) k x)
| act_store h c a f v g k x q : nth_error h a = Some q ->
    acts h (Busy c (Store a f v g) k x) [] (put h a (mq_put f v q)) (Busy c g k x)
| act_new h c q k x :
    acts h (Busy c (New q) k x) [Made (List.length h) q; Answered c (ANew (List.length h))] (h ++ [q])
         (Idle (k (ANew (List.length h))))
| act_done h c r k x :
    acts h (Busy c (Done r) k x) [Answered c (answer_of r)] h (Idle (k (answer_of r)))
| act_interrupt h c p k x : acts h (Busy c p k x) [] h (Idle x).

(** an execution: at every step some thread acts *)
Inductive executes : list mquery -> list thread -> list event -> list mquery -> list thread -> Prop :=
| ex_none h ts : executes h ts [] h ts
| ex_step h l t r e h1 t1 es h2 ts : acts h t e h1 t1 -> executes h1 (l ++ t1 :: r) es h2 ts ->
    executes h (l ++ t :: r) (e ++ es) h2 ts.
End Threads.
