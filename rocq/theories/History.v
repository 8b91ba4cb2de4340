(** Sequences of calls on objects that share parts: a heap of the objects the SDK hands out
    and of the lists its clauses are built from *)
From Verif Require Import PyBase Objects Query Metrics MetricsQuery Request.

(** An argument or attribute: a value, or a reference to a list of the caller.
    Query.__init__ and the setters keep the list they are given, query.py:65-77, 114-161
    (replace() copies references). *)
Inductive hval := HObj (o : obj) | HList (a : nat).
(** A Query, query.py:55-77. It is frozen, so that it holds an inner query by reference is
    not observable and the inner query is written in place. *)
Inductive hquery := HBase (b : base) (c : clause -> hval) | HSub (i : hquery) (c : clause -> hval).
(** the match argument of a query: a reference to a Query or another object *)
Inductive hmatch := HMQuery (a : nat) | HMObj (o : obj).
(** the query argument of a request: a reference, or an object that is neither a Query nor
    a MetricsQuery (or is not referred to by anyone else) *)
Inductive hrquery := HRef (a : nat) | HOwn (q : rquery).
(** Request, request.py:46-53 *)
Record hrequest := mkHR {
  hr_dataset : obj; hr_app : obj; hr_query : hrquery; hr_flags : rflags; hr_parent : obj;
  hr_tenants : obj }.

(** The heap: lists, Query, MetricsQuery and Request objects. Lists inside expressions and
    the attributes of a Timeseries are not represented as cells (see Sharing.v). *)
Inductive cell := KList (l : list obj) | KQuery (q : hquery) | KMetrics (q : mquery) | KRequest (r : hrequest).
Definition heap := list cell.

Inductive method := Validate | Serialize | Print | Str | ToDict.
Inductive call :=
| NewList (l : list obj)
| Append (a : nat) (o : obj)                          (* a.append(o) *)
| NewQuery (m : hmatch) (c : clause -> hval)          (* Query(m, ...) *)
| SetMatch (a : nat) (m : hmatch)                     (* a.set_match(m) *)
| SetClause (a : nat) (c : clause) (v : hval)         (* a.set_select(v), ... *)
| NewMetrics (q : mquery)                             (* MetricsQuery(...) *)
| SetMetrics (a : nat) (f : mfield) (v : mval)        (* a.set_query(v), ... *)
| AssignMetrics (a : nat) (f : mfield) (v : mval)     (* a.query = v, ... *)
| NewRequest (r : hrequest)                           (* Request(...) *)
| AssignRequest (a : nat) (r : hrequest)              (* any assignments to attributes of a *)
| Ask (a : nat) (m : method).                         (* a.validate(), a.serialize(), ... *)

(** What the caller gets. [ABad]: not a call a program can make (no such object, or an
    object of another class). *)
Inductive answer :=
| ANew (a : nat) | ARaise (e : exn) | ANone | AText (s : str) | AMql (p : str * obj) | AObj (o : obj) | ABad.

(** equality of clause names *)
Definition clause_eqb (a b : clause) : bool :=
  match a, b with
  | CSelect, CSelect | CGroupby, CGroupby | CArrayJoin, CArrayJoin | CWhere, CWhere | CHaving, CHaving
  | COrderby, COrderby | CLimitby, CLimitby | CLimit, CLimit | COffset, COffset
  | CGranularity, CGranularity | CTotals, CTotals => true
  | _, _ => false
  end.
Definition every_clause : list clause :=
  [CSelect; CGroupby; CArrayJoin; CWhere; CHaving; COrderby; CLimitby; CLimit; COffset; CGranularity; CTotals].

(** l with its n-th item replaced *)
Definition put {A} (l : list A) (n : nat) (x : A) : list A :=
  firstn n l ++ match skipn n l with [] => [] | _ :: l' => x :: l' end.

Section History.
Context {RT : PyRT} {ST : PyStr}.

(** the value a reference stands for now *)
Definition see_val (h : heap) (v : hval) : obj :=
  match v with
  | HObj o => o
  | HList a => match nth_error h a with Some (KList l) => OList l | _ => ONone end
  end.
Definition see_clauses (h : heap) (c : clause -> hval) : clauses :=
  let s x := see_val h (c x) in
  mkClauses (s CSelect) (s CGroupby) (s CArrayJoin) (s CWhere) (s CHaving) (s COrderby) (s CLimitby)
    (s CLimit) (s COffset) (s CGranularity) (s CTotals).
Fixpoint see (h : heap) (q : hquery) : query :=
  match q with
  | HBase b c => QBase b (see_clauses h c)
  | HSub i c => QSub (see h i) (see_clauses h c)
  end.
Definition see_rquery (h : heap) (q : hrquery) : option rquery :=
  match q with
  | HOwn q => Some q
  | HRef a => match nth_error h a with
              | Some (KQuery q) => Some (RQuery (see h q))
              | Some (KMetrics q) => Some (RMetrics q)
              | _ => None
              end
  end.
Definition see_request (h : heap) (r : hrequest) : option request :=
  match see_rquery h (hr_query r) with
  | Some q => Some (mkRequest (hr_dataset r) (hr_app r) q (hr_flags r) (hr_parent r) (hr_tenants r))
  | None => None
  end.
(** the match argument: what the constructor sees, and what it stores *)
Definition see_match (h : heap) (m : hmatch) : option match_arg :=
  match m with
  | HMObj o => Some (MObj o)
  | HMQuery a => match nth_error h a with Some (KQuery q) => Some (MQuery (see h q)) | _ => None end
  end.
Definition store_match (h : heap) (m : hmatch) (c : clause -> hval) : option hquery :=
  match m with
  | HMObj o => match base_of o with Some b => Some (HBase b c) | None => None end
  | HMQuery a => match nth_error h a with Some (KQuery q) => Some (HSub q c) | _ => None end
  end.
Definition hq_clauses (q : hquery) : clause -> hval := match q with HBase _ c => c | HSub _ c => c end.
Definition hq_with (q : hquery) (c : clause -> hval) : hquery :=
  match q with HBase b _ => HBase b c | HSub i _ => HSub i c end.
(** the setters of the list clauses store the list itself; the others store a new object *)
Definition stored (c : clause) (v : hval) (q : query) : hval :=
  match v with HList a => HList a | HObj _ => HObj (get c (q_clauses q)) end.
Definition with_clause (q : hquery) (c : clause) (v : hval) : hquery :=
  hq_with q (fun x => if clause_eqb x c then v else hq_clauses q x).

(** references a program can have: to an existing object of the right class *)
Definition real_val (h : heap) (v : hval) : bool :=
  match v with
  | HObj _ => true
  | HList a => match nth_error h a with Some (KList _) => true | _ => false end
  end.
Definition real_clauses (h : heap) (c : clause -> hval) : bool := forallb (fun x => real_val h (c x)) every_clause.
Definition real_request (h : heap) (r : hrequest) : bool :=
  match hr_query r with
  | HOwn _ => true
  | HRef a => match nth_error h a with Some (KQuery _) | Some (KMetrics _) => true | _ => false end
  end.

Definition new (h : heap) (k : cell) : heap * answer := (h ++ [k], ANew (List.length h)).
Definition of_unit (r : result unit) : answer := match r with Ok _ => ANone | Raise e => ARaise e end.
Definition of_text (r : result str) : answer := match r with Ok s => AText s | Raise e => ARaise e end.
Definition of_mql (r : result (str * obj)) : answer := match r with Ok p => AMql p | Raise e => ARaise e end.
Definition of_obj (r : result obj) : answer := match r with Ok o => AObj o | Raise e => ARaise e end.

(** a request that changed its MetricsQuery: the change is made in the object referred to *)
Definition write_back (h : heap) (a : nat) (r : hrequest) (r' : request) : heap :=
  match hr_query r, rq_query r' with
  | HRef b, RMetrics q => put h b (KMetrics q)
  | HRef _, _ => h
  | HOwn _, q => put h a (KRequest (mkHR (hr_dataset r) (hr_app r) (HOwn q) (hr_flags r) (hr_parent r) (hr_tenants r)))
  end.

(** a.validate(), a.serialize(), a.print(), str(a), a.to_dict() *)
Definition ask (h : heap) (a : nat) (m : method) : heap * answer :=
  match nth_error h a with
  | Some (KQuery q) =>
      match m with
      | Validate => (h, of_unit (validate (see h q)))
      | Serialize | Str => (h, of_text (serialize (see h q)))
      | Print => (h, of_text (print (see h q)))
      | ToDict => (h, ABad)
      end
  | Some (KMetrics q) =>
      match m with
      | Validate => (h, of_unit (mq_validate q))
      | Serialize => let '(q', r) := mq_serialize q in (put h a (KMetrics q'), of_mql r)
      | Print => (h, of_text (mq_print_text q))
      | Str => (h, of_text (mq_str_text q))
      | ToDict => (h, ABad)
      end
  | Some (KRequest r) =>
      match see_request h r with
      | None => (h, ABad)
      | Some x =>
          match m with
          | Validate => (h, of_unit (request_validate x))
          | Serialize | Str => let '(x', s) := request_serialize x in (write_back h a r x', of_text s)
          | Print => let '(x', s) := request_print x in (write_back h a r x', of_text s)
          | ToDict => let '(x', s) := request_to_dict x in (write_back h a r x', of_obj s)
          end
      end
  | _ => (h, ABad)
  end.

(** one call *)
Definition step (h : heap) (c : call) : heap * answer :=
  match c with
  | NewList l => new h (KList l)
  | Append a o =>
      match nth_error h a with
      | Some (KList l) => (put h a (KList (l ++ [o])), ANone)
      | _ => (h, ABad)
      end
  | NewQuery m c =>
      match real_clauses h c, see_match h m with
      | false, _ | _, None => (h, ABad)
      | true, Some x =>
          match mk_query x (see_clauses h c), store_match h m c with
          | Raise e, _ => (h, ARaise e)
          | Ok _, Some q => new h (KQuery q)
          | Ok _, None => (h, ABad)
          end
      end
  | SetMatch a m =>
      match nth_error h a, see_match h m with
      | Some (KQuery q), Some x =>
          match set_match (see h q) x, store_match h m (hq_clauses q) with
          | Raise e, _ => (h, ARaise e)
          | Ok _, Some q' => new h (KQuery q')
          | Ok _, None => (h, ABad)
          end
      | _, _ => (h, ABad)
      end
  | SetClause a c v =>
      match nth_error h a, real_val h v with
      | Some (KQuery q), true =>
          match set_clause c (see h q) (see_val h v) with
          | Raise e => (h, ARaise e)
          | Ok q' => new h (KQuery (with_clause q c (stored c v q')))
          end
      | _, _ => (h, ABad)
      end
  | NewMetrics q => new h (KMetrics q)
  | SetMetrics a f v =>
      match nth_error h a with
      | Some (KMetrics q) =>
          match mq_set f q v with
          | Raise e => (h, ARaise e)
          | Ok q' => new h (KMetrics q')
          end
      | _ => (h, ABad)
      end
  | AssignMetrics a f v =>
      match nth_error h a with
      | Some (KMetrics q) => (put h a (KMetrics (mq_put f v q)), ANone)
      | _ => (h, ABad)
      end
  | NewRequest r => if real_request h r then new h (KRequest r) else (h, ABad)
  | AssignRequest a r =>
      match nth_error h a, real_request h r with
      | Some (KRequest _), true => (put h a (KRequest r), ANone)
      | _, _ => (h, ABad)
      end
  | Ask a m => ask h a m
  end.

(** a whole program, from a heap *)
Fixpoint run (h : heap) (cs : list call) : heap :=
  match cs with
  | [] => h
  | c :: cs' => run (fst (step h c)) cs'
  end.
End History.
