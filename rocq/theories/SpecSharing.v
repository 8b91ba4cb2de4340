(** Programs with shared objects: which calls only ask, what an object is made of, and when a
    program leaves alone the parts that serialize() copies *)
From Verif Require Import PyBase Objects Query Metrics MetricsQuery Request Sharing.
From Verif Require History.

(** calls that ask an object for its text, its payload or its validity *)
Definition asks (c : call) : bool := match c with Ask _ _ => true | _ => false end.
(** a question whose answer is what is sent to Snuba, or whether it is valid: all but
    print() and str() of a MetricsQuery *)
Definition about_sending (h : heap) (a : nat) (m : History.method) : Prop :=
  match m with
  | History.Print | History.Str => forall f, nth_error h a <> Some (KMetrics f)
  | _ => True
  end.
(** the object that a call changes by an explicit assignment or append of the caller *)
Definition changes (c : call) : option nat :=
  match c with
  | Append a _ | PutItem a _ _ | AssignTimeseries a _ _ | AssignScope a _ _ | AssignMetrics a _ _
  | AssignRequest a _ _ | AssignFlags a _ => Some a
  | _ => None
  end.

(** the attributes or items of an object *)
Definition parts (k : cell) : list slot :=
  match k with
  | KList l | KDict _ l => l
  | KTimeseries m a p f g | KFormula m a p f g => [m; a; p; f; g]
  | KScope o p u => [o; p; u]
  | KMetrics f => map f mfields
  | KDelete s c => [s; c]
  | KRequest r _ => map r rfields
  end.
(** the object at [b] is the value of [s] or a part of it, at any depth *)
Inductive reaches (h : heap) : slot -> nat -> Prop :=
| re_ref a : reaches h (Ref a) a
| re_part a k s b : nth_error h a = Some k -> In s (parts k) -> reaches h s b -> reaches h (Ref a) b
| re_own k s b : In s (parts k) -> reaches h s b -> reaches h (Own k) b.

(** the object at [b] is the Timeseries or Formula that some MetricsQuery has as its query, or
    something in the filters of one *)
Inductive query_part (h : heap) (b : nat) : Prop :=
| qp_query a f : nth_error h a = Some (KMetrics f) -> f FQuery = Ref b -> query_part h b
| qp_timeseries a f x m y p fl g : nth_error h a = Some (KMetrics f) -> f FQuery = Ref x ->
    nth_error h x = Some (KTimeseries m y p fl g) -> reaches h fl b -> query_part h b
| qp_formula a f x m y p fl g : nth_error h a = Some (KMetrics f) -> f FQuery = Ref x ->
    nth_error h x = Some (KFormula m y p fl g) -> reaches h fl b -> query_part h b.

(** the parts of a request or delete query that its answers contain, by key: the tenant_ids of a
    request, and the column conditions of a delete query or of that of a request *)
Inductive handed_out (h : heap) (a : nat) : str -> slot -> Prop :=
| ho_tenants r fl : nth_error h a = Some (KRequest r fl) -> handed_out h a ($"tenant_ids") (r RTenants)
| ho_query r fl st c : nth_error h a = Some (KRequest r fl) -> cell_of h (r RQueryF) = Some (KDelete st c) ->
    handed_out h a ($"query") c
| ho_columns st c : nth_error h a = Some (KDelete st c) -> handed_out h a ($"columns") c.

Section S.
Context {RT : PyRT} {ST : PyStr}.
Variable N : nat.
(** the answer to a call after a program, starting with no objects *)
Definition answer_after (cs : list call) (c : call) : answer := snd (step N (run N [] cs) c).
(** the program, without its questions, never changes such an object *)
Fixpoint calm (h : heap) (cs : list call) : Prop :=
  match cs with
  | [] => True
  | c :: cs' => (forall b, changes c = Some b -> ~ query_part h b)
                /\ calm (if asks c then h else fst (step N h c)) cs'
  end.
(** the value of an entry of an answer *)
Definition shows (h : heap) (s : slot) (v : obj) : Prop :=
  get_o N h s = Some v
  \/ exists k c x, s = Own (KDict [k] [c]) /\ v = ODict [k] [x] /\ get_o N h c = Some x.
End S.
