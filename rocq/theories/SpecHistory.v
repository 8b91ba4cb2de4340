(** Histories of calls: which calls only ask, and which objects an object is made of *)
From Verif Require Import PyBase Objects Query Metrics MetricsQuery Request History.

(** calls that ask an object for its text, its payload or its validity *)
Definition asks (c : call) : bool := match c with Ask _ _ => true | _ => false end.

(** a question whose answer is what is sent to Snuba, or whether it is valid: all but
    print() and str() of a MetricsQuery *)
Definition about_sending (h : heap) (a : nat) (m : method) : Prop :=
  match m with
  | Print | Str => forall q, nth_error h a <> Some (KMetrics q)
  | _ => True
  end.

(** the lists a query is made of, those of inner queries included *)
Inductive holds_list : hquery -> nat -> Prop :=
| hl_base b c x a : c x = HList a -> holds_list (HBase b c) a
| hl_sub i c x a : c x = HList a -> holds_list (HSub i c) a
| hl_inner i c a : holds_list i a -> holds_list (HSub i c) a.
(** the object at [b] is the object at [a] or one that it refers to *)
Inductive part_of (h : heap) (a : nat) : nat -> Prop :=
| po_self : part_of h a a
| po_list q b : nth_error h a = Some (KQuery q) -> holds_list q b -> part_of h a b
| po_query r b : nth_error h a = Some (KRequest r) -> hr_query r = HRef b -> part_of h a b
| po_deep r d q b : nth_error h a = Some (KRequest r) -> hr_query r = HRef d -> nth_error h d = Some (KQuery q) ->
    holds_list q b -> part_of h a b.
(** the object that a call changes by an explicit assignment or append of the caller *)
Definition changes (c : call) : option nat :=
  match c with
  | Append a _ | AssignMetrics a _ _ | AssignRequest a _ => Some a
  | _ => None
  end.

Section S.
Context {RT : PyRT} {ST : PyStr}.
(** the answer to a call after a history of calls, starting with no objects *)
Definition answer_after (cs : list call) (c : call) : answer := snd (step (run [] cs) c).
End S.
