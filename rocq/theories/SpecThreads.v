(** Specification vocabulary for C83, C84: what calls made by several threads may answer. *)
From Verif Require Import PyBase Objects Metrics MetricsQuery Json Request History Threads.

Section Spec.
Context {RT : PyRT} {ST : PyStr}.

(** the value an object had when it was made: before the execution or during it *)
Definition origin (h : list mquery) (es : list event) (a : nat) (q : mquery) : Prop :=
  nth_error h a = Some q \/ In (Made a q) es.
(** no thread assigns to an attribute itself *)
Definition no_assignments (es : list event) : Prop := forall a f v, ~ In (Called (TAssign a f v)) es.
Definition idle (t : thread) : Prop := exists c, t = Idle c.

(** the answer of a call that nobody disturbs, on an object with the value q (the functions of
    MetricsQuery.v and Request.v) *)
Definition serialized (q : mquery) : mquery := fst (mq_serialize q).
Definition right_answer (born : nat -> mquery -> Prop) (c : tcall) (r : answer) : Prop :=
  exists q, born (object_of c) q /\
  match c with
  | TValidate _ => r = of_unit (mq_validate q)
  | TSerialize _ => r = of_mql (snd (mq_serialize q))
  | TPrint _ => r = of_text (mq_print_text q) \/ r = of_text (mq_print_text (serialized q))
  | TStr _ => r = of_text (mq_str_text q) \/ r = of_text (mq_str_text (serialized q))
  | TSet _ f v =>
      (exists e, mq_set f q v = Raise e /\ r = ARaise e) \/
      (exists b q', r = ANew b /\ born b q' /\ (mq_set f q v = Ok q' \/ mq_set f (serialized q) v = Ok q'))
  | TAssign _ _ _ => False
  | RValidate d => r = of_unit (request_validate (request_on d q))
  | RToDict d => r = of_obj (snd (request_to_dict (request_on d q)))
  | RSerialize d => r = of_text (snd (request_serialize (request_on d q)))
  | RPrint d => r = of_text (snd (request_print (request_on d q)))
  end.

(** a method that needs at most n attribute accesses, whatever it reads *)
Fixpoint at_most {A} (n : nat) (c : code A) : Prop :=
  match c with
  | Done _ | New _ => True
  | Load _ _ k => match n with O => False | S n => forall v, at_most n (k v) end
  | Store _ _ _ k => match n with O => False | S n => at_most n k end
  end.
(** a step that is not an interruption *)
Definition proceeds (h : list mquery) (t : thread) (e : list event) (h' : list mquery) (t' : thread) : Prop :=
  acts h t e h' t' /\ (e <> [] \/ exists c p p' k x, t = Busy c p k x /\ t' = Busy c p' k x).

(** C84: the attribute has the assigned value, or (the query) what serialize() makes of it *)
Definition has_assigned (s : mquery) (f : mfield) (v : mval) : Prop :=
  mq_get f s = v \/ exists q, mq_get f q = v /\ s = serialized q.
(** the only assignment made to the attribute f of the object a is that of v *)
Definition only_assignment (es : list event) (a : nat) (f : mfield) (v : mval) : Prop :=
  forall w, In (Called (TAssign a f w)) es -> w = v.
End Spec.
