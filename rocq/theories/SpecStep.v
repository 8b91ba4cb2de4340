(** Specification for C107: what a server reads from two queries that differ in a clause. *)
From Verif Require Import PyBase Objects Query SpecExpr SpecOrder SpecSnql SpecServer.

(** whether columns are qualified by entity aliases (C18) *)
Definition joined (q : query) : bool := match q with QBase (BJoin _ _) _ => true | _ => false end.
(** what is matched, without any clause *)
Definition only_match (t : qtree) : qtree := let 'QTree m _ := t in QTree m (fun _ => None).
Definition same_match (t t' : qtree) : Prop := same_query (only_match t) (only_match t').
(** the text [s] of a query, as the server reads it *)
Definition reads (s : str) (t : qtree) : Prop := good_query t /\ text_of_query t = s.
(** the clauses that hold conditions, and the conditions in them *)
Definition of_conditions (k : clause) : Prop := k = CWhere \/ k = CHaving.
Definition conditions_of (k : clause) (q : query) (l : list obj) : Prop :=
  (get k (q_clauses q) = ONone /\ l = []) \/ list_or_tuple (get k (q_clauses q)) l.
