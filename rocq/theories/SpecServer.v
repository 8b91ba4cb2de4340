(** Specification for C105: what a server makes of the text of a request. It reads the JSON
    (SpecJson), reads the SnQL in it (SpecSnql), and evaluates the conditions row by row. *)
From Verif Require Import PyBase Objects SpecOps Query SpecJson SpecSnql SpecLogic.

(** the text [s] is a JSON object with the member [k] *)
Definition received (s k : str) (v : jval) : Prop := exists ms, json_text s (JObj ms) /\ In (utf16 k, v) ms.

(** a row says what every comparison evaluates to *)
Definition row := expr -> op -> option expr -> tv.
(** x IN array(v1, ..., vn) means x = v1 OR ... OR x = vn *)
Definition knows_in (R : row) : Prop :=
  forall e vs, R e IN (Some (EWord ($"array") [vs] None)) = any3 (map (fun v => R e EQ (Some v)) vs).
Fixpoint cond_truth (R : row) (c : cond) : tv :=
  match c with
  | CAtom l o r => R l o r
  | CNode AND cs => all3 (map (cond_truth R) cs)
  | CNode OR cs => any3 (map (cond_truth R) cs)
  end.
(** whether the row passes the conditions of a clause *)
Definition passes (R : row) (p : option part) : tv :=
  match p with
  | Some (PConds l) => all3 (map (cond_truth R) l)
  | _ => TTrue
  end.
Definition part_of (t : qtree) : clause -> option part := let 'QTree _ p := t in p.
(** the same query but for the conditions in WHERE *)
Definition without_where (t : qtree) : qtree :=
  let 'QTree m ps := t in QTree m (fun k => match k with CWhere => None | _ => ps k end).
Definition same_but_conditions (t t' : qtree) : Prop := same_query (without_where t) (without_where t').

(** an interpretation that treats values equal in Python alike *)
Definition sees_equal_values (I : interpretation) : Prop :=
  forall l o r r', py_eq r r' = true -> I l o r = I l o r'.
