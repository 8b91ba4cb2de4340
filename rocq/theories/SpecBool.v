(** Specification for C17: reading the boolean structure of a printed condition.
    Written on text only, without the printer. *)
From Verif Require Import PyBase Objects SpecOps.

(** A reader keeps track of where it is: plain text at some depth of parentheses, inside a
    single-quoted string (after a backslash or not), inside back-quotes, inside square
    brackets. A closing parenthesis at depth 0 is an error. *)
Inductive mode := Plain | InString | InEscape | InBackquote | InBracket.
Definition step (st : nat * mode) (c : N) : option (nat * mode) :=
  let (d, m) := st in
  match m with
  | Plain =>
      if N.eqb c 39 then Some (d, InString)
      else if N.eqb c 96 then Some (d, InBackquote)
      else if N.eqb c 91 then Some (d, InBracket)
      else if N.eqb c 40 then Some (S d, Plain)
      else if N.eqb c 41 then match d with O => None | S d' => Some (d', Plain) end
      else Some (d, Plain)
  | InString => Some (d, if N.eqb c 39 then Plain else if N.eqb c 92 then InEscape else InString)
  | InEscape => Some (d, InString)
  | InBackquote => Some (d, if N.eqb c 96 then Plain else InBackquote)
  | InBracket => Some (d, if N.eqb c 93 then Plain else InBracket)
  end.
Fixpoint run (st : nat * mode) (s : str) : option (nat * mode) :=
  match s with
  | [] => Some st
  | c :: s' => match step st c with Some st' => run st' s' | None => None end
  end.
(** text after which the reader is again outside of every quote and parenthesis *)
Definition closed (s : str) : Prop := run (O, Plain) s = Some (O, Plain).

(** text that starts with the word AND or OR, between spaces *)
Definition starts_connective (s : str) : Prop :=
  exists o rest, s = $" " ++ boolop_text o ++ $" " ++ rest.
(** text without AND / OR outside of quotes and parentheses, also when a space follows *)
Definition no_connective (s : str) : Prop :=
  forall u v, s = u ++ v -> closed u -> ~ starts_connective (v ++ $" ").
(** an atomic condition as the reader sees it *)
Definition atom_text (s : str) : Prop :=
  closed s /\ no_connective s /\ (forall s', s <> $"(" ++ s').

Inductive tree := Leaf (atom : str) | Node (o : boolop) (children : list tree).

(** [reads s t]: the text s is an expression with structure t *)
Inductive reads : str -> tree -> Prop :=
| R_leaf s : atom_text s -> reads s (Leaf s)
| R_node o ss ts : (2 <= List.length ts)%nat -> reads_all ss ts ->
    reads ($"(" ++ join ($" " ++ boolop_text o ++ $" ") ss ++ $")") (Node o ts)
with reads_all : list str -> list tree -> Prop :=
| R_nil : reads_all [] []
| R_cons s t ss ts : reads s t -> reads_all ss ts -> reads_all (s :: ss) (t :: ts).
(** a WHERE / HAVING list: expressions joined by AND without parentheses *)
Inductive reads_list : str -> list tree -> Prop :=
| R_list ss ts : ss <> [] -> reads_all ss ts -> reads_list (join ($" AND ") ss) ts.

(** the structure of a condition object; [text] gives the text of the atomic conditions *)
Inductive shape (text : obj -> str -> Prop) : obj -> tree -> Prop :=
| S_atom lhs o rhs s : text (OCond lhs o rhs) s -> shape text (OCond lhs o rhs) (Leaf s)
| S_bool c o k l ts : shape_all text l ts -> shape text (OBoolC c o k l) (Node o ts)
with shape_all (text : obj -> str -> Prop) : list obj -> list tree -> Prop :=
| S_nil : shape_all text [] []
| S_cons x t l ts : shape text x t -> shape_all text l ts -> shape_all text (x :: l) (t :: ts).

(** the atomic conditions of a condition *)
Inductive atom_in : obj -> obj -> Prop :=
| ai_self l o r : atom_in (OCond l o r) (OCond l o r)
| ai_sub a c o k l x : In x l -> atom_in a x -> atom_in a (OBoolC c o k l).

Scheme reads_ind2 := Induction for reads Sort Prop
  with reads_all_ind2 := Induction for reads_all Sort Prop.
Scheme shape_ind2 := Induction for shape Sort Prop
  with shape_all_ind2 := Induction for shape_all Sort Prop.

(** A sufficient condition for the hypothesis of C17: the names that are printed without
    quoting are plain words. String values, column keys, aliases are not restricted. *)
Definition plain_word (s : str) : Prop :=
  Forall (fun c => ~ In c ([39; 96; 91; 93; 40; 41; 32]%N)) s /\ s <> $"AND" /\ s <> $"OR".
Definition plain_names {RT : PyRT} (o : obj) : Prop :=
  match o with
  | OFunc _ n _ _ _ _ _ => plain_word n
  | OColumn c => c_name c <> $"AND" /\ c_name c <> $"OR"
  | OEntity e => forall a, e_alias e = Some a -> plain_word a
  | ORel r => plain_word (r_name r)
  | OFloat f => plain_word (float_repr f)
  | _ => True
  end.
