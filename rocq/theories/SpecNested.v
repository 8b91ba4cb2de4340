(** Which lists an expression hangs on, and what it was when it was made (C99, C100). *)
From Verif Require Import PyBase DateTime Objects Exprs Nested.

(** the objects a field of the object, or an item of the list, is *)
Definition refers (c : cell) : list ref :=
  match c with
  | CValue _ => []
  | CList l | CTuple l => l
  | CFunc _ _ None p _ => [p]
  | CFunc _ _ (Some i) p _ => [i; p]
  | CLambda _ _ b => [b]
  | CCond l _ r => [l; r]
  | CBool _ _ l => [l]
  | COrder e _ => [e]
  end.
(** [reaches h a b]: [b] is [a], or can be reached from it through fields and items *)
Inductive reaches (h : heap) : ref -> ref -> Prop :=
| R_self a : reaches h a a
| R_step a c b x : nth_error h a = Some c -> In x (refers c) -> reaches h x b -> reaches h a b.

(** the call changes the list at [l] *)
Definition changes (c : call) : option ref := match c with Change l _ => Some l | _ => None end.

(** the arguments of a constructor call, the value the constructor makes of the values of its
    arguments *)
Definition arguments (c : call) : list ref :=
  match c with
  | Value _ | Change _ _ => []
  | NewList l | NewTuple l => l
  | NewFunction n p a => [n; p; a]
  | NewCurried n i p a => [n; i; p; a]
  | NewLambda i b => [i; b]
  | NewCond l o r => [l; o; r]
  | NewBool _ o l => [o; l]
  | NewOrder e d => [e; d]
  end.
Definition made {RT : PyRT} (c : call) (args : list obj) : result obj :=
  match c, args with
  | Value o, [] => Ok o
  | NewList _, l => Ok (OList l)
  | NewTuple _, l => Ok (OTuple l)
  | NewFunction _ _ _, [n; p; a] => mk_function n p a
  | NewCurried _ _ _ _, [n; i; p; a] => mk_curried n i p a
  | NewLambda _ _, [i; b] => mk_lambda i b
  | NewCond _ _ _, [l; o; r] => mk_condition l o r
  | NewBool BCond _ _, [o; l] => mk_boolean_condition o l
  | NewBool BAnd _ _, [_; l] => mk_and l
  | NewBool BOr _ _, [_; l] => mk_or l
  | NewOrder _ _, [e; d] => mk_orderby e d
  | _, _ => Raise TypeError
  end.
