(** Expressions that share lists: the lists given to constructors are kept, not copied. *)
From Verif Require Import PyBase DateTime Objects Exprs.

Definition ref := nat.
(** The objects of a program that builds expressions. A field that was given as a list refers to
    that list: function.py:31-46, 134-136, conditions.py:72-76, 107-110, orderby.py:15-18 (the
    constructors only validate, expressions.py:78-85). Simplified: the lists inside a LimitBy, a
    Join and the identifiers of a Lambda are not objects of their own. *)
Inductive cell :=
| CValue (o : obj)                       (* a value none of whose lists the program holds *)
| CList (items : list ref)
| CTuple (items : list ref)
| CFunc (is_function : bool) (name : str) (inits : option ref) (params : ref) (alias : option str)
| CLambda (k : seqk) (ids : list str) (body : ref)
| CCond (lhs : ref) (o : op) (rhs : ref)
| CBool (c : bcls) (o : boolop) (conds : ref)
| COrder (exp : ref) (d : direction).
Definition heap := list cell.

(** what a sequence field holds, function.py:33-45 *)
Definition field_of (o : obj) : option (seqk * list obj) :=
  match o with ONone => Some (KNone, []) | _ => as_seq o end.

Fixpoint all_some {A} (l : list (option A)) : option (list A) :=
  match l with
  | [] => Some []
  | Some x :: l' => match all_some l' with Some r => Some (x :: r) | None => None end
  | None :: _ => None
  end.

(** the value of an object now: its fields are read through, as every visitor does, e.g.
    query_visitors.py:46-75; [n] is the recursion limit *)
Fixpoint read (n : nat) (h : heap) (r : ref) : option obj :=
  match n with
  | 0 => None
  | S n =>
      match nth_error h r with
      | None => None
      | Some (CValue o) => Some o
      | Some (CList l) => match all_some (map (read n h) l) with Some os => Some (OList os) | None => None end
      | Some (CTuple l) => match all_some (map (read n h) l) with Some os => Some (OTuple os) | None => None end
      | Some (CFunc f name i p a) =>
          match (match i with Some i => read n h i | None => Some ONone end), read n h p with
          | Some i, Some p =>
              match field_of i, field_of p with
              | Some (ik, il), Some (pk, pl) => Some (OFunc f name ik il pk pl a)
              | _, _ => None
              end
          | _, _ => None
          end
      | Some (CLambda k ids b) => match read n h b with Some b => Some (OLambda k ids b) | None => None end
      | Some (CCond l o r) =>
          match read n h l, read n h r with Some l, Some r => Some (OCond l o r) | _, _ => None end
      | Some (CBool c o l) =>
          match read n h l with
          | Some l => match as_list_or_tuple l with Some (k, l) => Some (OBoolC c o k l) | None => None end
          | None => None
          end
      | Some (COrder e d) => match read n h e with Some e => Some (OOrderBy e d) | None => None end
      end
  end.

(** what a program can do *)
Inductive call :=
| Value (o : obj)                                  (* write down a value *)
| NewList (items : list ref)                       (* [x, y, ...] *)
| NewTuple (items : list ref)                      (* (x, y, ...) *)
| NewFunction (name params alias : ref)
| NewCurried (name inits params alias : ref)
| NewLambda (ids body : ref)
| NewCond (lhs o rhs : ref)
| NewBool (c : bcls) (o conds : ref)               (* BooleanCondition, And, Or *)
| NewOrder (exp d : ref)
| Change (l : ref) (items : list ref).             (* any change of a list: l[:] = items, append, ... *)

Section Run.
Context {RT : PyRT}.

(** the object a successful constructor call makes: the cell for the result, which refers to the
    arguments. Function has no initializers, function.py:111-115. None: the recursion limit was hit. *)
Definition make (n : nat) (h : heap) (c : call) : option (result cell) :=
  let rd := read n h in
  match c with
  | Value o => Some (Ok (CValue o))
  | NewList l => Some (Ok (CList l))
  | NewTuple l => Some (Ok (CTuple l))
  | NewFunction name p a =>
      match rd name, rd p, rd a with
      | Some vn, Some vp, Some va =>
          Some (let! o := mk_function vn vp va in
                match o with OFunc f s _ _ _ _ al => Ok (CFunc f s None p al) | _ => Raise TypeError end)
      | _, _, _ => None
      end
  | NewCurried name i p a =>
      match rd name, rd i, rd p, rd a with
      | Some vn, Some vi, Some vp, Some va =>
          Some (let! o := mk_curried vn vi vp va in
                match o with OFunc f s _ _ _ _ al => Ok (CFunc f s (Some i) p al) | _ => Raise TypeError end)
      | _, _, _, _ => None
      end
  | NewLambda ids b =>
      match rd ids, rd b with
      | Some vi, Some vb =>
          Some (let! o := mk_lambda vi vb in
                match o with OLambda k s _ => Ok (CLambda k s b) | _ => Raise TypeError end)
      | _, _ => None
      end
  | NewCond l o r =>
      match rd l, rd o, rd r with
      | Some vl, Some vo, Some vr =>
          Some (let! x := mk_condition vl vo vr in
                match x with OCond _ op _ => Ok (CCond l op r) | _ => Raise TypeError end)
      | _, _, _ => None
      end
  | NewBool c o l =>
      match rd o, rd l with
      | Some vo, Some vl =>
          Some (let! x := match c with BCond => mk_boolean_condition vo vl | BAnd => mk_and vl | BOr => mk_or vl end in
                match x with OBoolC _ op _ _ => Ok (CBool c op l) | _ => Raise TypeError end)
      | _, _ => None
      end
  | NewOrder e d =>
      match rd e, rd d with
      | Some ve, Some vd =>
          Some (let! x := mk_orderby ve vd in
                match x with OOrderBy _ d => Ok (COrder e d) | _ => Raise TypeError end)
      | _, _ => None
      end
  | Change _ _ => None
  end.

Fixpoint put (h : heap) (r : ref) (c : cell) : heap :=
  match h, r with
  | [], _ => []
  | _ :: h', 0 => c :: h'
  | x :: h', S r' => x :: put h' r' c
  end.

(** one call: a constructor that raises leaves everything as it was; only lists can be changed *)
Definition step (n : nat) (h : heap) (c : call) : heap :=
  match c with
  | Change l items =>
      match nth_error h l with
      | Some (CList _) => put h l (CList items)
      | _ => h
      end
  | _ => match make n h c with Some (Ok x) => h ++ [x] | _ => h end
  end.
Definition run (n : nat) (h : heap) (cs : list call) : heap := fold_left (step n) cs h.
End Run.
