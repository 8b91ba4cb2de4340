(** query_optimizers/or_optimizer.py *)
From Verif Require Import PyBase Objects Exprs.

Section Optimizer.
Context {RT : PyRT}.

(** the loop of or_optimizer.py:54-64: right-hand sides if every remaining condition is an
    EQ condition on a left-hand side equal (Python ==) to the shared one *)
Fixpoint shared_rhs (shared : obj) (l : list obj) : option (list obj) :=
  match l with
  | [] => Some []
  | OCond lhs EQ rhs :: l' =>
      if py_eq lhs shared
      then match shared_rhs shared l' with Some r => Some (rhs :: r) | None => None end
      else None
  | _ => None
  end.

(** OrOptimizer._optimize_condition, or_optimizer.py:37-66. None: can't be optimized.
    [shared_lhs and ...]: SDK objects are always truthy. *)
Definition optimize_condition (c : obj) : result (option obj) :=
  match c with
  | OBoolC _ OR _ (OCond lhs EQ rhs :: rest) =>
      match shared_rhs lhs rest with
      | None => Ok None
      | Some rs => let! n := mk_condition lhs (OOp IN) (OList (rhs :: rs)) in Ok (Some n)
      end
  | _ => Ok None
  end.

(** OrOptimizer.optimize, or_optimizer.py:13-35 *)
Definition optimize (group : list obj) : result (option (list obj)) :=
  let! rs := mapM (fun c => let! r := optimize_condition c in Ok (c, r)) group in
  if existsb (fun cr => match snd cr with Some _ => true | None => false end) rs
  then Ok (Some (map (fun cr => match snd cr with Some n => n | None => fst cr end) rs))
  else Ok None.

End Optimizer.
