(** visitors.py: class ExpressionFinder. The Python set is a list here (possibly with
    repetitions); only membership matters to the callers. *)
From Verif Require Import PyBase Objects Exprs.

(** the classes that can be searched for (exp_type) *)
Inductive ety := TColumn | TAliased | TCurried | TFunction | TIdent | TLambda | TEntity
               | TStorage | TRel | TJoin | TCond | TBoolC | TOrderBy | TLimitBy.
(** isinstance(o, exp_type) *)
Definition isinst (t : ety) (o : obj) : bool :=
  match t, o with
  | TColumn, OColumn _ | TAliased, OAliased _ _ | TCurried, OFunc _ _ _ _ _ _ _
  | TFunction, OFunc true _ _ _ _ _ _ | TIdent, OIdent _ | TLambda, OLambda _ _ _
  | TEntity, OEntity _ | TStorage, OStorage _ | TRel, ORel _ | TJoin, OJoin _ _
  | TCond, OCond _ _ _ | TBoolC, OBoolC _ _ _ _ | TOrderBy, OOrderBy _ _
  | TLimitBy, OLimitBy _ _ _ => true
  | _, _ => false
  end.
Definition is_tident (t : ety) : bool := match t with TIdent => true | _ => false end.

Section Finder.
Context {RT : PyRT}.

(** ExpressionFinder, visitors.py:336-443 *)
Fixpoint find (t : ety) (o : obj) : result (list obj) :=
  let exprs := fix exprs (l : list obj) : result (list obj) :=
    match l with
    | [] => Ok []
    | x :: l' =>
        if is_expression x
        then let! a := find t x in let! r := exprs l' in Ok (a ++ r)
        else exprs l'
    end in
  let all := fix all (l : list obj) : result (list obj) :=
    match l with
    | [] => Ok []
    | x :: l' => let! a := find t x in let! r := all l' in Ok (a ++ r)
    end in
  let self_or k := if isinst t o then Ok [o] else k in
  match o with
  | OAliased c _ => self_or (Ok (if isinst t (OColumn c) then [OColumn c] else []))
  | OColumn _ | OIdent _ | OEntity _ | OStorage _ => self_or (Ok [])
  | OFunc _ _ _ il _ pl _ =>
      self_or (let! a := exprs il in let! b := exprs pl in Ok (a ++ b))
  | OLambda _ ids b =>
      self_or (if is_tident t then Ok (map OIdent ids) else find t b)
  | ORel r => self_or (if isinst t (OEntity (r_lhs r))
                       then Ok [OEntity (r_lhs r); OEntity (r_rhs r)] else Ok [])
  | OJoin _ rels =>
      self_or (match rels with
               | [] => Raise IndexError
               | r :: _ => if isinst t (ORel r) then Ok (map ORel rels) else Ok []
               end)
  | OCond lhs p rhs =>
      let! a := find t lhs in
      if negb (is_unary p) && is_expression rhs
      then let! b := find t rhs in Ok (a ++ b) else Ok a
  | OBoolC _ _ _ l => all l
  | OOrderBy e _ => self_or (find t e)
  | OLimitBy _ cols _ =>
      self_or (match cols with
               | [] => Raise TypeError
               | _ => Ok (flat_map (fun c => if isinst t (OColumn c) then [OColumn c] else []) cols)
               end)
  | OLimit _ | OOffset _ | OGranularity _ | OTotals _ => Ok []
  | ONone | OBool _ | OInt _ | OFloat _ | OStr _ | OBytes _ | ODate _ | ODateTime _ => Ok []
  | OList _ | OTuple _ => is_scalar o ;! Ok []
  | OExtrapolate _ | ODict _ _ | OOp _ | OBoolOp _ | ODir _ | ODataModel _ | OOther _ =>
      Raise AssertionError
  end.

End Finder.
