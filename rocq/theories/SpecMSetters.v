(** Specification vocabulary for the setters of MetricsQuery (C74). *)
From Verif Require Import PyBase DateTime Objects SpecExpr Metrics MetricsQuery.

(** [mstores f v x]: the setter of field f accepts v, and the copy it returns holds x *)
Inductive mstores : mfield -> mval -> mval -> Prop :=
| ms_timeseries t : mstores FQuery (VTS t) (VTS t)
| ms_formula n k ps a f g : mstores FQuery (VFormula n k ps a f g) (VFormula n k ps a f g)
| ms_text s : mstores FQuery (VObj (OStr s)) (VObj (OStr s))
| ms_start d : mstores FStart (VObj (ODateTime d)) (VObj (ODateTime d))
| ms_end d : mstores FEnd (VObj (ODateTime d)) (VObj (ODateTime d))
| ms_rollup r : mstores FRollup (VRollup r) (VRollup r)
| ms_scope s : mstores FScope (VScope s) (VScope s)
| ms_limit z : (1 <= z <= 10000)%Z -> mstores FLimit (VObj (OInt z)) (VObj (OLimit (PInt z)))
| ms_limit_true : mstores FLimit (VObj (OBool true)) (VObj (OLimit (PBool true)))
| ms_offset z : (0 <= z)%Z -> mstores FOffset (VObj (OInt z)) (VObj (OOffset (PInt z)))
| ms_offset_bool b : mstores FOffset (VObj (OBool b)) (VObj (OOffset (PBool b)))
| ms_extrapolate b : mstores FExtrapolate (VObj (OBool b)) (VObj (OExtrapolate b))
| ms_indexer v : mstores FIndexer v v.

Section Spec.
Context {RT : PyRT} {ST : PyStr}.
(** calls of setters, each on the result of the one before *)
Fixpoint mcalls (q : mquery) (cs : list (mfield * mval)) : result mquery :=
  match cs with [] => Ok q | (f, v) :: cs' => let! q' := mq_set f q v in mcalls q' cs' end.
End Spec.
(** [mafter f cs x y]: field f holds y after the calls cs if it held x before *)
Inductive mafter (f : mfield) : list (mfield * mval) -> mval -> mval -> Prop :=
| ma_nil x : mafter f [] x x
| ma_set v cs x x' y : mstores f v x' -> mafter f cs x' y -> mafter f ((f, v) :: cs) x y
| ma_other f' v cs x y : f' <> f -> mafter f cs x y -> mafter f ((f', v) :: cs) x y.
(** the last value given to f, if any *)
Fixpoint last_given (f : mfield) (cs : list (mfield * mval)) : option mval :=
  match cs with
  | [] => None
  | (f', v) :: cs' => match last_given f cs' with
                      | Some w => Some w
                      | None => if match f, f' with
                                   | FQuery, FQuery | FStart, FStart | FEnd, FEnd | FRollup, FRollup
                                   | FScope, FScope | FLimit, FLimit | FOffset, FOffset
                                   | FExtrapolate, FExtrapolate | FIndexer, FIndexer => true
                                   | _, _ => false end then Some v else None
                      end
  end.
