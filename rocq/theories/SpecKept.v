(** Specification vocabulary for C72 and C73: metrics queries that differ only in their
    string values. Written without the printers, the grammar and the parser. *)
From Verif Require Import PyBase Objects Metrics.

Section Kept.
(** [R s s']: string s stands where the other query has s' *)
Variable R : str -> str -> Prop.

(** = and LIKE, != and NOT LIKE are told apart by the string only *)
Definition same_test (o o' : op) : Prop :=
  In o [EQ; LIKE] /\ In o' [EQ; LIKE] \/ In o [NEQ; NOT_LIKE] /\ In o' [NEQ; NOT_LIKE].
(** the same test of the same column, with other strings, but as many *)
Inductive kept_test : obj -> obj -> Prop :=
| kt_string k o o' s s' : same_test o o' -> R s s' -> kept_test (OCond k o (OStr s)) (OCond k o' (OStr s'))
| kt_list k o l l' : In o [IN; NOT_IN] -> Forall2 R l l' ->
    kept_test (OCond k o (OList (map OStr l))) (OCond k o (OList (map OStr l'))).
(** the same conditions joined in the same way *)
Inductive kept_filter : obj -> obj -> Prop :=
| kf_test c c' : kept_test c c' -> kept_filter c c'
| kf_bool cls o k l l' : Forall2 kept_filter l l' -> kept_filter (OBoolC cls o k l) (OBoolC cls o k l').
Inductive kept_param : obj -> obj -> Prop :=
| kp_string s s' : R s s' -> kept_param (OStr s) (OStr s')
| kp_other p : (forall s, p <> OStr s) -> kept_param p p.
Definition kept_opt (K : obj -> obj -> Prop) (x x' : option (list obj)) : Prop :=
  x = None /\ x' = None \/ exists l l', x = Some l /\ x' = Some l' /\ Forall2 K l l'.
Definition kept_ts (t t' : timeseries) : Prop :=
  ts_metric t = ts_metric t' /\ ts_agg t = ts_agg t' /\ kept_opt kept_param (ts_params t) (ts_params t')
  /\ kept_opt kept_filter (ts_filters t) (ts_filters t') /\ ts_groupby t = ts_groupby t'.
Definition kept_list (f f' : obj) : Prop :=
  f = ONone /\ f' = ONone \/ exists l l', f = OList l /\ f' = OList l' /\ Forall2 kept_filter l l'.
Inductive kept_value : mval -> mval -> Prop :=
| kv_ts t t' : kept_ts t t' -> kept_value (VTS t) (VTS t')
| kv_obj n : kept_value (VObj n) (VObj n)
| kv_formula n k ps ps' a f f' g : Forall2 kept_value ps ps' -> kept_list f f' ->
    kept_value (VFormula n k ps a f g) (VFormula n k ps' a f' g).
End Kept.

(** any other strings *)
Definition any_strings (s s' : str) : Prop := True.
(** what becomes of a string: backslashes are doubled, a newline becomes a backslash and an
    n, every other character stays *)
Definition reread (s : str) : str :=
  flat_map (fun c => if N.eqb c 92 then [92; 92]%N else if N.eqb c 10 then [92; 110]%N else [c]) s.
Definition rereads (s s' : str) : Prop := s' = reread s.

(** ** C73: the metrics a query asks for, each with its aggregate, in order *)
Fixpoint series (v : mval) : list (metric * str) :=
  match v with
  | VTS t => [(ts_metric t, ts_agg t)]
  | VFormula _ _ ps _ _ _ => flat_map series ps
  | _ => []
  end.
