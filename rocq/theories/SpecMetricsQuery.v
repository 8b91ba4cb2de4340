(** Specification vocabulary for MetricsQuery (C47-C50), written without the validator,
    the optimizer and the printers. *)
From Verif Require Import PyBase DateTime Objects Exprs SpecExpr SpecTime SpecOccurs SpecHazard SpecLogic Metrics MetricsQuery.
From Verif Require SpecMetrics.

Section Spec.
Context {RT : PyRT}.

(** ** Queries made of objects that the constructors return *)
Definition opt_all (P : obj -> Prop) (x : option (list obj)) : Prop :=
  match x with None => True | Some l => Forall P l end.
Definition opt_all_obj (P : obj -> Prop) (o : obj) : Prop :=
  o = ONone \/ exists l, o = OList l /\ Forall P l.
(** [good] is what is known of every object in the query; C47 uses [api] *)
Section Built.
Variable good : obj -> Prop.
Definition is_param (o : obj) : Prop := good o /\ literal o.
Definition is_filter (o : obj) : Prop := good o /\ SpecMetrics.condition_obj o.
Definition is_group (o : obj) : Prop := good o /\ SpecMetrics.groupable o.
Inductive built : mval -> Prop :=
| bu_int z : built (VObj (OInt z))
| bu_bool b : built (VObj (OBool b))
| bu_float f : built (VObj (OFloat f))
| bu_ts t : (m_public (ts_metric t) <> None \/ m_mri (ts_metric t) <> None) ->
    opt_all is_param (ts_params t) -> opt_all is_filter (ts_filters t) ->
    opt_all is_group (ts_groupby t) -> built (VTS t)
| bu_formula n k ps a f g : k <> KNone -> Forall built ps -> opt_all_obj (fun _ => True) a ->
    opt_all_obj is_filter f -> opt_all_obj is_group g ->
    built (VFormula (OStr n) (Some k) ps a f g).
End Built.

(** ** Values that MQL printing refuses: those that SnQL printing refuses, and a function
    on the right of a comparison *)
Inductive mql_hazard : exn -> obj -> Prop :=
| mh_hazard e x : hazard e x -> mql_hazard e x
| mh_function l o f n ik il pk pl a :
    mql_hazard InvalidExpressionError (OCond l o (OFunc f n ik il pk pl a)).
(** objects in the parameters, filters and group-bys of a query, at any depth *)
Definition in_opt (x : obj) (o : option (list obj)) : Prop :=
  exists l y, o = Some l /\ In y l /\ occurs x y.
Definition in_obj (x o : obj) : Prop := exists l y, o = OList l /\ In y l /\ occurs x y.
Inductive within : obj -> mval -> Prop :=
| wi_ts x t : in_opt x (ts_params t) \/ in_opt x (ts_filters t) \/ in_opt x (ts_groupby t) ->
    within x (VTS t)
| wi_formula x n pk ps a f g : in_obj x f \/ in_obj x g -> within x (VFormula n pk ps a f g)
| wi_below x p n pk ps a f g : In p ps -> within x p -> within x (VFormula n pk ps a f g).

(** ** C49: the filters at the root of a query, and the same query with other ones there *)
Inductive root_filters : mval -> list obj -> Prop :=
| rf_ts m a p l g : root_filters (VTS (mkTS m a p (Some l) g)) l
| rf_list n pk ps a l g : root_filters (VFormula n pk ps a (OList l) g) l
| rf_tuple n pk ps a l g : root_filters (VFormula n pk ps a (OTuple l) g) l.
Inductive refiltered : mval -> list obj -> mval -> Prop :=
| re_ts m a p l g l' : refiltered (VTS (mkTS m a p (Some l) g)) l' (VTS (mkTS m a p (Some l') g))
| re_formula n pk ps a f g l' : refiltered (VFormula n pk ps a f g) l' (VFormula n pk ps a (OList l') g).

(** ** C50 *)
(** ISO 8601 text of a datetime with its UTC offset, [+HH:MM[:SS[.ffffff]]] *)
Definition offset_text (o : option Z) (s : str) : Prop :=
  match o with
  | None => s = []
  | Some us => exists hh mm rest h m sec frac,
      s = (if us <? 0 then $"-" else $"+")%Z ++ hh ++ $":" ++ mm ++ rest
      /\ numeral 2 h hh /\ numeral 2 m mm /\ (0 <= m < 60)%Z /\ (0 <= sec < 60)%Z /\ (0 <= frac < 1000000)%Z
      /\ Z.abs us = ((h * 60 + m) * 60 + sec) * 1000000 + frac
      /\ (sec = 0 /\ frac = 0 /\ rest = []
          \/ frac = 0 /\ sec <> 0 /\ (exists ss, rest = $":" ++ ss /\ numeral 2 sec ss)
          \/ frac <> 0 /\ exists ss ff, rest = $":" ++ ss ++ $"." ++ ff /\ numeral 2 sec ss /\ numeral 6 frac ff)%Z
  end%Z.
Definition full_iso_text (t : datetime) (s : str) : Prop :=
  exists a b, s = a ++ b /\ iso_text (mkDT (dt_date t) (dt_hour t) (dt_min t) (dt_sec t) (dt_us t) None) a
    /\ offset_text (dt_tz t) b.
(** the value of a key in a dict *)
Fixpoint entry (k : str) (ks : list str) (vs : list obj) (v : obj) : Prop :=
  match ks, vs with
  | k' :: ks', v' :: vs' => k = k' /\ v = v' \/ k <> k' /\ entry k ks' vs' v
  | _, _ => False
  end.
Definition dict_entry (d : obj) (k : str) (v : obj) : Prop :=
  exists ks vs, d = ODict ks vs /\ entry k ks vs v.
Definition dict_keys (d : obj) (l : list str) : Prop := exists vs, d = ODict l vs.

(** the settings of a query *)
Record settings := mkSet {
  se_start : datetime; se_end : datetime; se_rollup : rollup; se_scope : mscope;
  se_limit : option pyint; se_offset : option pyint; se_extrapolate : option bool;
  se_indexer : list str * list obj }.
Definition opt_of {A} (k : A -> obj) (x : option A) : mval :=
  VObj (match x with Some a => k a | None => ONone end).
Definition has_settings (q : mquery) (s : settings) : Prop :=
  mq_start q = VObj (ODateTime (se_start s)) /\ mq_end q = VObj (ODateTime (se_end s))
  /\ mq_rollup q = VRollup (se_rollup s) /\ mq_scope q = VScope (se_scope s)
  /\ mq_limit q = opt_of OLimit (se_limit s) /\ mq_offset q = opt_of OOffset (se_offset s)
  /\ mq_extrapolate q = opt_of OExtrapolate (se_extrapolate s)
  /\ mq_indexer q = VObj (ODict (fst (se_indexer s)) (snd (se_indexer s))).
(** the mql_context that shows these settings *)
Definition int_text (i : pyint) : obj := match i with PInt z => OInt z | PBool b => OBool b end.
Definition or_none {A} (k : A -> obj) (x : option A) : obj :=
  match x with Some a => k a | None => ONone end.
Definition shows_rollup (r : rollup) (d : obj) : Prop :=
  dict_keys d [$"orderby"; $"granularity"; $"interval"; $"with_totals"]
  /\ dict_entry d ($"interval") (or_none int_text (ro_interval r))
  /\ dict_entry d ($"granularity") (ro_granularity r)
  /\ dict_entry d ($"orderby") (or_none (fun x => OStr (match x with ASC => $"ASC" | DESC => $"DESC" end)) (ro_orderby r))
  /\ dict_entry d ($"with_totals") (or_none (fun b : bool => OStr (if b then $"True" else $"False")) (ro_totals r)).
Definition shows_scope (s : mscope) (d : obj) : Prop :=
  dict_keys d [$"org_ids"; $"project_ids"; $"use_case_id"]
  /\ dict_entry d ($"org_ids") (OList (map int_text (ms_orgs s)))
  /\ dict_entry d ($"project_ids") (OList (map int_text (ms_projects s)))
  /\ dict_entry d ($"use_case_id") (or_none OStr (ms_usecase s)).
Definition shows_settings (s : settings) (d : obj) : Prop :=
  dict_keys d [$"start"; $"end"; $"rollup"; $"scope"; $"indexer_mappings"; $"limit"; $"offset"; $"extrapolate"]
  /\ (exists x, dict_entry d ($"start") (OStr x) /\ full_iso_text (se_start s) x)
  /\ (exists x, dict_entry d ($"end") (OStr x) /\ full_iso_text (se_end s) x)
  /\ (exists x, dict_entry d ($"rollup") x /\ shows_rollup (se_rollup s) x)
  /\ (exists x, dict_entry d ($"scope") x /\ shows_scope (se_scope s) x)
  /\ dict_entry d ($"limit") (or_none int_text (se_limit s))
  /\ dict_entry d ($"offset") (or_none int_text (se_offset s))
  /\ dict_entry d ($"extrapolate") (or_none OBool (se_extrapolate s))
  /\ dict_entry d ($"indexer_mappings") (ODict (fst (se_indexer s)) (snd (se_indexer s))).
End Spec.
