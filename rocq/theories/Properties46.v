(** Property C107: a change of a query arrives as that change. *)
From Verif Require Import OptFacts PyBase PyFacts DateTime Objects Exprs SpecExpr Translate Optimizer Query SpecQuery SpecSetters SpecRefs SpecOccurs SpecOrder SpecLogic WfFacts SetterProps PrintProps
  SpecSnql SnqlFacts SnqlDenote SnqlQuery SpecAlike SpecServer ServerFacts SpecStep StepFacts ApiTac Concrete Properties3 Properties4 Properties12 Properties44.
Require Import Lia.

Section P.
Context {RT : PyRT}.

(** ** C107 What a server reads changes where the query was changed, and adding conditions narrows it *)
(** a clause that two queries share is read the same, whatever their other clauses are *)
Theorem C107_clause : forall q q' s s' t t', api_query q -> class_typed_query q -> plain_names q -> api_query q' -> class_typed_query q' -> plain_names q' ->
  q_match q' = q_match q -> serialize q = Ok s -> serialize q' = Ok s' -> reads s t -> reads s' t' ->
  same_match t t' /\ forall k, get k (q_clauses q') = get k (q_clauses q) -> part_of t' k = part_of t k.
Proof.
  intros q q' s s' t t' A T N A' T' N' M E E' R R'. pose proof (api_wf_query q A) as W.
  destruct (two_queries q q' s s' t t' W T (fun o I x O => N o x I O) (api_wf_query q' A') T' (fun o I x O => N' o x I O) M E E' R R')
    as (S & a0 & a & b0 & b & A0 & AO & WA0 & WA & B0 & BO & WB0 & WB & (o & OA & DA) & (o' & OB & DB) & X).
  split; [exact S|]. intros k G.
  assert (D : k = CWhere \/ k <> CWhere) by (destruct k; (left; reflexivity) || (right; discriminate)). destruct D as [->|D].
  - assert (a0 = b0) as <-. { cbn [get] in G. unfold filters in A0, B0. rewrite G in B0. eapply filters_one; [exact A0|exact B0]. }
    assert (a = b) as <- by (eapply optimized_list_fun; eassumption).
    destruct (where_conds _ _ _ _ OA DA) as (ts & TS & _ & ->). destruct (where_conds _ _ _ _ OB DB) as (ts' & TS' & _ & ->).
    assert (ts = ts') as <- by (eapply conds_fun; eassumption). reflexivity.
  - destruct (X k D) as [P P']. rewrite G in P'. eapply denotes_part_fun; [|eassumption|eassumption]. destruct q; apply W.
Qed.
(** a setter that accepts a value built with the API returns a query these theorems apply to *)
Theorem C107_keeps : forall k q v q', set_clause k q v = Ok q' -> api_query q -> class_typed_query q -> plain_names q ->
  api v -> (forall x y, clause_item k v x -> occurs y x -> snql_names y) -> api_query q' /\ class_typed_query q' /\ plain_names q'.
Proof.
  intros k q v q' S A T N AV NV. apply set_clause_iff in S as (x & S & -> & _).
  assert (AX : api x).
  { destruct S; try exact AV.
    - apply (api_limit (OInt z)); [constructor|]. exact (proj2 (setter_value_iff CLimit (OInt z) _) (st_limit z ltac:(assumption))).
    - apply (api_limit (OBool true)); [constructor|]. reflexivity.
    - apply (api_offset (OInt z)); [constructor|]. exact (proj2 (setter_value_iff COffset (OInt z) _) (st_offset z ltac:(assumption))).
    - apply (api_offset (OBool b)); [constructor|]. destruct b; reflexivity.
    - apply (api_granularity (OInt z)); [constructor|]. exact (proj2 (setter_value_iff CGranularity (OInt z) _) (st_granularity z ltac:(assumption))).
    - apply (api_granularity (OBool true)); [constructor|]. reflexivity.
    - apply (api_totals (OBool b)); [constructor|]. reflexivity. }
  assert (TX : match snql_separator k with Some _ => exists l, list_or_tuple x l /\ Forall (item_class k) l | None => item_class k x end).
  { destruct S; cbn; eauto; eexists; (split; [constructor|]); assumption. }
  assert (NX : forall y z, clause_item k x y -> occurs z y -> snql_names z).
  { destruct S; try exact NV; intros y z0 C O; unfold clause_item in C; cbn in C; subst y; inversion O; subst; exact Logic.I. }
  assert (G : forall k' c, get k' (upd k x c) = x /\ k' = k \/ get k' (upd k x c) = get k' c).
  { intros k' c. assert (D : k' = k \/ k' <> k) by (destruct k, k'; (left; reflexivity) || (right; discriminate)).
    destruct D as [->|D]; [left; split; [apply get_upd_same|reflexivity]|right; apply get_upd_other; auto]. }
  destruct q as [b c|i c]; cbn [q_with q_clauses api_query class_typed_query] in *.
  - split; [split; [apply A|]; intros k'; destruct (G k' c) as [(-> & _)| ->]; [exact AX|apply A]|].
    split; [intros k'; destruct (G k' c) as [(-> & ->)| ->]; [right; exact TX|apply T]|].
    intros o y I O. inversion I as [? ?|? ? k' z C| |]; subst; [eapply N; [constructor|exact O]|].
    destruct (G k' c) as [(E & ->)|E]; rewrite E in C; [eapply NX; eassumption|eapply N; [eapply io_clause, C|exact O]].
  - split; [split; [apply A|]; intros k'; destruct (G k' c) as [(-> & _)| ->]; [exact AX|apply A]|].
    split; [split; [apply T|]; intros k'; destruct (G k' c) as [(-> & ->)| ->]; [right; exact TX|apply T]|].
    intros o y I O. inversion I as [|? ? |? ? k' z C|? ? ? I']; subst; [|eapply N; [apply io_inner, I'|exact O]].
    destruct (G k' c) as [(E & ->)|E]; rewrite E in C; [eapply NX; eassumption|eapply N; [eapply io_sub_clause, C|exact O]].
Qed.
(** a setter changes what is read in its clause only, and there to what it was given *)
Theorem C107_setter : forall k q v q' s s' t t', api_query q -> class_typed_query q -> plain_names q ->
  api v -> (forall x y, clause_item k v x -> occurs y x -> snql_names y) ->
  set_clause k q v = Ok q' -> serialize q = Ok s -> serialize q' = Ok s' -> reads s t -> reads s' t' ->
  same_match t t' /\ (forall k', k' <> k -> part_of t' k' = part_of t k')
  /\ (k <> CWhere -> exists v', stores k v v' /\ denotes_part (joined q) k v' (part_of t' k)).
Proof.
  intros k q v q' s s' t t' A T N AV NV S E E' R R'. destruct (C107_keeps k q v q' S A T N AV NV) as (A' & T' & N'). destruct (C22_frame k q v q' S) as (ST & M & F).
  destruct (C107_clause q q' s s' t t' A T N A' T' N' M E E' R R') as (SM & C). split; [exact SM|].
  split; [intros k' NE; apply C, F, NE|]. intros NW. eexists. split; [exact ST|].
  destruct (two_queries q q' s s' t t' (api_wf_query q A) T (fun o I x O => N o x I O) (api_wf_query q' A') T' (fun o I x O => N' o x I O) M E E' R R')
    as (_ & a0 & a & b0 & b & _ & _ & _ & _ & _ & _ & _ & _ & _ & _ & X). apply X, NW.
Qed.
(** a query with more conditions asks for no other row, whatever the row says about them *)
Theorem C107_narrows : forall q q' s s' t t' k l l', api_query q -> class_typed_query q -> plain_names q -> api_query q' -> class_typed_query q' -> plain_names q' ->
  q_match q' = q_match q -> serialize q = Ok s -> serialize q' = Ok s' -> reads s t -> reads s' t' ->
  of_conditions k -> conditions_of k q l -> conditions_of k q' l' -> incl l l' ->
  forall R, (passes R (part_of t' k) = TTrue -> passes R (part_of t k) = TTrue) /\ (passes R (part_of t k) = TFalse -> passes R (part_of t' k) = TFalse).
Proof.
  intros q q' s s' t t' k l l' A T N A' T' N' M E E' R R' K C C' I r.
  destruct (two_conditions q q' s s' t t' k l l' (api_wf_query q A) T (fun o I x O => N o x I O) (api_wf_query q' A') T' (fun o I x O => N' o x I O) M E E' R R' K C C')
    as (ts & ts' & _ & _ & D & D' & P & P'). rewrite P, P'.
  pose proof (incl_map (cond_truth r) (F2_incl _ _ _ _ _ (read_as_fun (joined q) k) D D' I)) as J. split.
  - intros H. apply all3_true. intros x X. apply (proj1 (all3_true _) H), J, X.
  - intros H. apply all3_false. apply J. apply all3_false, H.
Qed.
(** the order and the repetition of conditions do not matter *)
Theorem C107_order : forall q q' s s' t t' k l l', api_query q -> class_typed_query q -> plain_names q -> api_query q' -> class_typed_query q' -> plain_names q' ->
  q_match q' = q_match q -> serialize q = Ok s -> serialize q' = Ok s' -> reads s t -> reads s' t' ->
  of_conditions k -> conditions_of k q l -> conditions_of k q' l' -> (forall c, In c l <-> In c l') ->
  forall R, passes R (part_of t' k) = passes R (part_of t k).
Proof.
  intros q q' s s' t t' k l l' A T N A' T' N' M E E' R R' K C C' I r.
  destruct (two_conditions q q' s s' t t' k l l' (api_wf_query q A) T (fun o I x O => N o x I O) (api_wf_query q' A') T' (fun o I x O => N' o x I O) M E E' R R' K C C')
    as (ts & ts' & _ & _ & D & D' & P & P'). rewrite P, P'.
  apply all3_same; apply incl_map; (eapply F2_incl; [apply (read_as_fun (joined q) k)|eassumption|eassumption|]); intros c; apply I.
Qed.
(** conditions that are added are ANDed to those there were; missing: ORs with left-hand sides
    that are equal in Python but written differently, as in C105 *)
Theorem C107_added_partial : forall q q' s s' t t' k l m, api_query q -> class_typed_query q -> plain_names q -> api_query q' -> class_typed_query q' -> plain_names q' ->
  q_match q' = q_match q -> serialize q = Ok s -> serialize q' = Ok s' -> reads s t -> reads s' t' ->
  of_conditions k -> conditions_of k q l -> conditions_of k q' (l ++ m) -> Forall merges_exactly m ->
  exists cs, Forall2 (denotes_cond (joined q)) m cs
    /\ forall R, knows_in R -> passes R (part_of t' k) = and3 (passes R (part_of t k)) (all3 (map (cond_truth R) cs)).
Proof.
  intros q q' s s' t t' k l m A T N A' T' N' M E E' R R' K C C' X.
  destruct (two_conditions q q' s s' t t' k l (l ++ m) (api_wf_query q A) T (fun o I x O => N o x I O) (api_wf_query q' A') T' (fun o I x O => N' o x I O) M E E' R R' K C C')
    as (ts & ts' & _ & W & D & D' & P & P').
  apply Forall2_app_inv_l in D' as (ts1 & us & D1 & DU & ->). apply Forall_app in W as [_ W].
  assert (ts1 = ts) as ->. { eapply F2_fun; [|exact D1|exact D]. apply Forall_forall. intros c _ e e'. apply read_as_fun. }
  assert (G : exists cs, Forall2 (denotes_cond (joined q)) m cs /\ forall R, knows_in R -> map (cond_truth R) us = map (cond_truth R) cs).
  { clear - DU W X. induction DU as [|c u m us H _ IH]; [exists []; split; [constructor|reflexivity]|]. inversion W; inversion X; subst.
    destruct (read_as_exact _ _ _ _ ltac:(eassumption) ltac:(eassumption) H) as (u0 & D0 & E0). destruct IH as (cs & DC & EC); [assumption|assumption|].
    exists (u0 :: cs). split; [constructor; assumption|]. intros R K. cbn [map]. rewrite E0, EC by exact K. reflexivity. }
  destruct G as (cs & DC & EC). exists cs. split; [exact DC|]. intros r KN. rewrite P, P', map_app, all3_app, EC by exact KN. reflexivity.
Qed.
(** without [merges_exactly] not: f(1) = 5 OR f(TRUE) = 6, added to a query without conditions, excludes
    a row in which it holds *)
Definition c107_query (w : obj) : query :=
  QBase (BEntity (mkEntity ($"e") None None None)) (upd CWhere w (upd CSelect (OList [OColumn (mkColumn ($"a") None None None)]) no_clauses)).
Ltac good := repeat match goal with
  | |- Forall _ _ => constructor
  | |- good_expr (c105_f _) => unfold c105_f | |- good_expr (c105_n _) => unfold c105_n
  | |- good_expr (EWord _ _ _) => apply ge_word; [apply lit_word; [discriminate|reflexivity]| |intros; discriminate]
  end.
Theorem C107_added_refuted : exists q q' s s' t t' m cs R,
  api_query q /\ class_typed_query q /\ plain_names q /\ api_query q' /\ class_typed_query q' /\ plain_names q'
  /\ q_match q' = q_match q /\ serialize q = Ok s /\ serialize q' = Ok s' /\ reads s t /\ reads s' t'
  /\ conditions_of CWhere q [] /\ conditions_of CWhere q' ([] ++ m) /\ Forall2 (denotes_cond (joined q)) m cs /\ knows_in R
  /\ passes R (part_of t' CWhere) = TFalse /\ and3 (passes R (part_of t CWhere)) (all3 (map (cond_truth R) cs)) = TTrue.
Proof.
  exists (c107_query (OList [])), (c107_query (OList [c34_or])), ($"MATCH (e) SELECT a"), ($"MATCH (e) SELECT a WHERE fn(1) IN array(5, 6)"),
    (QTree (MEntity ($"e") None) (fun k => match k with CSelect => Some (PExprs [c105_n ($"a")]) | _ => None end)),
    (QTree (MEntity ($"e") None) (c105_parts (CAtom (c105_f ($"1")) IN (Some (EWord ($"array") [[c105_n ($"5"); c105_n ($"6")]] None))))),
    [c34_or], [CNode OR [CAtom (c105_f ($"1")) EQ (Some (c105_n ($"5"))); CAtom (c105_f ($"TRUE")) EQ (Some (c105_n ($"6")))]], c105_row.
  assert (API : forall w, api w -> api_query (c107_query w)).
  { intros w AW. split; [cbn [obj_of_base]; api_tac|]. intros []; cbn; try apply api_none; try exact AW; api_tac. }
  assert (CT : forall l, Forall a_condition l -> class_typed_query (c107_query (OList l))).
  { intros l F []; cbn; auto; right; eexists; (split; [constructor|]); [repeat constructor|exact F]. }
  split; [apply API; api_tac|]. split; [apply CT; constructor|]. split; [unfold c107_query; show_names|].
  split; [apply API; unfold c34_or, c34_func; api_tac|]. split; [apply CT; repeat constructor|]. split; [unfold c107_query, c34_or, c34_func; show_names|].
  split; [reflexivity|]. split; [vm_compute; reflexivity|]. split; [vm_compute; reflexivity|].
  split.
  { split; [|vm_compute; reflexivity]. constructor; [repeat split; try (intros; discriminate); repeat constructor; cbn; intuition discriminate|].
    intros [] p E; cbn in E; try discriminate; injection E as <-. constructor; [cbn; auto|discriminate|]. good. }
  split.
  { split; [|vm_compute; reflexivity]. constructor; [repeat split; try (intros; discriminate); repeat constructor; cbn; intuition discriminate|].
    intros [] p E; cbn in E; try discriminate; injection E as <-.
    - constructor; [cbn; auto|discriminate|]. good.
    - constructor; [cbn; auto|discriminate|]. constructor; [|constructor]. constructor; [good|split; [discriminate|intros []; discriminate]|].
      intros e E. injection E as <-. good. }
  split; [right; constructor|]. split; [right; constructor|].
  split.
  { constructor; [|constructor]. constructor. constructor; [|constructor; [|constructor]]; (constructor; [|discriminate|discriminate|]).
    - apply (d_func false true ($"fn") KNone [] KList [OInt 1] None [] [c105_n ($"1")]); [constructor|constructor; [apply (d_int false 1)|constructor]].
    - apply (d_int false 5).
    - apply (d_func false true ($"fn") KNone [] KList [OBool true] None [] [c105_n ($"TRUE")]); [constructor|constructor; [apply d_true|constructor]].
    - apply (d_int false 6). }
  split; [intros e vs; reflexivity|]. split; vm_compute; reflexivity.
Qed.
End P.

(** Non-vacuity: the query [demo_q1] (C63), whose OR is merged, and the same query with one more condition *)
#[local] Existing Instance demoRT.
Definition c107_or : obj := OBoolC BOr OR KList [OCond (col ($"a")) EQ (OInt 1); OCond (col ($"a")) EQ (OInt 2)].
Definition c107_more : obj := OCond (col ($"c")) GT (OInt 7).
Example C107_case : exists q' s s' t t', set_clause CWhere demo_q1 (OList [c107_or; c107_more]) = Ok q'
  /\ api_query demo_q1 /\ class_typed_query demo_q1 /\ plain_names demo_q1 /\ api_query q' /\ class_typed_query q' /\ plain_names q'
  /\ q_match q' = q_match demo_q1 /\ serialize demo_q1 = Ok s /\ serialize q' = Ok s' /\ reads s t /\ reads s' t'
  /\ conditions_of CWhere demo_q1 [c107_or] /\ conditions_of CWhere q' ([c107_or] ++ [c107_more]) /\ Forall merges_exactly [c107_more]
  /\ s' = $"MATCH (events SAMPLE 1.0) SELECT f2(a, 'it\'s', toDateTime('2021-01-02T03:04:05')) AS `y`, c WHERE a IN array(1, 2) AND c > 7 ORDER BY quantile(5)(b) DESC LIMIT 1".
Proof.
  destruct C63_case as (A & _ & T & _ & N & _ & _ & _ & S & _).
  set (q' := q_with demo_q1 (upd CWhere (OList [c107_or; c107_more]) (q_clauses demo_q1))).
  assert (E : set_clause CWhere demo_q1 (OList [c107_or; c107_more]) = Ok q') by (vm_compute; reflexivity).
  assert (A' : api_query q').
  { split; [apply A|]. intros k. destruct k; try exact (proj2 A CSelect); try exact (proj2 A CLimit); try exact (proj2 A COrderby); try apply api_none. cbn. unfold c107_or, c107_more. api_tac. }
  assert (T' : class_typed_query q') by (intros []; cbn; auto; right; try (eexists; split; repeat constructor; fail); eexists; reflexivity).
  assert (N' : plain_names q') by (unfold q', demo_q1, demo_c63, c107_or, c107_more; cbn; show_names).
  exists q'.
  assert (S' : serialize q' = Ok ($"MATCH (events SAMPLE 1.0) SELECT f2(a, 'it\'s', toDateTime('2021-01-02T03:04:05')) AS `y`, c WHERE a IN array(1, 2) AND c > 7 ORDER BY quantile(5)(b) DESC LIMIT 1")) by (vm_compute; reflexivity).
  destruct (C63_text demo_q1 _ A T N S) as (_ & _ & _ & t & _ & _ & _ & _ & _ & G & TT).
  destruct (C63_text q' _ A' T' N' S') as (_ & _ & _ & t' & _ & _ & _ & _ & _ & G' & TT').
  exists demo_text. eexists. exists t, t'. repeat (split; [first [assumption|reflexivity|eassumption]|]).
  split; [split; assumption|]. split; [split; eassumption|]. split; [right; constructor|]. split; [right; constructor|]. split; [apply exacts_merge; repeat constructor|reflexivity].
Qed.

Print Assumptions C107_clause.
Print Assumptions C107_keeps.
Print Assumptions C107_setter.
Print Assumptions C107_narrows.
Print Assumptions C107_order.
Print Assumptions C107_added_partial.
Print Assumptions C107_added_refuted.
