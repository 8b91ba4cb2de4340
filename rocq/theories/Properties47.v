(** Property C108: a change of a metrics query arrives as that change. *)
From Verif Require Import PyBase PyFacts DateTime Objects Exprs SpecExpr Translate Optimizer SpecOccurs SpecLogic Metrics SpecMetrics SpecMql MetricsFacts Mql MetricsQuery MetricsQueryFacts SpecMetricsQuery
  IsoFacts SpecTime SpecServer ServerFacts StepFacts SpecMetricsStep Concrete Properties6 Properties7 Properties18 Properties21 Properties44.
Require Import Lia.

Section P.
Context {RT : PyRT} {ST : PyStr}.

(** ** C108 A change of a metrics query arrives at the server as that change *)
Lemma entry_cons k k' ks v v' vs vs' o : (k = k' -> v = v') -> (entry k ks vs o <-> entry k ks vs' o) -> (entry k (k' :: ks) (v :: vs) o <-> entry k (k' :: ks) (v' :: vs') o).
Proof. intros A B. cbn [entry]. rewrite B. split; intros [(E & ->)|X]; auto; left; split; auto. symmetry. auto. Qed.
(** setting a field changes the text, if it is the query, and otherwise one entry of the context *)
Theorem C108_setter : forall f q v q' q1 q1' x x' d d', mq_set f q v = Ok q' -> mq_serialize q = (q1, Ok (x, d)) -> mq_serialize q' = (q1', Ok (x', d')) ->
  (f = FQuery -> d' = d)
  /\ (f <> FQuery -> x' = x)
  /\ forall k o, context_key f <> Some k -> (dict_entry d' k o <-> dict_entry d k o).
Proof.
  intros f q v q' q1 q1' x x' d d' S E E'. apply C74_sets in S as (_ & F).
  apply serialize_parts in E as (_ & w & O & -> & P). apply serialize_parts in E' as (_ & w' & O' & -> & P').
  destruct q as [a b c e g h i j l], q' as [a' b' c' e' g' h' i' j' l'].
  pose proof (F FQuery) as F0. pose proof (F FStart) as F1. pose proof (F FEnd) as F2. pose proof (F FRollup) as F3. pose proof (F FScope) as F4.
  pose proof (F FLimit) as F5. pose proof (F FOffset) as F6. pose proof (F FExtrapolate) as F7. pose proof (F FIndexer) as F8. clear F.
  cbn [mq_get mq_query mq_start mq_end mq_rollup mq_scope mq_limit mq_offset mq_extrapolate mq_indexer] in *.
  unfold mq_payload in P, P'. cbn [mq_put mq_query mq_start mq_end mq_rollup mq_scope mq_limit mq_offset mq_extrapolate mq_indexer] in P, P'.
  repeat match goal with H : bind _ _ = Ok (x, d) |- _ => apply bind_Ok in H as (? & ? & H) end.
  repeat match goal with H : bind _ _ = Ok (x', d') |- _ => apply bind_Ok in H as (? & ? & H) end.
  injection P as <- <-. injection P' as <- <-.
  assert (EN : forall k ks vs o, dict_entry (ODict ks vs) k o <-> entry k ks vs o).
  { intros k ks vs o. split; [intros (ks' & vs' & Q & X); injection Q as <- <-; exact X|intros X; exists ks, vs; auto]. }
  destruct f; repeat match goal with H : ?f <> ?g -> _ |- _ => specialize (H ltac:(discriminate)); subst end;
    repeat match goal with A : ?t = Ok ?u, B : ?t = Ok ?w |- _ => rewrite A in B; injection B as <- end;
    (split; [intros X; try discriminate X; reflexivity|split; [intros X; first [reflexivity|elim X; reflexivity]|]]); intros k o NK; rewrite !EN; cbn [context_key] in NK;
    repeat (apply entry_cons; [intros ->; first [reflexivity|elim NK; reflexivity]|]); reflexivity.
Qed.
(** the filters that parse_mql reads from the text hold in the same rows as those of the query;
    missing: the values of C71 that do not survive, formulas with filters in a tuple *)
Theorem C108_read_partial : forall q q1 x d I l, mq_serialize q = (q1, Ok (x, d)) -> mql_query (mq_query q1) -> mql_value (mq_query q1) -> root_filters (mq_query q) l ->
  in_is_any I -> sees_python_equality I -> sees_equal_values I ->
  exists v l', parse_mql x = Ok v /\ root_filters v l' /\ group_truth I l' = group_truth I l.
Proof.
  intros q q1 x d I l E M V F HI HL HR.
  destruct (C49_same_meaning_partial q q1 _ I E HI HL l F) as (l1 & F1 & T1).
  assert (K : exists v, parse_mql x = Ok v /\ mv_eq v (conj_value (mq_query q1)) = true).
  { pose proof E as P. apply serialize_parts in P as (_ & _ & _ & _ & P). unfold mq_payload in P.
    apply bind_Ok in P as (t & T & P). assert (t = x) as ->.
    { repeat (apply bind_Ok in P as (? & _ & P)). congruence. }
    destruct M as [y|n pk ps a f g].
    - inversion V; subst. destruct (C43_timeseries y) as (t' & x' & P' & RR & Q'); [assumption|].
      change (print_ts y = Ok x) in T. rewrite T in P'. injection P' as <-. exists (VTS x'). auto.
    - destruct (C44_formula n pk ps a f g V) as (t' & w & P' & RR & Q').
      change (print_mval (VFormula n pk ps a f g) = Ok x) in T. rewrite T in P'. injection P' as <-. exists w. auto. }
  destruct K as (v & PV & EV).
  assert (K : exists l2, root_filters v l2 /\ py_eq (OList l2) (OList (conj_filters l1)) = true).
  { inversion F1 as [m a pr l0 g X|n pk ps a l0 g X|n pk ps a l0 g X]; subst; rewrite <- X in *; cbn [conj_value conj_timeseries conj_obj option_map ts_filters ts_metric ts_agg ts_params ts_groupby] in EV.
    - destruct v as [| |t| | |]; try discriminate EV. destruct t as [m' a' p' f' g']. cbn [mv_eq] in EV. unfold ts_eqb in EV. cbn [ts_filters ts_metric ts_agg ts_params ts_groupby] in EV.
      apply andb_prop in EV as [EV _]. apply andb_prop in EV as [_ EV]. destruct f' as [f'|]; [|discriminate EV].
      exists f'. split; [constructor|exact EV].
    - destruct v as [| | | | |n' k' ps' a' f' g']; try discriminate EV. cbn [mv_eq] in EV.
      apply andb_prop in EV as [EV _]. apply andb_prop in EV as [_ EV]. destruct f'; try discriminate EV.
      eexists. split; [constructor|exact EV].
    - inversion V; subst; match goal with X : opt_nonempty_obj _ (OTuple _) |- _ => destruct X as [X|(? & X & _)]; discriminate X end. }
  destruct K as (l2 & F2 & E2). exists v, l2. split; [exact PV|]. split; [exact F2|].
  rewrite (group_truth_eq I HL HR _ _ E2), <- T1. destruct l1 as [|c [|c' l1]]; [reflexivity|reflexivity|].
  unfold conj_filters, group_truth. cbn [map]. unfold all3 at 1. cbn [fold_right truth]. apply and3_true_r.
Qed.
Lemma read_one v l l' : root_filters v l -> root_filters v l' -> l = l'.
Proof. intros A B. inversion A; subst; inversion B; subst; reflexivity. Qed.
(** filters that are added are ANDed to those there were; so no other row passes *)
Theorem C108_added_partial : forall q q' q1 q1' x x' d d' I l m, mq_serialize q = (q1, Ok (x, d)) -> mq_serialize q' = (q1', Ok (x', d')) ->
  mql_query (mq_query q1) -> mql_value (mq_query q1) -> mql_query (mq_query q1') -> mql_value (mq_query q1') ->
  root_filters (mq_query q) l -> root_filters (mq_query q') (l ++ m) -> in_is_any I -> sees_python_equality I -> sees_equal_values I ->
  forall v v' lv lv', parse_mql x = Ok v -> parse_mql x' = Ok v' -> root_filters v lv -> root_filters v' lv' ->
  group_truth I lv' = and3 (group_truth I lv) (group_truth I m) /\ (group_truth I lv' = TTrue -> group_truth I lv = TTrue).
Proof.
  intros q q' q1 q1' x x' d d' I l m E E' M V M' V' F F' HI HL HR v v' lv lv' P P' R R'.
  destruct (C108_read_partial q q1 x d I l E M V F HI HL HR) as (w & lw & PW & RW & TW).
  destruct (C108_read_partial q' q1' x' d' I _ E' M' V' F' HI HL HR) as (w' & lw' & PW' & RW' & TW').
  assert (w = v) as -> by congruence. assert (w' = v') as -> by congruence.
  assert (lw = lv) as -> by (eapply read_one; eassumption). assert (lw' = lv') as -> by (eapply read_one; eassumption).
  rewrite TW, TW'. assert (A : group_truth I (l ++ m) = and3 (group_truth I l) (group_truth I m)) by (unfold group_truth; rewrite map_app; apply all3_app).
  split; [exact A|]. rewrite A. destruct (group_truth I l), (group_truth I m); (reflexivity || discriminate).
Qed.
(** their order and repetition do not matter *)
Theorem C108_order_partial : forall q q' q1 q1' x x' d d' I l l', mq_serialize q = (q1, Ok (x, d)) -> mq_serialize q' = (q1', Ok (x', d')) ->
  mql_query (mq_query q1) -> mql_value (mq_query q1) -> mql_query (mq_query q1') -> mql_value (mq_query q1') ->
  root_filters (mq_query q) l -> root_filters (mq_query q') l' -> (forall c, In c l <-> In c l') -> in_is_any I -> sees_python_equality I -> sees_equal_values I ->
  forall v v' lv lv', parse_mql x = Ok v -> parse_mql x' = Ok v' -> root_filters v lv -> root_filters v' lv' -> group_truth I lv' = group_truth I lv.
Proof.
  intros q q' q1 q1' x x' d d' I l l' E E' M V M' V' F F' S HI HL HR v v' lv lv' P P' R R'.
  destruct (C108_read_partial q q1 x d I l E M V F HI HL HR) as (w & lw & PW & RW & TW).
  destruct (C108_read_partial q' q1' x' d' I _ E' M' V' F' HI HL HR) as (w' & lw' & PW' & RW' & TW').
  assert (w = v) as -> by congruence. assert (w' = v') as -> by congruence.
  assert (lw = lv) as -> by (eapply read_one; eassumption). assert (lw' = lv') as -> by (eapply read_one; eassumption).
  rewrite TW, TW'. unfold group_truth. apply all3_same; apply incl_map; intros c; apply S.
Qed.
End P.

(** Non-vacuity: the series of C43 and the same with one filter less; the row of C105 *)
#[local] Existing Instance demoRT.
#[local] Existing Instance demoST.
Definition c108_series : timeseries :=
  mkTS (ts_metric demo_series) (ts_agg demo_series) (ts_params demo_series) (Some [OCond (tag ($"env")) EQ (OStr ($"a ""b"" }"))]) (ts_groupby demo_series).
Definition c108_filter : obj :=
  OBoolC BOr OR KList [OCond (tag ($"b")) IN (OList [OStr ($"x"); OStr ($"y, z")]); OCond (tag ($"c.d")) NOT_LIKE (OStr ($"tx*"))].
Example C108_case : exists q1 q1' x x' d, mq_serialize (c70_query c108_series) = (q1, Ok (x, d)) /\ mq_set FQuery (c70_query c108_series) (VTS demo_series) = Ok (c70_query demo_series)
  /\ mq_serialize (c70_query demo_series) = (q1', Ok (x', d)) /\ x <> x'
  /\ mql_query (mq_query q1) /\ mql_value (mq_query q1) /\ mql_query (mq_query q1') /\ mql_value (mq_query q1')
  /\ (exists l, root_filters (mq_query (c70_query c108_series)) l /\ root_filters (mq_query (c70_query demo_series)) (l ++ [c108_filter]))
  /\ exists v v' lv lv', parse_mql x = Ok v /\ parse_mql x' = Ok v' /\ root_filters v lv /\ root_filters v' lv'
     /\ group_truth c105_mrow lv = TTrue /\ group_truth c105_mrow lv' = TTrue.
Proof.
  assert (S : mql_timeseries c108_series).
  { destruct demo_series_ok as (A & B & C & D & _ & E). split; [exact A|]. split; [exact B|]. split; [exact C|]. split; [exact D|]. split; [|exact E].
    right. eexists. split; [reflexivity|]. split; [discriminate|]. pose proof demo_conds_ok as F. inversion F; subst. constructor; [assumption|constructor]. }
  eexists _, _, _, _, _. split; [vm_compute; reflexivity|]. split; [vm_compute; reflexivity|]. split; [vm_compute; reflexivity|]. split; [vm_compute; discriminate|].
  split; [constructor|]. split; [constructor; exact S|]. split; [constructor|]. split; [constructor; exact demo_series_ok|].
  split; [eexists; split; constructor|].
  eexists _, _, _, _. split; [vm_compute; reflexivity|]. split; [vm_compute; reflexivity|]. split; [constructor|]. split; [constructor|]. split; vm_compute; reflexivity.
Qed.

Print Assumptions C108_setter.
Print Assumptions C108_read_partial.
Print Assumptions C108_added_partial.
Print Assumptions C108_order_partial.
