(** Properties C72 and C73: what strings can do to the MQL text they are put into. *)
From Verif Require Import PyBase PyFacts Regex Objects PyEqFacts Exprs Translate Query Metrics SpecExpr TextFacts
  SpecText SpecMetrics MetricsFacts SpecMql SpecArrive SpecKept KeptFacts Mql Concrete MqlText MqlRead MqlPrint Properties6.

Section P.
Context {RT : PyRT} {ST : PyStr}.

(** ** C72 A string value cannot break out of its place in a metrics query *)
(** v is v0 with arbitrary other strings in the filters and in the aggregate parameters of
    the Timeseries. Its text is accepted, and gives v with the same structure: only the
    strings are read as [reread] says *)
Theorem C72_strings : forall v0 v, mql_value v0 -> mql_query v0 -> kept_value any_strings v v0 ->
  exists s u v', print_mval v = Ok s /\ parse_mql s = Ok u
    /\ kept_value rereads v v' /\ mv_eq u (conj_value v') = true.
Proof.
  intros v0 v M Q K. destruct (value_kept v0 M v K) as (v' & A & K').
  destruct (value_arrival _ _ A) as (s & u & E & T & Eq & Qu). exists s, u, v'.
  split; [exact E|]. split; [|split; [exact K'|exact Eq]].
  pose proof (parse_sum s u [] []) as P. cbn [app] in P. rewrite app_nil_r in P.
  apply P; [apply sm_one, pr_one, T|exact (Qu (query_kept _ _ _ K Q))|apply blank_nil|apply blank_nil].
Qed.
(** different strings are read as different strings *)
Theorem C72_distinct : forall s s', reread s = reread s' -> s = s'.
Proof. exact reread_injective. Qed.

(** ** C73 Names and parameters cannot smuggle metrics into a query *)
Lemma metric_of_eqb a b : metric_eqb a b = true -> mql_metric b -> a = b.
Proof.
  destruct a as [p m i]. unfold metric_eqb. intros E M; revert E; destruct M as [s _|s _]; intros E; cbn in E;
    destruct p, m, i; cbn in E; rewrite ?andb_true_r, ?andb_false_r in E; try discriminate E;
    apply str_eqb_eq in E; rewrite E; reflexivity.
Qed.
Definition mql_series (l : list (metric * str)) : Prop := Forall (fun x => mql_metric (fst x)) l.
Lemma eq_series v : forall w, mv_eq v w = true -> mql_series (series w) -> series v = series w.
Proof.
  assert (forall ps ps', Forall (fun v => forall w, mv_eq v w = true -> mql_series (series w) -> series v = series w) ps ->
    mv_eq_list ps ps' = true -> mql_series (flat_map series ps') -> flat_map series ps = flat_map series ps') as A.
  { clear v. induction ps as [|v ps IH]; intros [|w ps'] F E M; cbn in E; try discriminate E; [reflexivity|].
    apply andb_true_iff in E. destruct E as (E & E'). cbn [flat_map] in *. apply Forall_app in M. destruct M as (M & M').
    inversion F; subst. f_equal; auto. }
  induction v as [o|m|t|r|sc|n pk ps a f g IH] using mval_ind'; intros w E M; destruct w; try discriminate E; try reflexivity.
  - cbn [mv_eq] in E. unfold ts_eqb in E. rewrite !andb_true_iff in E. destruct E as ((((E1 & E2) & _) & _) & _).
    apply str_eqb_eq in E2. inversion M; subst. cbn [series]. do 2 f_equal; [|exact E2]. apply metric_of_eqb; assumption.
  - rewrite mv_eq_formula in E. rewrite !andb_true_iff in E. cbn [series]. apply A; [exact IH| |exact M]. tauto.
Qed.
Lemma conj_series v : series (conj_value v) = series v.
Proof.
  induction v as [o|m|t|r|sc|n pk ps a f g IH] using mval_ind'; try reflexivity.
  cbn [conj_value series]. induction IH as [|v ps E _ J]; [reflexivity|]. cbn [map flat_map]. f_equal; assumption.
Qed.
Lemma chain_series name l : forall a, series (fold_left (SpecArrive.pair name) l a) = series a ++ flat_map series l.
Proof.
  induction l as [|v l IH]; intros a; cbn [fold_left flat_map]; [symmetry; apply app_nil_r|].
  rewrite IH. cbn [series SpecArrive.pair flat_map]. rewrite app_nil_r, <- app_assoc. reflexivity.
Qed.
(** the same metrics in the same order, each as it arrives, with its aggregate *)
Definition same_series (l l' : list (metric * str)) : Prop :=
  Forall2 (fun x y => metric_arrives (fst x) (fst y) /\ snd x = snd y) l l'.
Lemma same_mql l l' : same_series l l' -> mql_series l'.
Proof. induction 1 as [|x y l l' (A & _) _ IH]; constructor; [eapply metric_arrives_mql, A|exact IH]. Qed.
Lemma list_series l m : Forall (fun v => forall w, value_arrives v w -> same_series (series v) (series w)) l ->
  Forall2 value_arrives l m -> same_series (flat_map series l) (flat_map series m).
Proof.
  intros I F. revert I. induction F as [|x y l m H F J]; intros I; [constructor|].
  inversion I as [|? ? I1 I2]; subst. cbn [flat_map]. apply Forall2_app; [apply I1, H|apply J, I2].
Qed.
Lemma arrives_series v : forall w, value_arrives v w -> same_series (series v) (series w).
Proof.
  induction v as [o|m|t|r|sc|n pk ps a f g IH] using mval_ind'; intros w A; inversion A; subst; try (constructor; fail).
  - match goal with T : ts_arrives _ _ |- _ => destruct T as (_ & _ & _ & m & p & f & -> & M & _) end.
    cbn [series ts_metric ts_agg]. constructor; [split; [exact M|reflexivity]|constructor].
  - inversion IH as [|? ? Ia IH']; subst. apply Forall_app in IH'. destruct IH' as (Il & Ib).
    inversion Ib as [|? ? Ib' _]; subst.
    pose proof (Ia _ ltac:(eassumption)) as Ea. pose proof (Ib' _ ltac:(eassumption)) as Eb.
    match goal with F : Forall2 value_arrives ?l ?m |- _ => pose proof (list_series _ _ Il F) as El end.
    unfold SpecArrive.chain. cbn [series flat_map]. rewrite chain_series, flat_map_app. cbn [flat_map]. rewrite !app_nil_r, <- app_assoc.
    apply Forall2_app; [exact Ea|]. apply Forall2_app; assumption.
  - inversion IH as [|? ? I1 _]; subst. cbn [series flat_map]. rewrite !app_nil_r. apply I1. assumption.
  - cbn [series]. apply list_series; assumption.
Qed.
(** with names of the documented form, and with any strings in the filters and in the
    aggregate parameters of the Timeseries, exactly the metrics of the query are read *)
Theorem C73_names_partial : forall v v', value_arrives v v' -> mql_query v -> exists s u,
  print_mval v = Ok s /\ parse_mql s = Ok u /\ same_series (series v) (series u).
Proof.
  intros v v' A Q. destruct (value_arrival _ _ A) as (s & u & E & T & Eq & Qu). exists s, u.
  split; [exact E|]. split.
  - pose proof (parse_sum s u [] []) as P. cbn [app] in P. rewrite app_nil_r in P.
    apply P; [apply sm_one, pr_one, T|apply Qu, Q|apply blank_nil|apply blank_nil].
  - pose proof (arrives_series _ _ A) as E1. rewrite (eq_series u (conj_value v') Eq); rewrite conj_series; [exact E1|].
    eapply same_mql, E1.
Qed.

(** false in general: the metric name, the aggregate, the name of a Formula and its
    aggregate parameters are put into the text as they are *)
Definition public (s : str) : metric := mkMetric (Some s) None None.
Definition smuggles (v : mval) (l : list (metric * str)) : Prop := exists s u,
  print_mval v = Ok s /\ parse_mql s = Ok u /\ series u = l.
Definition c73_secret : metric * str := (public ($"secret"), $"sum").
Definition c73_a : timeseries := mkTS (public ($"a")) ($"max") None None None.
Theorem C73_metric_refuted : exists m t,
  mk_metric (OStr ($"a) + sum(secret")) ONone ONone = Ok m
  /\ mk_timeseries (VMetric m) (OStr ($"max")) ONone ONone ONone = Ok t
  /\ smuggles (VTS t) [(public ($"a"), $"max"); c73_secret].
Proof. eexists. eexists. split; [reflexivity|]. split; [reflexivity|]. eexists. eexists. split; [vm_compute; reflexivity|]. split; vm_compute; reflexivity. Qed.
Theorem C73_aggregate_refuted : exists t,
  mk_timeseries (VMetric (public ($"a"))) (OStr ($"sum(secret) + max")) ONone ONone ONone = Ok t
  /\ smuggles (VTS t) [c73_secret; (public ($"a"), $"max")].
Proof. eexists. split; [reflexivity|]. eexists. eexists. split; [vm_compute; reflexivity|]. split; vm_compute; reflexivity. Qed.
Theorem C73_formula_refuted :
  (let v := VFormula (OStr ($"f(sum(secret)) + g")) (Some KList) [VTS c73_a] ONone ONone ONone in
   mval_validate v = Ok tt /\ smuggles v (c73_secret :: series v))
  /\ (let v := VFormula (OStr ($"f")) (Some KList) [VTS c73_a] (OList [OStr ($"1)(sum(secret)) + f(1")]) ONone ONone in
   mval_validate v = Ok tt /\ smuggles v (c73_secret :: series v)).
Proof. split; (split; [vm_compute; reflexivity|]); eexists; eexists; (split; [vm_compute; reflexivity|]); split; vm_compute; reflexivity. Qed.
End P.

(** Non-vacuity *)
#[local] Existing Instance demoRT.
#[local] Existing Instance demoST.
(** x"} by (k) OR !b:"* and a backslash, a newline, a quote *)
Definition c72_bad : str := $"x""} by (k) OR !b:""*" ++ [92; 10; 34]%N.
Definition c72_query (s s2 s3 : str) (o : op) : mval :=
  VTS (mkTS (public ($"a")) ($"sum") (Some [OStr s2])
    (Some [OBoolC BOr OR KList [OCond (tag ($"k")) o (OStr s);
                                OCond (tag ($"b")) NOT_IN (OList (map OStr [s2; s3]))]]) None).
Example C72_case : exists s u v', print_mval (c72_query c72_bad c72_bad ($"") NEQ) = Ok s /\ parse_mql s = Ok u
    /\ kept_value rereads (c72_query c72_bad c72_bad ($"") NEQ) v' /\ mv_eq u (conj_value v') = true.
Proof.
  apply (C72_strings (c72_query ($"x") ($"y") ($"z") NEQ)); [| constructor |].
  - apply mv_ts. split; [apply mm_public; exists [$"a"]; split; [discriminate|]; split; [reflexivity|];
      constructor; [split; [discriminate|repeat constructor; cbv; intuition discriminate]|constructor]|].
    split; [apply demo_name; reflexivity|]. split; [discriminate|].
    assert (forall c, c <> 92%N -> c <> 10%N -> c <> 42%N -> mql_string [c] /\ ~ wildcard [c]) as S.
    { intros c H1 H2 H3. split; [split; intros [E|[]]; congruence|]. intros (p & E & N & _).
      destruct p as [|x [|y p]]; [congruence|discriminate E|discriminate E]. }
    split; [right; eexists; split; [reflexivity|]; split; [discriminate|]; constructor; [|constructor]; apply mp_string, (S 121%N); discriminate|].
    split; [|left; reflexivity]. right. eexists. split; [reflexivity|]. split; [discriminate|]. constructor; [|constructor].
    apply mf_or; [cbn; lia|]. constructor; [|constructor; [|constructor]].
    + apply mf_test; [apply demo_key; reflexivity|]. apply mt_neq; apply (S 120%N); discriminate.
    + apply mf_test; [apply demo_key; reflexivity|]. apply mt_not_in; [discriminate|].
      constructor; [apply (S 121%N); discriminate|]. constructor; [apply (S 122%N); discriminate|constructor].
  - apply kv_ts. repeat split.
    + right. eexists. eexists. split; [reflexivity|]. split; [reflexivity|]. constructor; [|constructor]. apply kp_string. exact I.
    + right. eexists. eexists. split; [reflexivity|]. split; [reflexivity|]. constructor; [|constructor]. apply kf_bool.
      constructor; [|constructor; [|constructor]]; apply kf_test.
      * apply kt_string; [right; cbn; auto|exact I].
      * apply kt_list; [cbn; auto|]. constructor; [exact I|]. constructor; [exact I|constructor].
Qed.
Example C73_case : exists s u, print_mval (VFormula (OStr ($"plus")) (Some KTuple)
    [VTS demo_count; VTS demo_count; VTS demo_count] (OList [OInt 1]) (OList []) ONone) = Ok s
  /\ parse_mql s = Ok u /\ same_series (series (VTS demo_count) ++ series (VTS demo_count) ++ series (VTS demo_count)) (series u).
Proof.
  assert (value_arrives (VTS demo_count) (VTS demo_count)) as C by (apply va_ts, ts_arrives_same, demo_count_ok).
  refine (C73_names_partial _ (VFormula (OStr ($"plus")) (Some KList)
       [VFormula (OStr ($"plus")) (Some KList) [VTS demo_count; VTS demo_count] ONone ONone ONone; VTS demo_count] ONone ONone ONone) _ _); [|constructor].
  apply (va_infix ($"plus") KTuple (VTS demo_count) [VTS demo_count] (VTS demo_count) (OList [OInt 1]) (OList []) ONone
    (VTS demo_count) [VTS demo_count] (VTS demo_count) ONone ONone); try exact C.
  - left; reflexivity.
  - right; reflexivity.
  - constructor; [exact C|constructor].
  - left. split; [right; left; reflexivity|reflexivity].
  - left. auto.
Qed.

Print Assumptions C72_strings.
Print Assumptions C72_distinct.
Print Assumptions C73_names_partial.
Print Assumptions C73_metric_refuted.
Print Assumptions C73_aggregate_refuted.
Print Assumptions C73_formula_refuted.
