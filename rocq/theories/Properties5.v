(** C37-C42: the metrics API and MQL string literals and filters.
    Only theorem statements; the proofs are in MetricsFacts.v, FormulaFacts.v, MqlTokens.v,
    MqlFilter.v. *)
From Verif Require Import PyBase PyFacts DateTime Objects Exprs Translate Query SpecExpr ExprFacts
  WfFacts TextFacts Metrics MetricsQuery Peg Mql SpecMetrics MetricsFacts FormulaFacts SpecMql
  MqlParse MqlTokens MqlFilter Concrete.

Section P.
Context {RT : PyRT}.

(** ** C37 Rollup accepts exactly consistent rollups.
    False as stated: a falsy granularity such as 0 is accepted. *)
Theorem C37_rollup_refuted : exists i t d g r, mk_rollup i t d g = Ok r /\ ro_granularity r = g
  /\ g = OInt 0 /\ ~ rollup_args granularity_allowed i t d g.
Proof.
  exists ONone, (OBool true), ONone, (OInt 0). eexists. split; [reflexivity|].
  split; [reflexivity|]. split; [reflexivity|]. intros ([H|(k & I & V)] & _); [discriminate|].
  assert (k = 0%Z) as -> by (apply (number_value_fun (OInt 0) k 0 V); constructor; constructor).
  cbn in I. intuition discriminate.
Qed.
(** ... and such a rollup is sent to the server *)
Theorem C37_serialized_refuted : forall {ST : PyStr}, exists q m c, snd (mq_serialize q) = Ok (m, c)
  /\ exists r, mq_rollup q = VRollup r /\ ro_granularity r = OInt 0.
Proof.
  intros ST. exists (mkMQ (VTS (mkTS (mkMetric None (Some ($"a")) None) ($"sum") None None None))
    (VObj (ODateTime (mkDT (mkDate 2023 1 1) 0 0 0 0 None))) (VObj (ODateTime (mkDT (mkDate 2023 1 2) 0 0 0 0 None)))
    (VRollup (mkRollup None (Some true) None (OInt 0))) (VScope (mkScope [] [] None))
    VNone VNone VNone (VObj (ODict [] []))).
  do 2 eexists. split; [vm_compute; reflexivity|]. eexists. split; reflexivity.
Qed.
(** with falsy granularities counted as allowed, acceptance is exactly as stated *)
Theorem C37_rollup_partial : forall i t d g r, mk_rollup i t d g = Ok r <->
  rollup_args (fun g => falsy g \/ granularity_allowed g) i t d g
  /\ opt_int i (ro_interval r) /\ t = obj_of_opt OBool (ro_totals r)
  /\ d = obj_of_opt ODir (ro_orderby r) /\ g = ro_granularity r.
Proof. exact rollup_exact. Qed.
(** a rollup with an interval and a granularity has an allowed granularity, or a zero one *)
Theorem C37_interval_partial : forall i t d g r, mk_rollup i t d g = Ok r -> i <> ONone -> g <> ONone ->
  exists n k, int_value i n /\ number_value g k /\ (10 <= n)%Z /\ (k <= n)%Z
    /\ (k = 0%Z \/ In k [10; 60; 3600; 86400]%Z).
Proof.
  intros i t d g r H NI NG. apply rollup_exact in H. destruct H as ((G & I & _) & _).
  destruct I as [I|(n & V & L & [E|(k & K & KL)])]; [congruence|congruence|].
  exists n, k. split; [exact V|]. split; [exact K|]. split; [exact L|]. split; [exact KL|].
  destruct G as [G|[F|(k' & I & K')]]; [congruence| |].
  - left. inversion F; subst; try (inversion K; fail).
    + congruence.
    + eapply number_value_fun; eassumption.
    + inversion K as [? ? W|]; inversion W.
    + inversion K as [? ? W|]; inversion W.
    + inversion K as [? ? W|]; inversion W.
    + inversion K as [? ? W|]; inversion W.
    + inversion K as [? ? W|]; inversion W.
  - right. rewrite (number_value_fun g k k' K K'). exact I.
Qed.

(** ** C38 Metric, Timeseries and MetricsScope accept exactly well-typed values *)
Theorem C38_metric : forall p q i m, mk_metric p q i = Ok m <->
  opt_str p (m_public m) /\ opt_str q (m_mri m) /\ opt_int i (m_id m)
  /\ (m_public m <> None \/ m_mri m <> None).
Proof. exact metric_exact. Qed.
Theorem C38_timeseries : forall m a p f g t, mk_timeseries m a p f g = Ok t <->
  m = VMetric (ts_metric t) /\ (m_public (ts_metric t) <> None \/ m_mri (ts_metric t) <> None)
  /\ a = OStr (ts_agg t) /\ opt_list literal p (ts_params t)
  /\ opt_list condition_obj f (ts_filters t) /\ opt_list groupable g (ts_groupby t).
Proof.
  intros m a p f g t. rewrite ts_exact. unfold metric_ok.
  assert (opt_list literal_obj p (ts_params t) <-> opt_list literal p (ts_params t)) as ->; [|reflexivity].
  destruct (ts_params t) as [l|]; cbn; [|reflexivity].
  assert (Forall literal_obj l <-> Forall literal l) as ->; [|reflexivity].
  rewrite !Forall_forall. split; intros H x I; apply is_literal_iff, H, I.
Qed.
Theorem C38_scope : forall a b c s, mk_scope a b c = Ok s <->
  int_list a (ms_orgs s) /\ int_list b (ms_projects s) /\ opt_str c (ms_usecase s).
Proof. exact scope_exact. Qed.
(** the setters, on objects made by the constructors *)
Theorem C38_metric_setters : forall p q i m, mk_metric p q i = Ok m -> forall v m',
  (set_mri m v = Ok m' <-> exists s, v = OStr s /\ m' = mkMetric (m_public m) (Some s) (m_id m))
  /\ (set_public_name m v = Ok m' <-> exists s, v = OStr s /\ m' = mkMetric (Some s) (m_mri m) (m_id m))
  /\ (set_id m v = Ok m' <-> exists i, int_obj v i /\ m' = mkMetric (m_public m) (m_mri m) (Some i)).
Proof.
  intros p q i m H v m'. apply metric_exact in H. destruct H as (_ & _ & _ & H).
  split; [|split]; [apply set_mri_iff|apply set_public_iff|apply set_id_iff]; exact H.
Qed.
Theorem C38_timeseries_setters : forall m a p f g t, mk_timeseries m a p f g = Ok t ->
  (forall v t', set_metric t v = Ok t' <-> exists m, v = VMetric m
      /\ (m_public m <> None \/ m_mri m <> None)
      /\ t' = mkTS m (ts_agg t) (ts_params t) (ts_filters t) (ts_groupby t))
  /\ (forall a p t', set_aggregate t a p = Ok t' <-> exists s ps, a = OStr s /\ opt_list literal p ps
      /\ t' = mkTS (ts_metric t) s ps (ts_filters t) (ts_groupby t))
  /\ (forall v t', set_filters t v = Ok t' <-> exists x, opt_list condition_obj v x
      /\ t' = mkTS (ts_metric t) (ts_agg t) (ts_params t) x (ts_groupby t))
  /\ (forall v t', set_groupby t v = Ok t' <-> exists x, opt_list groupable v x
      /\ t' = mkTS (ts_metric t) (ts_agg t) (ts_params t) (ts_filters t) x).
Proof.
  intros m a p f g t H. assert (ts_ok t) as K.
  { apply ts_exact in H. destruct H as (_ & A & _ & B & C & D). split; [exact A|].
    split; [|split]; intros l E; rewrite E in *; [destruct B|destruct C|destruct D]; assumption. }
  split; [intros; apply set_metric_iff, K|]. split; [|split; intros; [apply set_filters_iff, K|apply set_groupby_iff, K]].
  intros a' p' t'. rewrite (set_aggregate_iff t a' p' t' K).
  assert (forall ps, opt_list literal_obj p' ps <-> opt_list literal p' ps) as E.
  { intros [l|]; cbn; [|reflexivity].
    assert (Forall literal_obj l <-> Forall literal l) as ->; [|reflexivity].
    rewrite !Forall_forall. split; intros Q x I; apply is_literal_iff, Q, I. }
  split; intros (s & ps & H1 & H2 & H3); exists s, ps; (split; [exact H1|split; [apply E, H2|exact H3]]).
Qed.
Theorem C38_scope_setter : forall s v s', set_use_case_id s v = Ok s' <->
  exists u, v = OStr u /\ s' = mkScope (ms_orgs s) (ms_projects s) (Some u).
Proof. exact set_use_case_iff. Qed.
(** validate() accepts what the constructors made *)
Theorem C38_validate : (forall p q i m, mk_metric p q i = Ok m -> metric_validate m = Ok tt)
  /\ (forall m a p f g t, mk_timeseries m a p f g = Ok t -> ts_validate t = Ok tt)
  /\ (forall i t d g r, mk_rollup i t d g = Ok r -> rollup_validate r = Ok tt)
  /\ (forall s, scope_validate s = Ok tt).
Proof.
  split; [|split; [|split]].
  - intros p q i m H. apply metric_exact in H. apply metric_validate_iff, H.
  - intros m a p f g t H. apply ts_validate_iff. apply ts_exact in H.
    destruct H as (_ & A & _ & B & C & D). split; [exact A|].
    split; [|split]; intros l E; rewrite E in *; [destruct B|destruct C|destruct D]; assumption.
  - intros i t d g r H. apply rollup_validate_iff. eauto.
  - exact scope_validate_ok.
Qed.

(** ** C39 Formula validation is exact at any depth.
    The types of parameters are checked at the root only. *)
Theorem C39_validate_partial : forall n pk ps a f g, typed_tree (VFormula n pk ps a f g) ->
  mval_validate (VFormula n pk ps a f g) = Ok tt
  <-> (exists s, n = OStr s) /\ pk <> Some KNone /\ Forall formula_param ps
      /\ (exists t, occurs (VTS t) (VFormula n pk ps a f g))
      /\ (forall x y l1 l2, occurs x (VFormula n pk ps a f g) -> occurs y (VFormula n pk ps a f g) ->
            groupby_of x l1 -> groupby_of y l2 -> same_groupby l1 l2).
Proof. exact formula_exact. Qed.
Theorem C39_untyped_partial : forall n pk ps a f g, mval_validate (VFormula n pk ps a f g) = Ok tt ->
  (exists s, n = OStr s) /\ pk <> Some KNone /\ pk <> None /\ Forall formula_param ps
  /\ (exists t, occurs (VTS t) (VFormula n pk ps a f g)).
Proof. exact formula_sound. Qed.
Theorem C39_error_partial : forall n pk ps a f g e, typed_tree (VFormula n pk ps a f g) ->
  mval_validate (VFormula n pk ps a f g) = Raise e -> e = InvalidFormulaError.
Proof. exact formula_error. Qed.
(** an inner formula with a string parameter and no name passes *)
Theorem C39_nested_refuted : exists n pk ps a f g x, mval_validate (VFormula n pk ps a f g) = Ok tt
  /\ occurs x (VFormula n pk ps a f g)
  /\ exists qs, x = VFormula ONone (Some KList) qs ONone ONone ONone /\ ~ Forall formula_param qs.
Proof.
  set (t := mkTS (mkMetric None (Some ($"m")) None) ($"sum") None None None).
  set (x := VFormula ONone (Some KList) [VTS t; VObj (OStr ($"evil"))] ONone ONone ONone).
  exists (OStr ($"plus")), (Some KList), [x; VTS t], ONone, ONone, ONone, x.
  split; [vm_compute; reflexivity|]. split; [econstructor; [left; reflexivity|constructor]|].
  eexists. split; [reflexivity|]. intros H. inversion H as [|? ? _ H1]; subst.
  inversion H1 as [|? ? F _]; subst.
  destruct F as [(y & E)|[(? & ? & ? & ? & ? & ? & E)|[(o & z & E & V)|(y & E)]]]; try discriminate.
  injection E as <-. inversion V.
Qed.
(** the setters of Formula *)
Theorem C39_setters : forall n pk ps a f g,
  (forall k qs v, formula_set_parameters (VFormula n pk ps a f g) k qs = Ok v <->
     (k = Some KNone /\ v = VFormula n (Some KNone) [] a f g)
     \/ (k = Some KList /\ Forall formula_param qs /\ v = VFormula n k qs a f g))
  /\ (forall x v, formula_set_filters (VFormula n pk ps a f g) x = Ok v <->
     (exists y, opt_list condition_obj x y) /\ v = VFormula n pk ps a x g)
  /\ (forall x v, formula_set_groupby (VFormula n pk ps a f g) x = Ok v <->
     (exists y, opt_list groupable x y) /\ v = VFormula n pk ps a f x).
Proof.
  intros. split; [intros; apply formula_set_parameters_iff|].
  split; [intros; apply formula_set_filters_iff|intros; apply formula_set_groupby_iff].
Qed.

(** ** C40 MQL string literals are self-delimiting: as a string token of the grammar, in
    every place where the grammar takes a quoted string *)
Theorem C40_token : forall r s rest, r = Rquoted_string \/ r = Rquoted_string_filter ->
  gives grammar (PRef r) (quoted true s ++ rest) (Done (Node (Some r) (quoted true s) []) rest).
Proof.
  intros r s rest H.
  assert (gives grammar (grammar r) (quoted true s ++ rest) (Done (Node None (quoted true s) []) rest)) as G.
  { replace (grammar r) with (PRe (R := rule) re_quoted) by (destruct H as [->| ->]; reflexivity).
    rewrite <- (cut_app (quoted true s) rest) at 2. apply gives_re, quoted_match. }
  exact (gives_ref _ _ _ _ _ _ _ _ G).
Qed.
(** a value in a filter (where wildcard patterns are tried first) *)
Theorem C40_tag_value : forall s rest, exists nd,
  gives grammar (PRef Rtag_value) (quoted true s ++ rest) (Done nd rest).
Proof.
  intros s rest. destruct (tag_value_cases s rest) as [(u & _ & _ & _ & nd & G & _)|(_ & nd & G & _)]; eauto.
Qed.

(** the text that is printed for a string, as a quoted string and as a filter value *)
Theorem C40_printed : forall al s, exists text, visit true al (OStr s) = Ok text /\ forall rest,
  (forall r, r = Rquoted_string \/ r = Rquoted_string_filter -> gives grammar (PRef r) (text ++ rest) (Done (Node (Some r) text []) rest))
  /\ exists nd, gives grammar (PRef Rtag_value) (text ++ rest) (Done nd rest).
Proof.
  intros al s. exists (quoted true s). split; [reflexivity|]. intros rest. split; [intros r H; now apply C40_token|apply C40_tag_value].
Qed.

(** ** C41 MQL string values survive print and parse. False: backslashes are doubled and
    newlines become a backslash and an n. *)
Theorem C41_string_refuted : exists s, unquote (quoted true s) <> s
  /\ parses (PRef Rquoted_string) (quoted true s) (PStr (unquote (quoted true s))) [].
Proof.
  exists [92%N]. split; [intros H; vm_compute in H; discriminate|].
  rewrite <- (app_nil_r (quoted true [92%N])) at 1. apply p_quoted.
Qed.
(** exactly the strings without backslash and newline survive, as a parameter ... *)
Theorem C41_string_partial : forall s rest, exists v,
  parses (PRef Rquoted_string) (quoted true s ++ rest) (PVal (VObj (OStr v))) rest
  /\ (v = s <-> ~ In 92%N s /\ ~ In 10%N s).
Proof. intros s rest. exists (unquote (quoted true s)). split; [apply p_quoted|apply unquote_same]. Qed.
(** the same about the text that is printed for a string *)
Theorem C41_printed_partial : forall al s, exists text v, visit true al (OStr s) = Ok text
  /\ (forall rest, parses (PRef Rquoted_string) (text ++ rest) (PVal (VObj (OStr v))) rest)
  /\ (v = s <-> ~ In 92%N s /\ ~ In 10%N s).
Proof.
  intros al s. exists (quoted true s), (unquote (quoted true s)). split; [reflexivity|]. split; [intros rest; apply p_quoted|apply unquote_same].
Qed.
(** ... and as a filter value *)
Theorem C41_filter_partial : forall s rest, mql_string s -> exists w,
  parses (PRef Rtag_value) (quoted true s ++ rest) (PFactor (OStr s) w) rest.
Proof.
  intros s rest (H1 & H2). destruct (tag_value_cases s rest) as [(u & N & A & E & P)|(_ & P)].
  - exists true. assert (s = u ++ [42%N]) as ->; [|exact P].
    rewrite <- E. symmetry. apply escape_plain; [assumption|assumption|]. intros I.
    assert (In DQ (escape true s)) as J.
    { rewrite escape_flat. apply in_flat_map. exists DQ. split; [exact I|]. cbn. auto. }
    rewrite E in J. apply in_app_or in J. destruct (unquoted_free u A) as (F & _).
    destruct J as [J|[J|[]]]; [auto|discriminate].
  - exists false. rewrite (proj2 (unquote_same s) (conj H1 H2)) in P. exact P.
Qed.

(** ** C42 The operator of a metrics filter survives serialization. False: every operator
    that is not a negation prints the same. *)
Theorem C42_operator_refuted : forall l o o' r, is_unary o = is_unary o' -> negated_op o = negated_op o' ->
  visit_filter_mql true false (OCond l o r) = visit_filter_mql true false (OCond l o' r).
Proof.
  intros l o o' r U N. cbn [visit_filter_mql]. unfold visit_condition_mql. rewrite U, N. reflexivity.
Qed.
Theorem C42_serialized_refuted : forall {ST : PyStr}, exists t1 t2 c s, api (OCond c GT (OInt 5)) /\ api (OCond c EQ (OInt 5))
  /\ ts_filters t1 = Some [OCond c GT (OInt 5)] /\ ts_filters t2 = Some [OCond c EQ (OInt 5)]
  /\ ts_validate t1 = Ok tt /\ ts_validate t2 = Ok tt /\ print_ts t1 = Ok s /\ print_ts t2 = Ok s.
Proof.
  intros ST. set (c := OColumn (mkColumn ($"duration") None None None)).
  assert (api c) as A. { eapply (api_column (OStr ($"duration")) ONone);
    [apply api_str; repeat constructor|apply api_none|vm_compute; reflexivity]. }
  set (t o := mkTS (mkMetric None (Some ($"m")) None) ($"sum") None (Some [OCond c o (OInt 5)]) None).
  exists (t GT), (t EQ), c. eexists.
  split; [eapply (api_condition c (OOp GT) (OInt 5)); [exact A|apply api_op|apply api_int|vm_compute; reflexivity]|].
  split; [eapply (api_condition c (OOp EQ) (OInt 5)); [exact A|apply api_op|apply api_int|vm_compute; reflexivity]|].
  do 2 (split; [reflexivity|]). do 2 (split; [vm_compute; reflexivity|]).
  split; vm_compute; reflexivity.
Qed.
(** negation survives: the text starts with an exclamation mark exactly for !=, NOT IN
    and NOT LIKE *)
Theorem C42_negation_partial : forall l o r s, api (OCond l o r) ->
  visit_filter_mql true false (OCond l o r) = Ok [s] ->
  (exists t, s = $"!" ++ t) <-> In o [NEQ; NOT_IN; NOT_LIKE].
Proof.
  intros l o r s A H. cbn [visit_filter_mql] in H. apply let_ok in H. destruct H as (s' & H & E).
  injection E as ->. unfold visit_condition_mql in H. apply let_ok in H. destruct H as (rs & _ & H).
  apply let_ok in H. destruct H as (ls & Hl & H). injection H as <-.
  apply api_wf in A. inversion A as [| | | | | | | | | | | | | | | | | | | | | | | | |? ? ? C W _| | | | | | | |]; subst.
  assert (exists c t, ls = c :: t /\ c <> 33%N) as (c & t & -> & Nc).
  { assert (is_col_or_func l = true) as CF.
    { unfold check_condition in C. destruct (is_col_or_func l); [reflexivity|discriminate]. }
    destruct l; try discriminate CF.
    - cbn in Hl. injection Hl as <-. inversion W as [| | | | | | | | | | | | | | | |? (Cn & _)| | | | | | | | | | | | | | | | |]; subst.
      destruct Cn as (c0 & body & sub & nl & E & F & _). unfold tr_column.
      destruct (c_entity _); cbn [app]; rewrite E; cbn [app]; do 2 eexists; (split; [reflexivity|]);
        intros ->; destruct F as [[F|F]|F]; lia.
    - inversion W as [| | | | | | | | | | | | | | | | | |? ? ? ? ? ? ? Fn| | | | | | | | | | | | | | |]; subst.
      rewrite visit_func in Hl. apply let_ok in Hl. destruct Hl as (ic & _ & Hl).
      apply let_ok in Hl. destruct Hl as (pc & _ & Hl). injection Hl as <-.
      destruct Fn as (c0 & body & nl & -> & F & _). cbn [app]. do 2 eexists. split; [reflexivity|].
      intros ->; destruct F as [F|F]; lia. }
  split.
  - intros (t' & E). destruct o; cbn in E |- *; try tauto; congruence.
  - intros I. cbn in I. destruct I as [<-|[<-|[<-|[]]]]; eexists; reflexivity.
Qed.
(** a function on the right is refused *)
Theorem C42_function_partial : forall l o f n ik il pk pl a, is_unary o = false ->
  visit_filter_mql true false (OCond l o (OFunc f n ik il pk pl a)) = Raise InvalidExpressionError.
Proof. intros. cbn [visit_filter_mql]. unfold visit_condition_mql. rewrite H. reflexivity. Qed.
End P.

(** Non-vacuity *)
#[local] Existing Instance demoRT.
Example C37_example : exists r, mk_rollup (OInt 3600) (OBool true) ONone (OInt 60) = Ok r.
Proof. eexists. vm_compute. reflexivity. Qed.
Example C38_example : exists m t, mk_metric ONone (OStr ($"d:transactions/duration@millisecond")) (OInt 7) = Ok m
  /\ mk_timeseries (VMetric m) (OStr ($"quantiles")) (OList [OFloat (FFin false 1 (-1))])
       (OList [OCond (OColumn (mkColumn ($"a") None None None)) EQ (OStr ($"b"))])
       (OList [OColumn (mkColumn ($"c") None None None)]) = Ok t.
Proof. do 2 eexists. split; vm_compute; reflexivity. Qed.
Definition demo_ts (g : str) : mval :=
  VTS (mkTS (mkMetric None (Some ($"m")) None) ($"sum") None None
            (Some [OColumn (mkColumn g None None None)])).
Definition demo_formula (g1 g2 : str) : mval :=
  VFormula (OStr ($"plus")) (Some KList)
    [VFormula (OStr ($"divide")) (Some KList) [demo_ts g1; VObj (OInt 2)] ONone ONone ONone; demo_ts g2]
    ONone ONone ONone.
Lemma demo_typed g1 g2 : typed_tree (demo_formula g1 g2).
Proof.
  assert (forall g, typed_tree (demo_ts g)) as T.
  { intros g. constructor. cbn. intros l E. injection E as <-. constructor; [|constructor].
    split; [left; eexists; reflexivity|]. cbn. unfold column_eqb. cbn. rewrite str_eqb_refl. reflexivity. }
  constructor; [|left; reflexivity]. constructor; [|constructor; [apply T|constructor]].
  constructor; [|left; reflexivity]. constructor; [apply T|]. constructor; [constructor|constructor].
Qed.
Example C39_example : typed_tree (demo_formula ($"x") ($"x")) /\ mval_validate (demo_formula ($"x") ($"x")) = Ok tt
  /\ typed_tree (demo_formula ($"x") ($"y")) /\ mval_validate (demo_formula ($"x") ($"y")) = Raise InvalidFormulaError.
Proof. split; [apply demo_typed|]. split; [vm_compute; reflexivity|]. split; [apply demo_typed|]. vm_compute; reflexivity. Qed.
Example C40_example : run grammar 5 (PRef Rquoted_string) (quoted true ($"a} OR c:(d") ++ $") by (d)")
  = Done (Node (Some Rquoted_string) (quoted true ($"a} OR c:(d")) []) ($") by (d)").
Proof. vm_compute. reflexivity. Qed.

Print Assumptions C37_rollup_refuted.
Print Assumptions C37_serialized_refuted.
Print Assumptions C37_rollup_partial.
Print Assumptions C37_interval_partial.
Print Assumptions C38_metric.
Print Assumptions C38_timeseries.
Print Assumptions C38_scope.
Print Assumptions C38_metric_setters.
Print Assumptions C38_timeseries_setters.
Print Assumptions C38_scope_setter.
Print Assumptions C38_validate.
Print Assumptions C39_validate_partial.
Print Assumptions C39_untyped_partial.
Print Assumptions C39_error_partial.
Print Assumptions C39_nested_refuted.
Print Assumptions C39_setters.
Print Assumptions C40_token.
Print Assumptions C40_tag_value.
Print Assumptions C40_printed.
Print Assumptions C41_string_refuted.
Print Assumptions C41_string_partial.
Print Assumptions C41_printed_partial.
Print Assumptions C41_filter_partial.
Print Assumptions C42_operator_refuted.
Print Assumptions C42_serialized_refuted.
Print Assumptions C42_negation_partial.
Print Assumptions C42_function_partial.
