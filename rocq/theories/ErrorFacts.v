(** Which exceptions the constructors, setters and validations raise. *)
From Verif Require Import PyBase PyFacts DateTime Regex Objects Exprs Translate Query Metrics Mql MetricsQuery Json Request SpecExpr ExprFacts SpecErrors
  SpecMetrics MetricsFacts FormulaFacts SpecMql SpecParsed PyEqFacts MqlPrint MqlTyping MqlActs MqlBody SpecRefs SpecQuery ValidateProps QueryProps PrintProps SpecHazard WfFacts SpecMetricsQuery SpecRequest RequestFacts.

Lemma ro_bind {A B} es (r : result A) (f : A -> result B) : raises_only es r -> (forall a, r = Ok a -> raises_only es (f a)) -> raises_only es (bind r f).
Proof. intros H K e E. destruct r as [a|e']; [exact (K a eq_refl e E)|]. cbn in E. injection E as <-. apply H. reflexivity. Qed.
Lemma ro_ok {A} es (a : A) : raises_only es (Ok a).
Proof. intros e E. discriminate. Qed.
Lemma ro_raise {A} es e : In e es -> raises_only (A:=A) es (Raise e).
Proof. intros I e' E. injection E as <-. exact I. Qed.
Lemma ro_sub {A} es es' (r : result A) : raises_only es r -> (forall e, In e es -> In e es') -> raises_only es' r.
Proof. intros H K e E. apply K, H, E. Qed.
Lemma ro_assert es b e : In e es -> raises_only es (assert_ b e).
Proof. unfold assert_. destruct b; [intros; apply ro_ok|apply ro_raise]. Qed.
Lemma ro_all {A} es (f : A -> result unit) l : (forall x, In x l -> raises_only es (f x)) -> raises_only es (check_all f l).
Proof.
  induction l as [|x l IH]; intros H; [apply ro_ok|]. cbn [check_all]. apply ro_bind; [apply H; left; reflexivity|].
  intros _ _. apply IH. intros y I. apply H. right. exact I.
Qed.

Ltac ro1 :=
  match goal with
  | |- raises_only _ (Ok _) => apply ro_ok
  | |- raises_only _ (Raise _) => apply ro_raise; cbn; tauto
  | |- raises_only _ (assert_ _ _) => apply ro_assert; cbn; tauto
  | |- raises_only _ (bind _ _) => apply ro_bind; [|intros]
  | |- raises_only _ (match ?x with _ => _ end) => destruct x
  end.
Ltac ro := repeat ro1.

Section Errors.
Context {RT : PyRT}.

Lemma ro_int o a b k : raises_only [InvalidExpressionError] (int_clause o a b k).
Proof. unfold int_clause, validate_int_literal. ro. Qed.
Lemma ro_word n e : raises_only [e] (check_word n e).
Proof. unfold check_word. ro. Qed.
Lemma ro_sample n e : raises_only [e] (check_sample n e).
Proof. unfold check_sample. ro. Qed.
Lemma ro_dm n e : raises_only [e] (check_dm n e).
Proof. unfold check_dm. ro. Qed.
Lemma ro_alias n e : raises_only [e] (check_alias n e).
Proof. unfold check_alias. ro. Qed.
Lemma ro_entity n a s d : raises_only [InvalidEntityError] (mk_entity n a s d).
Proof. unfold mk_entity. repeat (apply ro_bind; [|intros]); auto using ro_word, ro_sample, ro_dm; ro. Qed.
Lemma ro_storage n s d : raises_only [InvalidStorageError] (mk_storage n s d).
Proof. unfold mk_storage. repeat (apply ro_bind; [|intros]); auto using ro_word, ro_sample, ro_dm; ro. Qed.
Lemma ro_column n e : raises_only [InvalidColumnError] (mk_column n e).
Proof. unfold mk_column, column_entity_check, validate_data_model. ro. Qed.
Lemma ro_aliased x a : raises_only [InvalidExpressionError] (mk_aliased x a).
Proof. unfold mk_aliased. destruct x; ro. apply ro_alias. Qed.
Lemma ro_scalar o : raises_only [InvalidExpressionError] (is_scalar o).
Proof. intros e E. apply is_scalar_raise in E as ->. left. reflexivity. Qed.
Lemma ro_param_items l : raises_only [InvalidFunctionError; InvalidExpressionError] (check_param_items l).
Proof.
  induction l as [|p l IH]; [apply ro_ok|]. cbn [check_param_items]. destruct (is_param_expr p); [exact IH|].
  apply ro_bind; [eapply ro_sub; [apply ro_scalar|cbn; tauto]|]. intros b _. destruct b; [exact IH|ro].
Qed.
Lemma ro_func b f i p a : raises_only [InvalidFunctionError; InvalidExpressionError] (mk_func b f i p a).
Proof.
  unfold mk_func. apply ro_bind; [unfold check_function_name; ro|]. intros n _.
  apply ro_bind; [unfold check_inits; ro|]. intros (ik & il) _.
  apply ro_bind; [eapply ro_sub; [apply ro_alias|cbn; tauto]|]. intros al _.
  apply ro_bind; [|intros (pk & pl) _; ro]. unfold check_params. destruct p; ro; apply ro_param_items.
Qed.
Lemma ro_idents l : raises_only [InvalidLambdaError] (check_idents l).
Proof. induction l as [|p l IH]; [apply ro_ok|]. cbn [check_idents]. ro. exact IH. Qed.
Lemma ro_lambda i b : raises_only [InvalidLambdaError] (mk_lambda i b).
Proof. unfold mk_lambda. ro. apply ro_idents. Qed.
Lemma ro_condition l o r : raises_only [InvalidConditionError; InvalidExpressionError] (mk_condition l o r).
Proof.
  unfold mk_condition, check_condition. destruct o; ro. eapply ro_sub; [apply ro_scalar|cbn; tauto].
Qed.
Lemma ro_boolean c o l : raises_only [InvalidConditionError] (mk_boolean c o l).
Proof. unfold mk_boolean, check_bool_items. ro. Qed.
Lemma ro_orderby x d : raises_only [InvalidExpressionError] (mk_orderby x d).
Proof. unfold mk_orderby. ro. Qed.
Lemma ro_limitby l n : raises_only [InvalidExpressionError] (mk_limitby l n).
Proof. unfold mk_limitby. ro. Qed.
Lemma ro_relationship l n r : raises_only [InvalidExpressionError] (mk_relationship l n r).
Proof. unfold mk_relationship. ro. Qed.
Lemma ro_join_check maps : forall seen, raises_only [InvalidExpressionError] (join_check seen maps).
Proof. induction maps as [|(a & n) maps IH]; intros seen; cbn [join_check]; ro; apply IH. Qed.
Lemma ro_join l : raises_only [InvalidExpressionError] (mk_join l).
Proof. unfold mk_join. ro. apply ro_join_check. Qed.
Lemma ro_query m c : raises_only [InvalidQueryError] (mk_query m c).
Proof. unfold mk_query, post_init. ro. Qed.
Lemma ro_set_match q m : raises_only [InvalidQueryError] (set_match q m).
Proof.
  unfold set_match. destruct m as [i|o]; [destruct (is_ok (validate i)); [apply ro_query|ro]|]. destruct o; ro; apply ro_query.
Qed.
Lemma ro_set c q v : raises_only [InvalidQueryError; InvalidExpressionError] (set_clause c q v).
Proof.
  unfold set_clause. apply ro_bind.
  - destruct c; cbn [setter_value]; ro; try (eapply ro_sub; [apply ro_int|cbn; tauto]). unfold mk_totals. ro.
  - intros x _. unfold replace_clause, post_init. ro.
Qed.
Lemma ro_opt_str o e : raises_only [e] (as_opt_str o e).
Proof. unfold as_opt_str. ro. Qed.
Lemma ro_opt_int o e : raises_only [e] (as_opt_int o e).
Proof. unfold as_opt_int. ro. Qed.
Lemma ro_metric a b c : raises_only [InvalidTimeseriesError] (mk_metric a b c).
Proof. unfold mk_metric. repeat (apply ro_bind; [|intros]); auto using ro_opt_str, ro_opt_int; ro. Qed.
Lemma ro_opt_list f o e : raises_only [e] (as_opt_list f o e).
Proof. unfold as_opt_list. ro. Qed.
Lemma ro_timeseries m a p f g : raises_only [InvalidTimeseriesError] (mk_timeseries m a p f g).
Proof.
  unfold mk_timeseries. destruct m; ro; auto using ro_opt_list. apply ro_bind; [apply ro_metric|intros; ro].
Qed.
Lemma ro_scope a b c : raises_only [InvalidExpressionError] (mk_scope a b c).
Proof. unfold mk_scope, as_ints. repeat (apply ro_bind; [|intros]); auto using ro_opt_str; ro. Qed.
Lemma truthy_allowed g : truthy g && negb (existsb (fun z => py_eq g (OInt z)) allowed_granularities) = false ->
  is_none g = false -> empty_value g \/ exists n, num_of g = Some n.
Proof.
  intros H N. destruct g; try discriminate; try (right; eexists; reflexivity); left.
  all: match goal with H : truthy (_ ?l) && _ = false |- _ => destruct l; [constructor|discriminate]
       | H : truthy (_ ?l _) && _ = false |- _ => destruct l; [constructor|discriminate] end.
Qed.
Lemma empty_not_number g : empty_value g -> num_of g = None /\ is_none g = false /\ truthy g = false.
Proof. intros []; auto. Qed.
Lemma int_lt_number i g n : num_of g = Some n -> exists b, int_lt i g = Ok b.
Proof.
  unfold int_lt. intros ->. destruct n as [z|[| |neg m e]]; eauto. destruct (flt_of_Z i); eauto.
Qed.
Lemma rollup_errors i t d g e : mk_rollup i t d g = Raise e ->
  e = InvalidExpressionError \/ (e = TypeError /\ empty_value g /\ exists z, i = OInt z /\ (10 <= z)%Z).
Proof.
  unfold mk_rollup. destruct (truthy g && _) eqn:T; [intros H; injection H as <-; auto|]. cbn [bind].
  match goal with |- bind ?r _ = _ -> _ => destruct r as [oi|e'] eqn:R end.
  - cbn [bind]. intros H.
    match type of H with ?r = _ => assert (raises_only [InvalidExpressionError] r) as K end.
    { repeat first [apply ro_bind; [|intros]|ro1]. }
    apply K in H as [<-|[]]. auto.
  - cbn [bind]. intros H. injection H as <-.
    assert (match as_int i with
            | None => Raise InvalidExpressionError
            | Some j => validate_int_literal (pyint_Z j) (Some 10%Z) None ;!
                 (if is_none g then Ok tt else let! b := int_lt (pyint_Z j) g in if b then Raise InvalidExpressionError else Ok tt) ;! Ok (Some j)
            end = Raise e') as R' by (destruct i; try exact R; discriminate). clear R.
    destruct (as_int i) as [j|] eqn:J; [|injection R' as <-; auto].
    unfold validate_int_literal in R'. destruct (pyint_Z j <? 10)%Z eqn:L; [injection R' as <-; auto|]. cbn [bind] in R'.
    destruct (is_none g) eqn:N; [discriminate|]. destruct (truthy_allowed g T N) as [V|(n & V)].
    + unfold int_lt in R'. rewrite (proj1 (empty_not_number g V)) in R'. injection R' as <-. right. split; [reflexivity|]. split; [exact V|].
      exists (pyint_Z j). split; [|apply Z.ltb_ge, L]. destruct i as [|[]| | | | | | | | | | | | | | | | | | | | | | | | | | | | | | | |]; try discriminate;
        injection J as <-; [discriminate|discriminate|reflexivity].
    + destruct (int_lt_number (pyint_Z j) g n V) as (b & B). rewrite B in R'. cbn [bind] in R'. destruct b; [injection R' as <-; auto|discriminate].
Qed.
Lemma rollup_type_error t d g z : empty_value g -> (10 <= z)%Z -> mk_rollup (OInt z) t d g = Raise TypeError.
Proof.
  intros V L. unfold mk_rollup. destruct (empty_not_number g V) as (A & B & C). rewrite C. cbn [andb bind as_int].
  unfold validate_int_literal. cbn [pyint_Z]. rewrite (proj2 (Z.ltb_ge _ _) L). cbn [bind]. rewrite B. unfold int_lt. rewrite A. reflexivity.
Qed.

(** * validate() *)
Lemma groupby_plain l : Forall plain_tag l -> groupby_items l.
Proof.
  intros F. pose proof (plain_groupable l F) as G. apply Forall_forall. intros o I. rewrite Forall_forall in F, G. split; [apply G, I|].
  apply py_eq_refl. destruct (F o I) as (k & _ & ->). reflexivity.
Qed.
Lemma parsed_typed v : parsed_value v -> typed_tree v.
Proof.
  induction v using mval_ind'; intros P; inversion P as [| |? T|? ? ? ? ? Nm Ne F A Fi G]; subst; try constructor.
  - intros l E. destruct T as [m a p f g M A Q F [->|(l' & -> & _ & T)]]; [discriminate|]. cbn [ts_groupby] in E.
    injection E as <-. apply groupby_plain, T.
  - rewrite Forall_forall in *. intros x I. apply H; [exact I|apply F, I].
  - destruct G as [->|(l & -> & _ & T)]; [left; reflexivity|right]. exists l. split; [reflexivity|apply groupby_plain, T].
Qed.
Lemma ro_mval v : mql_query v -> typed_tree v -> raises_only [InvalidFormulaError; InvalidTimeseriesError] (mval_validate v).
Proof.
  intros [t|n pk ps a f g] T e E.
  - change (ts_validate t = Raise e) in E. unfold ts_validate in E. destruct (ts_fields t) as [[m a] [[p f] g]]. destruct (mk_timeseries m a p f g) eqn:K; [discriminate|].
    injection E as <-. apply ro_timeseries in K. cbn in *. tauto.
  - left. symmetry. exact (formula_error _ _ _ _ _ _ _ T E).
Qed.
Lemma ro_mq q : typed_metrics q ->
  raises_only [InvalidMetricsQueryError; InvalidFormulaError; InvalidTimeseriesError; InvalidExpressionError] (mq_validate q).
Proof.
  intros (T & B). unfold mq_validate. repeat (apply ro_bind; [|intros _ _]).
  - assert (forall v, mql_query v -> typed_tree v -> raises_only [InvalidMetricsQueryError; InvalidFormulaError; InvalidTimeseriesError; InvalidExpressionError] (mval_validate v)) as K.
    { intros v Q Y. eapply ro_sub; [apply ro_mval; assumption|cbn; tauto]. }
    unfold check_query. destruct (mq_query q) as [o| |t| | |]; [|ro|apply K; [constructor|exact T]|ro|ro|apply K; [constructor|exact T]].
    destruct o; try apply ro_raise; try (cbn; tauto). destruct (parse_mql s) as [v|] eqn:E; [|ro].
    pose proof (parse_typed True True s) as P. rewrite E in P.
    destruct P as (Q & P); [apply Forall_forall; intros c _; split; intros _; exact I|]. apply K; [exact Q|apply parsed_typed, P].
  - unfold check_time. ro.
  - unfold check_time. ro.
  - unfold check_rollup. destruct (mq_rollup q) as [| | |r| |] eqn:R; ro. destruct (B r eq_refl) as (i & t & d & g & M).
    assert (rollup_validate r = Ok tt) as -> by (apply rollup_validate_iff; eauto). ro.
  - unfold check_scope, scope_validate. ro. eapply ro_sub; [apply ro_scope|cbn; tauto].
  - unfold check_limit. ro. eapply ro_sub; [apply ro_int|cbn; tauto].
  - unfold check_offset. ro. eapply ro_sub; [apply ro_int|cbn; tauto].
  - unfold check_extrapolate. ro.
  - unfold check_indexer. ro.
Qed.
Lemma ro_delete q : (exists ks vs, dq_columns q = ODict ks vs /\ Forall (fun v => exists n, sized v n) vs) ->
  raises_only [InvalidDeleteQueryError] (delete_validate q).
Proof.
  intros (ks & vs & E & F). unfold delete_validate. rewrite E. destruct ks; [ro|]. apply ro_all. intros v I.
  rewrite Forall_forall in F. destruct (F v I) as (n & S). apply sized_iff in S. rewrite S. cbn [bind]. ro.
Qed.
Lemma ro_request r : typed_rquery (rq_query r) -> typed_flags (rq_flags r) -> raises_only sdk_errors (request_validate r).
Proof.
  intros Q F. unfold request_validate. repeat (apply ro_bind; [|intros _ _]).
  - unfold check_safe. ro.
  - unfold check_safe. ro.
  - unfold check_parent. ro.
  - ro.
  - destruct (rq_query r) as [q|q|q|o]; cbn [rquery_validate].
    + destruct Q as (A & T). intros e E. destruct (c28_lemma q (api_wf_query q A) T) as (_ & K). destruct (K e E) as [->|[->| ->]]; cbn; tauto.
    + eapply ro_sub; [apply ro_mq, Q|cbn; tauto].
    + eapply ro_sub; [apply ro_delete, Q|cbn; tauto].
    + destruct Q.
  - destruct (rq_flags r); cbn [rflags_validate]; [apply ro_ok| |destruct F]. unfold flags_validate. apply ro_all. intros x _. ro.
Qed.
End Errors.
