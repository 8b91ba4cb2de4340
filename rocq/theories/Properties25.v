(** Property C78: MetricsQuery.validate() accepts exactly the complete queries. *)
From Verif Require Import PyBase PyFacts Regex DateTime Objects Exprs Translate Query Metrics SpecExpr ExprFacts ExprProps SpecMetrics MetricsFacts FormulaFacts
  SpecMql SpecParsed Peg Mql MetricsQuery MetricsQueryFacts SpecErrors ErrorFacts EqMValid SpecMValid Concrete Properties6 Properties13.

Section P.
Context {RT : PyRT}.

Lemma complete_ts_iff t : ts_validate t = Ok tt <-> complete_ts t.
Proof.
  rewrite ts_validate_iff. unfold ts_ok, complete_ts, metric_ok.
  assert (S : forall P x, (forall l, x = Some l -> Forall P l) <-> all_items P x).
  { intros P [l|]; cbn; [|split; [exact (fun _ => I)|discriminate]]. split; [auto|]. intros H l' E. injection E as <-. exact H. }
  rewrite !S. assert (all_items literal_obj (ts_params t) <-> all_items literal (ts_params t)) as ->; [|reflexivity].
  destruct (ts_params t) as [l|]; cbn; [|reflexivity].
  rewrite !Forall_forall. split; intros H x I; apply is_literal_iff, H, I.
Qed.
Lemma complete_value_iff v : mql_query v -> typed_tree v -> mval_validate v = Ok tt <-> complete_value v.
Proof.
  intros Q T. destruct Q as [t|n pk ps a f g].
  - change (mval_validate (VTS t)) with (ts_validate t). rewrite complete_ts_iff. split; [apply cv_ts|]. intros H. inversion H. assumption.
  - rewrite (formula_exact _ _ _ _ _ _ T). split.
    + intros ((s & ->) & K & F & O & G). assert (exists k, pk = Some k) as (k & ->) by (inversion T; eauto).
      apply cv_formula; auto. congruence.
    + intros H. inversion H; subst. split; [eauto|]. split; [congruence|]. auto.
Qed.

Lemma check_query_iff v : typed_tree v -> check_query v = Ok tt <-> exists x, stands_for v x /\ complete_value x.
Proof.
  intros T.
  assert (Q : mql_query v -> mval_validate v = Ok tt <-> exists x, stands_for v x /\ complete_value x).
  { intros Q. rewrite (complete_value_iff v Q T). destruct Q; (split; [intros C; eexists; split; [constructor|exact C]|]);
      intros (x & S & C); inversion S; subst; exact C. }
  assert (N : (forall s, v <> VObj (OStr s)) -> ~ mql_query v -> (Raise InvalidMetricsQueryError : result unit) = Ok tt <-> exists x, stands_for v x /\ complete_value x).
  { intros H K. split; [discriminate|]. intros (x & S & _). exfalso. destruct S; [apply K; constructor|apply K; constructor|exact (H s eq_refl)]. }
  destruct v as [o|m|t|r|s|n pk ps a f g]; cbn [check_query].
  2, 4, 5: apply N; [discriminate|intros K; inversion K]. 2, 3: apply Q; constructor.
  destruct o; try (apply N; [discriminate|intros K; inversion K]).
  destruct (parse_mql s) as [x|e] eqn:E.
  - pose proof (C64_result s x E) as (Qx & P). rewrite (complete_value_iff x Qx (parsed_typed x P)). split.
    + intros C. exists x. split; [constructor; exact E|exact C].
    + intros (y & S & C). inversion S; subst. congruence.
  - split; [discriminate|]. intros (y & S & _). inversion S; subst. congruence.
Qed.
Lemma check_rollup_iff v : check_rollup v = Ok tt <-> complete_rollup v.
Proof.
  unfold complete_rollup. split.
  - destruct v as [o|m|t|r|s|n pk ps a f g]; try discriminate. cbn [check_rollup]. destruct (is_none (ro_granularity r)) eqn:N; [discriminate|].
    intros H. apply rollup_validate_iff in H as (i & t & d & g & H). apply rollup_exact in H as (A & I & -> & -> & ->).
    exists r, i. split; [reflexivity|]. split; [intros E; rewrite E in N; discriminate|]. split; [exact I|exact A].
  - intros (r & i & -> & N & I & A). cbn [check_rollup]. destruct (is_none (ro_granularity r)) eqn:K.
    { destruct (ro_granularity r); try discriminate K. congruence. }
    apply rollup_validate_iff. do 4 eexists. apply rollup_exact. split; [exact A|]. repeat split; exact I.
Qed.
Lemma int_check n lo hi (k : pyint -> obj) :
  bind (int_clause (obj_of_pyint n) lo hi k) (fun _ => Ok tt) = Ok tt <->
  (forall z, lo = Some z -> (z <= pyint_value n)%Z) /\ (forall z, hi = Some z -> (pyint_value n <= z)%Z).
Proof.
  assert (pyint_value n = pyint_Z n) as -> by (destruct n; reflexivity).
  assert (int_clause (obj_of_pyint n) lo hi k = validate_int_literal (pyint_Z n) lo hi ;! Ok (k n)) as -> by (destruct n; reflexivity).
  unfold validate_int_literal. destruct lo as [a|], hi as [b|]; rewrite ?Z.gtb_ltb;
    repeat match goal with |- context [(?x <? ?y)%Z] => destruct (Z.ltb_spec x y) end; cbn [bind andb orb];
    (split; [intros E; try discriminate E; split; intros z D; (discriminate D || injection D as <-); lia|]); intros (L & R);
    try reflexivity; exfalso; try (specialize (L _ eq_refl); lia); specialize (R _ eq_refl); lia.
Qed.

(** ** C78 MetricsQuery.validate() accepts exactly the complete queries *)
Theorem C78_validate : forall q, typed_tree (mq_query q) -> mq_validate q = Ok tt <-> complete q.
Proof.
  intros q T. unfold mq_validate, complete. rewrite !seq_ok, (check_query_iff _ T), check_rollup_iff.
  assert (A : forall v, check_time v = Ok tt <-> a_time v).
  { intros v. unfold check_time, a_time. rewrite assert_Ok. split.
    - destruct v as [o| | | | |]; try discriminate. destruct o; try discriminate. eauto.
    - intros (d & ->). reflexivity. }
  assert (B : forall v, check_scope v = Ok tt <-> exists s, v = VScope s).
  { intros v. split; [destruct v; try discriminate; eauto|]. intros (s & ->). apply scope_validate_ok. }
  rewrite !A, B.
  assert (C : forall v, check_limit v = Ok tt <-> absent_or (fun v => exists n, v = VObj (OLimit n) /\ (1 <= pyint_value n <= 10000)%Z) v).
  { intros v. split.
    - destruct v as [o| | | | |]; try discriminate. destruct o; try discriminate; [left; reflexivity|]. cbn [check_limit]. unfold mk_limit.
      intros H. apply int_check in H as (L & R). right. eexists. split; [reflexivity|]. auto.
    - intros [->|(n & -> & L)]; [reflexivity|]. cbn [check_limit]. apply int_check. split; intros z E; injection E as <-; lia. }
  assert (D : forall v, check_offset v = Ok tt <-> absent_or (fun v => exists n, v = VObj (OOffset n) /\ (0 <= pyint_value n)%Z) v).
  { intros v. split.
    - destruct v as [o| | | | |]; try discriminate. destruct o; try discriminate; [left; reflexivity|]. cbn [check_offset]. unfold mk_offset.
      intros H. apply int_check in H as (L & R). right. eexists. split; [reflexivity|]. auto.
    - intros [->|(n & -> & L)]; [reflexivity|]. cbn [check_offset]. apply int_check. split; intros z E; [injection E as <-; lia|discriminate E]. }
  rewrite C, D.
  assert (F : forall v, check_extrapolate v = Ok tt <-> absent_or (fun v => exists b, v = VObj (OExtrapolate b)) v).
  { intros v. split; [|intros [->|(b & ->)]; reflexivity].
    destruct v as [o| | | | |]; try discriminate. destruct o; try discriminate; [left; reflexivity|right; eauto]. }
  assert (G : forall v, check_indexer v = Ok tt <-> absent_or (fun v => exists ks vs, v = VObj (ODict ks vs)) v).
  { intros v. split; [|intros [->|(ks & vs & ->)]; reflexivity].
    destruct v as [o| | | | |]; try discriminate. destruct o; try discriminate; [left; reflexivity|right; eauto]. }
  rewrite F, G. reflexivity.
Qed.

Context {ST : PyStr}.
(** for queries given as text nothing else is needed to serialize them, except the indexer
    mappings *)
Theorem C78_text : forall q s, mq_query q = VObj (OStr s) ->
  (exists m c, snd (mq_serialize q) = Ok (m, c)) <-> complete q /\ mq_indexer q <> VObj ONone.
Proof.
  intros q s Q. assert (T : typed_tree (mq_query q)) by (rewrite Q; constructor). split.
  - intros (m & c & H). unfold mq_serialize in H. destruct (mq_validate q) as [[]|e] eqn:V; [|discriminate H].
    split; [apply (C78_validate q T), V|]. intros N.
    rewrite Q in H. cbn [optimize_mval] in H. replace (mq_put FQuery (VObj (OStr s)) q) with q in H by (destruct q; cbn in *; subst; reflexivity).
    cbn [snd] in H. rewrite (no_indexer q V N) in H. destruct (print_mq_query (mq_query q)); discriminate H.
  - intros (C & N). apply (C78_validate q T) in C. destruct (C47_text_partial q s Q C N) as (v & t & d & _ & _ & E). rewrite E. exists t, d. reflexivity.
Qed.
(** an incomplete query is refused by serialize() and by print(), whatever it is *)
Theorem C78_refused : forall q, typed_metrics q -> ~ complete q ->
  exists e, mq_validate q = Raise e /\ mq_serialize q = (q, Raise e)
    /\ In e [InvalidMetricsQueryError; InvalidFormulaError; InvalidTimeseriesError; InvalidExpressionError].
Proof.
  intros q T N. destruct (mq_validate q) as [[]|e] eqn:V; [exfalso; apply N, C78_validate; [apply T|exact V]|].
  exists e. split; [reflexivity|]. split; [unfold mq_serialize; rewrite V; reflexivity|]. exact (ro_mq q T e V).
Qed.
End P.

(** Non-vacuity: a complete query given as text, and what is missing in others *)
#[local] Existing Instance demoRT.
#[local] Existing Instance demoST.
Definition c78_demo (s : str) (g lim idx : obj) : mquery :=
  mkMQ (VObj (OStr s)) (VObj (ODateTime (mkDT (mkDate 2023 1 1) 0 0 0 0 None))) (VObj (ODateTime (mkDT (mkDate 2023 1 2) 0 0 0 0 None)))
    (VRollup (mkRollup (Some (PInt 60)) (Some true) None g)) (VScope (mkScope [PInt 1] [PInt 2] None))
    (VObj lim) VNone VNone (VObj idx).
Definition c78_text : str := $"(sum(a) by (x) + max(b) by (x)) / 2".
Example C78_case : complete (c78_demo c78_text (OInt 60) (OLimit (PInt 10000)) (ODict [] []))
  /\ complete (c78_demo c78_text (OInt 60) ONone ONone)
  /\ (exists m c, snd (mq_serialize (c78_demo c78_text (OInt 60) ONone (ODict [] []))) = Ok (m, c)).
Proof.
  split; [|split]; [apply C78_validate; [constructor|vm_compute; reflexivity]..|]. apply (C78_text _ c78_text); [reflexivity|].
  split; [apply C78_validate; [constructor|vm_compute; reflexivity]|discriminate].
Qed.
(** a rollup without granularity, a limit that is too large, texts with two group-bys *)
Example C78_incomplete : ~ complete (c78_demo c78_text ONone ONone ONone)
  /\ ~ complete (c78_demo c78_text (OInt 60) (OLimit (PInt 10001)) ONone)
  /\ ~ complete (c78_demo ($"sum(a) by (x) + max(b) by (y)") (OInt 60) ONone ONone)
  /\ typed_metrics (c78_demo c78_text ONone ONone ONone).
Proof.
  split; [|split; [|split]].
  1-3: intros C; apply C78_validate in C; [revert C; vm_compute; discriminate|constructor].
  split; [constructor|]. intros r E. injection E as <-. exists (OInt 60), (OBool true), ONone, ONone. reflexivity.
Qed.

Print Assumptions C78_validate.
Print Assumptions C78_text.
Print Assumptions C78_refused.
