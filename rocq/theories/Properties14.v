(** Property C65: a metrics query given as MQL text is sent with the same meaning. *)
From Verif Require Import PyBase PyFacts Regex Objects Exprs Translate Query Metrics SpecExpr SpecMetrics MetricsFacts SpecMql SpecParsed
  SpecSent Peg Mql MqlTyping MqlActs ParsedPrint SentFacts MetricsQuery MetricsQueryFacts SpecMetricsQuery Concrete
  Properties6 Properties7 Properties13.

Section P.
Context {RT : PyRT} {ST : PyStr}.

(** ** C65 A metrics query given as MQL text is sent with the same meaning *)
(** the parsed queries that MQL can express again: what is sent parses to the same query,
    several filters of one level joined by And *)
Theorem C65_same_query_partial : forall q s v, mq_query q = VObj (OStr s) -> mq_validate q = Ok tt ->
  mq_indexer q <> VObj ONone -> parse_mql s = Ok v -> clear_query v ->
  exists t d v', mq_serialize q = (q, Ok (t, d)) /\ parse_mql t = Ok v' /\ mv_eq v' (conj_value v) = true.
Proof.
  intros q s v Q V N E C. destruct (C47_text_partial q s Q V N) as (w & t & d & E' & P & S).
  rewrite E in E'. injection E' as <-. exists t, d. destruct (C64_result s v E) as (K & T).
  pose proof (value_clear v T C) as M. destruct K as [x|n pk ps a f g].
  - inversion M; subst. destruct (C43_timeseries x) as (t' & x' & P' & R & Q'); [assumption|].
    change (print_mval (VTS x)) with (print_ts x) in P. rewrite P in P'. injection P' as <-.
    exists (VTS x'). split; [exact S|]. split; [exact R|exact Q'].
  - destruct (C44_formula n pk ps a f g M) as (t' & v' & P' & R & Q'). rewrite P in P'. injection P' as <-.
    exists v'. auto.
Qed.

(** false in general: the text s is accepted and sent, but what is sent is another query *)
Definition sent_otherwise (s : str) : Prop := forall q, mq_query q = VObj (OStr s) -> mq_validate q = Ok tt ->
  mq_indexer q <> VObj ONone -> exists v t d v', parse_mql s = Ok v /\ mq_serialize q = (q, Ok (t, d))
  /\ parse_mql t = Ok v' /\ mv_eq v' (conj_value v) = false.
(** or is no query *)
Definition sent_broken (s : str) : Prop := forall q, mq_query q = VObj (OStr s) -> mq_validate q = Ok tt ->
  mq_indexer q <> VObj ONone -> exists v t d e, parse_mql s = Ok v /\ mq_serialize q = (q, Ok (t, d))
  /\ parse_mql t = Raise e.
Definition changes (s : str) : bool :=
  match parse_mql s with
  | Ok v => match print_mval v with
            | Ok t => match parse_mql t with Ok v' => negb (mv_eq v' (conj_value v)) | Raise _ => false end
            | Raise _ => false
            end
  | Raise _ => false
  end.
Definition breaks (s : str) : bool :=
  match parse_mql s with
  | Ok v => match print_mval v with
            | Ok t => match parse_mql t with Ok _ => false | Raise _ => true end
            | Raise _ => false
            end
  | Raise _ => false
  end.
Lemma changes_sent s : changes s = true -> sent_otherwise s.
Proof.
  intros H q Q V N. destruct (C47_text_partial q s Q V N) as (v & t & d & E & P & S). unfold changes in H.
  rewrite E, P in H. destruct (parse_mql t) as [v'|] eqn:R; [|discriminate]. exists v, t, d, v'.
  split; [exact E|]. split; [exact S|]. split; [exact R|]. apply Bool.negb_true_iff, H.
Qed.
Lemma breaks_sent s : breaks s = true -> sent_broken s.
Proof.
  intros H q Q V N. destruct (C47_text_partial q s Q V N) as (v & t & d & E & P & S). unfold breaks in H.
  rewrite E, P in H. destruct (parse_mql t) as [|e] eqn:R; [discriminate|]. exists v, t, d, e. auto.
Qed.
(** backslashes are doubled; empty parameter lists disappear; filters of a negated query
    move to its operand; a function named like an operator loses its name or its parameters *)
Theorem C65_changed_refuted : sent_otherwise ($"sum(a){b:""x\y""}") /\ sent_otherwise ($"count()(a)")
  /\ sent_otherwise ($"(-sum(a)){b:""c""}") /\ sent_otherwise ($"plus(sum(a))")
  /\ sent_otherwise ($"plus(""x"")(sum(a), sum(b))").
Proof. repeat split; apply changes_sent; vm_compute; reflexivity. Qed.
(** string parameters of a function lose their quotes; a metric in backticks loses the
    backticks; -(...) is written for a call of negate with several arguments *)
Theorem C65_broken_refuted : sent_broken ($"f(""a b"")(sum(a))")
  /\ sent_broken ($"sum(`d:x(y)/b@c`)") /\ sent_broken ($"negate(sum(a), sum(b))").
Proof. repeat split; apply breaks_sent; vm_compute; reflexivity. Qed.
End P.

(** Non-vacuity *)
#[local] Existing Instance demoRT.
#[local] Existing Instance demoST.
Lemma c65_mri : clear_metric (mkMetric None (Some ($"d:custom/x@none")) None).
Proof.
  intros s E. injection E as <-. split.
  - apply Forall_forall. assert (forallb (fun c => negb (existsb (N.eqb c) ($"(){}[],")) && negb (N.eqb c 34)) ($"d:custom/x@none") = true) as K
      by (vm_compute; reflexivity). rewrite forallb_forall in K. intros c I. apply K in I.
    apply Bool.andb_true_iff in I as [I J]. split; [|intros ->; discriminate]. intros L.
    apply Bool.negb_true_iff in I. enough (existsb (N.eqb c) ($"(){}[],") = true) by congruence.
    apply existsb_exists. exists c. split; [exact L|apply N.eqb_refl].
  - do 2 eexists. split; [reflexivity|]. split; intros H; vm_compute in H; [destruct H as [(H1 & H2)|H]; [apply H2; reflexivity|discriminate]|].
    destruct H as (_ & H). discriminate.
Qed.
(** the text of C64_case: sums, products, filters of several kinds, group-by, an MRI,
    parameters *)
Example C65_case : exists v, parse_mql c64_text = Ok v /\ clear_query v
  /\ let q := demo_query demo_ix (VObj (OStr c64_text)) in mq_query q = VObj (OStr c64_text) /\ mq_validate q = Ok tt
     /\ mq_indexer q <> VObj ONone.
Proof.
  eexists. split; [vm_compute; reflexivity|]. split.
  - assert (mql_number (OFloat (float_of_text ($"2.0"))) ($"2.0")) as N2.
    { split; [right; eexists; split; [reflexivity|vm_compute; reflexivity]|]. split; [|vm_compute; reflexivity].
      right. exists ($"2"), ($"0"). split; [reflexivity|]. split; (split; [discriminate|]); repeat constructor; cbv; discriminate. }
    assert (mql_number (OFloat (float_of_text ($"0.5"))) ($"0.5")) as N5.
    { split; [right; eexists; split; [reflexivity|vm_compute; reflexivity]|]. split; [|vm_compute; reflexivity].
      right. exists ($"0"), ($"5"). split; [reflexivity|]. split; (split; [discriminate|]); repeat constructor; cbv; discriminate. }
    apply cq_infix; [cbv; tauto| | |left; reflexivity].
    + apply cq_infix; [cbv; tauto| | |left; reflexivity].
      * apply cq_ts; [intros s; discriminate|vm_compute; discriminate|discriminate|intros l; discriminate|].
        intros l E. cbn in E. injection E as <-. constructor; [|constructor]. constructor. constructor.
        { apply (cf_strings _ _ [$"prod"; $"dev"]). repeat (constructor; [apply demo_string; vm_compute; reflexivity|]). constructor. }
        constructor; [|constructor]. constructor. repeat (constructor; [constructor; apply demo_string; vm_compute; reflexivity|]). constructor.
      * apply cq_ts; [apply c65_mri|vm_compute; discriminate|discriminate| |intros l; discriminate].
        intros l E. cbn in E. injection E as <-. constructor; [|constructor]. exact (mp_number _ _ N5).
    + exact (cq_number _ _ (or_introl N2)).
  - split; [reflexivity|]. split; [vm_compute; reflexivity|]. discriminate.
Qed.
(** the counterexamples are accepted and sent *)
Example C65_refuted_cases : Forall (fun s => let q := demo_query demo_ix (VObj (OStr s)) in
    mq_validate q = Ok tt /\ mq_indexer q <> VObj ONone)
  [$"sum(a){b:""x\y""}"; $"count()(a)"; $"(-sum(a)){b:""c""}"; $"plus(sum(a))"; $"plus(""x"")(sum(a), sum(b))";
   $"f(""a b"")(sum(a))"; $"sum(`d:x(y)/b@c`)"; $"negate(sum(a), sum(b))"].
Proof. repeat (apply Forall_cons; [split; [vm_compute; reflexivity|discriminate]|]). apply Forall_nil. Qed.

Print Assumptions C65_same_query_partial.
Print Assumptions C65_changed_refuted.
Print Assumptions C65_broken_refuted.
