(** Property C66: the query parse_mql returns is what the text says. *)
From Verif Require Import PyBase PyFacts Regex Objects Exprs Translate Query Metrics SpecExpr SpecMetrics MetricsFacts SpecMql SpecParsed
  SpecGrammar Peg Mql MqlTyping MqlActs MqlSem MqlSaid Concrete Properties13.

Section P.
Context {RT : PyRT}.

(** ** C66 The query is what the text says *)
(** every accepted text: the grammar of SpecGrammar reads the text as this query, but a
    curried call over a bare metric may lose its other arguments, and a bare metric has the
    placeholder as its aggregate *)
Theorem C66_said_partial : forall s v, parse_mql s = Ok v -> mql_said True s v.
Proof. apply parse_said. Qed.
(** nothing is lost if the text has no comma *)
Theorem C66_no_comma_partial : forall s v, parse_mql s = Ok v -> ~ In 44%N s -> mql_said False s v.
Proof. apply parse_kept. Qed.
(** the aggregates and functions of the query are named in the text, or are those of the
    operators, or the placeholder *)
Theorem C66_names_partial : forall s v x, parse_mql s = Ok v -> names_of v x ->
  written_in x s \/ In x [$"plus"; $"minus"; $"multiply"; $"divide"; $"negate"] \/ x = $"AGGREGATE_PLACEHOLDER".
Proof. intros s v x E N. destruct (parse_named s v E x N) as [H|[H|H]]; auto. Qed.
(** false in general: two texts that differ in an argument give the same query *)
Theorem C66_argument_lost_refuted : exists v, parse_mql ($"f(x)(a, sum(b))") = Ok v /\ parse_mql ($"f(x)(a, max(c))") = Ok v
  /\ parse_mql ($"sum(b)") <> parse_mql ($"max(c)").
Proof. eexists. split; [vm_compute; reflexivity|]. split; [vm_compute; reflexivity|]. vm_compute. discriminate. Qed.
(** and an aggregate that the text does not mention *)
Theorem C66_placeholder_refuted : exists v, parse_mql ($"a") = Ok v /\ names_of v ($"AGGREGATE_PLACEHOLDER")
  /\ ~ written_in ($"AGGREGATE_PLACEHOLDER") ($"a").
Proof.
  eexists. split; [vm_compute; reflexivity|]. split; [exact (nm_ts _)|].
  intros (a & b & E). apply (f_equal (@List.length N)) in E. rewrite !app_length in E. cbn in E. lia.
Qed.
End P.

(** Non-vacuity *)
#[local] Existing Instance demoRT.
(** the text of C64_case: sums, products, filters of several kinds, group-by, an MRI,
    parameters; a comma between tests and in lists *)
Example C66_case : exists v, parse_mql c64_text = Ok v /\ names_of v ($"multiply") /\ names_of v ($"plus").
Proof.
  eexists. split; [vm_compute; reflexivity|]. split; [exact (nm_formula _ _ _ _ _ _)|].
  eapply nm_param; [left; reflexivity|]. exact (nm_formula _ _ _ _ _ _).
Qed.
Definition c66_text : str := $" -p50(0.5)(a{b:[x] OR !c:""d*""}) by (e) / (2 * max(`d:x/y@z`)){f:g} ".
Example C66_no_comma_case : (exists v, parse_mql c66_text = Ok v) /\ ~ In 44%N c66_text.
Proof.
  split; [eexists; vm_compute; reflexivity|]. intros H.
  assert (existsb (N.eqb 44) c66_text = true) as K by (apply existsb_exists; exists 44%N; split; [exact H|reflexivity]).
  vm_compute in K. discriminate.
Qed.

Print Assumptions C66_said_partial.
Print Assumptions C66_no_comma_partial.
Print Assumptions C66_names_partial.
Print Assumptions C66_argument_lost_refuted.
Print Assumptions C66_placeholder_refuted.
