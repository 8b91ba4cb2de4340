(** Property C64: what parse_mql returns and raises; C47 for queries given as MQL text. *)
From Verif Require Import PyBase PyFacts Regex Objects Exprs Translate Query Metrics SpecExpr SpecMetrics MetricsFacts SpecMql SpecParsed
  Peg Mql MqlTyping MqlActs ParsedPrint MetricsQuery MetricsQueryFacts SpecMetricsQuery Concrete Properties6 Properties7.

Section P.
Context {RT : PyRT}.

(** ** C64 parse_mql returns a complete query or raises InvalidMQLQueryError *)
(** every text: the result is a Timeseries or a Formula of the described shape *)
Theorem C64_result : forall s v, parse_mql s = Ok v -> parsed_query v.
Proof.
  intros s v E. pose proof (parse_typed True True s) as H. rewrite E in H. apply H.
  apply Forall_forall. intros c _. split; intros _; exact I.
Qed.
(** false: two other exceptions escape *)
Theorem C64_errors_refuted : parse_mql ($"1") = Raise AssertionError
  /\ parse_mql ($"sum(a){1b:c}") = Raise InvalidColumnError.
Proof. split; vm_compute; reflexivity. Qed.
(** but no others, and each only on texts in which certain characters occur *)
Theorem C64_errors_partial : forall s e, parse_mql s = Raise e ->
  e = InvalidMQLQueryError \/ (e = AssertionError /\ ~ no_literals s) \/ (e = InvalidColumnError /\ ~ no_digits_dots s).
Proof.
  intros s e E. pose proof (parse_typed (~ no_literals s) (~ no_digits_dots s) s) as H. rewrite E in H.
  destruct H as [H|[(K & H)|(K & H)]]; auto. apply Forall_forall. intros c I. split; intros D N;
    unfold no_literals, no_digits_dots in N; rewrite Forall_forall in N; apply N in I; tauto.
Qed.
(** every Timeseries of the result passes its validation *)
Lemma occurs_parsed x v : occurs x v -> parsed_value v -> parsed_value x.
Proof.
  induction 1 as [|x p n pk ps a f g I O IH]; [auto|]. intros P. inversion P; subst. apply IH.
  match goal with F : Forall _ ps |- _ => rewrite Forall_forall in F; apply F, I end.
Qed.
Theorem C64_validates : forall s v t, parse_mql s = Ok v -> occurs (VTS t) v -> ts_validate t = Ok tt.
Proof.
  intros s v t E O. apply C64_result in E as (_ & P). apply (occurs_parsed _ _ O) in P. inversion P; subst.
  apply ts_validate_iff, parsed_ts_ok. assumption.
Qed.

Context {ST : PyStr}.
(** the result can be printed *)
Theorem C64_prints : forall s v, parse_mql s = Ok v -> exists t, print_mval v = Ok t.
Proof. intros s v E. apply C64_result in E as (_ & P). apply value_prints, P. Qed.

(** ** C47 for queries given as MQL text: validation is enough *)
Theorem C47_text_partial : forall q s, mq_query q = VObj (OStr s) -> mq_validate q = Ok tt -> mq_indexer q <> VObj ONone ->
  exists v t d, parse_mql s = Ok v /\ print_mval v = Ok t /\ mq_serialize q = (q, Ok (t, d)).
Proof.
  intros q s Q V N. pose proof (mq_validate_query q V) as C. rewrite Q in C. cbn [check_query] in C.
  destruct (parse_mql s) as [v|e] eqn:E; [|discriminate]. destruct (C64_prints s v E) as (t & P).
  destruct (validated_settings q V N) as (st & S). exists v, t, (context_of st).
  split; [reflexivity|]. split; [exact P|]. unfold mq_serialize. rewrite V, Q. cbn [optimize_mval].
  replace (mq_put FQuery (VObj (OStr s)) q) with q by (destruct q; cbn in *; subst; reflexivity).
  rewrite (payload_settings _ _ S), Q. cbn [print_mq_query]. rewrite E. cbn [bind]. rewrite P. reflexivity.
Qed.
End P.

(** Non-vacuity *)
#[local] Existing Instance demoRT.
#[local] Existing Instance demoST.
Definition c64_text : str :=
  $"(sum(transaction.duration){environment:[""prod"", ""dev""] AND (release:""1.0"" OR !user:""jo*"")} by (project, release) + quantiles(0.5)(`d:custom/x@none`)) * 2".
Example C64_case : exists a b x, parse_mql c64_text = Ok (VFormula (OStr ($"multiply")) (Some KList)
    [VFormula (OStr ($"plus")) (Some KList) [VTS a; VTS b] ONone ONone ONone; VObj (OFloat x)] ONone ONone ONone)
  /\ no_literals ($"sum(a) by b") /\ parse_mql ($"sum(") = Raise InvalidMQLQueryError.
Proof.
  do 3 eexists. split; [vm_compute; reflexivity|]. split; [|vm_compute; reflexivity].
  apply Forall_forall. intros c I. split; [intros [D1 D2]|intros ->]; cbn in I; repeat destruct I as [I|I]; try discriminate I; try contradiction; subst; lia || discriminate.
Qed.
(** a query given as text *)
Example C47_text_case : exists t d, let q := demo_query demo_ix (VObj (OStr c64_text)) in
  mq_validate q = Ok tt /\ mq_serialize q = (q, Ok (t, d)).
Proof. do 2 eexists. split; [vm_compute; reflexivity|]. vm_compute. reflexivity. Qed.

Print Assumptions C64_result.
Print Assumptions C64_errors_refuted.
Print Assumptions C64_errors_partial.
Print Assumptions C64_validates.
Print Assumptions C64_prints.
Print Assumptions C47_text_partial.
