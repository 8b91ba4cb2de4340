(** Property C76: equal metrics queries send the same text. *)
From Verif Require Import PyBase PyFacts DateTime Objects Exprs SpecExpr LiteralFacts WfFacts Translate Query Optimizer SpecOccurs OptFacts Metrics Mql
  MetricsQuery MetricsQueryFacts SpecMetricsQuery SpecEqual SpecArrive SpecMEqual EqText EqMql EqMValid ApiTac Concrete Properties6 Properties7 Properties12.

Section P.
Context {RT : PyRT} {ST : PyStr}.

(** ** C76 Equal metrics queries send the same text *)
(** the query is a text, or a value made of objects that the constructors return *)
Definition query_value (v : mval) : Prop := (exists s, v = VObj (OStr s)) \/ built api v.
(** full statement: mquery_eq q q' -> mq_serialize q = (_, Ok x) -> mq_serialize q' = (_, Ok y)
    -> x = y. False, see below; true when equal parts of the queries look the same *)
Theorem C76_same_mql_partial : forall q q' r r' m m' d d', query_value (mq_query q) -> query_value (mq_query q') ->
  mquery_eq q q' -> no_mql_lookalikes (mq_query q) (mq_query q') -> bare_params (mq_query q) ->
  mq_serialize q = (r, Ok (m, d)) -> mq_serialize q' = (r', Ok (m', d')) -> m = m'.
Proof.
  intros q q' r r' m m' d d' B B' E N R S S'.
  apply serialize_parts in S as (V & v & O & -> & P), S' as (V' & v' & O' & -> & P').
  apply mq_validate_query in V, V'. unfold mq_payload in P, P'. apply bind_Ok in P as (x & P & K), P' as (x' & P' & K').
  assert (x = m) as -> by (repeat (apply bind_Ok in K as (? & _ & K)); congruence).
  assert (x' = m') as -> by (repeat (apply bind_Ok in K' as (? & _ & K')); congruence).
  replace (mq_query (mq_put FQuery v q)) with v in P by (destruct q; reflexivity).
  replace (mq_query (mq_put FQuery v' q')) with v' in P' by (destruct q'; reflexivity).
  pose proof (E FQuery) as EQ. cbn [mq_get] in EQ.
  destruct B as [(s & B)|B], B' as [(s' & B')|B'].
  - rewrite B in O, EQ. rewrite B' in O', EQ. cbn in O, O', EQ. apply str_eqb_eq in EQ. congruence.
  - rewrite B in EQ. inversion B' as [z Z|z Z|z Z|t ? ? ? ? Z|n k ps a f g ? ? ? ? ? Z]; rewrite <- Z in *; discriminate.
  - rewrite B' in EQ. inversion B as [z Z|z Z|z Z|t ? ? ? ? Z|n k ps a f g ? ? ? ? ? Z]; rewrite <- Z in *; discriminate.
  - apply (built_impl api wf _ api_wf) in B, B'.
    assert (W : forall w u, built wf w -> check_query w = Ok tt -> optimize_mval w = Ok u -> print_mq_query u = print_mval u).
    { intros w u Bw C Ou. pose proof (check_query_optimized _ _ Ou C) as Cu. destruct (optimize_built w Bw C) as (u' & Ou' & Bu & _).
      rewrite Ou in Ou'. apply Ok_inj in Ou'. subst u'. inversion Bu; subst; try discriminate Cu; reflexivity. }
    rewrite (W _ _ B V O) in P. rewrite (W _ _ B' V' O') in P'.
    pose proof (serialize_text _ _ _ _ B B' R (conj EQ N) V V' O O') as X. congruence.
Qed.
Theorem C76_same_context_partial : forall q q' r r' m m' d d', mquery_eq q q' -> same_settings q q' ->
  mq_serialize q = (r, Ok (m, d)) -> mq_serialize q' = (r', Ok (m', d')) -> d = d'.
Proof.
  intros q q' r r' m m' d d' E S A A'. apply serialize_settings in A as (s & H & ->), A' as (s' & H' & ->).
  rewrite (settings_eq q q' s s'); auto.
Qed.
(** the whole result of serialize() and print(), errors included *)
Theorem C76_same_result_partial : forall q q', query_value (mq_query q) -> query_value (mq_query q') ->
  mquery_eq q q' -> no_mql_lookalikes (mq_query q) (mq_query q') -> bare_params (mq_query q) -> same_settings q q' ->
  snd (mq_serialize q) = snd (mq_serialize q') /\ mq_print q = mq_print q'.
Proof.
  intros q q' B B' E N R S.
  assert (K : forall v, query_value v -> text_or wf v) by (intros v [X|X]; [left; exact X|right; exact (built_impl api wf _ api_wf X)]).
  apply results_same; auto.
Qed.
(** Python's equality is coarser: 1 == True, and times in different zones are equal *)
Definition c76_query (limit : pyint) (v : obj) (hour off : Z) : mquery :=
  mkMQ (VTS (mkTS (mkMetric (Some ($"transaction.duration")) None None) ($"count") None (Some [OCond (demo_col ($"env")) EQ v]) None))
    (VObj (ODateTime (mkDT (mkDate 2023 5 1) hour 30 0 0 (Some (off * 3600000000)%Z)))) (demo_time 2 (Some 0%Z)) (VRollup demo_rollup) (VScope demo_scope)
    (VObj (OLimit limit)) (VObj ONone) (VObj ONone) (VObj demo_ix).
Definition mql_of (q : mquery) : option str := match snd (mq_serialize q) with Ok (m, _) => Some m | Raise _ => None end.
Definition context_sent (q : mquery) : option obj := match snd (mq_serialize q) with Ok (_, d) => Some d | Raise _ => None end.
Theorem C76_bool_refuted : let q := c76_query (PInt 1) (OInt 1) 8 0 in let q' := c76_query (PInt 1) (OBool true) 8 0 in
  query_value (mq_query q) /\ query_value (mq_query q') /\ mquery_eq q q'
  /\ mql_of q = Some ($"count(transaction.duration){env:1}") /\ mql_of q' = Some ($"count(transaction.duration){env:TRUE}").
Proof.
  cbn zeta. split; [|split; [|split; [intros []; vm_compute; reflexivity|split; vm_compute; reflexivity]]].
  - right. constructor; cbn; [left; discriminate|exact I| |exact I]. constructor; [split; [unfold demo_col; api_tac|left; eauto]|constructor].
  - right. constructor; cbn; [left; discriminate|exact I| |exact I]. constructor; [split; [unfold demo_col; api_tac|left; eauto]|constructor].
Qed.
Theorem C76_zone_refuted : let q := c76_query (PInt 1) (OInt 1) 8 0 in let q' := c76_query (PInt 1) (OInt 1) 10 2 in
  mquery_eq q q' /\ mql_of q = mql_of q'
  /\ (exists d, context_sent q = Some d /\ dict_entry d ($"start") (OStr ($"2023-05-01T08:30:00+00:00")))
  /\ exists d, context_sent q' = Some d /\ dict_entry d ($"start") (OStr ($"2023-05-01T10:30:00+02:00")).
Proof.
  cbn zeta. split; [intros []; vm_compute; reflexivity|]. split; [vm_compute; reflexivity|].
  split; (eexists; split; [vm_compute; reflexivity|]; eexists _, _; split; [reflexivity|]; left; vm_compute; split; reflexivity).
Qed.
Theorem C76_limit_refuted : let q := c76_query (PInt 1) (OInt 1) 8 0 in let q' := c76_query (PBool true) (OInt 1) 8 0 in
  mquery_eq q q' /\ mql_of q = mql_of q'
  /\ (exists d, context_sent q = Some d /\ dict_entry d ($"limit") (OInt 1))
  /\ exists d, context_sent q' = Some d /\ dict_entry d ($"limit") (OBool true).
Proof.
  cbn zeta. split; [intros []; vm_compute; reflexivity|]. split; [vm_compute; reflexivity|].
  split; (eexists; split; [vm_compute; reflexivity|]; eexists _, _; split; [reflexivity|];
    cbn; repeat (right; split; [vm_compute; discriminate|]); left; split; reflexivity).
Qed.
(** indexer mappings with the same entries in another order are equal *)
Definition c76_mapped (ks : list str) (vs : list obj) : mquery := mq_put FIndexer (VObj (ODict ks vs)) (c76_query (PInt 1) (OInt 1) 8 0).
Theorem C76_order_refuted :
  let q := c76_mapped [$"a"; $"b"] [OInt 1; OInt 2] in let q' := c76_mapped [$"b"; $"a"] [OInt 2; OInt 1] in
  mquery_eq q q' /\ mql_of q = mql_of q'
  /\ (exists d, context_sent q = Some d /\ dict_entry d ($"indexer_mappings") (ODict [$"a"; $"b"] [OInt 1; OInt 2]))
  /\ exists d, context_sent q' = Some d /\ dict_entry d ($"indexer_mappings") (ODict [$"b"; $"a"] [OInt 2; OInt 1]).
Proof.
  cbn zeta. split; [intros []; vm_compute; reflexivity|]. split; [vm_compute; reflexivity|].
  split; (eexists; split; [vm_compute; reflexivity|]; eexists _, _; split; [reflexivity|];
    cbn; repeat (right; split; [vm_compute; discriminate|]); left; split; reflexivity).
Qed.
End P.

(** Non-vacuity: formulas that are equal and not the same, with a time in UTC and the same time
    two hours east of it in a filter, and True and 1 as the id of the metric *)
#[local] Existing Instance demoRT.
#[local] Existing Instance demoST.
Definition c76_when (h o : Z) : obj := OCond (demo_col ($"day")) EQ (ODateTime (mkDT (mkDate 2021 1 2) h 4 5 0 (Some (o * 3600000000)%Z))).
Definition c76_or : obj :=
  OBoolC BOr OR KList [OCond (demo_col ($"env")) EQ (OStr ($"prod")); OCond (demo_col ($"env")) EQ (OStr ($"dev"))].
Definition c76_formula (id : pyint) (h o : Z) : mval :=
  VFormula (OStr ($"topK")) (Some KList)
    [VTS (mkTS (mkMetric (Some ($"transaction.duration")) None (Some id)) ($"count") None (Some [c76_when h o]) None); VObj (OInt 2)]
    (OList [OInt 3]) (OList [c76_or]) ONone.
Definition c76_demo (id : pyint) (h o : Z) : mquery := demo_query demo_ix (c76_formula id h o).
Lemma c76_built id h o : valid_datetime (mkDT (mkDate 2021 1 2) h 4 5 0 (Some (o * 3600000000)%Z)) -> built api (c76_formula id h o).
Proof.
  intros V. unfold c76_formula. constructor.
  - discriminate.
  - constructor; [|constructor; [constructor|constructor]]. constructor; cbn; [left; discriminate|exact I| |exact I].
    constructor; [|constructor]. split; [|left; unfold c76_when; eauto].
    apply (api_condition (demo_col ($"day")) (OOp EQ) (ODateTime (mkDT (mkDate 2021 1 2) h 4 5 0 (Some (o * 3600000000)%Z))));
      [unfold demo_col; api_tac|constructor|apply api_datetime, V|reflexivity].
  - right. eexists. split; [reflexivity|]. constructor; [exact I|constructor].
  - right. eexists. split; [reflexivity|]. constructor; [|constructor]. split; [unfold c76_or, demo_col; api_tac|right; unfold c76_or; eauto].
  - left; reflexivity.
Qed.
Lemma c76_looks id h o x : mql_part x (c76_formula id h o) -> one_look x.
Proof.
  unfold c76_formula. intros [W|[A|O]].
  - inversion W as [|? ? ? ? ? ? ? [I|I]|? ? ? ? ? ? ? ? I I']; subst.
    + destruct I as (l & y & E & I & Oc). injection E as <-. unfold c76_or, demo_col in I. walk; exact Logic.I.
    + destruct I as (l & y & E & _). discriminate E.
    + destruct I as [<-|[<-|[]]]; [|inversion I'].
      inversion I' as [? ? [I|[I|I]]| |]; subst; destruct I as (l & y & E & I & Oc); try discriminate E. injection E as <-.
      unfold c76_when, demo_col in I. walk; exact Logic.I.
  - inversion A as [? ? ? ? ? ? ? I|? ? ? ? ? ? ? ? I I']; subst; [destruct I as [<-|[]]; exact Logic.I|].
    destruct I as [<-|[<-|[]]]; inversion I'.
  - inversion O as [|? ? ? ? ? ? ? ? I I']; subst. destruct I as [<-|[<-|[]]]; inversion I'; subst. exact Logic.I.
Qed.
Definition c76_a := c76_demo (PInt 1) 10 0.
Definition c76_b := c76_demo (PBool true) 12 2.
Example C76_case : query_value (mq_query c76_a) /\ query_value (mq_query c76_b) /\ mquery_eq c76_a c76_b /\ c76_a <> c76_b
  /\ no_mql_lookalikes (mq_query c76_a) (mq_query c76_b) /\ bare_params (mq_query c76_a) /\ same_settings c76_a c76_b
  /\ mql_of c76_a = mql_of c76_b /\ context_sent c76_a = context_sent c76_b /\ context_sent c76_a <> None
  /\ mql_of c76_a = Some ($"topK(3)(count(transaction.duration){day:toDateTime('2021-01-02T10:04:05')}, 2){env:[""prod"", ""dev""]}").
Proof.
  split; [right; apply c76_built; vm_compute; intuition congruence|].
  split; [right; apply c76_built; vm_compute; intuition congruence|].
  split; [intros []; vm_compute; reflexivity|]. split; [discriminate|].
  split; [intros x y X Y; apply one_look_same; [exact (c76_looks (PInt 1) 10 0 x X)|exact (c76_looks (PBool true) 12 2 y Y)]|].
  split.
  { intros x A. inversion A as [? ? ? ? ? ? ? I|? ? ? ? ? ? ? ? I I']; subst; [destruct I as [<-|[]]; eexists; constructor|].
    destruct I as [<-|[<-|[]]]; inversion I'. }
  split; [|split; [vm_compute; reflexivity|split; [vm_compute; reflexivity|split; [vm_compute; discriminate|vm_compute; reflexivity]]]].
  assert (S : forall q, q = c76_a \/ q = c76_b -> has_settings q (mkSet (mkDT (mkDate 2023 5 1) 8 30 0 0 None)
     (mkDT (mkDate 2023 5 2) 8 30 0 0 (Some 19800000000%Z)) demo_rollup demo_scope (Some (PInt 100)) None None
     ([$"transaction.duration"], [OInt 7]))) by (intros q [->| ->]; repeat split).
  split; [|intros s s' Hs Hs'; pose proof (has_settings_fun _ _ _ (S _ (or_introl eq_refl)) Hs) as <-;
    pose proof (has_settings_fun _ _ _ (S _ (or_intror eq_refl)) Hs') as <-; repeat split; repeat constructor; intros []].
  intros x y (s & Hs & X) (s' & Hs' & Y) E.
  pose proof (has_settings_fun _ _ _ (S _ (or_introl eq_refl)) Hs) as <-. pose proof (has_settings_fun _ _ _ (S _ (or_intror eq_refl)) Hs') as <-.
  cbn in X, Y. repeat match goal with H : _ \/ _ |- _ => destruct H as [H|H] | H : False |- _ => destruct H end; subst; try reflexivity; discriminate E.
Qed.

Print Assumptions C76_same_mql_partial.
Print Assumptions C76_same_context_partial.
Print Assumptions C76_same_result_partial.
Print Assumptions C76_bool_refuted.
Print Assumptions C76_zone_refuted.
Print Assumptions C76_limit_refuted.
Print Assumptions C76_order_refuted.
