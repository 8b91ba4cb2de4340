(** C93: constructors keep their arguments. *)
From Verif Require Import PyBase PyFacts Regex DateTime Objects Exprs Metrics SpecExpr SpecFields ExprFacts ExprProps Concrete.

Section P.
Context {RT : PyRT}.

Lemma as_seq_with o k l : as_seq o = Some (k, l) -> sequence_with k l = o.
Proof.
  destruct o; intros H; try discriminate H; injection H as <- <-; cbn [sequence_with]; try reflexivity.
  - f_equal. induction s; cbn; [reflexivity|]. now f_equal.
  - f_equal. induction b; cbn [map]; [reflexivity|]. rewrite N2Z.id. now f_equal.
Qed.
Lemma as_lt_with o k l : as_list_or_tuple o = Some (k, l) -> sequence_with k l = o.
Proof. destruct o; intros H; try discriminate H; injection H as <- <-; reflexivity. Qed.
Lemma as_int_number o i : as_int o = Some i -> number i = o.
Proof. destruct o; intros H; try discriminate H; injection H as <-; reflexivity. Qed.
Lemma int_clause_keeps a lo hi k o : int_clause a lo hi k = Ok o -> exists i, number i = a /\ o = k i.
Proof.
  unfold int_clause. destruct (as_int a) as [i|] eqn:E; [|discriminate]. intros H. apply bind_Ok in H as (? & _ & H).
  injection H as <-. exists i. split; [now apply as_int_number|reflexivity].
Qed.
Lemma word_keeps a e n : check_word a e = Ok n -> a = OStr n.
Proof. unfold check_word. destruct a; try discriminate. destruct (re_matches _ _); [|discriminate]. intros H. now injection H as ->. Qed.
Lemma sample_keeps a e n : check_sample a e = Ok n -> a = or_none OFloat n.
Proof. unfold check_sample. destruct a; try discriminate; [intros H; now injection H as <-|]. destruct (flt_le0 f); [discriminate|]. intros H. now injection H as <-. Qed.
Lemma dm_keeps a e n : check_dm a e = Ok n -> a = or_none ODataModel n.
Proof. unfold check_dm. destruct a; try discriminate; intros H; now injection H as <-. Qed.
Lemma alias_keeps a e n : check_alias a e = Ok n -> a = or_none OStr n.
Proof.
  unfold check_alias. intros H. destruct a; try discriminate H; [injection H as <-; reflexivity|]. destruct s; [discriminate H|].
  destruct (re_matches _ _); [|discriminate H]. injection H as <-. reflexivity.
Qed.
Lemma idents_keep l n : check_idents l = Ok n -> l = map OStr n.
Proof.
  revert n. induction l as [|o l IH]; intros n H; [injection H as <-; reflexivity|]. cbn [check_idents] in H. destruct o; try discriminate H.
  destruct (re_matches _ _); [|discriminate H]. apply bind_Ok in H as (r & E & H). injection H as <-. cbn [map]. now rewrite <- (IH r E).
Qed.
Lemma columns_keep l cs : all_columns l = Some cs -> l = map OColumn cs.
Proof.
  revert cs. induction l as [|o l IH]; intros cs H; [injection H as <-; reflexivity|]. cbn [all_columns] in H. destruct o; try discriminate H.
  destruct (all_columns l) as [r|]; [|discriminate H]. injection H as <-. cbn [map]. now rewrite <- (IH r eq_refl).
Qed.
Lemma rels_keep l cs : all_rels l = Some cs -> l = map ORel cs.
Proof.
  revert cs. induction l as [|o l IH]; intros cs H; [injection H as <-; reflexivity|]. cbn [all_rels] in H. destruct o; try discriminate H.
  destruct (all_rels l) as [x|]; [|discriminate H]. injection H as <-. cbn [map]. now rewrite <- (IH x eq_refl).
Qed.
Lemma inits_keep a k l : check_inits a = Ok (k, l) -> sequence_with k l = a.
Proof.
  unfold check_inits. destruct (obj_none_dec a) as [->|N]; [intros H; injection H as <- <-; reflexivity|].
  destruct (as_seq a) as [(k' & l')|] eqn:E; [|destruct a; discriminate || now elim N].
  intros H. assert (H' : (if forallb init_ok l' then Ok (k', l') else Raise InvalidFunctionError) = Ok (k, l)) by (destruct a; try exact H; now elim N).
  destruct (forallb _ _); [|discriminate H']. injection H' as -> ->. now apply as_seq_with.
Qed.
Lemma params_keep a k l : check_params a = Ok (k, l) -> sequence_with k l = a.
Proof.
  unfold check_params. destruct (obj_none_dec a) as [->|N]; [intros H; injection H as <- <-; reflexivity|].
  destruct (as_seq a) as [(k' & l')|] eqn:E; [|destruct a; discriminate || now elim N].
  intros H. assert (H' : (check_param_items l' ;! Ok (k', l')) = Ok (k, l)) by (destruct a; try exact H; now elim N).
  apply bind_Ok in H' as (? & _ & H'). injection H' as -> ->. now apply as_seq_with.
Qed.
Lemma boolean_keeps cls o conds x : mk_boolean cls o conds = Ok x -> exists p k l, o = OBoolOp p /\ sequence_with k l = conds /\ x = OBoolC cls p k l.
Proof.
  unfold mk_boolean. destruct o; try discriminate. destruct (as_list_or_tuple conds) as [(k & l)|] eqn:E; [|discriminate].
  intros H. apply bind_Ok in H as (? & _ & H). injection H as <-. exists o, k, l. split; [reflexivity|]. split; [now apply as_lt_with|reflexivity].
Qed.

(** ** C93 An object has the attributes it was constructed with *)
Theorem C93_keeps : forall c args o, construct c args = Ok o -> attributes o = Some (c, args).
Proof.
  intros c args o H.
  destruct c; cbn [construct] in H; repeat (destruct args as [|? args]; try discriminate H).
  - apply int_clause_keeps in H as (i & <- & ->). reflexivity.
  - apply int_clause_keeps in H as (i & <- & ->). reflexivity.
  - apply int_clause_keeps in H as (i & <- & ->). reflexivity.
  - destruct o0; try discriminate H. injection H as <-. reflexivity.
  - destruct o0; try discriminate H. injection H as <-. reflexivity.
  - unfold mk_entity in H. apply bind_Ok in H as (n & E1 & H). apply bind_Ok in H as (s & E2 & H). apply bind_Ok in H as (a & E3 & H).
    apply bind_Ok in H as (d & E4 & H). injection H as <-. cbn [attributes e_name e_alias e_sample e_dm].
    apply word_keeps in E1 as ->. apply sample_keeps in E2 as ->. apply dm_keeps in E4 as ->.
    assert (o1 = or_none OStr a) as -> by (destruct o1; try discriminate E3; [injection E3 as <-; reflexivity|]; destruct s0; [discriminate E3|injection E3 as <-; reflexivity]).
    reflexivity.
  - unfold mk_storage in H. apply bind_Ok in H as (n & E1 & H). apply bind_Ok in H as (s & E2 & H).
    apply bind_Ok in H as (d & E4 & H). injection H as <-. cbn [attributes st_name st_sample st_dm].
    apply word_keeps in E1 as ->. apply sample_keeps in E2 as ->. apply dm_keeps in E4 as ->. reflexivity.
  - apply c01_stores in H as (c & -> & -> & ->). destruct c as [n [e|] s k]; reflexivity.
  - unfold mk_aliased in H. destruct o0; try discriminate H. apply bind_Ok in H as (a & E & H). injection H as <-.
    apply alias_keeps in E as ->. reflexivity.
  - unfold mk_curried in H. apply mk_func_Ok in H as (n & ik & il & pk & pl & al & H1 & H2 & H3 & H4 & ->).
    apply check_function_name_Ok in H1 as [-> _]. apply inits_keep in H2 as <-. apply alias_keeps in H3 as ->. apply params_keep in H4 as <-. reflexivity.
  - unfold mk_function in H. apply mk_func_Ok in H as (n & ik & il & pk & pl & al & H1 & H2 & H3 & H4 & ->).
    apply check_function_name_Ok in H1 as [-> _]. apply alias_keeps in H3 as ->. apply params_keep in H4 as <-. reflexivity.
  - unfold mk_identifier in H. destruct o0; try discriminate H. destruct (re_matches _ _); [|discriminate H]. injection H as <-. reflexivity.
  - unfold mk_lambda in H. destruct (as_list_or_tuple o0) as [(k & l)|] eqn:E; [|discriminate H]. apply bind_Ok in H as (n & I & H).
    destruct (is_func o1); [|discriminate H]. injection H as <-. apply idents_keep in I as ->. apply as_lt_with in E as <-. reflexivity.
  - apply c08_stores in H as (q & -> & ->). reflexivity.
  - apply boolean_keeps in H as (p & k & l & -> & <- & ->). reflexivity.
  - unfold mk_and in H. apply boolean_keeps in H as (p & k & l & _ & <- & ->). reflexivity.
  - unfold mk_or in H. apply boolean_keeps in H as (p & k & l & _ & <- & ->). reflexivity.
  - unfold mk_orderby in H. destruct (negb _); [discriminate H|]. destruct o1; try discriminate H. injection H as <-. reflexivity.
  - unfold mk_limitby in H. destruct (as_seq o0) as [(k & l)|] eqn:E; [|discriminate H]. destruct (Nat.ltb _ _); [discriminate H|].
    destruct (all_columns l) as [cs|] eqn:C; [|discriminate H]. destruct (as_int o1) as [i|] eqn:I; [|discriminate H].
    destruct (_ || _)%bool; [discriminate H|]. injection H as <-. apply columns_keep in C as ->. apply as_seq_with in E as <-.
    apply as_int_number in I as <-. reflexivity.
  - unfold mk_relationship in H. apply bind_Ok in H as (l & E1 & H). apply bind_Ok in H as (r & E2 & H).
    destruct o0; try discriminate E1. destruct o2; try discriminate E2. destruct (e_alias e); [|discriminate E1]. destruct (e_alias e0); [|discriminate E2].
    injection E1 as ->. injection E2 as ->. destruct o1; try discriminate H. destruct s1; [discriminate H|]. injection H as <-. reflexivity.
  - unfold mk_join in H. destruct (as_list_or_tuple o0) as [(k & l)|] eqn:E; [|discriminate H].
    assert (H' : match all_rels l with Some rs => join_check [] (alias_mappings rs) ;! Ok (OJoin k rs) | None => Raise InvalidExpressionError end = Ok o)
      by (destruct l; [discriminate H|exact H]). clear H.
    destruct (all_rels l) as [rs|] eqn:C; [|discriminate H']. apply bind_Ok in H' as (? & _ & H'). injection H' as <-.
    apply rels_keep in C as ->. apply as_lt_with in E as <-. reflexivity.
Qed.
(** so objects constructed with other arguments or of another class are other objects *)
Theorem C93_distinct : forall c c' args args' o, construct c args = Ok o -> construct c' args' = Ok o -> c = c' /\ args = args'.
Proof. intros c c' args args' o H H'. apply C93_keeps in H, H'. rewrite H in H'. injection H' as -> ->. auto. Qed.
(** and every object can be constructed again from its attributes *)
Theorem C93_again : forall o c args, api o -> attributes o = Some (c, args) -> construct c args = Ok o.
Proof.
  intros o c args A E.
  assert (K : forall c' args', construct c' args' = Ok o -> construct c args = Ok o).
  { intros c' args' H. pose proof (C93_keeps _ _ _ H) as K. rewrite K in E. injection E as <- <-. exact H. }
  destruct A; try discriminate E.
  - apply (K CLimit [a]); assumption.
  - apply (K COffset [a]); assumption.
  - apply (K CGranularity [a]); assumption.
  - apply (K CTotals [a]); assumption.
  - apply (K CExtrapolate [a]); assumption.
  - apply (K CEntity [n; a; s; d]); assumption.
  - apply (K CStorage [n; s; d]); assumption.
  - apply (K CColumn [n; e]); assumption.
  - apply (K CAliased [e; a]); assumption.
  - apply (K CCurried [f; i; p; a]); assumption.
  - apply (K CFunction [f; p; a]); assumption.
  - apply (K CIdentifier [n]); assumption.
  - apply (K CLambda [i; b]); assumption.
  - apply (K CCondition [l; p; r]); assumption.
  - apply (K CBoolean [p; l]); assumption.
  - apply (K CAnd [l]); assumption.
  - apply (K COr [l]); assumption.
  - apply (K COrderBy [e; d]); assumption.
  - apply (K CLimitBy [l; n]); assumption.
  - apply (K CRelationship [l; n; r]); assumption.
  - apply (K CJoin [l]); assumption.
Qed.
(** the same for metrics *)
Theorem C93_metrics :
  (forall public mri id m, mk_metric public mri id = Ok m ->
     public = or_none OStr (m_public m) /\ mri = or_none OStr (m_mri m) /\ id = or_none number (m_id m))
  /\ (forall metric aggregate params filters groupby t, mk_timeseries metric aggregate params filters groupby = Ok t ->
     metric = VMetric (ts_metric t) /\ aggregate = OStr (ts_agg t) /\ params = or_none OList (ts_params t)
     /\ filters = or_none OList (ts_filters t) /\ groupby = or_none OList (ts_groupby t))
  /\ (forall interval totals orderby granularity r, mk_rollup interval totals orderby granularity = Ok r ->
     interval = or_none number (ro_interval r) /\ totals = or_none OBool (ro_totals r) /\ orderby = or_none ODir (ro_orderby r)
     /\ granularity = ro_granularity r)
  /\ (forall orgs projects use_case s, mk_scope orgs projects use_case = Ok s ->
     orgs = OList (map number (ms_orgs s)) /\ projects = OList (map number (ms_projects s)) /\ use_case = or_none OStr (ms_usecase s)).
Proof.
  assert (S : forall o e x, as_opt_str o e = Ok x -> o = or_none OStr x) by (intros o e x H; destruct o; try discriminate H; injection H as <-; reflexivity).
  assert (I : forall o e x, as_opt_int o e = Ok x -> o = or_none number x).
  { intros o e x H. destruct (obj_none_dec o) as [->|N]; [injection H as <-; reflexivity|].
    assert (H' : match as_int o with Some i => Ok (Some i) | None => Raise e end = Ok x) by (destruct o; try exact H; now elim N).
    destruct (as_int o) eqn:E; [|discriminate H']. injection H' as <-. now apply as_int_number in E as <-. }
  assert (L : forall f o e x, as_opt_list f o e = Ok x -> o = or_none OList x).
  { intros f o e x H. destruct o; try discriminate H; [injection H as <-; reflexivity|]. cbn [as_opt_list] in H. apply bind_Ok in H as (? & _ & H). injection H as <-. reflexivity. }
  assert (A : forall l x, all_ints l = Some x -> l = map number x).
  { induction l as [|o l IH]; intros x H; [injection H as <-; reflexivity|]. cbn [all_ints] in H. destruct (as_int o) eqn:E; [|discriminate H].
    destruct (all_ints l) as [r|]; [|discriminate H]. injection H as <-. cbn [map]. rewrite <- (IH r eq_refl). now apply as_int_number in E as <-. }
  assert (AI : forall o x, as_ints o = Ok x -> o = OList (map number x)).
  { intros o x H. destruct o; try discriminate H. cbn [as_ints] in H. destruct (all_ints l) eqn:E; [|discriminate H]. injection H as <-. now rewrite <- (A _ _ E). }
  split; [|split; [|split]].
  - intros * H. unfold mk_metric in H. apply bind_Ok in H as (p & E1 & H). apply bind_Ok in H as (q & E2 & H). apply bind_Ok in H as (i & E3 & H).
    apply bind_Ok in H as (? & _ & H). injection H as <-. cbn [m_public m_mri m_id].
    split; [exact (S _ _ _ E1)|]. split; [exact (S _ _ _ E2)|exact (I _ _ _ E3)].
  - intros * H. unfold mk_timeseries in H. destruct metric; try discriminate H. apply bind_Ok in H as (? & _ & H).
    destruct aggregate; try discriminate H. apply bind_Ok in H as (p & E1 & H). apply bind_Ok in H as (q & E2 & H). apply bind_Ok in H as (i & E3 & H).
    injection H as <-. cbn [ts_metric ts_agg ts_params ts_filters ts_groupby]. split; [reflexivity|]. split; [reflexivity|].
    split; [exact (L _ _ _ _ E1)|]. split; [exact (L _ _ _ _ E2)|exact (L _ _ _ _ E3)].
  - intros * H. unfold mk_rollup in H. apply bind_Ok in H as (? & _ & H). apply bind_Ok in H as (i & E1 & H). apply bind_Ok in H as (t & E2 & H).
    apply bind_Ok in H as (? & _ & H). apply bind_Ok in H as (d & E3 & H). apply bind_Ok in H as (? & _ & H). injection H as <-.
    cbn [ro_interval ro_totals ro_orderby ro_granularity]. split; [|split; [|split; [|reflexivity]]].
    + destruct (obj_none_dec interval) as [->|N]; [injection E1 as <-; reflexivity|].
      destruct (as_int interval) as [j|] eqn:E; [|destruct interval; try discriminate E1; now elim N].
      assert (i = Some j) as ->; [|now apply as_int_number in E as <-].
      destruct interval; try discriminate E; injection E as <-; cbn [as_int] in E1; apply bind_Ok in E1 as (? & _ & E1); apply bind_Ok in E1 as (? & _ & E1); now injection E1 as <-.
    + destruct totals; try discriminate E2; injection E2 as <-; reflexivity.
    + destruct orderby; try discriminate E3; injection E3 as <-; reflexivity.
  - intros * H. unfold mk_scope in H. apply bind_Ok in H as (p & E1 & H). apply bind_Ok in H as (q & E2 & H). apply bind_Ok in H as (i & E3 & H).
    injection H as <-. cbn [ms_orgs ms_projects ms_usecase]. split; [exact (AI _ _ E1)|]. split; [exact (AI _ _ E2)|exact (S _ _ _ E3)].
Qed.
End P.

#[local] Existing Instance demoRT.
(** a curried function with a str for its parameters, and a column with a subscript *)
Example C93_case :
  (exists o, construct CCurried [OStr ($"quantile"); OList [OFloat (FFin false 1 (-1))]; OStr ($"ab"); OStr ($"p50")] = Ok o
     /\ attributes o = Some (CCurried, [OStr ($"quantile"); OList [OFloat (FFin false 1 (-1))]; OStr ($"ab"); OStr ($"p50")]))
  /\ (exists o e, construct CEntity [OStr ($"events"); OStr ($"ev"); ONone; ONone] = Ok e
     /\ construct CColumn [OStr ($"tags[a]"); e] = Ok o /\ attributes o = Some (CColumn, [OStr ($"tags[a]"); e])).
Proof. split; [eexists; split; vm_compute; reflexivity|]. do 2 eexists. split; [vm_compute; reflexivity|]. split; vm_compute; reflexivity. Qed.

Print Assumptions C93_keeps.
Print Assumptions C93_distinct.
Print Assumptions C93_again.
Print Assumptions C93_metrics.
