(** C18-C24: the text of a query and the setters.
    Only theorem statements; the proofs are in RenameFacts.v, PrintProps.v, OneLine.v, SetterProps.v, QueryProps.v. *)
From Verif Require Import PyBase Objects Exprs Translate Query SpecExpr SpecOccurs SpecQuery SpecLogic SpecSetters SpecRefs SpecOrder
  SpecHazard RenameFacts PrintProps OneLine SetterProps ValidateProps OptFacts QueryProps ApiTac Concrete.

Section P.
Context {RT : PyRT}.

(** ** C18 Columns are qualified by their entity alias exactly in join queries *)
Theorem C18_joined_expression : forall o, api o -> visit false true o = visit false false (qualified o).
Proof. exact c18_expression. Qed.
Theorem C18_other_expression : forall o, visit false false o = visit false false (bare o).
Proof. exact (visit_bare false). Qed.
Theorem C18_column : forall c e a, c_entity c = Some e -> e_alias e = Some a ->
  item_text true (OColumn c) (a ++ $"." ++ c_name c) /\ item_text false (OColumn c) (c_name c).
Proof. exact c18_column. Qed.
Theorem C18_entity : forall n a sm dm, exists rest,
  item_text true (OEntity (mkEntity n (Some a) sm dm)) ($"(" ++ a ++ $": " ++ n ++ rest)
  /\ item_text false (OEntity (mkEntity n (Some a) sm dm)) ($"(" ++ n ++ rest).
Proof. exact c18_entity. Qed.
Theorem C18_query : forall q s, api_query q -> seq_typed_query q -> print q = Ok s ->
  exists parts, query_parts q parts /\ s = join [10%N] parts.
Proof. exact c18_print. Qed.

(** ** C19 The SnQL text contains exactly the clauses that are set, in SnQL order *)
Theorem C19_print : forall q, api_query q -> seq_typed_query q -> validate q = Ok tt -> forall s,
  print q = Ok s <-> exists parts, query_parts q parts /\ s = join [10%N] parts.
Proof. exact c19_print. Qed.
Theorem C19_serialize : forall q s, api_query q -> class_typed_query q -> serialize q = Ok s ->
  exists q' parts l l', query_parts q' parts /\ s = join ($" ") parts /\ same_but_where q q'
    /\ filters q l /\ filters q' l' /\ Forall2 optimized_at l l'.
Proof. exact c19_serialize. Qed.

(** ** C20 print() and serialize() describe the same query *)
Theorem C20_same_text : forall q l, api_query q -> class_typed_query q -> filters q l -> Forall (fun c => ~ mergeable c) l ->
  (exists parts, query_parts q parts /\ serialize q = Ok (join ($" ") parts) /\ print q = Ok (join [10%N] parts))
  \/ (exists e, serialize q = Raise e /\ print q = Raise e).
Proof. intros q l A. exact (c20_text q l (api_wf_query q A)). Qed.
Theorem C20_same_failures : forall q, api_query q -> class_typed_query q ->
  (exists s, serialize q = Ok s) <-> (exists s, print q = Ok s).
Proof.
  intros q A T. pose proof (c20_same q (api_wf_query q A) T) as E.
  destruct (serialize q), (print q); cbn in E; try discriminate; split; intros [s H]; eauto; discriminate H.
Qed.

(** ** C21 Serialized SnQL stays on one line.
    As stated (no name ends in a newline) it is false: the key of a column may contain one. Proved when no name
    contains a newline (and Python prints floats on one line). *)
Theorem C21_one_line_partial : forall q s, (forall f, one_line (float_repr f)) -> api_query q -> class_typed_query q ->
  (forall o x, part_of o q -> occurs x o -> names_are one_line x) -> serialize q = Ok s -> one_line s.
Proof. intros q s F A. exact (c21_lemma q s F (api_wf_query q A)). Qed.
Theorem C21_one_line_refuted : exists q s, api_query q /\ class_typed_query q
  /\ (forall o x, part_of o q -> occurs x o -> names_are no_final_newline x)
  /\ serialize q = Ok s /\ ~ one_line s.
Proof.
  set (c := mkColumn ($"a[x" ++ [10%N] ++ $"y]") None (Some ($"a")) (Some ($"x" ++ [10%N] ++ $"y"))).
  exists (QBase (BEntity (mkEntity ($"e") None None None)) (upd CSelect (OList [OColumn c]) no_clauses)).
  exists ($"MATCH (e) SELECT a[x" ++ [10%N] ++ $"y]"). split; [|split; [|split; [|split]]].
  - split; [cbn [obj_of_base]; api_tac|]. intros []; cbn; try apply api_none. api_tac.
  - intros []; cbn; auto. right. eexists. split; constructor; constructor.
  - assert (N : forall s d, last s d <> 10%N -> s <> [] -> no_final_newline s).
    { intros s d L NE s' ->. rewrite last_last in L. elim (L eq_refl). }
    assert (LS : forall o x, part_of o (QBase (BEntity (mkEntity ($"e") None None None)) (upd CSelect (OList [OColumn c]) no_clauses)) ->
       occurs x o -> x = OEntity (mkEntity ($"e") None None None) \/ x = OColumn c \/ x = ONone \/ x = OList [OColumn c]).
    { intros o x P O. inversion P as [b cl E1 E2|b cl k E1 E2| |]; subst.
      - inversion O; subst. auto.
      - destruct k; cbn in O; inversion O as [|? y ? I O'| | | | | | | | | | | | | |]; subst; auto.
        destruct I as [<-|[]]. inversion O' as [| | | | | | | | | | | | | | |? ? ? EE]; subst; auto. discriminate EE. }
    intros o x P O. destruct (LS o x P O) as [->|[->|[->| ->]]]; try exact I.
    + split; [apply (N _ 0%N); discriminate|intros t H; discriminate H].
    + apply (N _ 0%N); discriminate.
  - vm_compute. reflexivity.
  - intros H. apply H. vm_compute. tauto.
Qed.

(** ** C22 Setters change exactly one clause of a new copy *)
Theorem C22_accepts : forall k q v, made q -> (exists q', set_clause k q v = Ok q') <-> exists x, stores k v x.
Proof. exact setter_accepts. Qed.
Theorem C22_refuses : forall k q v e, made q -> set_clause k q v = Raise e -> e = InvalidQueryError \/ e = InvalidExpressionError.
Proof. exact setter_error. Qed.
Theorem C22_frame : forall k q v q', set_clause k q v = Ok q' ->
  stores k v (get k (q_clauses q')) /\ q_match q' = q_match q
  /\ forall k', k' <> k -> get k' (q_clauses q') = get k' (q_clauses q).
Proof. exact setter_frame. Qed.
Theorem C22_last_wins : forall k q v w q1, set_clause k q v = Ok q1 -> set_clause k q1 w = set_clause k q w.
Proof. exact setter_last. Qed.
Theorem C22_commute : forall k k' q v v' q2, k <> k' ->
  (let! q1 := set_clause k q v in set_clause k' q1 v') = Ok q2 <->
  (let! q1 := set_clause k' q v' in set_clause k q1 v) = Ok q2.
Proof. exact setters_commute. Qed.
Theorem C22_history : forall cs q, made q ->
  (forall q', do_calls q cs = Ok q' -> Forall acceptable cs
    /\ (forall k, clause_after k cs (get k (q_clauses q)) (get k (q_clauses q')))
    /\ match_after cs (q_match q) (q_match q'))
  /\ (Forall acceptable cs -> exists q', do_calls q cs = Ok q').
Proof. exact c22_calls. Qed.
Theorem C22_clauses_determine : forall q q', q_match q = q_match q' ->
  (forall k, get k (q_clauses q) = get k (q_clauses q')) -> q = q'.
Proof. exact c22_extensional. Qed.

(** ** C23 Setters only let clause-typed values in *)
Theorem C23_typed : forall q, built q -> typed_query q.
Proof. exact built_typed. Qed.
Theorem C23_failures : forall q e, built q -> api_query q ->
  (validate q = Raise e -> e = InvalidQueryError \/ e = InvalidMatchError \/ e = InvalidColumnError)
  /\ (serialize q = Raise e \/ print q = Raise e ->
      e = InvalidQueryError \/ e = InvalidMatchError \/ e = InvalidColumnError
      \/ exists o x, part_of o q /\ occurs x o /\ hazard e x).
Proof. exact c23_failures. Qed.

(** ** C24 set_match accepts what the constructor accepts.
    False for a Storage, which set_match refuses; proved for everything else. *)
Theorem C24_match_partial : forall q m, (forall s, m <> MObj (OStorage s)) ->
  (exists q', mk_query m (q_clauses q) = Ok q') <-> (exists q', set_match q m = Ok q').
Proof. exact set_match_agrees. Qed.
Theorem C24_same_result : forall q m q', set_match q m = Ok q' -> mk_query m (q_clauses q) = Ok q'.
Proof. exact set_match_same. Qed.
Theorem C24_match_refuted : exists q s q', made q /\ api (OStorage s)
  /\ mk_query (MObj (OStorage s)) (q_clauses q) = Ok q' /\ set_match q (MObj (OStorage s)) = Raise InvalidQueryError.
Proof.
  exists (QBase (BEntity (mkEntity ($"e") None None None)) no_clauses), (mkStorage ($"s") None None). eexists.
  split; [|split; [|split]].
  - apply (made_query (MObj (OEntity (mkEntity ($"e") None None None))) no_clauses). reflexivity.
  - api_tac.
  - reflexivity.
  - reflexivity.
Qed.

End P.

#[local] Existing Instance demoRT.
Definition ent_e : entity := mkEntity ($"events") (Some ($"e")) None None.
Definition ent_t : entity := mkEntity ($"transactions") (Some ($"t")) None None.
Definition col_e : obj := OColumn (mkColumn ($"id") (Some ent_e) None None).
Definition col_t : obj := OColumn (mkColumn ($"duration") (Some ent_t) None None).
Definition sum_t : obj := OFunc true ($"sum") KNone [] KList [col_t] (Some ($"total")).
Definition inner_q : query :=
  QBase (BJoin KList [mkRel ent_e ($"contains") ent_t])
    (upd CGroupby (OList [col_e]) (upd CSelect (OList [col_e; sum_t])
      (upd CWhere (OList [OCond col_t GT (OInt 5)]) no_clauses))).
Definition col_total : obj := OColumn (mkColumn ($"total") None None None).
Definition outer_q : query :=
  QSub inner_q (upd CSelect (OList [col_total]) (upd CLimit (OLimit (PInt 10))
    (upd CWhere (OList [OCond col_total LT (OStr ($"a" ++ [10%N] ++ $"b"))]) no_clauses))).
Example C18_case : api_query outer_q /\ class_typed_query outer_q /\ seq_typed_query outer_q
  /\ print outer_q = Ok ($"MATCH { MATCH (e: events) -[contains]-> (t: transactions) SELECT e.id, sum(t.duration) AS `total` BY e.id WHERE t.duration > 5 }" ++ [10%N]
      ++ $"SELECT total" ++ [10%N] ++ $"WHERE total < 'a\nb'" ++ [10%N] ++ $"LIMIT 10").
Proof.
  assert (T : class_typed_query outer_q).
  { split; intros []; cbn; auto; right; try (eexists; split; [constructor|repeat constructor]); eexists; reflexivity. }
  split; [|split; [exact T|split; [apply class_seq_typed_query, T|vm_compute; reflexivity]]].
  api_query_tac.
Qed.
Example C20_case : exists l, filters outer_q l /\ Forall (fun c => ~ mergeable c) l /\ validate outer_q = Ok tt
  /\ serialize outer_q = Ok ($"MATCH { MATCH (e: events) -[contains]-> (t: transactions) SELECT e.id, sum(t.duration) AS `total` BY e.id WHERE t.duration > 5 } SELECT total WHERE total < 'a\nb' LIMIT 10").
Proof.
  eexists. split; [right; constructor|]. split; [repeat constructor; intros H; inversion H|]. split; vm_compute; reflexivity.
Qed.
Example C21_case : forall o x, part_of o outer_q -> occurs x o -> names_are one_line x.
Proof.
  assert (OL : forall s, forallb (fun c => negb (N.eqb c 10)) s = true -> one_line s).
  { intros s H I. rewrite forallb_forall in H. apply H in I. discriminate. }
  assert (K : forall x o, occurs x o -> In o [ONone; col_e; col_t; sum_t; col_total; OEntity ent_e; OEntity ent_t; OInt 5;
     OStr ($"a" ++ [10%N] ++ $"b"); OLimit (PInt 10);
     OList [col_e]; OList [col_e; sum_t]; OList [OCond col_t GT (OInt 5)]; OCond col_t GT (OInt 5); OList [col_total];
     OList [OCond col_total LT (OStr ($"a" ++ [10%N] ++ $"b"))]; OCond col_total LT (OStr ($"a" ++ [10%N] ++ $"b"));
     ORel (mkRel ent_e ($"contains") ent_t); OJoin KList [mkRel ent_e ($"contains") ent_t]] -> names_are one_line x).
  { intros x o H. induction H as [x| | | | | | | | | | | | | | |]; intros J; cbn [In] in J;
      repeat (destruct J as [J|J]; [try discriminate J; (injection J; intros; subst) || subst|]); try contradiction;
      try (cbn; repeat split; try (apply OL; reflexivity); intros t E; injection E as <-; apply OL; reflexivity);
      try (apply IHoccurs; cbn [In] in *; tauto); try (apply IHoccurs; cbn in H |- *; intuition subst; tauto);
      try (apply IHoccurs; cbn in *; repeat match goal with H : Some _ = Some _ |- _ => injection H as <- end; tauto);
      try discriminate. }
  intros o x P O. eapply K; [exact O|]. inversion P as [| |i c k E|o' i c P']; subst.
  - destruct k; cbn; tauto.
  - inversion P'; subst; [cbn; tauto|]. destruct k; cbn; tauto.
Qed.
Example C22_case : exists q, made q /\ acceptable (CallSet CLimit (OInt 3)) /\ acceptable (CallSet CWhere (OList [OCond col_e EQ (OInt 1)]))
  /\ exists q', do_calls q [CallSet CLimit (OInt 3); CallSet CWhere (OList [OCond col_e EQ (OInt 1)]); CallSet CLimit (OInt 4)] = Ok q'
     /\ get CLimit (q_clauses q') = OLimit (PInt 4).
Proof.
  exists (QBase (BEntity ent_e) no_clauses). split; [apply (made_query (MObj (OEntity ent_e)) no_clauses); reflexivity|].
  split; [econstructor; constructor; lia|]. split; [econstructor; repeat constructor|]. eexists. split; vm_compute; reflexivity.
Qed.
Definition sel_q : query := QBase (BEntity ent_e) (upd CSelect (OList [col_total]) no_clauses).
Example C23_case : built sel_q /\ api_query sel_q /\ validate sel_q = Ok tt
  /\ built (QSub sel_q (upd CSelect (OList [col_e]) no_clauses)) /\ validate (QSub sel_q (upd CSelect (OList [col_e]) no_clauses)) = Raise InvalidMatchError.
Proof.
  assert (B : built sel_q).
  { eapply (built_call _ (CallSet CSelect (OList [col_total]))).
    - apply (built_query (MObj (OEntity ent_e))); [reflexivity|discriminate].
    - reflexivity.
    - discriminate. }
  split; [exact B|]. split; [api_query_tac|]. split; [vm_compute; reflexivity|]. split; [|vm_compute; reflexivity].
  eapply (built_call (QSub sel_q no_clauses) (CallSet CSelect (OList [col_e]))).
  - apply (built_query (MQuery sel_q)); [vm_compute; reflexivity|]. intros i E. injection E as <-. exact B.
  - vm_compute. reflexivity.
  - discriminate.
Qed.
Example C24_case : (forall s, MObj (OJoin KList [mkRel ent_e ($"contains") ent_t]) <> MObj (OStorage s))
  /\ exists q, set_match sel_q (MObj (OJoin KList [mkRel ent_e ($"contains") ent_t])) = Ok q.
Proof. split; [discriminate|]. eexists. reflexivity. Qed.

Print Assumptions C18_joined_expression.
Print Assumptions C18_other_expression.
Print Assumptions C18_column.
Print Assumptions C18_entity.
Print Assumptions C18_query.
Print Assumptions C19_print.
Print Assumptions C19_serialize.
Print Assumptions C20_same_text.
Print Assumptions C20_same_failures.
Print Assumptions C21_one_line_partial.
Print Assumptions C21_one_line_refuted.
Print Assumptions C22_accepts.
Print Assumptions C22_refuses.
Print Assumptions C22_frame.
Print Assumptions C22_last_wins.
Print Assumptions C22_commute.
Print Assumptions C22_history.
Print Assumptions C22_clauses_determine.
Print Assumptions C23_typed.
Print Assumptions C23_failures.
Print Assumptions C24_match_partial.
Print Assumptions C24_same_result.
Print Assumptions C24_match_refuted.
