(** C25-C36: validation of queries, set order, required columns, optimizer.
    Only theorem statements; the proofs are in ValidateProps.v, OptFacts.v, QueryProps.v. *)
From Verif Require Import PyBase Objects Exprs Translate Finder Optimizer Query SpecExpr SpecOccurs SpecQuery SpecLogic SpecSetters SpecRefs SpecOrder
  SpecHazard WfFacts PrintProps SetterProps ValidateProps OptFacts QueryProps ApiTac Concrete.

Section P.
Context {RT : PyRT}.

(** ** C25 A validated join query qualifies every column with a joined entity *)
Theorem C25_join : forall k rels cl c, validate (QBase (BJoin k rels) cl) = Ok tt -> query_refers (QBase (BJoin k rels) cl) c ->
  exists e a, c_entity c = Some e /\ e_alias e = Some a /\ joined rels a (e_name e).
Proof. exact c25_lemma. Qed.

(** ** C26 A validated outer query references only what its subquery selects.
    The last sentence of the property (aliased expressions can be referenced) is false. *)
Theorem C26_subquery_partial : forall inner cl c, validate (QSub inner cl) = Ok tt -> query_refers (QSub inner cl) c ->
  offered inner (c_name c).
Proof. exact c26_lemma. Qed.
Theorem C26_every_depth_partial : forall q inner cl c, inside (QSub inner cl) q -> validate q = Ok tt ->
  query_refers (QSub inner cl) c -> offered inner (c_name c).
Proof. intros q inner cl c I V. apply c26_lemma. exact (inside_valid _ _ I V). Qed.
Theorem C26_aliased_refuted : exists inner n c, api_query inner /\ class_typed_query inner /\ validate inner = Ok tt
  /\ get CSelect (q_clauses inner) = OList [OAliased c (Some n)]
  /\ forall cl, class_typed cl -> api_clauses cl -> get CSelect cl = OList [OColumn (mkColumn n None None None)] ->
     validate (QSub inner cl) <> Ok tt.
Proof.
  set (c := mkColumn ($"a") None None None).
  exists (QBase (BEntity (mkEntity ($"e") None None None)) (upd CSelect (OList [OAliased c (Some ($"x"))]) no_clauses)), ($"x"), c.
  split; [split; [cbn [obj_of_base]; api_tac|intros []; cbn; api_tac]|]. split.
  { intros []; cbn; auto. right. eexists. split; constructor; constructor. }
  split; [vm_compute; reflexivity|]. split; [reflexivity|]. intros cl _ _ E V.
  assert (O : offered (QBase (BEntity (mkEntity ($"e") None None None)) (upd CSelect (OList [OAliased c (Some ($"x"))]) no_clauses)) ($"x")).
  { apply (c26_lemma _ cl (mkColumn ($"x") None None None) V). exists CSelect, (OColumn (mkColumn ($"x") None None None)). split; [|constructor].
    cbn [clause_item snql_separator q_clauses]. rewrite E. eexists. split; [constructor|left; reflexivity]. }
  destruct O as (l & y & L & I & H). cbn in L. inversion L; subst. destruct I as [<-|[]].
  destruct H as [(c' & H & _)|(f & m & ik & il & pk & pl & H)]; discriminate.
Qed.

(** ** C27 A validated query references only columns of its data model *)
Theorem C27_entity : forall e d cl c, api_query (QBase (BEntity e) cl) -> validate (QBase (BEntity e) cl) = Ok tt ->
  e_dm e = Some d -> query_refers (QBase (BEntity e) cl) c -> has_column d c.
Proof.
  intros e d cl c A V D R. refine (c27_lemma _ c (Some d) (api_wf_query _ A) _ _ _ _ V R d eq_refl); cbn; try discriminate.
  intros e' E. congruence.
Qed.
Theorem C27_storage : forall s d cl c, api_query (QBase (BStorage s) cl) -> validate (QBase (BStorage s) cl) = Ok tt ->
  st_dm s = Some d -> query_refers (QBase (BStorage s) cl) c -> has_column d c.
Proof.
  intros e d cl c A V D R. refine (c27_lemma _ c (Some d) (api_wf_query _ A) _ _ _ _ V R d eq_refl); cbn; try discriminate.
  intros e' E. congruence.
Qed.
Theorem C27_no_model : forall e cl, api_query (QBase (BEntity e) cl) -> class_typed cl -> e_dm e = None ->
  (forall c e', query_refers (QBase (BEntity e) cl) c -> c_entity c = Some e' -> e_dm e' = None) ->
  validate (QBase (BEntity e) cl) = Ok tt <-> select_rule cl /\ totals_rule cl.
Proof.
  intros e cl A T D N. destruct (c28_lemma _ (api_wf_query _ A) T) as [-> _]. cbn [valid_query own_models_query q_clauses]. split.
  - intros [(_ & S & G & _) _]. auto.
  - intros [S G]. split.
    + split; [exact I|]. split; [exact S|]. split; [exact G|]. intros c _ d E. congruence.
    + intros k x e' d' CI E1 E2. rewrite (N x e') in E2; [discriminate| |exact E1]. exists k, (OColumn x). split; [exact CI|constructor].
Qed.
Theorem C27_no_model_storage : forall e cl, api_query (QBase (BStorage e) cl) -> class_typed cl -> st_dm e = None ->
  (forall c e', query_refers (QBase (BStorage e) cl) c -> c_entity c = Some e' -> e_dm e' = None) ->
  validate (QBase (BStorage e) cl) = Ok tt <-> select_rule cl /\ totals_rule cl.
Proof.
  intros e cl A T D N. destruct (c28_lemma _ (api_wf_query _ A) T) as [-> _]. cbn [valid_query own_models_query q_clauses]. split.
  - intros [(_ & S & G & _) _]. auto.
  - intros [S G]. split.
    + split; [exact I|]. split; [exact S|]. split; [exact G|]. intros c _ d E. congruence.
    + intros k x e' d' CI E1 E2. rewrite (N x e') in E2; [discriminate| |exact E1]. exists k, (OColumn x). split; [exact CI|constructor].
Qed.

(** ** C28 Query.validate accepts exactly the valid queries.
    False because of subscripted columns whose own entity has a data model; with the exact condition on those: *)
Theorem C28_validate_partial : forall q, api_query q -> class_typed_query q ->
  (validate q = Ok tt <-> valid_query q /\ own_models_query q)
  /\ forall e, validate q = Raise e -> e = InvalidQueryError \/ e = InvalidMatchError \/ e = InvalidColumnError.
Proof. intros q A. exact (c28_lemma q (api_wf_query q A)). Qed.
Theorem C28_validate_refuted : exists q, api_query q /\ class_typed_query q /\ valid_query q /\ validate q = Raise InvalidColumnError.
Proof.
  set (d := mkDM [mkSC ($"tags[k]") false] (mkSC ($"ts") false)).
  set (c := mkColumn ($"tags[k]") (Some (mkEntity ($"e") (Some ($"a")) None (Some d))) (Some ($"tags")) (Some ($"k"))).
  exists (QBase (BEntity (mkEntity ($"e") None None None)) (upd CSelect (OList [OColumn c]) no_clauses)).
  split; [split; [cbn [obj_of_base]; api_tac|intros []; cbn; api_tac]|]. split.
  { intros []; cbn; auto. right. eexists. split; constructor; constructor. }
  split; [|vm_compute; reflexivity]. cbn. split; [exact I|]. split; [eexists _, _; constructor|]. split; [discriminate|].
  intros c' _ d' E. discriminate.
Qed.

(** ** C29 Columns inside arrays and tuples are validated too.
    False: they are not. What holds is the rule for columns outside arrays and tuples. *)
Theorem C29_every_column_refuted : exists q c s, api_query q /\ class_typed_query q /\ validate q = Ok tt
  /\ query_mentions q c /\ ~ match_rule q c /\ serialize q = Ok s
  /\ exists before after, s = before ++ c_name c ++ after.
Proof.
  set (e1 := mkEntity ($"e") (Some ($"a")) None None). set (e2 := mkEntity ($"f") (Some ($"b")) None None).
  set (c1 := mkColumn ($"x") (Some e1) None None). set (c2 := mkColumn ($"secret") None None None).
  exists (QBase (BJoin KList [mkRel e1 ($"r") e2])
    (upd CWhere (OList [OCond (OColumn c1) IN (OList [OColumn c2])]) (upd CSelect (OList [OColumn c1]) no_clauses))), c2.
  eexists. split; [split; [cbn [obj_of_base]; api_tac|intros []; cbn; api_tac]|]. split.
  { intros []; cbn; auto; right; eexists; split; constructor; constructor. }
  split; [vm_compute; reflexivity|]. split.
  { exists CWhere. eexists. split; [eexists; split; [constructor|left; reflexivity]|].
    eapply mn_rhs; try discriminate. eapply mn_list; [left; reflexivity|]. apply mn_refers. constructor. }
  split; [intros (e & a & H & _); discriminate|]. split; [vm_compute; reflexivity|].
  exists ($"MATCH (a: e) -[r]-> (b: f) SELECT a.x WHERE a.x IN array("), ($")"). reflexivity.
Qed.
Theorem C29_outside_arrays_partial : forall q c, api_query q -> class_typed_query q -> validate q = Ok tt ->
  query_refers q c -> match_rule q c.
Proof.
  intros q c A T V R. apply (c28_lemma q (api_wf_query q A) T) in V as [V _]. destruct q; apply V, R.
Qed.

(** ** C30 Validation does not depend on set iteration order *)
Theorem C30_join : forall order rels, reorders order -> join_in_order order rels = mk_join rels.
Proof. exact mk_join_order. Qed.
Theorem C30_validate : forall columns_order aliases_order q, reorders columns_order -> reorders aliases_order -> api_query q ->
  validate_in_order columns_order aliases_order q = validate q.
Proof. intros oc om q H1 H2 A. exact (validate_order oc om q H1 H2 (api_wf_query q A)). Qed.
Theorem C30_required : forall entities_order required_order q, reorders entities_order -> reorders required_order -> seq_typed_query q ->
  required_in_order entities_order required_order q = validate_required_columns q.
Proof. exact required_order_lemma. Qed.

(** ** C31 Required-column checking is exact *)
Theorem C31_required : forall q, seq_typed_query q ->
  (validate_required_columns q = Ok tt <-> query_required_ok q)
  /\ forall e, validate_required_columns q = Raise e -> e = RequiredColumnError.
Proof. exact c31_lemma. Qed.

(** ** C32 Flattening And preserves meaning *)
Theorem C32_flatten : forall l, leaves_all l (get_first_level_and_conditions l)
  /\ Forall (fun x => ~ is_and x) (get_first_level_and_conditions l)
  /\ forall v, forallb (holds v) l = forallb v (get_first_level_and_conditions l).
Proof. exact c32_lemma. Qed.
Theorem C32_leaves_unique : forall cs l, leaves_all cs l -> forall l', leaves_all cs l' -> l = l'.
Proof. exact (proj2 leaves_det). Qed.
Theorem C32_three_valued : forall I l, Forall (fun c => forall x o k cs, occurs x c -> x = OBoolC BAnd o k cs -> o = AND) l ->
  group_truth I (get_first_level_and_conditions l) = group_truth I l.
Proof. intros I l H. apply c32_truth. eapply Forall_impl; [|exact H]. intros c K x O. intros. eapply K; eassumption. Qed.

(** ** C33 A validated API-built query always serializes *)
Theorem C33_serialize : forall q, api_query q -> class_typed_query q -> validate q = Ok tt ->
  (exists s, serialize q = Ok s) \/ (exists e o x, serialize q = Raise e /\ part_of o q /\ occurs x o /\ hazard e x).
Proof.
  intros q A T V. destruct (c33_serialize q (api_wf_query q A) T V) as [H|(e & E & o & x & H)]; [left; exact H|right].
  exists e, o, x. tauto.
Qed.
Theorem C33_print : forall q, api_query q -> class_typed_query q -> validate q = Ok tt ->
  (exists s, print q = Ok s) \/ (exists e o x, print q = Raise e /\ part_of o q /\ occurs x o /\ hazard e x).
Proof.
  intros q A T V. destruct (c33_print q (api_wf_query q A) T V) as [H|(e & E & o & x & H)]; [left; exact H|right].
  exists e, o, x. tauto.
Qed.

(** ** C34 The OR optimizer preserves the meaning of the filters.
    False for interpretations that distinguish expressions equal in Python. *)
Theorem C34_python_equality_partial : forall I l l', in_is_any I -> sees_python_equality I -> optimize l = Ok (Some l') ->
  group_truth I l' = group_truth I l.
Proof. exact c34_general. Qed.
Theorem C34_exact_partial : forall I l l', in_is_any I -> sees_text I -> Forall api l -> Forall merges_exactly l ->
  optimize l = Ok (Some l') -> group_truth I l' = group_truth I l.
Proof. intros I l l' H1 H2 A. apply c34_text; try assumption. eapply Forall_impl; [|exact A]. intros c. apply api_wf. Qed.
Definition c34_func (x : obj) : obj := OFunc true ($"fn") KNone [] KList [x] None.
Definition c34_or : obj :=
  OBoolC BOr OR KList [OCond (c34_func (OInt 1)) EQ (OInt 5); OCond (c34_func (OBool true)) EQ (OInt 6)].
Definition c34_in : obj := OCond (c34_func (OInt 1)) IN (OList [OInt 5; OInt 6]).
Theorem C34_optimizer_refuted : exists I l l', in_is_any I /\ sees_text I /\ Forall api l /\ optimize l = Ok (Some l')
  /\ group_truth I l' = TFalse /\ group_truth I l = TTrue.
Proof.
  exists lookup_row, [c34_or], [c34_in]. split; [exact lookup_row_in|]. split; [exact lookup_row_text|].
  split; [constructor; [unfold c34_or, c34_func; api_tac|constructor]|]. split; [vm_compute; reflexivity|]. split; vm_compute; reflexivity.
Qed.

(** ** C35 The OR optimizer is idempotent and changes nothing else *)
Theorem C35_never_raises : forall l, Forall api l -> exists r, optimize l = Ok r.
Proof. intros l A. apply optimize_total. eapply Forall_impl; [|exact A]. intros c. apply api_wf. Qed.
Theorem C35_none : forall l, optimize l = Ok None <-> Forall (fun c => ~ mergeable c) l.
Proof. intros l. split; [apply optimize_None|apply optimize_not_mergeable]. Qed.
Theorem C35_changes : forall l l', optimize l = Ok (Some l') -> Exists mergeable l /\ Forall2 optimized_at l l'.
Proof. exact optimize_Some. Qed.
Theorem C35_idempotent : forall l l', optimize l = Ok (Some l') -> optimize l' = Ok None.
Proof. exact optimize_idempotent. Qed.

(** ** C36 serialize() only rewrites WHERE, to an equivalent filter *)
Theorem C36_serialize_partial : forall q s, api_query q -> class_typed_query q -> serialize q = Ok s ->
  exists q' parts l l', same_but_where q q' /\ query_parts q' parts /\ s = join ($" ") parts
    /\ filters q l /\ filters q' l' /\ Forall2 optimized_at l l'
    /\ (forall I, in_is_any I -> sees_python_equality I -> group_truth I l' = group_truth I l)
    /\ (Forall merges_exactly l -> forall I, in_is_any I -> sees_text I -> group_truth I l' = group_truth I l).
Proof. intros q s A. exact (c36_lemma q s (api_wf_query q A)). Qed.
Theorem C36_serialize_refuted : exists q q' s parts l l' I, api_query q /\ class_typed_query q /\ serialize q = Ok s
  /\ same_but_where q q' /\ query_parts q' parts /\ s = join ($" ") parts /\ filters q l /\ filters q' l'
  /\ in_is_any I /\ sees_text I /\ group_truth I l' = TFalse /\ group_truth I l = TTrue.
Proof.
  set (b := BEntity (mkEntity ($"e") None None None)).
  set (cl := upd CSelect (OList [OColumn (mkColumn ($"a") None None None)]) no_clauses).
  set (q := QBase b (upd CWhere (OList [c34_or]) cl)). set (q' := QBase b (upd CWhere (OList [c34_in]) cl)).
  assert (A : api_query q).
  { split; [cbn [obj_of_base b]; api_tac|]. intros []; cbn; try apply api_none; unfold c34_or, c34_func; api_tac. }
  assert (T : class_typed_query q).
  { intros []; cbn; auto; right; eexists; split; constructor; constructor. }
  assert (A' : api_query q').
  { split; [cbn [obj_of_base b]; api_tac|]. intros []; cbn; try apply api_none; unfold c34_in, c34_func; api_tac. }
  assert (T' : class_typed_query q').
  { intros []; cbn; auto; right; eexists; split; constructor; constructor. }
  assert (S : serialize q = Ok ($"MATCH (e) SELECT a WHERE fn(1) IN array(5, 6)")) by (vm_compute; reflexivity).
  assert (PR : print_query ($" ") q' = Ok ($"MATCH (e) SELECT a WHERE fn(1) IN array(5, 6)")) by (vm_compute; reflexivity).
  apply print_query_parts in PR as (parts & P & E); [|apply api_wf_query, A'|apply class_seq_typed_query, T'].
  exists q, q'. eexists. exists parts, [c34_or], [c34_in], lookup_row.
  split; [exact A|]. split; [exact T|]. split; [exact S|].
  split. { split; [reflexivity|]. intros [] N; try reflexivity. elim N. reflexivity. }
  split; [exact P|]. split; [exact E|]. split; [right; constructor|]. split; [right; constructor|].
  split; [exact lookup_row_in|]. split; [exact lookup_row_text|]. split; vm_compute; reflexivity.
Qed.

End P.

#[local] Existing Instance demoRT.
Definition v_dm : data_model := mkDM [mkSC ($"org_id") true; mkSC ($"tags") false; mkSC ($"ts") false] (mkSC ($"ts") false).
Definition v_e : entity := mkEntity ($"events") (Some ($"e")) None (Some v_dm).
Definition v_t : entity := mkEntity ($"transactions") (Some ($"t")) None None.
Definition v_col (e : option entity) (n : str) : obj := OColumn (mkColumn n e None None).
Definition v_join : query :=
  QBase (BJoin KList [mkRel v_e ($"contains") v_t])
    (upd CSelect (OList [v_col (Some v_e) ($"org_id"); OFunc true ($"fn") KNone [] KList [v_col (Some v_t) ($"x")] (Some ($"fx"))])
      (upd CWhere (OList [OBoolC BAnd AND KList [OCond (v_col (Some v_e) ($"org_id")) EQ (OInt 1); OCond (v_col (Some v_e) ($"ts")) GTE (OInt 1)];
                          OCond (v_col (Some v_e) ($"ts")) LT (OInt 5)]) no_clauses)).
Definition v_sub : query := QSub v_join (upd CSelect (OList [v_col None ($"fx")])
  (upd CWhere (OList [OBoolC BOr OR KList [OCond (v_col None ($"org_id")) EQ (OInt 1); OCond (v_col None ($"org_id")) EQ (OInt 2)]]) no_clauses)).
Lemma v_sub_typed : class_typed_query v_sub.
Proof. split; intros []; cbn; auto; right; eexists; split; repeat constructor. Qed.
Example C25_case : validate v_join = Ok tt /\ query_refers v_join (mkColumn ($"x") (Some v_t) None None).
Proof.
  split; [vm_compute; reflexivity|]. exists CSelect. eexists. split; [eexists; split; [constructor|right; left; reflexivity]|].
  eapply rf_param; [left; reflexivity|constructor].
Qed.
Example C26_case : validate v_sub = Ok tt /\ query_refers v_sub (mkColumn ($"org_id") None None None).
Proof.
  split; [vm_compute; reflexivity|]. exists CWhere. eexists. split; [eexists; split; [constructor|left; reflexivity]|].
  eapply rf_cond; [left; reflexivity|]. apply rf_lhs. constructor.
Qed.
Definition v_ent : query := QBase (BEntity v_e) (upd CSelect (OList [OColumn (mkColumn ($"tags[k]") None (Some ($"tags")) (Some ($"k")))]) no_clauses).
Example C27_case : api_query v_ent /\ validate v_ent = Ok tt /\ e_dm v_e = Some v_dm
  /\ query_refers v_ent (mkColumn ($"tags[k]") None (Some ($"tags")) (Some ($"k"))).
Proof.
  split; [api_query_tac|]. split; [vm_compute; reflexivity|]. split; [reflexivity|].
  exists CSelect. eexists. split; [eexists; split; [constructor|left; reflexivity]|constructor].
Qed.
Example C28_case : api_query v_sub /\ class_typed_query v_sub /\ validate v_sub = Ok tt.
Proof. split; [api_query_tac|]. split; [exact v_sub_typed|vm_compute; reflexivity]. Qed.
Example C30_case : reorders (@rev (str * str)) /\ reorders (fun l : list obj => l ++ l)
  /\ validate_in_order (fun l => l ++ l) (@rev _) v_sub = Ok tt.
Proof.
  split; [intros l x; symmetry; apply in_rev|]. split; [intros l x; rewrite in_app_iff; tauto|vm_compute; reflexivity].
Qed.
Example C31_case : seq_typed_query v_sub /\ validate_required_columns v_sub = Ok tt
  /\ validate_required_columns (QBase (BEntity v_e) (upd CWhere (OList [OCond (v_col None ($"ts")) GTE (OInt 1)]) no_clauses)) = Raise RequiredColumnError.
Proof. split; [apply class_seq_typed_query, v_sub_typed|]. split; vm_compute; reflexivity. Qed.
Example C33_case : exists s, serialize v_sub = Ok s.
Proof. eexists. vm_compute. reflexivity. Qed.
Example C34_case : exists l l', Forall api l /\ Forall merges_exactly l /\ optimize l = Ok (Some l')
  /\ l' = [OCond (v_col None ($"a")) IN (OList [OInt 1; OInt 2])].
Proof.
  exists [OBoolC BOr OR KList [OCond (v_col None ($"a")) EQ (OInt 1); OCond (v_col None ($"a")) EQ (OInt 2)]]. eexists.
  split; [constructor; [api_tac|constructor]|]. split; [|split; vm_compute; reflexivity].
  constructor; [|constructor]. apply exact_merges. repeat constructor.
Qed.
(** booleans, floats and aliases are no obstacle unless two different left-hand sides are equal *)
Example C34_same_case : merges_exactly (OBoolC BOr OR KList [OCond (c34_func (OBool true)) EQ (OInt 5); OCond (c34_func (OBool true)) EQ (OInt 6)])
  /\ merges_exactly (OBoolC BOr OR KList [OCond (c34_func (OBool true)) EQ (OInt 5); OCond (c34_func (OInt 2)) EQ (OInt 6)])
  /\ ~ merges_exactly c34_or.
Proof.
  split; [|split].
  - intros cls k l a r b s E A B _. injection E as _ _ <-. left. cbn in A, B. intuition congruence.
  - intros cls k l a r b s E A B P. injection E as _ _ <-. left. cbn in A, B.
    destruct A as [A|[A|[]]], B as [B|[B|[]]]; injection A as <- _; injection B as <- _; try reflexivity; vm_compute in P; discriminate P.
  - intros M. destruct (M _ _ _ _ _ _ _ eq_refl (or_introl eq_refl) (or_intror (or_introl eq_refl))) as [E|(_ & X)]; [vm_compute; reflexivity|discriminate E|].
    inversion X as [| | | | | | | | | | | |? ? ? ? ? ? _ F]; subst. inversion F as [|? ? G _]; subst. inversion G.
Qed.

Print Assumptions C25_join.
Print Assumptions C26_subquery_partial.
Print Assumptions C26_every_depth_partial.
Print Assumptions C26_aliased_refuted.
Print Assumptions C27_entity.
Print Assumptions C27_storage.
Print Assumptions C27_no_model.
Print Assumptions C27_no_model_storage.
Print Assumptions C28_validate_partial.
Print Assumptions C28_validate_refuted.
Print Assumptions C29_every_column_refuted.
Print Assumptions C29_outside_arrays_partial.
Print Assumptions C30_join.
Print Assumptions C30_validate.
Print Assumptions C30_required.
Print Assumptions C31_required.
Print Assumptions C32_flatten.
Print Assumptions C32_leaves_unique.
Print Assumptions C32_three_valued.
Print Assumptions C33_serialize.
Print Assumptions C33_print.
Print Assumptions C34_python_equality_partial.
Print Assumptions C34_exact_partial.
Print Assumptions C34_optimizer_refuted.
Print Assumptions C35_never_raises.
Print Assumptions C35_none.
Print Assumptions C35_changes.
Print Assumptions C35_idempotent.
Print Assumptions C36_serialize_partial.
Print Assumptions C36_serialize_refuted.
