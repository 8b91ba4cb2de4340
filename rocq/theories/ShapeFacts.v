(** Facts for C81: which exceptions json_to_snql raises for bodies of the expected shape. *)
From Verif Require Import PyBase PyFacts DateTime Objects Exprs SpecExpr Query SpecSetters SetterProps SpecMetricsQuery Request Strptime Legacy SpecLegacy LegacyFacts
  LegacyProps SpecBody BodyFacts SpecErrors ErrorFacts SpecShape.
From Verif Require ExprProps.

Section Facts.
Context {RT : PyRT} {CV : PyConv}.
Scheme exp_shape_ind' := Minimality for exp_shape Sort Prop
  with exps_shape_ind' := Minimality for exps_shape Sort Prop.

Definition doc {A} (r : result A) : Prop := raises_only documented r.
Lemma doc_column n : doc (mk_column n ONone).
Proof. eapply ro_sub; [apply ro_column|cbn; tauto]. Qed.
Lemma doc_function f p a : doc (mk_function f p a).
Proof. eapply ro_sub; [apply ro_func|cbn; tauto]. Qed.
Lemma doc_condition l o r : doc (mk_condition l o r).
Proof. eapply ro_sub; [apply ro_condition|cbn; tauto]. Qed.
Lemma doc_or l : doc (mk_or l).
Proof. eapply ro_sub; [apply ro_boolean|cbn; tauto]. Qed.
Lemma doc_orderby e d : doc (mk_orderby e d).
Proof. eapply ro_sub; [apply ro_orderby|cbn; tauto]. Qed.
Lemma doc_limitby e d : doc (mk_limitby e d).
Proof. eapply ro_sub; [apply ro_limitby|cbn; tauto]. Qed.
Lemma doc_set c q v : doc (set_clause c q v).
Proof. eapply ro_sub; [apply ro_set|cbn; tauto]. Qed.
Lemma doc_query m c : doc (mk_query m c).
Proof. eapply ro_sub; [apply ro_query|cbn; tauto]. Qed.
Lemma doc_bind {A B} (r : result A) (f : A -> result B) : doc r -> (forall a, r = Ok a -> doc (f a)) -> doc (bind r f).
Proof. apply ro_bind. Qed.
Lemma doc_ok {A} (a : A) : doc (Ok a). Proof. apply ro_ok. Qed.
Lemma doc_raise {A B} (x : exn) : doc (Raise x : result A) -> doc (Raise x : result B).
Proof. intros H y E. injection E as <-. apply H. reflexivity. Qed.
Lemma doc_mapM {A B} (f : A -> result B) l : Forall (fun x => doc (f x)) l -> doc (mapM f l).
Proof.
  induction 1 as [|x l H _ IH]; [apply doc_ok|]. cbn [mapM]. apply doc_bind; [exact H|]. intros y _.
  apply doc_bind; [exact IH|]. intros. apply doc_ok.
Qed.

Lemma doc_alias r : alias_shape r -> doc (legacy_alias r).
Proof.
  intros H. destruct r as [|a r]; [apply doc_ok|]. cbn [legacy_alias]. destruct (truthy a) eqn:T; [|apply doc_ok].
  destruct (H a r eq_refl) as [(s & ->)|F]; [apply doc_ok|congruence].
Qed.
Lemma doc_string s : doc (parse_string_exp s).
Proof. unfold parse_string_exp. destruct s; [apply doc_ok|]. destruct (_ && _); [apply doc_ok|apply doc_column]. Qed.
Lemma parse_other v : (forall s, v <> OStr s) -> (forall l, v <> OList l) -> parse_exp v = Ok (parse_scalar false v).
Proof. intros A B. destruct v; try reflexivity; [now elim (A s)|now elim (B l)]. Qed.
Lemma doc_rest lhs b c : operator b -> (null_test b \/ exists x, c = Ok x) -> doc (condition_rest lhs b c).
Proof.
  intros (o & O) C. unfold condition_rest. apply doc_bind.
  - destruct (is_null_test b) eqn:N; [apply doc_ok|]. destruct C as [C|(x & ->)]; [|apply doc_ok].
    apply null_test_iff in C. congruence.
  - intros r _. apply op_of_iff in O. rewrite O. apply doc_ok.
Qed.
Lemma doc_exp v : exp_shape v -> doc (parse_exp v).
Proof.
  revert v. apply (exp_shape_ind' RT (fun v => doc (parse_exp v)) (fun l => doc (mapM parse_exp l))).
  - intros s. apply doc_string.
  - intros v A B. rewrite (parse_other v A B). apply doc_ok.
  - intros a b c T _ IH (o & O & NO). cbn [parse_exp]. apply is_condition_yes in T. rewrite T. cbn [bind].
    apply doc_bind; [exact IH|]. intros lhs _. apply doc_bind; [apply doc_rest; [exists o; exact O|right; eexists; reflexivity]|].
    intros (o' & rhs) R. unfold condition_function. cbn [fst snd].
    assert (o' = o) as ->.
    { apply (condition_rest_iff lhs (OList [a; b; c])) in R as (O' & _). destruct O as [->| ->], O' as [O'|O']; try discriminate O'; injection O' as O'.
      - symmetry. now apply op_value_inj.
      - symmetry. exact O'. }
    destruct o; try congruence; apply doc_function.
  - intros n args r T _ IH A. cbn [parse_exp]. apply not_triple in T. rewrite T. cbn [bind]. apply doc_bind; [apply doc_alias, A|].
    intros al _. destruct (endswith ($"()") n && _); [apply doc_function|]. destruct (_ && _); [apply doc_function|].
    apply doc_bind; [|intros; apply doc_function]. apply doc_bind; [|intros; apply doc_ok].
    match goal with |- doc (?f args) => change (doc (f args)) end. rewrite exps_mapM. exact IH.
  - intros n b r T NL A. cbn [parse_exp]. apply not_triple in T. rewrite T. cbn [bind]. apply doc_bind; [apply doc_alias, A|].
    intros al _. destruct (endswith ($"()") n && _); [apply doc_function|]. destruct (_ && _); [apply doc_function|].
    apply doc_bind; [|intros; apply doc_function].
    assert (doc (parse_exp b)) as B.
    { destruct b; try (apply doc_ok); [apply doc_string|now elim (NL l)]. }
    destruct b; try (destruct (truthy _); [apply doc_bind; [exact B|intros; apply doc_ok]|apply doc_ok]). now elim (NL l).
  - apply doc_ok.
  - intros x l _ IH _ IHl. cbn [mapM]. apply doc_bind; [exact IH|]. intros y _. apply doc_bind; [exact IHl|]. intros. apply doc_ok.
Qed.
Lemma doc_cond t : cond_shape t -> doc (parse_condition t).
Proof.
  intros (a & b & r & S & E & O & R). unfold parse_condition.
  assert (index t 0 = Ok a) as -> by (apply index_iff; [lia|]; exists (a :: b :: r); auto).
  assert (index t 1 = Ok b) as I1 by (apply index_iff; [lia|]; exists (a :: b :: r); auto).
  cbn [bind]. apply doc_bind; [apply doc_exp, E|]. intros lhs _. rewrite I1. cbn [bind]. apply doc_bind.
  - apply doc_rest; [exact O|]. destruct R as [R|R]; [right|left; exact R]. destruct r as [|c r]; [congruence|]. exists c.
    apply index_iff; [lia|]. exists (a :: b :: c :: r). auto.
  - intros. apply doc_condition.
Qed.
Lemma doc_where t : item_shape t -> doc (convert_where t).
Proof.
  intros [T C|l T S F]; unfold convert_where.
  - apply is_condition_yes in T. rewrite T. cbn [bind]. apply doc_bind; [apply doc_cond, C|]. intros. apply doc_ok.
  - rewrite (not_triple_seq _ _ S T). cbn [bind]. rewrite (proj2 (iter_iff t l)) by (constructor; exact S). cbn [bind].
    apply doc_bind; [apply doc_mapM; eapply Forall_impl; [|exact F]; apply doc_cond|].
    intros cs _. destruct cs as [|? [|? ?]]; try apply doc_ok. apply doc_bind; [apply doc_or|]. intros. apply doc_ok.
Qed.
Lemma doc_having t : item_shape t -> doc (convert_having t).
Proof.
  intros [T C|l T S F]; unfold convert_having.
  - apply is_condition_yes in T. rewrite T. cbn [bind]. apply doc_cond, C.
  - rewrite (not_triple_seq _ _ S T). cbn [bind]. rewrite (proj2 (iter_iff t l)) by (constructor; exact S). cbn [bind].
    apply doc_bind; [apply doc_mapM; eapply Forall_impl; [|exact F]; apply doc_cond|]. intros. apply doc_or.
Qed.
Lemma doc_row v : row_shape v -> doc (parse_exp (tuple_to_list v)).
Proof. destruct v; cbn [row_shape tuple_to_list]; apply doc_exp. Qed.
Lemma doc_listed ks vs k (shape : obj -> Prop) {B} (f : obj -> result B) : all_items (ODict ks vs) k shape ->
  (forall x, shape x -> doc (f x)) ->
  doc (let! l := iter (body_get (ODict ks vs) k (OList [])) in mapM f l).
Proof.
  intros H K. pose proof (proj1 (body_get_iff ks vs k (OList []) _) eq_refl) as [E|(_ & ->)]; [|apply doc_ok].
  destruct (H _ E) as (l & I & F). apply iter_iff in I. rewrite I. cbn [bind]. apply doc_mapM. eapply Forall_impl; [|exact F]. exact K.
Qed.
Lemma doc_time ks vs col k o : date_shape (ODict ks vs) k -> doc (time_bound (ODict ks vs) col k o).
Proof.
  intros H. unfold time_bound. cbv zeta. destruct (truthy (body_get (ODict ks vs) k ONone)) eqn:T; [|apply doc_ok].
  apply given_iff in T as G. remember (body_get (ODict ks vs) k ONone) as v eqn:Ev. clear Ev.
  apply doc_bind; [apply doc_column|]. intros c _. destruct (H v G) as (s & t & -> & E). cbn [date_value]. rewrite E. cbn [bind].
  apply doc_bind; [apply doc_condition|]. intros. apply doc_ok.
Qed.
Lemma doc_extension body k col b : doc (extension body k col b).
Proof.
  unfold extension, parse_extension. cbv zeta. destruct (truthy _); [|apply doc_ok]. apply doc_bind; [|intros; apply doc_ok].
  apply doc_bind; [apply doc_column|]. intros c _.
  destruct (body_get body k ONone); try apply doc_ok; try (apply doc_bind; [apply doc_condition|intros; apply doc_ok]);
    destruct b; apply doc_bind; try apply doc_condition; intros; apply doc_ok.
Qed.
Lemma doc_order o p : order_shape o -> doc (snd (orderby_item o p)).
Proof.
  intros H. destruct H as [s|l N M E|s s' r M E].
  - cbn [orderby_item]. destruct (startswith _ s); apply doc_string.
  - destruct l as [|x l]; [congruence|]. cbn [orderby_item]. destruct x; try (cbn [snd]; apply doc_exp, E).
    assert (startswith ($"-") s = false) as -> by (apply no_minus_iff, (M s l eq_refl)). apply doc_exp, E.
  - apply minus_signs_iff in M as (M & ->). cbn [orderby_item]. rewrite M. apply doc_exp, E.
Qed.
Lemma doc_orders l : forall p, Forall order_shape l -> doc (snd (convert_orderby l p)).
Proof.
  induction l as [|o l IH]; intros p H; [apply doc_ok|]. inversion H; subst. cbn [convert_orderby].
  pose proof (doc_order o p H2) as D. destruct (orderby_item o p) as ((o' & d) & [e|x]); [|exact (doc_raise x D)].
  pose proof (doc_orderby e (ODir d)) as D2. destruct (mk_orderby e (ODir d)) as [ob|x]; [|exact (doc_raise x D2)].
  pose proof (IH (Some e) H3) as D3. destruct (convert_orderby l (Some e)) as (rest & rs). cbn [snd] in *.
  apply doc_bind; [exact D3|]. intros. apply doc_ok.
Qed.

Lemma doc_extra b k c q : doc (set_extra b k c q).
Proof. unfold set_extra. cbv zeta. destruct (is_none _); [apply doc_ok|apply doc_set]. Qed.

(** ** The whole *)
Lemma shaped_errors body entity : body_shape body ->
  raises_only (InvalidEntityError :: documented) (snd (json_to_snql body entity))
  /\ (entity_fine body entity -> doc (snd (json_to_snql body entity))).
Proof.
  intros S. destruct (sh_dict _ S) as (ks & vs & ->). set (body := ODict ks vs) in *.
  assert (doc (let s := body_get body ($"sample") ONone in if is_none s then Ok ONone else let! f := as_python_float s in Ok (OFloat f))) as Sa.
  { cbv zeta. destruct (is_none _) eqn:N; [apply doc_ok|]. apply doc_bind; [|intros; apply doc_ok].
    assert (dict_entry body ($"sample") (body_get body ($"sample") ONone)) as E.
    { eapply not_none; [reflexivity|]. intros E. fold body in E. rewrite E in N. discriminate. }
    destruct (sh_sample _ S _ E) as [E0|[(f & E0)|(f & E0)]]; [rewrite E0 in N; discriminate|rewrite E0; apply doc_ok|].
    unfold as_python_float. destruct (body_get body ($"sample") ONone); try (rewrite E0); apply doc_ok. }
  (* after the entity *)
  assert (forall e, doc (let! q := mk_query (MObj e) no_clauses in
    let! aggs := convert_aggregations (body_get body ($"aggregations") (OList [])) in
    let! sel := convert_selected (body_get body ($"selected_columns") (OList [])) in
    let aj := body_get body ($"arrayjoin") ONone in
    let! q := if truthy aj
              then let! c := mk_column aj ONone in set_clause CArrayJoin q (OList [c])
              else Ok q in
    let! q := set_clause CSelect q (OList (aggs ++ sel)) in
    let! gb := convert_groupby (body_get body ($"groupby") (OList [])) in
    let! q := set_clause CGroupby q (OList gb) in
    let! ext := extensions body (match e with OEntity x => e_name x | _ => [] end) in
    let! items := iter (body_get body ($"conditions") (OList [])) in
    let! conds := mapM convert_where items in
    let! q := set_clause CWhere q (OList (ext ++ List.concat conds)) in
    let! hitems := iter (body_get body ($"having") (OList [])) in
    let! hs := mapM convert_having hitems in
    set_clause CHaving q (OList hs))) as Rest.
  { intros e. apply doc_bind; [apply doc_query|]. intros q _. apply doc_bind.
    { unfold convert_aggregations. apply (doc_listed ks vs _ aggregation_shape); [apply S|]. intros x (l & I & E).
      apply iter_iff in I. rewrite I. cbn [bind]. apply doc_exp, E. }
    intros aggs _. apply doc_bind; [apply (doc_listed ks vs _ row_shape); [apply S|exact doc_row]|]. intros sel _. cbv zeta.
    apply doc_bind.
    { destruct (truthy _); [|apply doc_ok]. apply doc_bind; [apply doc_column|]. intros. apply doc_set. }
    intros q1 _. apply doc_bind; [apply doc_set|]. intros q2 _. apply doc_bind.
    { unfold convert_groupby. pose proof (proj1 (body_get_iff ks vs ($"groupby") (OList []) _) eq_refl) as [E|(_ & E)]; fold body in E.
      - pose proof (sh_groupby _ S _ E) as G. destruct (body_get body ($"groupby") (OList [])) as [| | | | | | | |l| | | | | | | | | | | | | | | | | | | | | | | | |] eqn:Eb.
        all: try (destruct (truthy _) eqn:T; cbv zeta; [cbn [iter bind]; apply doc_mapM; constructor; [apply doc_row; exact G|constructor]|
             apply iter_iff in G; rewrite G; apply doc_ok]).
        all: try (cbn [iter bind]; apply doc_mapM; eapply Forall_impl; [|exact G]; exact doc_row).
      - rewrite E. apply doc_ok. }
    intros gb _. apply doc_bind; [apply doc_set|]. intros q3 _. apply doc_bind.
    { unfold extensions. apply doc_bind; [apply doc_extension|]. intros org _. apply doc_bind.
      - destruct (required_time_column _) as [col|]; [|apply doc_ok]. apply doc_bind; [apply doc_time, S|]. intros a _.
        apply doc_bind; [apply doc_time, S|]. intros. apply doc_ok.
      - intros times _. apply doc_bind; [apply doc_extension|]. intros. apply doc_ok. }
    intros ext _.
    assert (doc (let! items := iter (body_get body ($"conditions") (OList [])) in mapM convert_where items)) as W
      by (apply (doc_listed ks vs _ item_shape); [apply S|exact doc_where]).
    assert (doc (let! items := iter (body_get body ($"having") (OList [])) in mapM convert_having items)) as Hv
      by (apply (doc_listed ks vs _ item_shape); [apply S|exact doc_having]).
    destruct (iter (body_get body ($"conditions") (OList []))) as [items|x]; [|exact (doc_raise x W)]. cbn [bind] in *.
    apply doc_bind; [exact W|]. intros conds _. apply doc_bind; [apply doc_set|]. intros q4 _.
    destruct (iter (body_get body ($"having") (OList []))) as [items'|x]; [|exact (doc_raise x Hv)]. cbn [bind] in *.
    apply doc_bind; [exact Hv|]. intros. apply doc_set. }
  (* after the query *)
  assert (forall q, doc (snd (let '(body', r) := legacy_orderby body q in (body', let! q := r in legacy_request body' entity q)))) as Rest2.
  { intros q.
    assert (doc (snd (legacy_orderby body q))) as O.
    { unfold legacy_orderby. cbv zeta. destruct (truthy (body_get body ($"orderby") ONone)) eqn:T; [|apply doc_ok].
      apply given_iff in T as G. fold body in G. remember (body_get body ($"orderby") ONone) as v eqn:Ev.
      pose proof (sh_orderby _ S v G) as Sh. subst body.
      assert (forall l, Forall order_shape l -> doc (let! obs := snd (convert_orderby l None) in set_clause COrderby q (OList obs))) as K.
      { intros l F. apply doc_bind; [apply doc_orders, F|]. intros. apply doc_set. }
      destruct v; try (apply K; constructor; [exact Sh|constructor]).
      specialize (K l Sh). destruct (convert_orderby l None) as (l' & r). exact K. }
    assert (forall k d, k <> $"orderby" -> body_get (fst (legacy_orderby body q)) k d = body_get body k d) as B.
    { intros k d N.
      assert (forall q' : query, fst (legacy_orderby body q) = fst (legacy_orderby body q')) as I.
      { intros q'. unfold legacy_orderby. destruct (truthy _); [|reflexivity]. destruct (body_get body ($"orderby") ONone); try reflexivity; match goal with |- context [convert_orderby ?x None] => destruct (convert_orderby x None); reflexivity end. }
      set (b := BEntity (mkEntity [] None None None)). set (c := no_clauses). rewrite (I (QBase b c)).
      destruct (orderby_body ks vs b c) as (b' & K). destruct (K (QBase b c)) as (K1 & K2 & _). subst body. rewrite K1. apply K2, N. }
    destruct (legacy_orderby body q) as (body' & r). cbn [snd fst] in *. apply doc_bind; [exact O|]. intros q' _.
    unfold legacy_request. apply doc_bind.
    { unfold set_legacy_limitby. cbv zeta. rewrite B by discriminate. destruct (truthy (body_get body ($"limitby") ONone)) eqn:T; [|apply doc_ok].
      apply given_iff in T as G. fold body in G. remember (body_get body ($"limitby") ONone) as v eqn:Ev.
      destruct (sh_limitby _ S v G) as (lim & name & z & I & W). apply iter_iff in I. rewrite I. cbn [bind].
      apply doc_bind; [apply doc_column|]. intros c _. apply whole_iff in W. rewrite W. cbn [bind].
      apply doc_bind; [apply doc_limitby|]. intros. apply doc_set. }
    intros q1 _. repeat (apply doc_bind; [apply doc_extra|intros ? _]). apply doc_ok. }
  assert (doc (snd (json_to_snql body entity)) \/ (exists sample, sample_of body sample /\ mk_entity entity ONone sample ONone = Raise InvalidEntityError
     /\ snd (json_to_snql body entity) = Raise InvalidEntityError)) as K.
  { replace (snd (json_to_snql body entity)) with (let! q := legacy_query body entity in
      snd (let '(body', r) := legacy_orderby body q in (body', let! q := r in legacy_request body' entity q)))
      by (unfold json_to_snql; subst body; destruct (legacy_query (ODict ks vs) entity) as [q|x]; [reflexivity|reflexivity]).
    remember (fun q => snd (let '(body', r) := legacy_orderby body q in (body', let! q := r in legacy_request body' entity q))) as K2 eqn:EK.
    assert (forall q, doc (K2 q)) as D2 by (rewrite EK; exact Rest2). clear EK Rest2.
    unfold legacy_query. cbv zeta in Sa. cbv zeta.
    destruct (if is_none (body_get body ($"sample") ONone) then Ok ONone else let! f := as_python_float (body_get body ($"sample") ONone) in Ok (OFloat f)) as [sample|x] eqn:Es;
      [|left; exact (doc_raise x Sa)].
    cbn [bind]. apply sample_iff in Es.
    destruct (mk_entity entity ONone sample ONone) as [e|x] eqn:Ee.
    - left. cbn [bind]. apply doc_bind; [exact (Rest e)|]. intros q _. apply D2.
    - right. exists sample. split; [exact Es|].
      assert (x = InvalidEntityError) as -> by (pose proof (ro_entity entity ONone sample ONone x Ee) as [<-|[]]; reflexivity).
      split; [exact Ee|reflexivity]. }
  split.
  - destruct K as [K|(sample & _ & _ & K)]; [eapply ro_sub; [exact K|cbn; tauto]|]. rewrite K. apply ro_raise. left. reflexivity.
  - intros F. destruct K as [K|(sample & Sm & M & _)]; [exact K|]. destruct (F sample Sm) as (e & E). congruence.
Qed.
End Facts.
