(** Lemmas for C86-C88. *)
From Verif Require Import PyBase PyFacts Objects Exprs Query SpecExpr SpecQuery SpecSetters SpecRefs SpecChange
  WfFacts PrintProps SetterProps ValidateProps RenameFacts TotalFacts.

Section Change.
Context {RT : PyRT}.

Lemma none_item k x y : clause_item k ONone x -> refers x y -> False.
Proof.
  unfold clause_item. destruct (snql_separator k).
  - intros (l & H & _). inversion H.
  - intros ->. intros H. inversion H.
Qed.
Lemma refers_given q c : query_refers q c <-> exists k x, given k q x /\ refers x c.
Proof.
  split.
  - intros (k & x & I & R). exists k, x. split; [|exact R]. split; [|exact I].
    intros E. rewrite E in I. eapply none_item; eassumption.
  - intros (k & x & (_ & I) & R). exists k, x. auto.
Qed.
Lemma source_match q c x : match_rule (q_with q c) x <-> match_rule q x.
Proof. destruct q as [[]|]; reflexivity. Qed.
Lemma with_clauses q c : q_clauses (q_with q c) = c.
Proof. destruct q; reflexivity. Qed.

Definition inner_valid (q : query) : Prop := match q with QBase _ _ => True | QSub i _ => valid_query i end.
Definition inner_own (q : query) : Prop := match q with QBase _ _ => True | QSub i _ => own_models_query i end.
Lemma valid_unfold q : valid_query q <-> inner_valid q /\ select_rule (q_clauses q) /\ totals_rule (q_clauses q)
  /\ forall c, query_refers q c -> match_rule q c.
Proof. destruct q; reflexivity. Qed.
Lemma own_unfold q : own_models_query q <-> inner_own q /\ own_models (q_clauses q).
Proof. destruct q; cbn [own_models_query inner_own q_clauses]; tauto. Qed.

Lemma taken_valid qs q : taken_from qs q -> Forall (fun q0 => same_source q0 q) qs ->
  Forall (fun q0 => valid_query q0 /\ own_models_query q0) qs ->
  select_rule (q_clauses q) -> totals_rule (q_clauses q) -> valid_query q /\ own_models_query q.
Proof.
  intros T S V SR TR. rewrite Forall_forall in S, V.
  assert (NE : exists q0, In q0 qs).
  { destruct SR as (x & l & L). destruct (T CSelect x) as (q0 & I & _); [|eauto].
    split; cbn [get]; [intros E; rewrite E in L; inversion L|]. exists (x :: l). split; [exact L|left; reflexivity]. }
  assert (M : forall q0 c, In q0 qs -> match_rule q0 c <-> match_rule q c).
  { intros q0 c I. destruct (S _ I) as (cl & ->). symmetry. apply source_match. }
  rewrite valid_unfold, own_unfold. split; [split; [|split; [exact SR|split; [exact TR|]]]|split].
  - destruct NE as (q0 & I). destruct (S _ I) as (cl & ->). destruct (V _ I) as (W & _). apply valid_unfold in W as (W & _).
    destruct q0; exact W.
  - intros c H. apply refers_given in H as (k & x & G & R). destruct (T _ _ G) as (q0 & I & G0).
    apply (M q0 c I). destruct (V _ I) as (W & _). apply valid_unfold in W as (_ & _ & _ & W). apply W. apply refers_given. eauto.
  - destruct NE as (q0 & I). destruct (S _ I) as (cl & ->). destruct (V _ I) as (_ & W). apply own_unfold in W as (W & _).
    destruct q0; exact W.
  - intros k x e d I E D.
    assert (G : given k q (OColumn x)).
    { split; [|exact I]. intros N. rewrite N in I. eapply none_item; [exact I|constructor]. }
    destruct (T _ _ G) as (q0 & I0 & (_ & G0)). destruct (V _ I0) as (_ & W). apply own_unfold in W as (_ & W).
    eapply W; eassumption.
Qed.

(** more conditions *)
Lemma required_more d a w w' : (forall l, list_or_tuple w l -> l <> [] -> exists l', list_or_tuple w' l' /\ incl l l') ->
  required_ok d a w -> required_ok d a w'.
Proof.
  intros M (l & L & R). destruct (M l L) as (l' & L' & IN); [destruct R as (_ & (x & c & I & _) & _); intros ->; exact I|]. exists l'. split; [exact L'|].
  destruct R as (A & B & C). split; [|split].
  - intros r I Q. destruct (A r I Q) as (x & c & X & Y). exists x, c. split; [apply IN, X|exact Y].
  - destruct B as (x & c & X & Y). exists x, c. split; [apply IN, X|exact Y].
  - destruct C as (x & c & X & Y). exists x, c. split; [apply IN, X|exact Y].
Qed.

(** ** Other data models *)
Section Models.
Variable me : entity -> option data_model.
Variable ms : storage -> option data_model.
Notation nv := (new_value me).
Notation nc := (new_column me).

Lemma get_new k c : get k (new_clauses me c) = nv (get k c).
Proof. destruct c, k; reflexivity. Qed.
Lemma new_none o : nv o = ONone -> o = ONone.
Proof. destruct o; try discriminate. reflexivity. Qed.
Lemma new_seq o l : list_or_tuple (nv o) l <-> exists l0, list_or_tuple o l0 /\ l = map nv l0.
Proof.
  split.
  - intros H. destruct o; cbn in H; inversion H; subst; eexists; split; constructor.
  - intros (l0 & H & ->). inversion H; constructor.
Qed.
Lemma item_new k o x : clause_item k (nv o) x <-> exists x0, clause_item k o x0 /\ x = nv x0.
Proof.
  unfold clause_item. destruct (snql_separator k).
  - split.
    + intros (l & L & I). apply new_seq in L as (l0 & L & ->). apply in_map_iff in I as (x0 & <- & I). eauto.
    + intros (x0 & (l & L & I) & ->). exists (map nv l). split; [apply new_seq; eauto|]. apply in_map, I.
  - split; [intros ->; eauto|intros (x0 & -> & ->); reflexivity].
Qed.
Lemma refers_new o c : refers (nv o) c -> exists c0, refers o c0 /\ c = nc c0.
Proof.
  intros R. remember (nv o) as v eqn:E. revert o E.
  induction R; intros v E; destruct v; try discriminate E; injection E; intros; subst;
    try (match goal with I : In _ (map _ _) |- _ => apply in_map_iff in I as (? & <- & ?) end);
    try (match goal with IH : forall o, _ = nv o -> _ |- _ => destruct (IH _ eq_refl) as (c0 & R0 & ->) end);
    eexists; (split; [|reflexivity]);
    first [constructor; eassumption|eapply rf_init; eassumption|eapply rf_param; eassumption|econstructor; eassumption].
Qed.
Lemma query_refers_new q c : query_refers (with_models me ms q) c -> exists c0, query_refers q c0 /\ c = nc c0.
Proof.
  intros (k & x & I & R).
  assert (E : get k (q_clauses (with_models me ms q)) = nv (get k (q_clauses q))) by (destruct q; apply get_new).
  rewrite E in I. apply item_new in I as (x0 & I & ->). apply refers_new in R as (c0 & R & ->). exists c0. split; [exists k, x0; auto|reflexivity].
Qed.
Lemma new_select c : select_rule c -> select_rule (new_clauses me c).
Proof.
  intros (x & l & L). exists (nv x), (map nv l). change (list_or_tuple (get CSelect (new_clauses me c)) (map nv (x :: l))).
  rewrite get_new. apply new_seq. exists (x :: l). auto.
Qed.
Lemma new_totals c : totals_rule c -> totals_rule (new_clauses me c).
Proof.
  unfold totals_rule. change (c_totals (new_clauses me c)) with (get CTotals (new_clauses me c)).
  change (c_groupby (new_clauses me c)) with (get CGroupby (new_clauses me c)). rewrite !get_new. cbn [get].
  intros T E. destruct T as (x & l & L).
  - destruct (c_totals c); try discriminate E. injection E as ->. reflexivity.
  - exists (nv x), (map nv l). apply new_seq. exists (x :: l). auto.
Qed.
Lemma new_offered i n : offered i n -> offered (with_models me ms i) n.
Proof.
  intros (l & x & L & I & C). exists (map nv l), (nv x). split.
  - assert (E : get CSelect (q_clauses (with_models me ms i)) = nv (get CSelect (q_clauses i))) by (destruct i; apply get_new).
    cbn [get] in E. rewrite E. apply new_seq. eauto.
  - split; [apply in_map, I|]. destruct C as [(c & -> & <-)|(f & m & ik & il & pk & pl & ->)].
    + left. eexists. split; reflexivity.
    + right. do 6 eexists. reflexivity.
Qed.
Lemma more_has m m' c : more_columns m m' -> has_column m c -> has_column m' (nc c).
Proof. intros M (b & B & I). exists b. split; [exact B|apply M, I]. Qed.

Hypothesis LE : forall e, looser (e_dm e) (me e).
Hypothesis LS : forall s, looser (st_dm s) (ms s).
Lemma new_match q c : match_rule q c -> match_rule (with_models me ms q) (nc c).
Proof.
  destruct q as [[e|s|k rels] cl|i cl]; cbn [match_rule with_models new_base].
  - intros H m' E. destruct (LE e m' E) as (m & D & M). eapply more_has; eauto.
  - intros H m' E. destruct (LS s m' E) as (m & D & M). eapply more_has; eauto.
  - intros (e & a & E & A & (r & e' & I & C & A' & N)). exists (new_entity me e), a.
    split; [cbn; rewrite E; reflexivity|]. split; [exact A|].
    exists (rename_rel (new_entity me) r), (new_entity me e'). split; [apply in_map, I|]. split; [|split; [exact A'|exact N]].
    destruct C as [->| ->]; [left|right]; reflexivity.
  - apply new_offered.
Qed.
Lemma new_own c : own_models c -> own_models (new_clauses me c).
Proof.
  intros O k x e d I E D. rewrite get_new in I. apply item_new in I as (x0 & I & X).
  destruct x0; try discriminate X. injection X as ->. cbn in E. destruct (c_entity c0) as [e0|] eqn:E0; [|discriminate].
  injection E as <-. cbn in D. destruct (LE e0 d D) as (m & D0 & M). eapply more_has; [exact M|]. eapply O; eassumption.
Qed.
Lemma new_valid q : valid_query q /\ own_models_query q -> valid_query (with_models me ms q) /\ own_models_query (with_models me ms q).
Proof.
  induction q as [b c|i IH c]; intros (V & O); apply valid_unfold in V as (V0 & S & T & V); apply own_unfold in O as (O0 & O);
    cbn [inner_valid inner_own q_clauses] in *; rewrite valid_unfold, own_unfold; cbn [with_models inner_valid inner_own q_clauses];
    (split; [split; [|split; [apply new_select, S|split; [apply new_totals, T|]]]|split; [|apply new_own, O]]); auto.
  - intros x R. apply (query_refers_new (QBase b c)) in R as (x0 & R & ->). apply (new_match (QBase b c)), V, R.
  - apply IH. auto.
  - intros x R. apply (query_refers_new (QSub i c)) in R as (x0 & R & ->). apply (new_match (QSub i c)), V, R.
  - apply IH. auto.
Qed.
End Models.

(** required columns *)
Section Required.
Variable me : entity -> option data_model.
Variable ms : storage -> option data_model.
Hypothesis LE : forall e, not_stricter (e_dm e) (me e).
Notation nv := (new_value me).
Lemma new_top c x : top_level c x -> top_level (nv c) (nv x).
Proof.
  induction 1 as [c H|c o k l y I T IH].
  - apply tl_self. intros o k l E. destruct c; try discriminate E. injection E; intros; subst. eapply H. reflexivity.
  - cbn. eapply tl_and; [apply in_map, I|exact IH].
Qed.
Lemma new_condition ops n a c : condition_on ops n a c -> condition_on ops n a (nv c).
Proof.
  intros (k & o & r & -> & I & N & A). exists (new_column me k), o, (nv r). split; [reflexivity|]. split; [exact I|]. split; [exact N|].
  intros e E. cbn in E. destruct (c_entity k) as [e0|]; [|discriminate]. injection E as <-. cbn. apply A. reflexivity.
Qed.
Lemma new_entity_required e w : entity_required_ok e w -> entity_required_ok (new_entity me e) (nv w).
Proof.
  intros R m' E. cbn in E. destruct (LE e m' E) as (m & D & T & C). destruct (R m D) as (l & L & (A & B & F)).
  assert (H : forall ops n, (exists x c, In x l /\ top_level c x /\ condition_on ops n (e_alias e) c) ->
    exists x c, In x (map nv l) /\ top_level c x /\ condition_on ops n (e_alias (new_entity me e)) c).
  { intros ops n (x & c & I & X & Y). exists (nv x), (nv c). split; [apply in_map, I|]. split; [apply new_top, X|apply new_condition, Y]. }
  exists (map nv l). split; [apply new_seq; eauto|]. cbn zeta. rewrite T. split; [|split; [apply H, B|apply H, F]].
  intros r' I Q. destruct (C r' I Q) as (r & I' & Q' & <-). apply H. apply A; assumption.
Qed.
Lemma new_required q : query_required_ok q -> query_required_ok (with_models me ms q).
Proof.
  induction q as [[e|s|k rels] c|i IH c]; cbn [query_required_ok with_models new_base]; auto;
    try (change (c_where (new_clauses me c)) with (get CWhere (new_clauses me c)); rewrite get_new; cbn [get]).
  - apply new_entity_required.
  - intros H r I. apply in_map_iff in I as (r0 & <- & I). destruct (H r0 I) as (A & B). split; apply new_entity_required; assumption.
Qed.
End Required.

(** building the query with the new models *)
Section Rebuild.
Variable me : entity -> option data_model.
Variable ms : storage -> option data_model.
Hypothesis LE : forall e, looser (e_dm e) (me e).
Notation nv := (new_value me).
Lemma new_wf_column c : wf_column c -> wf_column (new_column me c).
Proof.
  intros (N & P & E). split; [exact N|]. split; [exact P|]. intros e H. cbn in H. destruct (c_entity c) as [e0|]; [|discriminate].
  injection H as <-. destruct (E e0 eq_refl) as (W & A & D). split; [exact W|]. split; [exact A|].
  intros m' M. cbn in M. destruct (LE e0 m' M) as (m & M0 & C). apply C, D, M0.
Qed.
Lemma new_mappings rels : alias_mappings (map (rename_rel (new_entity me)) rels) = alias_mappings rels.
Proof. unfold alias_mappings. rewrite !flat_map_concat_map, map_map. reflexivity. Qed.
Lemma new_wf_join rels : wf_join rels -> wf_join (map (rename_rel (new_entity me)) rels).
Proof.
  intros (N & F & J). split; [|split; [|rewrite new_mappings; exact J]].
  - destruct rels; [congruence|discriminate].
  - rewrite Forall_map. eapply Forall_impl; [|exact F]. intros r H. exact H.
Qed.
Lemma new_param x : param_ok x -> param_ok (nv x).
Proof.
  intros [H|H].
  - left. destruct H as [? []|? []| |]; try (constructor; fail); [apply pe_column; constructor|apply pe_function; constructor].
  - right. apply is_scalar_iff. apply is_scalar_iff in H. unfold new_value. rewrite rename_scalar. exact H.
Qed.
Lemma new_check l o r : check_condition (nv l) o (nv r) = check_condition l o r.
Proof.
  unfold check_condition, new_value. rewrite !rename_col_or_func, rename_scalar. destruct r; reflexivity.
Qed.
Lemma new_wf_all l : Forall (fun o => wf o -> wf (nv o)) l -> Forall wf l -> Forall wf (map nv l).
Proof. rewrite Forall_map, !Forall_forall. auto. Qed.
Lemma new_wf o : wf o -> wf (nv o).
Proof.
  induction o using obj_ind'; intros W; inversion W; subst; try exact W; unfold new_value; cbn [rename].
  - constructor. apply new_wf_all; assumption.
  - constructor. apply new_wf_all; assumption.
  - constructor. apply new_wf_column. assumption.
  - constructor; [apply new_wf_column|]; assumption.
  - constructor; try assumption; try (apply new_wf_all; assumption).
    + intros E. rewrite (H10 E). reflexivity.
    + intros E. rewrite (H11 E). reflexivity.
    + rewrite Forall_map. eapply Forall_impl; [|exact H12]. intros x. cbv beta. rewrite rename_init_ok. auto.
    + rewrite Forall_map. eapply Forall_impl; [|exact H13]. intros x. apply new_param.
  - constructor; [assumption| |apply IHo; assumption]. destruct o; try discriminate; reflexivity.
  - constructor. match goal with K : wf_entity _ |- _ => exact K end.
  - constructor. match goal with K : wf_rel _ |- _ => exact K end.
  - constructor. apply new_wf_join. assumption.
  - apply wf_cond; [change (check_condition (nv o1) o2 (nv o3) = Ok tt); rewrite new_check; assumption|apply IHo1; assumption|apply IHo2; assumption].
  - constructor; [rewrite map_length; assumption| |apply new_wf_all; assumption].
    rewrite Forall_map. eapply Forall_impl; [|exact H5]. intros x. destruct x; intros K; exact K.
  - constructor; [rewrite rename_col_or_func; assumption|apply IHo; assumption].
  - constructor; [|rewrite Forall_map; eapply Forall_impl; [|eassumption]; intros x; apply new_wf_column|assumption].
    destruct l; [congruence|discriminate].
Qed.
Lemma new_wf_query q : wf_query q -> wf_query (with_models me ms q).
Proof.
  induction q as [b c|i IH c]; cbn [wf_query with_models]; intros (A & B); (split; [|intros k; rewrite get_new; apply new_wf, B]).
  - destruct b; cbn [new_base obj_of_base] in *; [apply (new_wf (OEntity e)), A| |apply (new_wf (OJoin k rels)), A].
    inversion A; subst. constructor. assumption.
  - apply IH, A.
Qed.
Lemma new_class k x : item_class k x -> item_class k (nv x).
Proof.
  destruct k; cbn [item_class]; intros H;
    try (destruct H as (? & ->); eexists; reflexivity);
    try (destruct H as (? & ? & ? & ->); do 3 eexists; reflexivity);
    destruct H; constructor.
Qed.
Lemma new_typed c : class_typed c -> class_typed (new_clauses me c).
Proof.
  intros T k. rewrite get_new. destruct (T k) as [->|H]; [left; reflexivity|right].
  destruct (snql_separator k) eqn:S.
  - destruct H as (l & L & F). exists (map nv l). split; [apply new_seq; eauto|]. rewrite Forall_map.
    eapply Forall_impl; [|exact F]. intros x. apply new_class.
  - apply new_class, H.
Qed.
Lemma new_typed_query q : class_typed_query q -> class_typed_query (with_models me ms q).
Proof. induction q as [b c|i IH c]; cbn; [apply new_typed|]. intros (A & B). split; [apply IH, A|apply new_typed, B]. Qed.
End Rebuild.
End Change.
