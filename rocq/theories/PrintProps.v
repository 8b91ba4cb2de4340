(** C18-C21: the text of queries. *)
From Verif Require Import PyBase PyFacts Objects Exprs Translate Finder Optimizer Query SpecExpr ExprFacts WfFacts
  SpecOccurs TextFacts LiteralFacts TameFacts SpecQuery RenameFacts.

Section PP.
Context {RT : PyRT}.

Lemma item_text_iff joined x s : wf x -> visit false joined x = Ok s <-> item_text joined x s.
Proof.
  intros W. unfold item_text. destruct joined.
  - rewrite visit_qualified by (apply wf_aliased_columns, W). reflexivity.
  - rewrite visit_bare. reflexivity.
Qed.
Lemma items_text_iff joined l ss : Forall wf l ->
  mapM (visit false joined) l = Ok ss <-> Forall2 (item_text joined) l ss.
Proof.
  intros W. rewrite mapM_Ok. revert ss. induction W as [|x l Wx _ IH]; intros ss.
  - split; intros H; inversion H; constructor.
  - split; intros H; inversion H; subst; constructor; try (apply IH; assumption).
    + apply (item_text_iff joined x _ Wx). assumption.
    + apply (item_text_iff joined x _ Wx). assumption.
Qed.

Lemma listed_sep k : is_list_clause k = match snql_separator k with Some _ => true | None => false end.
Proof. destruct k; reflexivity. Qed.
Lemma sep_eq k s : snql_separator k = Some s -> clause_sep k = s.
Proof. destruct k; cbn; intros H; congruence. Qed.
Lemma kw_eq k : clause_keyword k = snql_keyword k ++ $" ".
Proof. destruct k; reflexivity. Qed.
Lemma kw_nonempty k t : nonempty ((snql_keyword k ++ $" ") ++ t) = true.
Proof. destruct k; reflexivity. Qed.
Lemma lt_iter o l : list_or_tuple o l -> iter o = Ok l /\ truthy o = match l with [] => false | _ => true end.
Proof. intros H; inversion H; subst; destruct l; split; reflexivity. Qed.
Lemma lt_wf o l : list_or_tuple o l -> wf o -> Forall wf l.
Proof. intros H W. inversion H; subst; inversion W; assumption. Qed.
Lemma lt_not_none l : ~ list_or_tuple ONone l.
Proof. intros H; inversion H. Qed.

Lemma clause_print joined k o t : wf o ->
  (forall sep, snql_separator k = Some sep -> o = ONone \/ exists l, list_or_tuple o l) ->
  print_clause joined k o = Ok t -> clause_text joined k o (filter nonempty [t]).
Proof.
  intros W T E. unfold print_clause in E. rewrite listed_sep in E.
  destruct (snql_separator k) as [sep|] eqn:S.
  - destruct (T sep eq_refl) as [->|[l L]].
    + apply Ok_inj in E. subst t. constructor.
    + destruct (lt_iter o l L) as [I B]. rewrite B, I in E. destruct l as [|x l].
      * apply Ok_inj in E. subst t. eapply ct_empty; eassumption.
      * cbn [bind] in E. apply bind_Ok in E as (ss & E1 & E). apply Ok_inj in E. subst t.
        apply items_text_iff in E1; [|eapply lt_wf; eassumption].
        rewrite kw_eq, (sep_eq k sep S). cbn [filter]. rewrite kw_nonempty, <- app_assoc.
        eapply ct_items; eassumption.
  - destruct (is_none o) eqn:N.
    + destruct o; try discriminate. apply Ok_inj in E. subst t. constructor.
    + apply bind_Ok in E as (s & E1 & E). apply Ok_inj in E. subst t.
      rewrite kw_eq. cbn [filter]. rewrite kw_nonempty, <- app_assoc.
      apply ct_one; [exact S|intros ->; discriminate|]. apply (item_text_iff joined o s W). exact E1.
Qed.
Lemma clause_print_complete joined k o ps : wf o -> clause_text joined k o ps ->
  exists t, print_clause joined k o = Ok t /\ filter nonempty [t] = ps.
Proof.
  intros W H. unfold print_clause. rewrite listed_sep. destruct H.
  - exists []. destruct (snql_separator k); split; reflexivity.
  - rewrite H. destruct (lt_iter o [] H0) as [_ B]. rewrite B. exists []. split; reflexivity.
  - rewrite H. destruct (lt_iter o (x :: l) H0) as [I B]. rewrite B, I. cbn [bind].
    apply items_text_iff in H1; [|eapply lt_wf; eassumption]. rewrite H1. cbn [bind].
    eexists. split; [reflexivity|]. rewrite kw_eq, (sep_eq k sep H). cbn [filter].
    rewrite kw_nonempty, <- app_assoc. reflexivity.
  - rewrite H. destruct o; try (elim (H0 eq_refl)); cbn [is_none];
      apply (item_text_iff joined _ _ W) in H1; rewrite H1; cbn [bind];
      (eexists; split; [reflexivity|]); rewrite kw_eq; cbn [filter]; rewrite kw_nonempty, <- app_assoc; reflexivity.
Qed.

Lemma filter_cons_app {A} (f : A -> bool) x l : filter f (x :: l) = filter f [x] ++ filter f l.
Proof. cbn. destruct (f x); reflexivity. Qed.
Lemma clauses_print joined c ks cs : (forall k, wf (get k c)) -> seq_typed c ->
  mapM (fun k => print_clause joined k (get k c)) ks = Ok cs ->
  exists ps, Forall2 (fun k p => clause_text joined k (get k c) p) ks ps /\ filter nonempty cs = List.concat ps.
Proof.
  intros W T. revert cs. induction ks as [|k ks IH]; cbn [mapM]; intros cs E.
  - apply Ok_inj in E. subst cs. exists []. split; [constructor|reflexivity].
  - apply bind_Ok in E as (t & E1 & E). apply bind_Ok in E as (ts & E2 & E). apply Ok_inj in E. subst cs.
    destruct (IH ts E2) as (ps & F & G). apply clause_print in E1; [|apply W|intros sep S; exact (T k sep S)].
    exists (filter nonempty [t] :: ps). split; [constructor; assumption|].
    rewrite filter_cons_app, G. reflexivity.
Qed.
Lemma clauses_print_complete joined c ks ps : (forall k, wf (get k c)) ->
  Forall2 (fun k p => clause_text joined k (get k c) p) ks ps ->
  exists cs, mapM (fun k => print_clause joined k (get k c)) ks = Ok cs /\ filter nonempty cs = List.concat ps.
Proof.
  intros W H. induction H as [|k p ks ps H _ IH].
  - exists []. split; reflexivity.
  - destruct IH as (cs & E & G). apply clause_print_complete in H as (t & E1 & E2); [|apply W].
    exists (t :: cs). cbn [mapM]. rewrite E1, E. split; [reflexivity|].
    rewrite filter_cons_app, G, E2. reflexivity.
Qed.

Lemma wf_join_entities k rels r : wf (OJoin k rels) -> In r rels -> wf (OEntity (r_lhs r)) /\ wf (OEntity (r_rhs r)).
Proof.
  intros W I. inversion W; subst. match goal with F : wf_join _ |- _ => rename F into J end.
  destruct J as (_ & F & _). rewrite Forall_forall in F. destruct (F r I) as (A & B & _).
  split; constructor; assumption.
Qed.
Lemma rel_text_iff r s : wf (OEntity (r_lhs r)) -> wf (OEntity (r_rhs r)) ->
  tr_rel true r = s <-> rel_text r s.
Proof.
  intros W1 W2. split.
  - intros <-. exists (tr_entity true (r_lhs r)), (tr_entity true (r_rhs r)).
    split; [apply (item_text_iff true _ _ W1); reflexivity|].
    split; [apply (item_text_iff true _ _ W2); reflexivity|reflexivity].
  - intros (lt & rt & H1 & H2 & ->). apply (item_text_iff true _ _ W1) in H1. apply (item_text_iff true _ _ W2) in H2.
    apply Ok_inj in H1, H2. subst lt rt. reflexivity.
Qed.
Lemma base_print b m : wf (obj_of_base b) ->
  let al := match b with BJoin _ _ => true | _ => false end in
  visit false al (obj_of_base b) = Ok m <-> base_text b al m.
Proof.
  intros W. destruct b as [e|st|k rels]; cbn zeta; cbn [obj_of_base] in *.
  - rewrite (item_text_iff false _ m W). split; [intros H; constructor; exact H|intros H; inversion H; assumption].
  - split; [intros H; constructor; exact H|intros H; inversion H; assumption].
  - cbn [visit]. split.
    + intros E. apply Ok_inj in E. subst m. constructor. clear - W.
      assert (F : forall r, In r rels -> wf (OEntity (r_lhs r)) /\ wf (OEntity (r_rhs r)))
        by (intros; eapply wf_join_entities; eassumption).
      clear W. induction rels as [|r rels IH]; constructor.
      * apply rel_text_iff; [apply F; left; reflexivity..|reflexivity].
      * apply IH. intros; apply F; right; assumption.
    + intros H. inversion H as [| |k' rels' ss F']; subst. unfold tr_join. do 2 f_equal.
      assert (F : forall r, In r rels -> wf (OEntity (r_lhs r)) /\ wf (OEntity (r_rhs r)))
        by (intros; eapply wf_join_entities; eassumption).
      clear - F F'. induction F' as [|r s rels ss H _ IH]; [reflexivity|]. cbn [map]. f_equal.
      * apply rel_text_iff; [apply F; left; reflexivity..|exact H].
      * apply IH. intros; apply F; right; assumption.
Qed.

Fixpoint wf_query (q : query) : Prop :=
  match q with
  | QBase b c => wf (obj_of_base b) /\ forall k, wf (get k c)
  | QSub i c => wf_query i /\ forall k, wf (get k c)
  end.
Lemma api_wf_query q : api_query q -> wf_query q.
Proof.
  induction q as [b c|i IH c]; cbn.
  - intros [H1 H2]. split; [apply api_wf, H1|intros k; apply api_wf, H2].
  - intros [H1 H2]. split; [apply IH, H1|intros k; apply api_wf, H2].
Qed.

Lemma print_query_parts q : wf_query q -> seq_typed_query q -> forall sep s,
  print_query sep q = Ok s <-> exists parts, query_parts q parts /\ s = join sep parts.
Proof.
  induction q as [b c|i IH c]; cbn [wf_query seq_typed_query]; intros [W1 W2] T sep s.
  - cbn [print_query]. set (al := match b with BJoin _ _ => true | _ => false end). split.
    + intros E. apply bind_Ok in E as (m & E1 & E). apply bind_Ok in E as (cs & E2 & E). apply Ok_inj in E. subst s.
      apply base_print in E1; [|exact W1]. apply clauses_print in E2 as (ps & F & G); [|assumption..].
      cbn [filter]. change (nonempty ($"MATCH " ++ m)) with true. cbn match. rewrite G.
      eexists. split; [|reflexivity]. econstructor; [exact E1|]. exists ps. split; [exact F|reflexivity].
    + intros (prts & H & ->). inversion H as [b' c' joined m parts B (ps & F & E)|]; subst.
      assert (joined = al) as -> by (unfold al; clear - B; destruct B; reflexivity).
      apply base_print in B; [|exact W1]. fold al in B. rewrite B. cbn [bind].
      apply clauses_print_complete in F as (cs & E & G); [|exact W2].
      change snql_order with all_clauses in E. rewrite E. cbn [bind filter].
      change (nonempty ($"MATCH " ++ m)) with true. cbn match. rewrite G. reflexivity.
  - destruct T as [T1 T2]. cbn [print_query]. split.
    + intros E. apply bind_Ok in E as (m & E1 & E). apply bind_Ok in E as (cs & E2 & E). apply Ok_inj in E. subst s.
      apply IH in E1 as (prts & E1 & ->); [|assumption..]. apply clauses_print in E2 as (ps & F & G); [|assumption..].
      cbn [filter]. set (m := join _ prts). change (nonempty ($"MATCH { " ++ m ++ $" }")) with true. cbn match. rewrite G.
      eexists. split; [|reflexivity]. constructor; [exact E1|]. exists ps. split; [exact F|reflexivity].
    + intros (prts & H & ->). inversion H as [|i' c' prts' parts B (ps & F & E)]; subst.
      assert (B' : print_query ($" ") i = Ok (join ($" ") prts')) by (apply IH; [assumption..|]; eauto).
      rewrite B'. cbn [bind].
      apply clauses_print_complete in F as (cs & E & G); [|exact W2].
      change snql_order with all_clauses in E. rewrite E. cbn [bind filter].
      set (m := join _ prts'). change (nonempty ($"MATCH { " ++ m ++ $" }")) with true. cbn match. rewrite G. reflexivity.
Qed.
End PP.
