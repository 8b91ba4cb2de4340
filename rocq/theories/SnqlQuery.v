(** C63: whole queries; serialize(). *)
From Verif Require Import PyBase PyFacts Regex Utf8 DateTime Objects Exprs Translate Optimizer Query SpecExpr ExprFacts SpecText
  TextFacts SpecTime SampleFacts SpecOccurs SpecQuery SpecSetters SpecRefs SpecOrder SpecLogic WfFacts LiteralFacts TextProps PrintProps
  SetterProps OptFacts QueryProps SpecSnql SnqlFacts SnqlDenote.

Section Q.
Context {RT : PyRT}.

(** ** what a query matches *)
Lemma entity_name_text n : entity_name n -> name_text n.
Proof.
  intros (body & nl & -> & _ & B & N). apply Forall_app. split.
  - eapply Forall_impl; [|exact B]. intros c [H|H]; [unfold ascii_letter in H; cbn; lia|subst c; cbn; lia].
  - destruct N as [->| ->]; repeat constructor. cbn. lia.
Qed.
Lemma sample_shows s : wf_sample s -> exists t, denotes_sample s t /\ sample_clause s = text_of_sample t
  /\ forall x, t = Some x -> name_text x.
Proof.
  intros W. destruct s as [f|].
  2:{ exists None. split; [exact I|]. split; [reflexivity|discriminate]. }
  specialize (W f eq_refl). destruct f as [|neg|neg m e]; cbn in W.
  3:{ destruct W as [-> M]. destruct (sample_text m e M) as (d & num & p & E & D & N & _).
    exists (Some d). split; [exists num, p; auto|]. split; [exact E|]. intros x [= <-].
    destruct D as (ip & fp & -> & _ & _ & F & _). apply Forall_app in F as [F1 F2].
    assert (G : forall l, Forall (fun c => 48 <= c <= 57)%N l -> name_text l).
    { intros l H. eapply Forall_impl; [|exact H]. cbn. intros. lia. }
    apply Forall_app. split; [apply G, F1|]. apply Forall_app. split; [repeat constructor; cbn; lia|apply G, F2]. }
  - exists (Some ($"nan")). split; [reflexivity|]. split; [reflexivity|]. intros x [= <-]. repeat constructor; cbn; lia.
  - subst neg. exists (Some ($"inf")). split; [reflexivity|]. split; [reflexivity|]. intros x [= <-]. repeat constructor; cbn; lia.
Qed.
Lemma ent_shows e : wf_entity e -> named (OEntity e) -> exists t, denotes_ent e t /\ good_ent t /\ tr_entity true e = text_of_ent t.
Proof.
  intros (N & _ & S) A. destruct e as [n a sm dm]. cbn [e_name e_alias e_sample] in *.
  destruct (sample_shows sm S) as (t & D & E & G). exists (Ent a n t). split; [constructor; exact D|]. split.
  - split; [|split; [apply entity_name_text, N|exact G]]. intros x ->. apply (A (OEntity _) (oc_self _) x eq_refl).
  - unfold tr_entity. cbn [e_name e_alias e_sample text_of_ent]. rewrite E. destruct a; reflexivity.
Qed.
Lemma bare_shows e : wf_entity e -> exists a n s, denotes_ent e (Ent a n s) /\ good_ent (Ent None n s)
  /\ tr_entity false e = text_of_ent (Ent None n s).
Proof.
  intros (N & _ & S). destruct e as [n a sm dm]. cbn [e_name e_alias e_sample] in *.
  destruct (sample_shows sm S) as (t & D & E & G). exists a, n, t. split; [constructor; exact D|]. split.
  - split; [discriminate|]. split; [apply entity_name_text, N|exact G].
  - unfold tr_entity. cbn [e_name e_alias e_sample text_of_ent]. rewrite E. destruct a; reflexivity.
Qed.
Lemma rels_show rels : Forall wf_rel rels -> (forall r, In r rels -> named (ORel r)) ->
  exists ts, Forall2 denotes_rel rels ts /\ Forall good_rel ts /\ map (tr_rel true) rels = map text_of_rel ts.
Proof.
  induction 1 as [|r rels (W1 & W2 & _) _ IH]; intros A.
  { exists []. repeat split; constructor. }
  destruct IH as (ts & D & G & E). { intros; apply A; right; assumption. }
  assert (R : named (ORel r)) by (apply A; left; reflexivity).
  destruct r as [l n r]. cbn [r_lhs r_rhs] in *.
  destruct (ent_shows l W1) as (t1 & D1 & G1 & E1). { apply (named_sub _ _ R). intros; apply oc_rel_l; assumption. }
  destruct (ent_shows r W2) as (t2 & D2 & G2 & E2). { apply (named_sub _ _ R). intros; apply oc_rel_r; assumption. }
  exists ((t1, n, t2) :: ts). split; [constructor; [constructor|]; assumption|]. split.
  - constructor; [|exact G]. split; [exact G1|]. split; [exact G2|]. exact (R _ (oc_self _)).
  - cbn [map]. rewrite E. f_equal. unfold tr_rel, text_of_rel. cbn [r_lhs r_rhs r_name]. rewrite E1, E2. reflexivity.
Qed.

(** ** queries *)
Definition named_query (q : query) : Prop := forall o, item_of o q -> named o.
Lemma query_shows q : wf_query q -> class_typed_query q -> named_query q -> forall s, print_query ($" ") q = Ok s ->
  exists t, denotes_query q t /\ good_query t /\ text_of_query t = s.
Proof.
  induction q as [b c|i IH c]; intros W T N s E; destruct W as [W1 W2]; cbn [print_query] in E.
  - assert (NC : forall k, items_named k (get k c)). { intros k x H. apply N. eapply io_clause, H. }
    assert (NB : named (obj_of_base b)) by (apply N; constructor).
    apply bind_Ok in E as (m & E1 & E). apply bind_Ok in E as (cs & E2 & E). apply Ok_inj in E. subst s.
    cbn [filter]. change (nonempty ($"MATCH " ++ m)) with true. cbn match.
    destruct (parts_shows _ c cs ($"MATCH " ++ m) W2 T NC E2) as (parts & D & G & ->).
    destruct b as [e|st|kk rels]; cbn [obj_of_base visit] in *; apply Ok_inj in E1; subst m; inversion W1 as [| | | | | | | | | | | | | | | | | | | | |e' We|s' Ws|r' Wr|k' r' Wj| | | | | | | | |]; subst.
    + destruct (bare_shows e We) as (a & n & sm & DE & GE & ->).
      exists (QTree (MEntity n sm) parts). split; [econstructor; eassumption|]. split; [constructor; assumption|].
      cbn [text_of_query]. rewrite <- app_assoc. reflexivity.
    + destruct Ws as [NS SS]. destruct (sample_shows _ SS) as (t & DS & ES & GS).
      exists (QTree (MStorage (st_name st) t) parts). split; [constructor; assumption|].
      split; [constructor; [split; [discriminate|]; split; [apply entity_name_text, NS|exact GS]|exact G]|].
      cbn [text_of_query text_of_ent]. unfold tr_storage. rewrite ES, <- !app_assoc. reflexivity.
    + destruct Wj as (NE & FW & _). destruct (rels_show rels FW) as (ts & DR & GR & ER).
      { intros r Hr. apply (named_sub _ _ NB). intros; eapply oc_join; eassumption. }
      exists (QTree (MJoin ts) parts). split; [constructor; assumption|]. split.
      * constructor; [|exact GR|exact G]. intros ->. inversion DR. congruence.
      * cbn [text_of_query]. unfold tr_join. rewrite ER, <- app_assoc. reflexivity.
  - assert (NC : forall k, items_named k (get k c)). { intros k x H. apply N. eapply io_sub_clause, H. }
    destruct T as [T1 T2].
    apply bind_Ok in E as (m & E1 & E). apply bind_Ok in E as (cs & E2 & E). apply Ok_inj in E. subst s.
    destruct (IH W1 T1) with (s := m) as (t & DI & GI & <-); [|exact E1|]. { intros o Ho. apply N. constructor. exact Ho. }
    match goal with |- context [filter nonempty (?x :: _)] => cbn [filter]; change (nonempty x) with true end. cbn match.
    match goal with |- context [join _ (?x :: filter nonempty cs)] =>
      destruct (parts_shows _ c cs x W2 T2 NC E2) as (parts & D & G & ->) end.
    exists (QTree (MSub t) parts). split; [constructor; assumption|]. split; [constructor; assumption|].
    cbn [text_of_query]. rewrite <- !app_assoc. reflexivity.
Qed.

(** ** serialize() *)
Lemma cond_rhs_sayable l r : wf (OCond l EQ r) -> sayable r.
Proof.
  intros W. inversion W as [| | | | | | | | | | | | | | | | | | | | | | | | |? ? ? CC WL WR| | | | | | | |]; subst.
  unfold check_condition in CC. destruct (is_col_or_func l); [|discriminate]. cbn [negb is_unary] in CC.
  destruct (is_col_or_func r) eqn:K; [apply col_or_func_sayable, K|]. cbn [andb] in CC.
  apply bind_Ok in CC as (b & E1 & CC). destruct b; [|discriminate]. apply param_sayable. right. apply is_scalar_true, E1.
Qed.
Lemma merged_named c c' : wf c -> mergeable c -> merged c c' -> named c -> named c'.
Proof.
  intros W M D N. inversion D as [cls k lhs rhs rest]; subst. inversion M as [? ? ? ? ? F]; subst.
  inversion W as [| | | | | | | | | | | | | | | | | | | | | | | | | |? ? ? ? LN FC FW| | | | | | |]; subst.
  inversion FW as [|? ? W1 WR]; subst.
  assert (R : forall r, In r (rhs :: map rhs_of rest) -> sayable r /\ exists y, In y (OCond lhs EQ rhs :: rest) /\ forall x, occurs x r -> occurs x y).
  { intros r [<-|I].
    - split; [eapply cond_rhs_sayable, W1|]. exists (OCond lhs EQ rhs). split; [left; reflexivity|]. intros; apply oc_rhs; assumption.
    - apply in_map_iff in I as (y & <- & I). rewrite Forall_forall in F, WR. destruct (F y I) as (l & r & -> & _).
      split; [exact (cond_rhs_sayable l r (WR _ I))|]. exists (OCond l EQ r). split; [right; exact I|]. intros; apply oc_rhs; assumption. }
  intros x O. inversion O as [| | | | | |? ? ? ? O1|? ? ? ? O1| | | | | | | |]; subst; [exact I| |].
  - apply N. econstructor; [left; reflexivity|]. apply oc_lhs, O1.
  - inversion O1 as [|? y ? I O2| | | | | | | | | | | | | |]; subst.
    + cbn [snql_names]. apply Forall_forall. intros r Hr. apply R, Hr.
    + destruct (R y I) as (_ & z & Iz & Oz). apply N. econstructor; [exact Iz|]. apply Oz, O2.
Qed.
Lemma named_where q l l' : named_query q -> Forall wf l -> filters q l -> Forall2 optimized_at l l' ->
  named_query (q_with q (upd CWhere (OList l') (q_clauses q))).
Proof.
  intros N W FL O.
  assert (NL : forall x, In x l -> named x).
  { intros x Hx. apply N. destruct FL as [[_ ->]|L]; [destruct Hx|]. assert (C : clause_item CWhere (get CWhere (q_clauses q)) x) by (exists l; auto).
    destruct q; [eapply io_clause|eapply io_sub_clause]; exact C. }
  assert (NL' : forall x, In x l' -> named x).
  { clear -W O NL. revert W NL. induction O as [|c c' l l' H _ IH]; intros W NL x Hx; [destruct Hx|].
    inversion W; subst. destruct Hx as [<-|Hx].
    - assert (NC : named c) by (apply NL; left; reflexivity). destruct H as [[M D]|[_ ->]]; [eapply merged_named; eassumption|exact NC].
    - apply IH; auto. intros; apply NL; right; assumption. }
  assert (K : forall k x, clause_item k (get k (upd CWhere (OList l') (q_clauses q))) x -> named x).
  { intros k x C. destruct (clause_dec CWhere k) as [<-|NE].
    - rewrite get_upd_same in C. destruct C as (m & L & I). inversion L; subst. apply NL', I.
    - rewrite get_upd_other in C by exact NE. apply N. destruct q; [eapply io_clause|eapply io_sub_clause]; exact C. }
  intros o P. destruct q as [b c|i c]; cbn [q_with q_clauses] in *; inversion P; subst; eauto.
  - apply N. constructor.
  - apply N. constructor. assumption.
Qed.
Lemma serialize_shows q s : wf_query q -> class_typed_query q -> named_query q -> serialize q = Ok s ->
  exists q' l l' t, wf_query q' /\ same_but_where q q' /\ filters q l /\ filters q' l' /\ Forall2 optimized_at l l'
    /\ denotes_query q' t /\ good_query t /\ text_of_query t = s.
Proof.
  intros W T N E. unfold serialize in E. apply bind_Ok in E as ([] & V & E). apply bind_Ok in E as (q' & EO & E).
  destruct (optimize_query_spec q W T (validate_inner q V)) as [(l & FL & NM & E')|(l & l' & FL & E1 & Wl & Cl & E')]; rewrite E' in EO; injection EO as <-.
  - destruct (query_shows q W T N s E) as (t & D). exists q, l, l, t. split; [exact W|]. split; [split; reflexivity|]. repeat (split; [assumption|]).
    split; [|exact D]. clear - NM. induction NM; constructor; auto. right. auto.
  - destruct (optimize_list_wf l l' Wl Cl E1) as (W' & C' & _). destruct (optimized_typed q l l' W T FL W' C') as [Wq Tq].
    apply optimize_Some in E1 as [_ E1]. pose proof (named_where q l l' N Wl FL E1) as Nq.
    destruct (query_shows _ Wq Tq Nq s E) as (t & D). exists (q_with q (upd CWhere (OList l') (q_clauses q))), l, l', t. split; [exact Wq|].
    split. { split; [apply q_match_with|]. intros k NE. rewrite q_clauses_with. apply get_upd_other. auto. }
    split; [exact FL|]. split; [|split; [exact E1|exact D]].
    right. rewrite q_clauses_with. change (c_where (upd CWhere (OList l') (q_clauses q))) with (get CWhere (upd CWhere (OList l') (q_clauses q))).
    rewrite get_upd_same. constructor.
Qed.
Lemma denotes_same q t : denotes_query q t -> forall t', same_query t t' -> denotes_query q t'.
Proof.
  induction 1 as [? ? ? ? ? ? ? P|? ? ? ? ? P|? ? ? ? ? ? P|? ? ? ? ? IH P]; intros t' S; inversion S; subst;
    try (econstructor; eauto; intros k; match goal with H : forall k, _ = _ |- _ => rewrite <- H end; apply P).
Qed.
End Q.
