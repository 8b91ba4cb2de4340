(** C18: printing with entity aliases = printing the qualified object without. *)
From Verif Require Import PyBase PyFacts Objects Exprs Translate Query SpecExpr ExprFacts WfFacts SpecOccurs
  TextFacts TameFacts SpecQuery.

Section R.
Context {RT : PyRT}.

Lemma rename_literal fc fe o : is_literal (rename fc fe o) = is_literal o.
Proof. destruct o; reflexivity. Qed.
Lemma rename_expression fc fe o : is_expression (rename fc fe o) = is_expression o.
Proof. destruct o; reflexivity. Qed.
Lemma rename_col_or_func fc fe o : is_col_or_func (rename fc fe o) = is_col_or_func o.
Proof. destruct o; reflexivity. Qed.
Lemma rename_param_expr fc fe o : is_param_expr (rename fc fe o) = is_param_expr o.
Proof. destruct o; reflexivity. Qed.
Lemma rename_init_ok fc fe o : init_ok (rename fc fe o) = init_ok o.
Proof. destruct o; reflexivity. Qed.

Lemma scalar_all_rename fc fe l :
  Forall (fun o => is_scalar (rename fc fe o) = is_scalar o) l ->
  scalar_all (map (rename fc fe) l) = scalar_all l.
Proof.
  induction 1 as [|x l H _ IH]; [reflexivity|]. cbn [map scalar_all]. rewrite H, rename_expression.
  destruct (is_scalar x) as [b|e]; [|reflexivity]. cbn [bind]. destruct (b || is_expression x); [exact IH|reflexivity].
Qed.
Lemma rename_scalar fc fe o : is_scalar (rename fc fe o) = is_scalar o.
Proof.
  induction o using obj_ind'; try reflexivity; cbn [rename].
  - rewrite !is_scalar_list. apply scalar_all_rename. assumption.
  - rewrite !is_scalar_tuple. apply scalar_all_rename. assumption.
Qed.

Section V.
Variables (mql al : bool) (fc : column -> column) (fe : entity -> entity).
Hypothesis He : forall e, tr_entity al e = tr_entity false (fe e).
Let good o := forall c, occurs (OColumn c) o -> tr_column al c = tr_column false (fc c).

Lemma items_rename l : Forall (fun o => good o -> visit mql al o = visit mql false (rename fc fe o)) l ->
  Forall good l -> mapM (visit mql al) l = mapM (visit mql false) (map (rename fc fe) l).
Proof.
  induction l as [|x l IH]; intros H G; [reflexivity|]. inversion_clear H. inversion_clear G.
  cbn [map mapM]. rewrite <- H0 by assumption. rewrite IH by assumption. reflexivity.
Qed.
Lemma good_items l o : (forall x y, In y l -> occurs x y -> occurs x o) -> good o -> Forall good l.
Proof. intros H G. apply Forall_forall. intros y Hy c Hc. apply G. eapply H; eassumption. Qed.

Lemma visit_rename o : good o -> visit mql al o = visit mql false (rename fc fe o).
Proof.
  induction o using obj_ind'; intros G; try reflexivity.
  - cbn [rename]. rewrite !visit_list. 
    rewrite <- (rename_scalar fc fe (OList l)). cbn [rename].
    rewrite <- (items_rename l H). reflexivity.
    eapply good_items; [|exact G]. intros; eapply oc_list; eassumption.
  - cbn [rename]. rewrite !visit_tuple.
    rewrite <- (rename_scalar fc fe (OTuple l)). cbn [rename].
    rewrite <- (items_rename l H). reflexivity.
    eapply good_items; [|exact G]. intros; eapply oc_tuple; eassumption.
  - cbn [rename visit]. rewrite G by constructor. reflexivity.
  - cbn [rename visit]. rewrite G by (constructor; constructor). reflexivity.
  - cbn [rename]. rewrite !visit_func. 
    assert (G1 : Forall good il) by (eapply good_items; [|exact G]; intros; eapply oc_init; eassumption).
    assert (G2 : Forall good pl) by (eapply good_items; [|exact G]; intros; eapply oc_param; eassumption).
    assert (E1 : mapM (visit mql al) (filter init_ok il)
      = mapM (visit mql false) (filter init_ok (map (rename fc fe) il))).
    { clear - H G1. induction il as [|x il IH]; [reflexivity|]. inversion_clear H. inversion_clear G1.
      cbn [map filter]. rewrite rename_init_ok. destruct (init_ok x); [|apply IH; assumption].
      cbn [mapM]. rewrite H0 by assumption. rewrite IH by assumption. reflexivity. }
    assert (E2 : visit_params mql al pl = visit_params mql false (map (rename fc fe) pl)).
    { clear - H0 G2. induction pl as [|x pl IH]; [reflexivity|]. inversion_clear H0. inversion_clear G2.
      cbn [map visit_params]. rewrite rename_param_expr, rename_scalar, H by assumption.
      rewrite IH by assumption. reflexivity. }
    rewrite E1, E2. reflexivity.
  - cbn [rename visit]. rewrite IHo; [reflexivity|]. intros c Hc. apply G. constructor; exact Hc.
  - cbn [rename visit]. rewrite He. reflexivity.
  - cbn [rename visit]. unfold tr_rel. rewrite !He. reflexivity.
  - cbn [rename visit]. unfold tr_join. rewrite map_map. do 2 f_equal. apply map_ext. intros r.
    unfold tr_rel. rewrite !He. reflexivity.
  - cbn [rename]. rewrite !visit_cond, rename_col_or_func, rename_scalar.
    rewrite IHo1 by (intros c Hc; apply G; apply oc_lhs; exact Hc).
    rewrite IHo2 by (intros c Hc; apply G; apply oc_rhs; exact Hc). reflexivity.
  - cbn [rename]. rewrite !visit_bool.
    rewrite <- (items_rename l H). reflexivity.
    eapply good_items; [|exact G]. intros; eapply oc_cond; eassumption.
  - cbn [rename visit]. rewrite IHo; [reflexivity|]. intros c Hc. apply G. constructor; exact Hc.
  - cbn [rename visit]. rewrite map_map. do 4 f_equal. apply map_ext_in. intros c Hc.
    apply G. eapply oc_limitby; [exact Hc|constructor].
Qed.
End V.

Definition aliased_columns (o : obj) : Prop :=
  forall c e, occurs (OColumn c) o -> c_entity c = Some e -> e_alias e <> None.
Lemma visit_qualified mql o : aliased_columns o -> visit mql true o = visit mql false (qualified o).
Proof.
  intros H. apply visit_rename.
  - intros e. unfold tr_entity, qualified_entity. destruct (e_alias e) as [a|] eqn:E; [|rewrite E; reflexivity].
    cbn [e_alias e_name e_sample]. rewrite <- !app_assoc. reflexivity.
  - intros c Hc. unfold tr_column, qualified_column. destruct (c_entity c) as [e|] eqn:E; [|rewrite E; reflexivity].
    destruct (e_alias e) as [a|] eqn:Ea; [|elim (H c e Hc E Ea)]. cbn [c_entity c_name].
    rewrite <- !app_assoc. reflexivity.
Qed.
Lemma visit_bare mql o : visit mql false o = visit mql false (bare o).
Proof.
  apply visit_rename.
  - intros e. unfold tr_entity, bare_entity. cbn. destruct (e_alias e); reflexivity.
  - intros c _. unfold tr_column, bare_column. cbn. destruct (c_entity c); reflexivity.
Qed.
Lemma wf_occurs x o : occurs x o -> wf o -> wf x.
Proof.
  induction 1; intros W; try assumption; apply IHoccurs; inversion W; subst;
    try match goal with I : In ?y ?l, F : Forall wf ?l |- wf ?y => rewrite Forall_forall in F; apply F, I end;
    try (constructor; assumption); try assumption.
  - constructor. match goal with F : Forall wf_column _ |- _ => rewrite Forall_forall in F; apply F, H end.
  - constructor. match goal with F : wf_rel _ |- _ => apply F end.
  - constructor. match goal with F : wf_rel _ |- _ => apply F end.
  - constructor. match goal with F : wf_join _ |- _ => destruct F as (_ & F & _); rename F into HF end. rename HF into F. rewrite Forall_forall in F. apply F, H.
  - constructor. match goal with F : wf_column _ |- _ => apply F, H end.
Qed.
Lemma wf_aliased_columns o : wf o -> aliased_columns o.
Proof.
  intros W c e H E. apply wf_occurs in H; [|exact W]. inversion H; subst. apply H1, E.
Qed.
End R.
