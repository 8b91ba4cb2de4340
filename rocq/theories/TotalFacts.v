(** C20, C33: printing an object of the right shape fails only on the named hazards, and Python-equal objects
    print or fail alike. *)
From Verif Require Import PyBase PyFacts DateTime Utf8 Objects Exprs SpecExpr ExprFacts ExprProps WfFacts Translate Finder Optimizer Query
  SpecText TextFacts LiteralFacts SpecTime TimeProps SpecOccurs TameFacts SpecQuery RenameFacts PrintProps SpecLogic OptFacts
  SpecSetters SetterProps SpecRefs FinderFacts ValidateProps SpecHazard PyEqFacts.

Section T.
Context {RT : PyRT}.

Lemma is_scalar_iff o : is_scalar o = Ok true <-> scalar o.
Proof.
  split; [apply is_scalar_true|]. intros S.
  destruct (is_scalar_spec o) as [[H _]|[(_ & H & _)|(_ & H & _)]]; [exact H|elim (H S)..].
Qed.
(** what can be printed: scalars and expressions *)
Definition shown (o : obj) : Prop := scalar o \/ expression o.
Fixpoint fine (o : obj) : bool :=
  match o with
  | OBytes b => match utf8_decode b with Some _ => true | None => false end
  | ODateTime t => is_ok (to_naive_utc t)
  | OList l | OTuple l => forallb fine l
  | OFunc _ _ _ il _ pl _ => forallb fine il && forallb fine pl
  | OLambda _ _ b => fine b
  | OCond l o r => fine l && (is_unary o || fine r)
  | OBoolC _ _ _ l => forallb fine l
  | OOrderBy e _ => fine e
  | OExtrapolate _ => false
  | _ => true
  end.

Definition tot (al : bool) (o : obj) : Prop :=
  is_ok (visit false al o) = fine o
  /\ forall e, visit false al o = Raise e -> exists x, occurs x o /\ hazard e x.

Lemma mapM_tot al l : Forall (tot al) l -> is_ok (mapM (visit false al) l) = forallb fine l
  /\ forall e, mapM (visit false al) l = Raise e -> exists y x, In y l /\ occurs x y /\ hazard e x.
Proof.
  induction 1 as [|y l [T1 T2] _ [I1 I2]]; [split; [reflexivity|discriminate]|]. cbn [mapM forallb].
  destruct (visit false al y) as [s|e] eqn:E; cbn [bind].
  - cbn in T1. rewrite <- T1. destruct (mapM (visit false al) l) as [r|e]; cbn.
    + split; [exact I1|discriminate].
    + split; [exact I1|]. intros e' H. injection H as <-. destruct (I2 e eq_refl) as (y' & x & H1 & H2 & H3).
      exists y', x. split; [right; exact H1|split; assumption].
  - cbn in T1. rewrite <- T1. split; [reflexivity|]. intros e' H. injection H as <-.
    destruct (T2 e eq_refl) as (x & H1 & H2). exists y, x. split; [left; reflexivity|split; assumption].
Qed.
Lemma params_mapM al l : Forall param_ok l -> visit_params false al l = mapM (visit false al) l.
Proof.
  induction 1 as [|x l P _ IH]; [reflexivity|]. cbn [visit_params mapM]. rewrite IH.
  destruct (is_param_expr x) eqn:B; [reflexivity|]. destruct P as [P|P].
  - exfalso. revert B. inversion P as [o Q|o Q| |]; subst; try (inversion Q; subst); discriminate.
  - apply is_scalar_iff in P. rewrite P. reflexivity.
Qed.
Lemma inits_all l : Forall (fun x => init_ok x = true) l -> filter init_ok l = l.
Proof. induction 1 as [|x l H _ IH]; [reflexivity|]. cbn [filter]. rewrite H, IH. reflexivity. Qed.

Lemma scalar_lt_shown l : scalar (OList l) \/ scalar (OTuple l) -> Forall shown l.
Proof. intros [H|H]; inversion H as [o L| |]; subst; try (inversion L); assumption. Qed.
Lemma init_shown x : init_ok x = true -> shown x.
Proof. destruct x; try discriminate; intros _; unfold shown; solve [left; constructor; constructor|right; constructor]. Qed.
Lemma param_shown x : param_ok x -> shown x.
Proof.
  intros [P|P]; [right|left; exact P]. inversion P as [o Q|o Q| |]; subst; try (inversion Q; subst); constructor.
Qed.
Lemma condition_shown x : is_condition_obj x = true -> shown x.
Proof. destruct x; try discriminate; right; constructor. Qed.
Lemma colfunc_shown x : is_col_or_func x = true -> shown x.
Proof. destruct x; try discriminate; right; constructor. Qed.
Lemma func_shown x : is_func x = true -> shown x.
Proof. destruct x; try discriminate; right; constructor. Qed.
Lemma rhs_shown l o r : check_condition l o r = Ok tt -> is_col_or_func l = true /\ (is_col_or_func r = true \/ scalar r).
Proof.
  intros H. unfold check_condition in H.
  destruct (is_col_or_func l); [|discriminate]. split; [reflexivity|]. cbn in H.
  destruct (is_unary o && _); [discriminate|]. destruct (is_col_or_func r) eqn:C; [auto|].
  apply bind_Ok in H as (b & E & H). destruct b; [|discriminate]. right. apply is_scalar_true, E.
Qed.

Lemma visit_tot al o : wf o -> shown o -> tot al o.
Proof.
  induction o using obj_ind'; intros W S; inversion W; subst;
    try (split; [reflexivity|cbn [visit stringify_literal]; discriminate]);
    try (exfalso; destruct S as [S|S]; [inversion S; match goal with L : literal _ |- _ => inversion L end|inversion S]; fail).
  - split; cbn [visit stringify_literal fine].
    + destruct (utf8_decode b); reflexivity.
    + destruct (utf8_decode b) eqn:D; [discriminate|]. intros e H. injection H as <-. exists (OBytes b).
      split; [constructor|]. constructor. intros s V ->. rewrite utf8_decode_encode in D by exact V. discriminate.
  - split; cbn [visit stringify_literal fine].
    + destruct (to_naive_utc t); reflexivity.
    + intros e H. destruct (dt_tz t) as [off|] eqn:Z; [|unfold to_naive_utc in H; rewrite Z in H; discriminate].
      assert (R : real_datetime t) by (apply real_datetime_iff; assumption).
      destruct (c15_aware false al t off R Z) as [(u & i & iso & _ & _ & _ & _ & _ & H')|(H' & N)].
      * cbn [visit stringify_literal] in H'. rewrite H' in H. discriminate.
      * cbn [visit stringify_literal] in H'. rewrite H' in H. injection H as <-. exists (ODateTime t). split; [constructor|].
        constructor; [exact R|exact N].
  - assert (SL : Forall shown l) by (apply scalar_lt_shown; destruct S as [S|S]; [auto|inversion S]).
    assert (SS : is_scalar (OList l) = Ok true) by (apply is_scalar_iff; destruct S as [S|S]; [exact S|inversion S]).
    assert (M : Forall (tot al) l) by (rewrite Forall_forall in *; auto).
    apply (mapM_tot al) in M as [M1 M2]. unfold tot. rewrite visit_list, SS. cbn [bind fine]. rewrite <- M1.
    destruct (mapM (visit false al) l) as [r|e]; cbn [bind is_ok]; (split; [reflexivity|]); [discriminate|].
    intros e' H'. injection H' as <-. destruct (M2 e eq_refl) as (y & x & H2 & H3 & H4). exists x. split; [|exact H4]. econstructor; eassumption.
  - assert (SL : Forall shown l) by (apply scalar_lt_shown; destruct S as [S|S]; [auto|inversion S]).
    assert (SS : is_scalar (OTuple l) = Ok true) by (apply is_scalar_iff; destruct S as [S|S]; [exact S|inversion S]).
    assert (M : Forall (tot al) l) by (rewrite Forall_forall in *; auto).
    apply (mapM_tot al) in M as [M1 M2]. unfold tot. rewrite visit_tuple, SS. cbn [bind fine]. rewrite <- M1.
    destruct (mapM (visit false al) l) as [r|e]; cbn [bind is_ok]; (split; [reflexivity|]); [discriminate|].
    intros e' H'. injection H' as <-. destruct (M2 e eq_refl) as (y & x & H2 & H3 & H4). exists x. split; [|exact H4]. econstructor; eassumption.
  - assert (MI : Forall (tot al) il).
    { rewrite Forall_forall in *. intros x Hx. apply H; auto using init_shown. }
    assert (MP : Forall (tot al) pl).
    { rewrite Forall_forall in *. intros x Hx. apply H0; auto using param_shown. }
    apply (mapM_tot al) in MI as [I1 I2]. apply (mapM_tot al) in MP as [P1 P2].
    unfold tot. rewrite visit_func, inits_all, params_mapM by assumption. cbn [fine]. rewrite <- I1, <- P1.
    assert (K : forall e, mapM (visit false al) il = Raise e \/ mapM (visit false al) pl = Raise e ->
      exists x, occurs x (OFunc f n ik il pk pl a) /\ hazard e x).
    { intros e [E|E]; [apply I2 in E as (y & x & H2 & H3 & H4)|apply P2 in E as (y & x & H2 & H3 & H4)]; exists x; (split; [|exact H4]).
      - eapply oc_init; eassumption.
      - eapply oc_param; eassumption. }
    destruct ik; [match goal with H : KNone = KNone -> il = [] |- _ => rewrite (H eq_refl) in * end|..];
    (destruct pk; [match goal with H : KNone = KNone -> pl = [] |- _ => rewrite (H eq_refl) in * end|..]);
      try (destruct (mapM (visit false al) il) as [ri|ei]); try (destruct (mapM (visit false al) pl) as [rp|ep]); cbn [mapM bind is_ok andb];
      (split; [reflexivity|]); intros e E; try discriminate E; injection E as <-; apply K; auto.
  - assert (T : tot al o) by (apply IHo; [assumption|apply func_shown; assumption]). destruct T as [T1 T2].
    unfold tot. cbn [visit fine]. rewrite <- T1. destruct (visit false al o); cbn [bind is_ok]; (split; [reflexivity|]); [discriminate|].
    intros e0 E0. injection E0 as <-. destruct (T2 _ eq_refl) as (x & O & Hz). exists x. split; [constructor; exact O|exact Hz].
  - match goal with H : check_condition _ _ _ = _ |- _ => apply rhs_shown in H as [SL SR] end.
    assert (TL : tot al o1) by (apply IHo1; [assumption|apply colfunc_shown; assumption]). destruct TL as [L1 L2].
    assert (TR : tot al o3).
    { apply IHo2; [assumption|]. destruct SR as [SR|SR]; [apply colfunc_shown; exact SR|left; exact SR]. }
    destruct TR as [R1 R2].
    assert (KL : forall e, visit false al o1 = Raise e -> exists x, occurs x (OCond o1 o2 o3) /\ hazard e x).
    { intros e E. destruct (L2 e E) as (x & O & Hz). exists x. split; [apply oc_lhs; exact O|exact Hz]. }
    assert (KR : forall e, visit false al o3 = Raise e -> exists x, occurs x (OCond o1 o2 o3) /\ hazard e x).
    { intros e E. destruct (R2 e E) as (x & O & Hz). exists x. split; [apply oc_rhs; exact O|exact Hz]. }
    unfold tot. rewrite visit_cond. cbn [fine].
    assert (E : (if is_unary o2 then Ok [] else if is_col_or_func o3 then let! s := visit false al o3 in Ok ($" " ++ s)
       else let! b := is_scalar o3 in if b then let! s := visit false al o3 in Ok ($" " ++ s) else Raise AssertionError)
      = if is_unary o2 then Ok [] else let! s := visit false al o3 in Ok ($" " ++ s)).
    { destruct (is_unary o2); [reflexivity|]. destruct (is_col_or_func o3); [reflexivity|]. destruct SR as [SR|SR]; [discriminate|].
      apply is_scalar_iff in SR. rewrite SR. reflexivity. }
    rewrite E. rewrite <- L1. destruct (is_unary o2); cbn [bind orb].
    + destruct (visit false al o1); cbn [bind is_ok andb]; (split; [reflexivity|]); [discriminate|]. intros e0 E0. injection E0 as <-. auto.
    + rewrite <- R1. destruct (visit false al o3); cbn [bind is_ok andb].
      * destruct (visit false al o1); cbn [bind is_ok andb]; (split; [reflexivity|]); [discriminate|]. intros e0 E0. injection E0 as <-. auto.
      * rewrite andb_false_r. split; [reflexivity|]. intros e' H'. injection H' as <-. auto.
  - assert (M : Forall (tot al) l).
    { rewrite Forall_forall in *. intros x Hx. apply H; auto using condition_shown. }
    apply (mapM_tot al) in M as [M1 M2]. unfold tot. rewrite visit_bool. cbn [fine]. rewrite <- M1.
    destruct (mapM (visit false al) l) as [r|e]; cbn [bind is_ok]; (split; [reflexivity|]); [discriminate|].
    intros e' H'. injection H' as <-. destruct (M2 e eq_refl) as (y & x & G3 & G4 & G5). exists x. split; [|exact G5]. econstructor; eassumption.
  - assert (T : tot al o) by (apply IHo; [assumption|apply colfunc_shown; assumption]). destruct T as [T1 T2].
    unfold tot. cbn [visit fine]. rewrite <- T1. destruct (visit false al o); cbn [bind is_ok]; (split; [reflexivity|]); [discriminate|].
    intros e0 E0. injection E0 as <-. destruct (T2 _ eq_refl) as (x & O & Hz). exists x. split; [constructor; exact O|exact Hz].
  - split; [reflexivity|]. cbn [visit]. intros e E. injection E as <-. eexists. split; constructor.
Qed.

(** * Python-equal objects *)
Lemma fine_list l m : Forall (fun a => forall b, wf a -> wf b -> py_eq a b = true -> fine a = fine b) l ->
  Forall wf l -> Forall wf m -> eq_list l m = true -> forallb fine l = forallb fine m.
Proof.
  intros H W V E. apply eq_list_Forall2 in E. induction E as [|a b l m E _ IH]; [reflexivity|]. cbn [forallb].
  inversion_clear H. inversion_clear W. inversion_clear V. rewrite IH by assumption. f_equal. auto.
Qed.
Lemma py_eq_fine a : forall b, wf a -> wf b -> py_eq a b = true -> fine a = fine b.
Proof.
  induction a using obj_ind'; intros y W V E; destruct y; try reflexivity; try discriminate E;
    inversion W; subst; inversion V; subst.
  - cbn in E. apply str_eqb_eq in E. subst. reflexivity.
  - cbn [py_eq] in E. cbn [fine]. rewrite (datetime_eq_text t t0); [reflexivity|assumption..].
  - cbn [py_eq] in E. fold eq_list in E. cbn [fine]. apply fine_list; assumption.
  - cbn [py_eq] in E. fold eq_list in E. cbn [fine]. apply fine_list; assumption.
  - cbn [py_eq] in E. apply andb_true_iff in E as [E Ea]. apply andb_true_iff in E as [E E5].
    apply andb_true_iff in E as [E E4]. apply andb_true_iff in E as [E E3].
    match type of E3 with ?t = true => change (eq_list il inits = true) in E3 end.
    match type of E5 with ?t = true => change (eq_list pl params = true) in E5 end.
    cbn [fine]. f_equal; apply fine_list; assumption.
  - cbn [py_eq] in E. apply andb_true_iff in E as [E Eb]. cbn [fine]. auto.
  - cbn [py_eq] in E. apply andb_true_iff in E as [E Er]. apply andb_true_iff in E as [El Eo].
    match type of Eo with op_eqb ?p ?p' = true => assert (p = p') as -> by (destruct p, p'; cbn in Eo; congruence) end. cbn [fine]. f_equal; [auto|]. f_equal. auto.
  - cbn [py_eq] in E. apply andb_true_iff in E as [E El].
    match type of El with ?t = true => change (eq_list l conds = true) in El end. cbn [fine]. apply fine_list; assumption.
  - cbn [py_eq] in E. apply andb_true_iff in E as [E Eb]. cbn [fine]. auto.
Qed.
End T.
