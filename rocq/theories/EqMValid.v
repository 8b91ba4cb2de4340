(** Equal metrics queries are equally valid (C77). *)
From Verif Require Import PyBase PyFacts DateTime Objects Exprs Query SpecExpr ExprFacts WfFacts SpecOccurs LiteralFacts PyEqFacts Optimizer OptFacts Metrics Mql MetricsQuery
  MetricsFacts MetricsQueryFacts SpecMetricsQuery SpecEqual SpecMEqual EqText EqMql EqValid.
From Verif Require SpecMetrics FormulaFacts.

Section E.
Context {RT : PyRT} {ST : PyStr}.
Ltac ands := repeat match goal with H : _ && _ = true |- _ => apply andb4 in H as [? ?] end.
Notation groups := (Forall SpecMetrics.groupable).
Lemma eqs_Forall2 l m : eq_list l m = true <-> Forall2 peq l m.
Proof. split; [apply eq_list_Forall2|]. induction 1 as [|a b l m E F IH]; [reflexivity|]. cbn. unfold peq in E. rewrite E. exact IH. Qed.
Lemma group_trans a b c : SpecMetrics.groupable a -> peq a b -> peq b c -> peq a c.
Proof.
  unfold peq. intros G E F. destruct G as [(x & ->)|(x & al & ->)]; destruct b; try discriminate E; destruct c; try discriminate F; cbn [py_eq] in *; ands.
  - eapply column_trans; eassumption.
  - apply andb_true_iff. split; [eapply column_trans; eassumption|eapply (option_trans _ str_trans); eassumption].
Qed.
Lemma groups_trans l m n : groups l -> Forall2 peq l m -> Forall2 peq m n -> Forall2 peq l n.
Proof.
  intros G F. revert n. induction F as [|a b l m E F IH]; intros n H; [exact H|]. inversion H; subst. inversion_clear G.
  constructor; [eapply group_trans; eassumption|apply IH; assumption].
Qed.
Lemma peqs_sym l m : Forall2 peq l m -> Forall2 peq m l.
Proof. induction 1; constructor; [unfold peq; rewrite py_eq_sym|]; assumption. Qed.
Lemma one_eq l m : Forall groups l -> Forall groups m -> Forall2 (Forall2 peq) l m -> one_groupby l = one_groupby m.
Proof.
  intros G H F. destruct F as [|g g' l m E F]; [reflexivity|]. cbn [one_groupby]. inversion_clear G. inversion_clear H.
  assert (K : forall h h', groups h -> groups h' -> Forall2 peq h h' -> same_element h g = same_element h' g').
  { intros h h' Gh Gh' Eh. rewrite !FormulaFacts.same_element_eq by assumption. apply Bool.eq_iff_eq_true. change (eq_list h g = true <-> eq_list h' g' = true). rewrite !eqs_Forall2. split; intros X.
    - apply (groups_trans h' h g' Gh' (peqs_sym _ _ Eh)). exact (groups_trans h g g' Gh X E).
    - apply (groups_trans h h' g Gh Eh). exact (groups_trans h' g' g Gh' X (peqs_sym _ _ E)). }
  clear E H0 H2. induction F as [|h h' l m E F IH]; [reflexivity|]. inversion_clear H1. inversion_clear H3. cbn [forallb].
  rewrite (K h h'), IH by assumption. reflexivity.
Qed.

(** * Formulas *)
Definition walks (r r' : list (list obj) * bool) : Prop :=
  Forall2 (Forall2 peq) (fst r) (fst r') /\ Forall groups (fst r) /\ Forall groups (fst r') /\ snd r = snd r'.
Lemma walks_app a b a' b' : walks a a' -> walks b b' -> walks (fst a ++ fst b, snd a || snd b) (fst a' ++ fst b', snd a' || snd b').
Proof.
  intros (F & G & H & E) (F' & G' & H' & E'). split; [apply Forall2_app; assumption|]. split; [apply Forall_app; split; assumption|].
  split; [apply Forall_app; split; assumption|]. cbn. congruence.
Qed.
Lemma group_hash l : groups l -> forallb hashable l = true.
Proof. intros G. apply forallb_forall. rewrite Forall_forall in G. intros x I. destruct (G x I) as [(c & ->)|(c & a & ->)]; reflexivity. Qed.
Lemma key_list l : groups l -> groupby_key (OList l) = Ok [l].
Proof. intros G. change (groupby_key (OList l)) with (if forallb hashable l then Ok [l] else Raise TypeError). rewrite (group_hash l G). reflexivity. Qed.
Lemma is_groups good l : Forall (is_group good) l -> groups l.
Proof. apply Forall_impl. intros x (_ & X). exact X. Qed.
Lemma key_eq good g g' b : opt_all_obj (is_group good) g -> opt_all_obj (is_group good) g' -> peq g g' ->
  rel walks (let! k := groupby_key g in Ok (k, b)) (let! k := groupby_key g' in Ok (k, b)).
Proof.
  intros [->|(l & -> & G)] [->|(m & -> & H)] E; try discriminate E; [repeat constructor|].
  apply is_groups in G, H. rewrite (key_list l G), (key_list m H). cbn [bind rel].
  split; [|split; [|split]]; try (repeat constructor; assumption). repeat constructor. apply eqs_Forall2, E.
Qed.

Definition walk_all := fix all (l : list mval) : result (list (list obj) * bool) :=
  match l with
  | [] => Ok ([], false)
  | x :: l' => let! a := walk x in let! b := all l' in Ok (fst a ++ fst b, snd a || snd b)
  end.
Lemma walk_eq good v : forall v', built good v -> built good v' -> mv_eq v v' = true -> rel walks (walk v) (walk v').
Proof.
  induction v as [o|m|t|r|s|n pk ps a f g IH] using mval_ind'; intros v' B B' E;
    destruct v' as [o'|m'|t'|r'|s'|n' pk' ps' a' f' g']; try discriminate E; try (repeat constructor; fail).
  - cbn [walk]. cbn [mv_eq] in E. unfold ts_eqb in E. ands. inversion B; inversion B'; subst. apply (key_eq good).
    + destruct (ts_groupby t) as [l|]; [right; exists l; auto|left; reflexivity].
    + destruct (ts_groupby t') as [l|]; [right; exists l; auto|left; reflexivity].
    + destruct (ts_groupby t), (ts_groupby t'); try discriminate; [assumption|reflexivity].
  - cbn [mv_eq] in E. change (fix eql (l1 l2 : list mval) : bool := _) with eq_mvals in E. ands. inversion B; inversion B'; subst.
    cbn [walk]. change (fix all (l : list mval) : result (list (list obj) * bool) := _) with walk_all.
    assert (A : rel walks (walk_all ps) (walk_all ps')).
    { match goal with X : eq_mvals ps ps' = true, Y : Forall (built good) ps, Z : Forall (built good) ps' |- _ => revert X Y Z; clear - IH; rename ps' into qs; revert qs end.
      induction ps as [|p ps IHps]; intros [|q qs] E P Q; cbn [eq_mvals] in E; try discriminate E; [repeat constructor|]. ands.
      inversion_clear IH. inversion_clear P. inversion_clear Q. cbn [walk_all].
      eapply rel_bind; [apply H1; assumption|]. intros x y X. eapply rel_bind; [apply IHps; eassumption|]. intros u w U. apply walks_app; assumption. }
    match goal with X : opt_all_obj _ g, Y : opt_all_obj _ g', Z : py_eq g g' = true |- _ => pose proof (key_eq good g g' false X Y Z) as K end.
    destruct (groupby_key g) as [x|], (groupby_key g') as [x'|]; cbn [bind rel] in *; try contradiction; [|exact K].
    destruct (walk_all ps) as [y|], (walk_all ps') as [y'|]; cbn [bind rel] in *; try contradiction; [|exact A].
    exact (walks_app (x, false) y (x', false) y' K A).
Qed.
Lemma forallb_eq {A} (f : A -> bool) (R : A -> A -> Prop) l m : Forall2 R l m -> (forall x y, R x y -> f x = f y) -> forallb f l = forallb f m.
Proof. intros F H. induction F as [|x y l m X F IH]; [reflexivity|]. cbn. rewrite (H x y X), IH. reflexivity. Qed.
Lemma param_kind v v' : mv_eq v v' = true -> is_formula_param v = is_formula_param v'.
Proof. destruct v as [o| | | | |], v' as [o'| | | | |]; try discriminate; try reflexivity. cbn. destruct o, o'; try discriminate; reflexivity. Qed.
Lemma eq_mvals_Forall2 l : forall m, eq_mvals l m = true -> Forall2 (fun v v' => mv_eq v v' = true) l m.
Proof. induction l as [|x l IH]; intros [|y m] E; cbn [eq_mvals] in E; try discriminate E; constructor; ands; auto. Qed.

(** * Timeseries *)
Lemma opt_list_valid f x y e : (forall a b, peq a b -> f a = f b) -> opt_list_eqb x y = true ->
  rel (fun _ _ => True) (as_opt_list f (obj_of_opt OList x) e) (as_opt_list f (obj_of_opt OList y) e).
Proof.
  intros H E. destruct x as [l|], y as [m|]; try discriminate E; [|exact I]. cbn [obj_of_opt as_opt_list].
  change (eq_list l m = true) in E. apply eqs_Forall2 in E. rewrite (forallb_eq f peq l m E H). destruct (forallb f m); reflexivity || exact I.
Qed.
Lemma metric_valid m m' : metric_eqb m m' = true -> metric_validate m = metric_validate m'.
Proof.
  unfold metric_eqb. destruct m as [p r i], m' as [p' r' i']. cbn [m_public m_mri m_id]. intros E. ands.
  destruct p, p', r, r', i as [[]|], i' as [[]|]; try discriminate; reflexivity.
Qed.
Lemma kind_lit a b : peq a b -> is_literal a = is_literal b.
Proof. apply peq_kind. Qed.
Lemma kind_cond a b : peq a b -> is_condition_obj a = is_condition_obj b.
Proof. unfold peq. destruct a, b; try discriminate; reflexivity. Qed.
Lemma kind_group a b : peq a b -> is_groupable a = is_groupable b.
Proof. unfold peq. destruct a, b; try discriminate; reflexivity. Qed.
Lemma ts_valid t t' : ts_eqb t t' = true -> ts_validate t = ts_validate t'.
Proof.
  unfold ts_eqb. intros E. ands. unfold ts_validate, ts_fields, mk_timeseries.
  match goal with X : metric_eqb _ _ = true |- _ => rewrite (metric_valid _ _ X) end. destruct (metric_validate (ts_metric t')) as [[]|]; [|reflexivity]. cbn [bind].
  apply rel_eq. apply (rel_bind (fun _ _ => True)); [|reflexivity].
  eapply rel_bind; [apply (opt_list_valid is_literal); [exact kind_lit|assumption]|]. intros x1 y1 _.
  eapply rel_bind; [apply (opt_list_valid is_condition_obj); [exact kind_cond|assumption]|]. intros x2 y2 _.
  eapply rel_bind; [apply (opt_list_valid is_groupable); [exact kind_group|assumption]|]. intros x3 y3 _. exact I.
Qed.
Lemma mval_valid good v v' : built good v -> built good v' -> mv_eq v v' = true -> mval_validate v = mval_validate v'.
Proof.
  intros B B' E. destruct v as [o|m|t|r|s|n pk ps a f g], v' as [o'|m'|t'|r'|s'|n' pk' ps' a' f' g']; try discriminate E; try reflexivity.
  - apply ts_valid, E.
  - pose proof (walk_eq good (VFormula n pk ps ONone ONone g) (VFormula n' pk' ps' ONone ONone g')) as W.
    cbn [mv_eq] in E, W. change (fix eql (l1 l2 : list mval) : bool := _) with eq_mvals in E, W. ands. inversion B; inversion B'; subst.
    cbn [mval_validate]. unfold formula_validate.
    assert (Q : k = k0) by (match goal with X : option_eqb seqk_eqb _ _ = true |- _ => destruct k, k0; try discriminate X; reflexivity end). subst k0.
    rewrite (forallb_eq is_formula_param _ ps ps' (eq_mvals_Forall2 ps ps' ltac:(assumption)) param_kind).
    assert (W' : rel walks (walk (VFormula (OStr n0) (Some k) ps ONone ONone g)) (walk (VFormula (OStr n1) (Some k) ps' ONone ONone g'))).
    { apply W; [constructor; try assumption; left; reflexivity|constructor; try assumption; left; reflexivity|].
      rewrite !andb_true_iff. repeat split; try assumption. }
    destruct k; try congruence; (destruct (forallb is_formula_param ps'); [|reflexivity]); cbn [assert_ bind];
      (destruct (walk (VFormula (OStr n0) _ ps ONone ONone g)) as [x|], (walk (VFormula (OStr n1) _ ps' ONone ONone g')) as [x'|]; cbn [rel] in W'; try contradiction; [|subst; reflexivity]);
      destruct W' as (F & G & H' & S'); cbn [bind]; rewrite S', (one_eq _ _ G H' F); reflexivity.
Qed.

(** * The whole query *)
Definition as_flt (o : obj) : option flt :=
  match num_of o with Some (inl z) => Some (flt_of_Z z) | Some (inr f) => Some f | None => None end.
Lemma flt_eqb_Z x y : flt_eqb (flt_of_Z x) (flt_of_Z y) = Z.eqb x y.
Proof.
  unfold flt_of_Z, flt_eqb. rewrite fin_cmp_Z. change (Z.max 0 (- 0)) with 0%Z. change (Z.max 0 0) with 0%Z. rewrite !Z.mul_1_r.
  replace (sgn (y <? 0)%Z * Z.of_N (Z.abs_N y))%Z with y by (unfold sgn; rewrite N2Z.inj_abs_N; destruct (Z.ltb_spec y 0); lia).
  unfold Z.eqb. destruct (Z.compare_spec x y), x, y; try reflexivity; try lia; symmetry; apply Pos.eqb_eq || apply Pos.eqb_neq; congruence || lia.
Qed.
Lemma num_eq_flt a b x y : as_flt a = Some x -> as_flt b = Some y -> py_eq a b = flt_eqb x y.
Proof.
  unfold as_flt. destruct a; try discriminate; destruct b; try discriminate; cbn [num_of]; intros X Y; injection X as <-; injection Y as <-;
    cbn [py_eq num_of num_eqb]; rewrite ?flt_eqb_Z; try reflexivity; apply flt_eqb_sym.
Qed.
Lemma num_kind a b : peq a b -> (as_flt a = None <-> as_flt b = None).
Proof. unfold peq. destruct a; destruct b; try discriminate; intros _; split; try reflexivity; discriminate. Qed.
Lemma allowed_eq a b : peq a b -> forall z, py_eq a (OInt z) = py_eq b (OInt z).
Proof.
  intros E z. pose proof (num_kind a b E) as K. destruct (as_flt a) as [x|] eqn:A, (as_flt b) as [y|] eqn:B;
    [|destruct K as [_ K]; specialize (K eq_refl); discriminate|destruct K as [K _]; specialize (K eq_refl); discriminate|].
  - rewrite (num_eq_flt a (OInt z) x (flt_of_Z z) A eq_refl), (num_eq_flt b (OInt z) y (flt_of_Z z) B eq_refl).
    unfold peq in E. rewrite (num_eq_flt a b x y A B) in E. apply Bool.eq_iff_eq_true. split; intros H.
    + eapply flt_eqb_trans; [|exact H]. rewrite flt_eqb_sym. exact E.
    + eapply flt_eqb_trans; eassumption.
  - unfold as_flt in A, B. destruct a; try discriminate A; destruct b; try discriminate B; reflexivity.
Qed.
Definition flt_lt (i : Z) (f : flt) : bool :=
  match f with
  | FNan => false | FInf neg => negb neg
  | FFin n m e => match fin_cmp (i <? 0)%Z (Z.abs_N i) 0 n m e with Lt => true | _ => false end
  end.
Lemma int_lt_flt i g : int_lt i g = match as_flt g with Some f => Ok (flt_lt i f) | None => Raise TypeError end.
Proof.
  assert (K : forall z, (i <? z)%Z = flt_lt i (flt_of_Z z)).
  { intros z. unfold flt_lt, flt_of_Z. rewrite fin_cmp_Z. change (Z.max 0 (- 0)) with 0%Z. change (Z.max 0 0) with 0%Z. rewrite !Z.mul_1_r.
    replace (sgn (z <? 0)%Z * Z.of_N (Z.abs_N z))%Z with z by (unfold sgn; rewrite N2Z.inj_abs_N; destruct (Z.ltb_spec z 0); lia). reflexivity. }
  unfold int_lt, as_flt. destruct g; try reflexivity; cbn [num_of]; rewrite ?K; try reflexivity. destruct f; reflexivity.
Qed.
Lemma flt_lt_eq i f g : flt_eqb f g = true -> flt_lt i f = flt_lt i g.
Proof.
  destruct f as [|x|n m e], g as [|y|n' m' e']; try discriminate; [intros E; apply Bool.eqb_prop in E; subst; reflexivity|].
  set (k := Z.min 0 (Z.min e e')). intros E. apply (flt_eqb_fin _ _ _ _ _ _ k) in E; [|lia|lia]. cbn [flt_lt].
  rewrite (fin_cmp_base _ _ _ n m e k), (fin_cmp_base _ _ _ n' m' e' k), E by lia. reflexivity.
Qed.
Lemma int_lt_eq i a b : peq a b -> int_lt i a = int_lt i b.
Proof.
  intros E. rewrite !int_lt_flt. pose proof (num_kind a b E) as K. destruct (as_flt a) as [x|] eqn:A, (as_flt b) as [y|] eqn:B;
    [|destruct K as [_ K]; specialize (K eq_refl); discriminate|destruct K as [K _]; specialize (K eq_refl); discriminate|reflexivity].
  f_equal. apply flt_lt_eq. unfold peq in E. rewrite (num_eq_flt a b x y A B) in E. exact E.
Qed.
Lemma rollup_valid r r' : rollup_eqb r r' = true -> rollup_validate r = rollup_validate r' /\ is_none (ro_granularity r) = is_none (ro_granularity r').
Proof.
  unfold rollup_eqb. destruct r as [i t d g], r' as [i' t' d' g']. cbn [ro_interval ro_totals ro_orderby ro_granularity]. intros E. ands.
  assert (G : peq g g') by assumption. pose proof (peq_kind g g' G) as (_ & _ & N). split; [|exact N].
  assert (t = t') as <- by (destruct t as [[]|], t' as [[]|]; try discriminate; reflexivity).
  assert (d = d') as <- by (destruct d as [[]|], d' as [[]|]; try discriminate; reflexivity).
  unfold rollup_validate. cbn [ro_interval ro_totals ro_orderby ro_granularity].
  assert (P : match i, i' with Some x, Some y => pyint_Z x = pyint_Z y | None, None => True | _, _ => False end).
  { destruct i, i'; try discriminate; try exact I. apply Z.eqb_eq. assumption. }
  assert (X : existsb (fun z => py_eq g (OInt z)) allowed_granularities = existsb (fun z => py_eq g' (OInt z)) allowed_granularities).
  { unfold allowed_granularities. cbn [existsb]. rewrite !(allowed_eq g g' G). reflexivity. }
  unfold mk_rollup. rewrite X, (truthy_eq g g' G), N.
  destruct (truthy g' && negb _); [reflexivity|]. cbn [bind].
  destruct i as [x|], i' as [y|]; try contradiction; [|destruct t, d; reflexivity].
  assert (Q : forall p, as_int (obj_of_pyint p) = Some p) by (intros []; reflexivity).
  assert (O : forall p (A : Type) (u v : A), match obj_of_pyint p with ONone => u | _ => v end = v) by (intros []; reflexivity).
  cbn [obj_of_opt]. rewrite !O, !Q, P, (int_lt_eq (pyint_Z y) g g' G).
  destruct (validate_int_literal (pyint_Z y) (Some 10%Z) None) as [[]|]; [|reflexivity]. cbn [bind].
  destruct (is_none g'); cbn [bind]; [destruct t, d; reflexivity|]. destruct (int_lt (pyint_Z y) g') as [[]|]; cbn [bind]; try reflexivity.
  destruct t, d; reflexivity.
Qed.
Lemma scope_valid s s' : scope_eqb s s' = true -> scope_validate s = scope_validate s'.
Proof.
  intros _. assert (A : forall l, all_ints (map obj_of_pyint l) = Some l).
  { induction l as [|[z|b] l IH]; [reflexivity|cbn; rewrite IH; reflexivity|cbn; rewrite IH; reflexivity]. }
  unfold scope_validate, mk_scope, ints_obj, as_ints. rewrite !A. cbn [bind].
  destruct (ms_usecase s), (ms_usecase s'); reflexivity.
Qed.
Lemma int_clause_valid n lo hi (k : pyint -> obj) : bind (int_clause (obj_of_pyint n) lo hi k) (fun _ => Ok tt) = validate_int_literal (pyint_Z n) lo hi.
Proof. destruct n; unfold int_clause; cbn [obj_of_pyint as_int pyint_Z]; destruct (validate_int_literal _ lo hi) as [[]|]; reflexivity. Qed.
Lemma query_valid good v v' : (exists s, v = VObj (OStr s)) \/ built good v -> (exists s, v' = VObj (OStr s)) \/ built good v' ->
  mv_eq v v' = true -> check_query v = check_query v'.
Proof.
  intros B B' E. destruct B as [(s & ->)|B].
  - destruct v' as [o| | | | |]; try discriminate E. destruct o; try discriminate E. apply str_eqb_eq in E. subst. reflexivity.
  - destruct B' as [(s & ->)|B'].
    + destruct v as [o| | | | |]; try discriminate E. destruct o; try discriminate E. apply str_eqb_eq in E. subst. reflexivity.
    + pose proof (mval_valid good v v' B B' E) as K. inversion B; inversion B'; subst; try discriminate E; try reflexivity; exact K.
Qed.
Lemma mq_valid good q q' : (exists s, mq_query q = VObj (OStr s)) \/ built good (mq_query q) ->
  (exists s, mq_query q' = VObj (OStr s)) \/ built good (mq_query q') -> mquery_eq q q' -> mq_validate q = mq_validate q'.
Proof.
  intros B B' E. unfold mq_validate.
  assert (K : forall (A : Type) (r r' : result unit) (k k' : unit -> result A), r = r' -> k tt = k' tt -> bind r k = bind r' k')
    by (intros A r r' k k' -> H; destruct r' as [[]|]; [exact H|reflexivity]).
  apply K; [apply (query_valid good _ _ B B'), (E FQuery)|].
  assert (T : forall v v', mv_eq v v' = true -> check_time v = check_time v').
  { intros [o| | | | |] [o'| | | | |] X; try discriminate X; try reflexivity. destruct o, o'; try discriminate X; reflexivity. }
  assert (P : forall x y, Z.eqb (pyint_Z x) (pyint_Z y) = true -> pyint_Z x = pyint_Z y) by (intros x y; apply Z.eqb_eq).
  apply K; [apply T, (E FStart)|]. apply K; [apply T, (E FEnd)|].
  apply K. { pose proof (E FRollup) as X. cbn [mq_get] in X. destruct (mq_rollup q) as [o| | |r| |], (mq_rollup q') as [o'| | |r'| |]; try discriminate X; try reflexivity.
    destruct (rollup_valid r r' X) as [Y Z]. cbn [check_rollup]. rewrite Y, Z. reflexivity. }
  apply K. { pose proof (E FScope) as X. cbn [mq_get] in X. destruct (mq_scope q) as [o| | | |s|], (mq_scope q') as [o'| | | |s'|]; try discriminate X; try reflexivity.
    exact (scope_valid s s' X). }
  apply K. { pose proof (E FLimit) as X. cbn [mq_get] in X. destruct (mq_limit q) as [o| | | | |], (mq_limit q') as [o'| | | | |]; try discriminate X; try reflexivity.
    destruct o; destruct o'; try discriminate X; try reflexivity. cbn in X. apply P in X. cbn [check_limit check_offset]. unfold mk_limit, mk_offset. rewrite !int_clause_valid, X. reflexivity. }
  apply K. { pose proof (E FOffset) as X. cbn [mq_get] in X. destruct (mq_offset q) as [o| | | | |], (mq_offset q') as [o'| | | | |]; try discriminate X; try reflexivity.
    destruct o; destruct o'; try discriminate X; try reflexivity. cbn in X. apply P in X. cbn [check_limit check_offset]. unfold mk_limit, mk_offset. rewrite !int_clause_valid, X. reflexivity. }
  apply K. { pose proof (E FExtrapolate) as X. cbn [mq_get] in X. destruct (mq_extrapolate q) as [o| | | | |], (mq_extrapolate q') as [o'| | | | |]; try discriminate X; try reflexivity.
    destruct o; destruct o'; try discriminate X; reflexivity. }
  pose proof (E FIndexer) as X. cbn [mq_get] in X. destruct (mq_indexer q) as [o| | | | |], (mq_indexer q') as [o'| | | | |]; try discriminate X; try reflexivity.
  destruct o; destruct o'; try discriminate X; reflexivity.
Qed.

(** * Whole results *)
Definition text_or (good : obj -> Prop) (v : mval) : Prop := (exists s, v = VObj (OStr s)) \/ built good v.
Lemma no_indexer q : mq_validate q = Ok tt -> mq_indexer q = VObj ONone ->
  mq_payload q = let! _ := print_mq_query (mq_query q) in Raise InvalidMetricsQueryError.
Proof.
  intros V N. set (q2 := mq_put FIndexer (VObj (ODict [] [])) q).
  assert (V2 : mq_validate q2 = Ok tt).
  { destruct q as [a b c d e f g h i]. cbv [mq_get mq_indexer] in N. subst i. exact V. }
  destruct (validated_settings q2 V2) as (s & H1 & H2 & H3 & H4 & H5 & H6 & H7 & _); [destruct q; discriminate|].
  assert (X : forall f, f <> FIndexer -> mq_get f q2 = mq_get f q) by (destruct q; intros [] X; try reflexivity; contradiction X; reflexivity).
  pose proof (X FStart) as X1. pose proof (X FEnd) as X2. pose proof (X FRollup) as X3. pose proof (X FScope) as X4.
  pose proof (X FLimit) as X5. pose proof (X FOffset) as X6. pose proof (X FExtrapolate) as X7. cbn [mq_get] in *.
  unfold mq_payload. rewrite <- X1, <- X2, <- X3, <- X4, <- X5, <- X6, <- X7, N, H1, H2, H3, H4, H5, H6, H7 by discriminate.
  destruct (print_mq_query _); [|reflexivity]. cbn [bind print_time print_rollup print_scope].
  destruct (se_limit s), (se_offset s), (se_extrapolate s); reflexivity.
Qed.
Lemma payload_same q q' : mq_validate q = Ok tt -> mq_validate q' = Ok tt -> mquery_eq q q' -> same_settings q q' ->
  forall v v', print_mq_query v = print_mq_query v' -> check_query v = Ok tt -> check_query v' = Ok tt ->
  mq_payload (mq_put FQuery v q) = mq_payload (mq_put FQuery v' q').
Proof.
  intros V V' E S v v' P C C'.
  assert (W : mq_validate (mq_put FQuery v q) = Ok tt /\ mq_validate (mq_put FQuery v' q') = Ok tt).
  { assert (Z : forall q v, mq_validate q = Ok tt -> check_query v = Ok tt -> mq_validate (mq_put FQuery v q) = Ok tt).
    { clear. intros q v V C. unfold mq_validate in *. apply bind_Ok in V as (u & _ & V).
      replace (mq_query (mq_put FQuery v q)) with v by (destruct q; reflexivity). rewrite C. destruct q. exact V. }
    split; apply Z; assumption. }
  assert (F : forall q v, mq_query (mq_put FQuery v q) = v) by (intros []; reflexivity).
  assert (G : forall q v, mq_indexer (mq_put FQuery v q) = mq_indexer q) by (intros []; reflexivity).
  pose proof (E FIndexer) as X. cbn [mq_get] in X.
  assert (D : mq_indexer q = VObj ONone \/ mq_indexer q <> VObj ONone) by (destruct (mq_indexer q) as [[]| | | | |]; auto; right; discriminate).
  destruct D as [D|D].
  - assert (D' : mq_indexer q' = VObj ONone) by (rewrite D in X; destruct (mq_indexer q') as [[]| | | | |]; try discriminate X; reflexivity).
    rewrite !no_indexer, !F, P by (try apply W; rewrite G; assumption). reflexivity.
  - assert (D' : mq_indexer q' <> VObj ONone) by (intros D'; rewrite D' in X; destruct (mq_indexer q) as [[]| | | | |]; try discriminate X; apply D; reflexivity).
    destruct (validated_settings q V D) as (s & H), (validated_settings q' V' D') as (s' & H'). assert (s = s') as <- by (eapply settings_eq; eassumption).
    rewrite (payload_settings _ s) by (apply has_settings_put, H). rewrite (payload_settings _ s) by (apply has_settings_put, H'). rewrite !F, P. reflexivity.
Qed.
Lemma results_same q q' : text_or wf (mq_query q) -> text_or wf (mq_query q') -> mquery_eq q q' ->
  no_mql_lookalikes (mq_query q) (mq_query q') -> bare_params (mq_query q) -> same_settings q q' ->
  snd (mq_serialize q) = snd (mq_serialize q') /\ mq_print q = mq_print q'.
Proof.
  intros B B' E N R S. pose proof (mq_valid wf q q' B B' E) as V. unfold mq_serialize, mq_print. rewrite V.
  destruct (mq_validate q') as [[]|] eqn:V'; [|split; reflexivity]. cbn [bind].
  pose proof (E FQuery) as EQ. cbn [mq_get] in EQ. pose proof (mq_validate_query _ V) as C. pose proof (mq_validate_query _ V') as C'.
  assert (I : forall q, mq_put FQuery (mq_query q) q = q) by (intros []; reflexivity).
  assert (Same : mq_query q = mq_query q' -> snd match optimize_mval (mq_query q) with Ok v => (mq_put FQuery v q, mq_payload (mq_put FQuery v q)) | Raise e => (q, Raise e) end
     = snd match optimize_mval (mq_query q') with Ok v => (mq_put FQuery v q', mq_payload (mq_put FQuery v q')) | Raise e => (q', Raise e) end
     /\ mq_payload q = mq_payload q').
  { intros Q. split.
    - rewrite <- Q. destruct (optimize_mval (mq_query q)) as [v|] eqn:O; [|reflexivity]. cbn [snd].
      apply (payload_same q q' V V' E S v v eq_refl); apply (check_query_optimized _ _ O C).
    - rewrite <- (I q), <- (I q'). apply (payload_same q q' V V' E S); [rewrite Q; reflexivity|exact C|exact C']. }
  destruct B as [(s & B)|B].
  { apply Same. rewrite B in *. destruct (mq_query q') as [o| | | | |]; try discriminate EQ. destruct o; try discriminate EQ. apply str_eqb_eq in EQ. congruence. }
  destruct B' as [(s & B')|B'].
  { apply Same. rewrite B' in *. destruct (mq_query q) as [o| | | | |]; try discriminate EQ. destruct o; try discriminate EQ. apply str_eqb_eq in EQ. congruence. }
  assert (W : forall w, built wf w -> check_query w = Ok tt -> print_mq_query w = print_mval w) by (intros w Bw Cw; inversion Bw; subst; try discriminate Cw; reflexivity).
  split.
  - destruct (optimize_built _ B C) as (v & O & Bv & _), (optimize_built _ B' C') as (v' & O' & Bv' & _). rewrite O, O'. cbn [snd].
    pose proof (check_query_optimized _ _ O C) as Cv. pose proof (check_query_optimized _ _ O' C') as Cv'.
    apply (payload_same q q' V V' E S); try assumption. rewrite !W by assumption.
    exact (serialize_text _ _ _ _ B B' R (conj EQ N) C C' O O').
  - rewrite <- (I q), <- (I q'). apply (payload_same q q' V V' E S); try assumption. rewrite !W by assumption.
    apply print_mval_text; try assumption. exact (conj EQ N).
Qed.
End E.
