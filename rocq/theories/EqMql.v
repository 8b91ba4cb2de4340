(** Equal metrics queries send the same text (C76). *)
From Verif Require Import PyBase PyFacts DateTime Objects Exprs Translate Optimizer Query SpecExpr ExprFacts WfFacts
  SpecOccurs SpecQuery TextFacts LiteralFacts PyEqFacts RenameFacts OptFacts SpecEqual EqText Metrics Mql MetricsQuery MetricsFacts
  MetricsQueryFacts SpecMetricsQuery SpecArrive SpecMEqual.

Section E.
Context {RT : PyRT} {ST : PyStr}.

(** * Filters *)
Definition filter_all := fix all (l : list obj) : result (list str) :=
  match l with
  | [] => Ok []
  | x :: l' => let! s := visit_filter_mql true false x in let! r := all l' in Ok (s ++ r)
  end.
Lemma filter_bool c o k l : visit_filter_mql true false (OBoolC c o k l) =
  let! cs := filter_all l in Ok [$"(" ++ join ($" " ++ boolop_value o ++ $" ") cs ++ $")"].
Proof. reflexivity. Qed.
Lemma condition_text l o r l' r' : alike l l' -> alike r r' ->
  match r, r' with OFunc _ _ _ _ _ _ _, OFunc _ _ _ _ _ _ _ => True | OFunc _ _ _ _ _ _ _, _ | _, OFunc _ _ _ _ _ _ _ => False
                 | OColumn _, OColumn _ => True | OColumn _, _ | _, OColumn _ => False | _, _ => True end ->
  visit_condition_mql true false l o r = visit_condition_mql true false l' o r'.
Proof.
  intros (_ & _ & _ & _ & A) (S & _ & _ & _ & B) K. unfold visit_condition_mql. rewrite (A true false).
  pose proof (B true false) as B'. destruct (is_unary o); [reflexivity|].
  destruct r, r'; try contradiction; try reflexivity; rewrite ?S, B'; reflexivity.
Qed.
Lemma tw_kind r r' : tw r r' ->
  match r, r' with OFunc _ _ _ _ _ _ _, OFunc _ _ _ _ _ _ _ => True | OFunc _ _ _ _ _ _ _, _ | _, OFunc _ _ _ _ _ _ _ => False
                 | OColumn _, OColumn _ => True | OColumn _, _ | _, OColumn _ => False | _, _ => True end.
Proof. intros (E & _). destruct r, r'; try exact I; try discriminate E. Qed.
Lemma tw_filter a : forall b, wf a -> wf b -> tw a b -> visit_filter_mql true false a = visit_filter_mql true false b.
Proof.
  induction a using obj_ind'; intros y W V T; pose proof (proj1 T) as E; try (destruct y; try discriminate E; reflexivity);
    (destruct y; try discriminate E); pose proof (tw_parts _ _ T) as P; cbn beta iota in P.
  - destruct P as (L & -> & R). cbn [visit_filter_mql]. inversion W; inversion V; subst.
    rewrite (condition_text a1 _ a2 y1 y2); [reflexivity|apply tw_alike; assumption|apply tw_alike; assumption|apply tw_kind, R].
  - destruct P as (-> & -> & -> & F). rewrite !filter_bool.
    assert (filter_all l = filter_all conds) as ->; [|reflexivity].
    assert (W' : Forall wf l) by (inversion W; assumption). assert (V' : Forall wf conds) by (inversion V; assumption).
    clear - F H W' V'. induction F as [|x z l m T F IH]; [reflexivity|]. inversion_clear H. inversion_clear W'. inversion_clear V'.
    cbn [filter_all]. rewrite (H0 z), IH; auto.
Qed.
Lemma opt_filter_text c c' : wf c -> wf c' -> tw c c' ->
  visit_filter_mql true false (opt_item c) = visit_filter_mql true false (opt_item c').
Proof.
  intros W V T. pose proof (merge_tw c c' W V T) as H. unfold opt_item, merge.
  destruct (merge_try c) as [[l r]|] eqn:E, (merge_try c') as [[l' r']|] eqn:E'; try contradiction.
  - destruct H as (L & R). apply (merge_try_wf c l r W) in E as (Wl & Wr). apply (merge_try_wf c' l' r' V) in E' as (Vl & Vr).
    cbn [visit_filter_mql]. rewrite (condition_text l _ (OList r) l' (OList r')); [reflexivity|apply tw_alike; assumption| |exact I].
    assert (A : Forall2 alike r r').
    { clear - Wr Vr R. induction R as [|a b r r' T _ IH]; constructor; inversion_clear Wr; inversion_clear Vr; auto using tw_alike. }
    repeat split; [rewrite !is_scalar_list; apply alike_all, A|]. intros ql al.
    rewrite !visit_list, !is_scalar_list, (alike_all _ _ A), (alike_items ql al _ _ A). reflexivity.
  - apply tw_filter; assumption.
Qed.
Lemma filters_text l m : Forall wf l -> Forall wf m -> Forall2 tw l m ->
  mapM (visit_filter_mql true false) l = mapM (visit_filter_mql true false) m.
Proof.
  intros W V F. induction F as [|a b l m T F IH]; [reflexivity|]. inversion_clear W. inversion_clear V. cbn [mapM].
  rewrite (tw_filter a b), IH; auto.
Qed.
Lemma opt_filters_text l m : Forall wf l -> Forall wf m -> Forall2 tw l m ->
  mapM (visit_filter_mql true false) (map opt_item l) = mapM (visit_filter_mql true false) (map opt_item m).
Proof.
  intros W V F. induction F as [|a b l m T F IH]; [reflexivity|]. inversion_clear W. inversion_clear V. cbn [map mapM].
  rewrite (opt_filter_text a b), IH; auto.
Qed.
(** a field holding None or a list *)
Definition fields (o o' : obj) : Prop :=
  o = ONone /\ o' = ONone \/ exists l l', o = OList l /\ o' = OList l' /\ Forall wf l /\ Forall wf l' /\ Forall2 tw l l'.
Lemma print_filters_text f f' : fields f f' -> print_filters f = print_filters f'.
Proof.
  intros [(-> & ->)|(l & l' & -> & -> & W & V & F)]; [reflexivity|]. cbn [print_filters iter bind]. rewrite (filters_text l l'); auto.
Qed.
Lemma print_groupby_text f f' : fields f f' -> print_groupby f = print_groupby f'.
Proof.
  intros [(-> & ->)|(l & l' & -> & -> & W & V & F)]; [reflexivity|]. cbn [print_groupby iter bind]. rewrite (alike_visit true false l l'); auto.
Qed.
Lemma params_text a f f' : fields (obj_of_opt OList f) (obj_of_opt OList f') ->
  match f with
  | Some (p :: ps) => let! l := mapM (visit true false) (p :: ps) in Ok (a ++ $"(" ++ join ($", ") l ++ $")")
  | _ => Ok a
  end = match f' with
  | Some (p :: ps) => let! l := mapM (visit true false) (p :: ps) in Ok (a ++ $"(" ++ join ($", ") l ++ $")")
  | _ => Ok a
  end.
Proof.
  destruct f as [l|], f' as [l'|]; intros [(E & E')|(m & m' & E & E' & W & V & F)]; try discriminate; [|reflexivity].
  injection E as ->. injection E' as ->. pose proof (alike_visit true false m m' W V F) as A. destruct F; [reflexivity|]. rewrite A. reflexivity.
Qed.
(** * Values *)
Definition mtw (v v' : mval) : Prop := mv_eq v v' = true /\ no_mql_lookalikes v v'.
Lemma look_fields (P : obj -> Prop) f f' : (forall x y, in_obj x f -> in_obj y f' -> py_eq x y = true -> look_same x y) ->
  py_eq f f' = true -> (forall o, P o -> wf o) -> opt_all_obj P f -> opt_all_obj P f' -> fields f f'.
Proof.
  intros N E HP [->|(l & -> & W)] [->|(l' & -> & V)]; try discriminate E; [left; auto|right].
  exists l, l'. split; [reflexivity|]. split; [reflexivity|].
  split; [eapply Forall_impl; [exact HP|exact W]|]. split; [eapply Forall_impl; [exact HP|exact V]|].
  cbn [py_eq] in E. apply eq_list_Forall2 in E.
  assert (A : forall x z, In x l -> SpecOccurs.occurs z x -> in_obj z (OList l)) by (intros x z I O; exists l, x; auto).
  assert (B : forall x z, In x l' -> SpecOccurs.occurs z x -> in_obj z (OList l')) by (intros x z I O; exists l', x; auto).
  clear W V. revert N A B. generalize (OList l) as a, (OList l') as b. intros a b N A B.
  induction E as [|x y l l' E F IH]; constructor.
  - split; [exact E|]. intros u w U X. apply N; [eapply A|eapply B]; try eassumption; left; reflexivity.
  - apply IH; intros; [eapply A|eapply B]; try eassumption; right; assumption.
Qed.
Lemma opt_fields (P : obj -> Prop) f f' : (forall x y, in_opt x f -> in_opt y f' -> py_eq x y = true -> look_same x y) ->
  opt_list_eqb f f' = true -> (forall o, P o -> wf o) -> opt_all P f -> opt_all P f' ->
  fields (obj_of_opt OList f) (obj_of_opt OList f').
Proof.
  intros N E HP W V. apply (look_fields P).
  - intros x y X Y. apply N; apply in_obj_opt; assumption.
  - destruct f, f'; try discriminate E; [exact E|reflexivity].
  - exact HP.
  - apply opt_obj_all, W.
  - apply opt_obj_all, V.
Qed.
Definition ts_alike (t t' : timeseries) : Prop :=
  metric_eqb (ts_metric t) (ts_metric t') = true /\ ts_agg t = ts_agg t'
  /\ fields (obj_of_opt OList (ts_params t)) (obj_of_opt OList (ts_params t'))
  /\ fields (obj_of_opt OList (ts_filters t)) (obj_of_opt OList (ts_filters t'))
  /\ fields (obj_of_opt OList (ts_groupby t)) (obj_of_opt OList (ts_groupby t')).
Lemma print_metric_text m m' : metric_eqb m m' = true -> print_metric m = print_metric m'.
Proof.
  unfold metric_eqb, print_metric. rewrite !andb_true_iff. intros ((P & M) & _). apply option_str_eq in P, M. rewrite P, M. reflexivity.
Qed.
Lemma is_param_wf o : is_param wf o -> wf o. Proof. intros H; apply H. Qed.
Lemma is_filter_wf o : is_filter wf o -> wf o. Proof. intros H; apply H. Qed.
Lemma is_group_wf o : is_group wf o -> wf o. Proof. intros H; apply H. Qed.
Lemma mtw_ts t t' : built wf (VTS t) -> built wf (VTS t') -> mtw (VTS t) (VTS t') -> ts_alike t t'.
Proof.
  intros B B' (E & N). cbn [mv_eq] in E. unfold ts_eqb in E. rewrite !andb_true_iff in E. destruct E as ((((M & A) & P) & F) & G).
  inversion B; inversion B'; subst. split; [exact M|]. split; [apply str_eqb_eq, A|].
  split; [|split].
  - apply (opt_fields (is_param wf)); try assumption; [|exact is_param_wf].
    intros x y X Y. apply N; left; constructor; auto.
  - apply (opt_fields (is_filter wf)); try assumption; [|exact is_filter_wf].
    intros x y X Y. apply N; left; constructor; auto.
  - apply (opt_fields (is_group wf)); try assumption; [|exact is_group_wf].
    intros x y X Y. apply N; left; constructor; auto.
Qed.
Lemma print_ts_text t t' : ts_alike t t' -> print_ts t = print_ts t'.
Proof.
  intros (M & A & P & F & G). unfold print_ts. rewrite (print_metric_text _ _ M), A, (params_text _ _ _ P), (print_filters_text _ _ F), (print_groupby_text _ _ G).
  reflexivity.
Qed.
Definition print_all := fix all (l : list mval) : result (list str) :=
  match l with [] => Ok [] | x :: l' => let! s := print_mval x in let! r := all l' in Ok (s :: r) end.
Definition head_text (name : str) (l : list str) (a : obj) : result str :=
  match infix_of name with
  | Some o => Ok ($"(" ++ join ($" " ++ o ++ $" ") l ++ $")")
  | None => let! ap := print_aggp a in Ok (prefix_of name ++ ap ++ $"(" ++ join ($", ") l ++ $")")
  end.
Lemma print_formula name k ps a f g : k <> KNone -> print_mval (VFormula (OStr name) (Some k) ps a f g) =
  let! l := print_all ps in let! h := head_text name l a in let! fs := print_filters f in let! gs := print_groupby g in Ok (h ++ fs ++ gs).
Proof. intros N. destruct k; try congruence; reflexivity. Qed.
Definition eq_mvals := fix eql (l1 l2 : list mval) {struct l1} : bool :=
  match l1, l2 with [], [] => true | x :: l1', y :: l2' => mv_eq x y && eql l1' l2' | _, _ => false end.
Definition aggs (a a' : obj) : Prop := print_aggp a = print_aggp a'.
Lemma bare_same x y s : bare_text x s -> py_eq x y = true -> look_same x y -> x = y.
Proof.
  intros B E L. destruct B; cbn in L; try (subst y; reflexivity); destruct y; try discriminate E; [|reflexivity].
  cbn in E. apply str_eqb_eq in E. congruence.
Qed.
(** the parts of equal formulas *)
Definition formula_alike (n n' : str) (ps ps' : list mval) (a a' f f' g g' : obj) : Prop :=
  n = n' /\ Forall2 mtw ps ps' /\ a = a' /\ fields f f' /\ fields g g'.
Lemma mtw_formula n k ps a f g n' k' ps' a' f' g' :
  let v := VFormula (OStr n) (Some k) ps a f g in let v' := VFormula (OStr n') (Some k') ps' a' f' g' in
  built wf v -> built wf v' -> bare_params v -> mtw v v' -> formula_alike n n' ps ps' a a' f f' g g'.
Proof.
  intros v v' B B' R (E & N). subst v v'. cbn [mv_eq] in E. change (fix eql (l1 l2 : list mval) : bool := _) with eq_mvals in E.
  rewrite !andb_true_iff in E. destruct E as (((((En & Ek) & Ep) & Ea) & Ef) & Eg). inversion B; inversion B'; subst.
  split; [apply str_eqb_eq, En|]. split.
  { assert (Q : forall x y p p', In p ps -> In p' ps' -> mql_part x p -> mql_part y p' -> py_eq x y = true -> look_same x y).
    { intros x y p p' I I' X Y. apply N; [destruct X as [X|[X|X]]|destruct Y as [Y|[Y|Y]]].
      - left. eapply wi_below; eassumption.
      - right; left. eapply ag_below; eassumption.
      - right; right. eapply op_below; eassumption.
      - left. eapply wi_below; eassumption.
      - right; left. eapply ag_below; eassumption.
      - right; right. eapply op_below; eassumption. }
    clear - Ep Q. revert ps' Ep Q. induction ps as [|p ps IH]; intros [|p' ps'] E Q; cbn in E; try discriminate E; constructor.
    - apply andb_true_iff in E as (E & _). split; [exact E|]. intros x y X Y. eapply Q; [| |exact X|exact Y]; left; reflexivity.
    - apply andb_true_iff in E as (_ & E). apply IH; [exact E|]. intros x y p1 p2 I I'. apply Q; right; assumption. }
  split.
  { match goal with H : opt_all_obj _ a, H' : opt_all_obj _ a' |- _ => destruct H as [->|(l & -> & _)], H' as [->|(l' & -> & _)] end;
      try discriminate Ea; [reflexivity|]. f_equal. cbn [py_eq] in Ea. apply eq_list_Forall2 in Ea.
    assert (R' : forall x, In x l -> exists s, bare_text x s) by (intros x I; apply R; constructor; exact I).
    assert (N' : forall x y, In x l -> In y l' -> py_eq x y = true -> look_same x y).
    { intros x y X Y. apply N; right; left; constructor; assumption. }
    clear - Ea R' N'. induction Ea as [|x y l l' E F IH]; [reflexivity|]. f_equal.
    - destruct (R' x) as (s & S); [left; reflexivity|]. eapply bare_same; [exact S|exact E|]. apply N'; [left|left|]; auto.
    - apply IH; intros; [apply R'|apply N']; try right; assumption. }
  split.
  - apply (look_fields (is_filter wf)); try assumption; [|exact is_filter_wf]. intros x y X Y. apply N; left; apply wi_formula; auto.
  - apply (look_fields (is_group wf)); try assumption; [|exact is_group_wf]. intros x y X Y. apply N; left; apply wi_formula; auto.
Qed.
Lemma print_mval_text v : forall v', built wf v -> built wf v' -> bare_params v -> mtw v v' -> print_mval v = print_mval v'.
Proof.
  induction v as [o|m|t|r|sc|n pk ps a f g IH] using mval_ind'; intros v' B B' R T; try (inversion B; fail).
  - pose proof (proj1 T) as E. destruct v'; try discriminate E. cbn [mv_eq] in E.
    assert (L : look_same o o0) by (apply (proj2 T); [right; right; constructor|right; right; constructor|exact E]).
    inversion B; subst; cbn in L; subst; reflexivity.
  - pose proof (proj1 T) as E. destruct v' as [| |t'| | |]; try discriminate E. cbn [print_mval]. apply print_ts_text, mtw_ts; assumption.
  - pose proof (proj1 T) as E. destruct v' as [| | | | |n' pk' ps' a' f' g']; try discriminate E.
    assert (K : pk = pk').
    { cbn [mv_eq] in E. rewrite !andb_true_iff in E. destruct E as (((((En & Ek) & Ep) & Ea) & Ef) & Eg).
      destruct pk, pk'; try discriminate Ek; [|reflexivity]. apply seqk_eq in Ek. congruence. }
    subst pk'. inversion B; subst. inversion B'; subst.
    destruct (mtw_formula _ _ _ _ _ _ _ _ _ _ _ _ B B' R T) as (-> & P & -> & F & G).
    rewrite !print_formula by assumption. rewrite (print_filters_text _ _ F), (print_groupby_text _ _ G).
    assert (print_all ps = print_all ps') as ->; [|reflexivity].
    assert (R' : forall p, In p ps -> bare_params p) by (intros p I x X; apply R; eapply ag_below; eassumption).
    match goal with H : Forall (built wf) ps, H' : Forall (built wf) ps' |- _ => rename H into Bp; rename H' into Bp' end.
    clear - IH P R' Bp Bp'. induction P as [|p p' ps ps' T P IHl]; [reflexivity|].
    inversion_clear IH. inversion_clear Bp. inversion_clear Bp'. cbn [print_all]. rewrite (H p'); try assumption; [|apply R'; left; reflexivity].
    rewrite IHl; auto. intros q I. apply R'. right. exact I.
Qed.
(** * Optimizing *)
Lemma optimize_text l l' : Forall wf l -> Forall wf l' -> Forall2 tw l l' ->
  match optimize l, optimize l' with
  | Ok (Some m), Ok (Some m') => print_filters (OList m) = print_filters (OList m')
  | Ok None, Ok None => True
  | _, _ => False
  end.
Proof.
  intros W V F. rewrite (optimize_items l W), (optimize_items l' V).
  assert (X : existsb (fun c => match merge c with Some _ => true | None => false end) l = existsb (fun c => match merge c with Some _ => true | None => false end) l').
  { clear - W V F. induction F as [|a b l l' T F IH]; [reflexivity|]. inversion_clear W. inversion_clear V. cbn [existsb].
    rewrite (merge_kind a b), IH; auto. }
  rewrite X. destruct (existsb _ l'); [|exact I]. cbn [print_filters iter bind]. rewrite (opt_filters_text l l'); auto.
Qed.
Lemma ts_filters_text m a p f g m' p' f' g' :
  ts_alike (mkTS m a p None g) (mkTS m' a p' None g') -> print_filters (OList f) = print_filters (OList f') ->
  print_ts (mkTS m a p (Some f) g) = print_ts (mkTS m' a p' (Some f') g').
Proof.
  intros (M & _ & P & _ & G) F. cbn in M, P, G. unfold print_ts. cbn [ts_metric ts_agg ts_params ts_filters ts_groupby].
  rewrite (print_metric_text _ _ M), (params_text _ _ _ P), (print_groupby_text _ _ G).
  change (obj_of_opt OList (Some f)) with (OList f). change (obj_of_opt OList (Some f')) with (OList f'). rewrite F. reflexivity.
Qed.
Lemma serialize_text v v' o o' : built wf v -> built wf v' -> bare_params v -> mtw v v' -> check_query v = Ok tt -> check_query v' = Ok tt ->
  optimize_mval v = Ok o -> optimize_mval v' = Ok o' -> print_mval o = print_mval o'.
Proof.
  intros B B' R T C C' O O'. pose proof (print_mval_text v v' B B' R T) as X.
  destruct v as [x|m|t|r|sc|n pk ps a f g]; try (inversion B; fail); try discriminate C; try (inversion B; subst; discriminate C).
  - pose proof (proj1 T) as E. destruct v' as [| |t'| | |]; try discriminate E.
    destruct (mtw_ts t t' B B' T) as (M & A & P & F & G). cbn [optimize_mval] in O, O'.
    destruct (ts_filters t) as [fs|] eqn:Ef, (ts_filters t') as [fs'|] eqn:Ef';
      destruct F as [(F & F')|(l & l' & F & F' & W & V & F2)]; try discriminate F; try discriminate F'.
    + injection F as <-. injection F' as <-. pose proof (optimize_text fs fs' W V F2) as Y.
      destruct (optimize fs) as [z|] eqn:Z; [|contradiction]. destruct (optimize fs') as [z'|] eqn:Z'; [|destruct z; contradiction].
      cbn [bind] in O, O'. destruct z as [m|], z' as [m'|]; try contradiction; [|apply Ok_inj in O, O'; subst; exact X].
      cbn [ts_fields] in O, O'. inversion B as [| | |? _ _ Bf _|]; inversion B' as [| | |? _ _ Bf' _|]; subst. rewrite Ef in Bf. rewrite Ef' in Bf'.
      rewrite ts_rebuild in O; [|apply ts_validate_iff, C|eapply Forall_impl; [|eapply optimize_filters; [exact Bf|exact Z]]; intros c H; apply H].
      rewrite ts_rebuild in O'; [|apply ts_validate_iff, C'|eapply Forall_impl; [|eapply optimize_filters; [exact Bf'|exact Z']]; intros c H; apply H].
      cbn [bind] in O, O'. apply Ok_inj in O, O'. subst. cbn [print_mval]. rewrite A. apply ts_filters_text; [|exact Y].
      split; [exact M|]. split; [reflexivity|]. split; [exact P|]. split; [left; auto|exact G].
    + apply Ok_inj in O, O'. subst. exact X.
  - pose proof (proj1 T) as E. destruct v' as [| | | | |n' pk' ps' a' f' g']; try discriminate E. inversion B; subst. inversion B'; subst.
    destruct (mtw_formula _ _ _ _ _ _ _ _ _ _ _ _ B B' R T) as (-> & P & -> & F & G).
    destruct F as [(-> & ->)|(l & l' & -> & -> & W & V & F2)]; cbn [optimize_mval iter bind] in O, O'.
    + apply Ok_inj in O, O'. subst. exact X.
    + pose proof (optimize_text l l' W V F2) as Y.
      destruct (optimize l) as [z|] eqn:Z; [|contradiction]. destruct (optimize l') as [z'|] eqn:Z'; [|destruct z; contradiction].
      cbn [bind] in O, O'. destruct z as [m|], z' as [m'|]; try contradiction; [|apply Ok_inj in O, O'; subst; exact X].
      apply Ok_inj in O, O'. subst. rewrite !print_formula in X |- * by assumption. rewrite Y.
      assert (Q : print_all ps = print_all ps').
      { assert (R' : forall p, In p ps -> bare_params p) by (intros p I x Xx; apply R; eapply ag_below; eassumption).
        match goal with H : Forall (built wf) ps, H' : Forall (built wf) ps' |- _ => rename H into Bp; rename H' into Bp' end.
        clear - P R' Bp Bp'. induction P as [|p p' ps ps' T P IHl]; [reflexivity|].
        inversion_clear Bp. inversion_clear Bp'. cbn [print_all]. rewrite (print_mval_text p p'); try assumption; [|apply R'; left; reflexivity].
        rewrite IHl; auto. intros q I. apply R'. right. exact I. }
      rewrite Q, (print_groupby_text _ _ G). reflexivity.
Qed.

(** * The context *)
Lemma int_text_eq i j : Z.eqb (pyint_Z i) (pyint_Z j) = true -> py_eq (int_text i) (int_text j) = true.
Proof. destruct i, j; cbn; auto. Qed.
Lemma int_text_inj i j : int_text i = int_text j -> i = j.
Proof. destruct i, j; cbn; congruence. Qed.
Lemma opt_int_eq x y : option_eqb (fun a b => Z.eqb (pyint_Z a) (pyint_Z b)) x y = true -> py_eq (or_none int_text x) (or_none int_text y) = true.
Proof. destruct x, y; cbn; try discriminate; [apply int_text_eq|reflexivity]. Qed.
Lemma opt_int_inj x y : or_none int_text x = or_none int_text y -> x = y.
Proof. destruct x as [[]|], y as [[]|]; cbn; congruence. Qed.
Lemma ints_eq l m (P Q : obj -> Prop) : (forall x y, P x -> Q y -> py_eq x y = true -> x = y) ->
  (forall x, In x (map int_text l) -> P x) -> (forall x, In x (map int_text m) -> Q x) -> ints_eqb l m = true -> l = m.
Proof.
  intros H. revert m. induction l as [|i l IH]; intros [|j m] HP HQ E; cbn in E; try discriminate E; [reflexivity|].
  apply andb_true_iff in E as (E1 & E2). f_equal.
  - apply int_text_inj. apply H; [apply HP; left; reflexivity|apply HQ; left; reflexivity|apply int_text_eq, E1].
  - apply IH; [intros; apply HP; right; assumption|intros; apply HQ; right; assumption|exact E2].
Qed.
Lemma vals_eq l m (P Q : obj -> Prop) : (forall x y, P x -> Q y -> py_eq x y = true -> x = y) ->
  (forall x, In x l -> P x) -> (forall x, In x m -> Q x) -> eq_list l m = true -> l = m.
Proof.
  intros H HP HQ E. apply eq_list_Forall2 in E. induction E as [|x y l m E F IH]; [reflexivity|]. f_equal.
  - apply H; [apply HP; left; reflexivity|apply HQ; left; reflexivity|exact E].
  - apply IH; intros; [apply HP|apply HQ]; right; assumption.
Qed.
Lemma opt_clause_eq (k : pyint -> obj) x y : (forall i j, py_eq (k i) (k j) = Z.eqb (pyint_Z i) (pyint_Z j)) ->
  (forall i, py_eq (k i) ONone = false) -> (forall i, py_eq ONone (k i) = false) ->
  mv_eq (opt_of k x) (opt_of k y) = true -> py_eq (or_none int_text x) (or_none int_text y) = true.
Proof.
  intros K N N'. destruct x as [i|], y as [j|]; cbn -[py_eq]; rewrite ?K, ?N, ?N'; try discriminate; [|reflexivity]. apply int_text_eq.
Qed.
(** with the same keys in the same order, the values are equal one by one *)
Lemma same_order : forall ks vs vs', NoDup ks -> List.length ks = List.length vs -> List.length ks = List.length vs' ->
  py_eq (ODict ks vs) (ODict ks vs') = true -> eq_list vs vs' = true.
Proof.
  intros ks vs vs' N L L' E. apply dict_iff in E as (_ & E). revert vs vs' N L L' E.
  induction ks as [|k ks IH]; intros [|v vs] [|v' vs'] N L L' E; try discriminate; [reflexivity|].
  apply NoDup_cons_iff in N as (NK & N). pose proof (E k) as E1. cbn [dict_item] in E1. rewrite str_eqb_refl in E1. cbn [same_items] in E1.
  cbn [eq_list]. rewrite E1. apply IH; auto. intros k0. specialize (E k0). cbn [dict_item] in E. destruct (str_eqb k k0) eqn:K; [|exact E].
  apply str_eqb_eq in K. subst k0. assert (Z : forall ws, dict_item k ks ws = None).
  { intros ws. destruct (dict_item k ks ws) eqn:D; [|reflexivity]. apply dict_item_in in D as (D & _). contradiction. }
  rewrite !Z. exact I.
Qed.
Lemma settings_eq q q' s s' : mquery_eq q q' -> same_settings q q' -> has_settings q s -> has_settings q' s' -> s = s'.
Proof.
  intros E (S & SO) H H'. destruct (SO s s' H H') as (O1 & O2 & O3 & O4). clear SO.
  assert (X : forall x y, 
    (x = ODateTime (se_start s) \/ x = ODateTime (se_end s)
     \/ In x [or_none int_text (ro_interval (se_rollup s)); ro_granularity (se_rollup s); or_none int_text (se_limit s); or_none int_text (se_offset s)]
     \/ In x (map int_text (ms_orgs (se_scope s))) \/ In x (map int_text (ms_projects (se_scope s))) \/ In x (snd (se_indexer s))) ->
    (y = ODateTime (se_start s') \/ y = ODateTime (se_end s')
     \/ In y [or_none int_text (ro_interval (se_rollup s')); ro_granularity (se_rollup s'); or_none int_text (se_limit s'); or_none int_text (se_offset s')]
     \/ In y (map int_text (ms_orgs (se_scope s'))) \/ In y (map int_text (ms_projects (se_scope s'))) \/ In y (snd (se_indexer s'))) ->
    py_eq x y = true -> x = y).
  { intros x y A B. apply S; [exists s|exists s']; auto. }
  clear S. destruct H as (H1 & H2 & H3 & H4 & H5 & H6 & H7 & H8), H' as (G1 & G2 & G3 & G4 & G5 & G6 & G7 & G8).
  pose proof (E FStart) as E1. pose proof (E FEnd) as E2. pose proof (E FRollup) as E3. pose proof (E FScope) as E4.
  pose proof (E FLimit) as E5. pose proof (E FOffset) as E6. pose proof (E FExtrapolate) as E7. pose proof (E FIndexer) as E8. clear E.
  cbn [mq_get] in *. rewrite H1, G1 in E1. rewrite H2, G2 in E2. rewrite H3, G3 in E3. rewrite H4, G4 in E4.
  rewrite H5, G5 in E5. rewrite H6, G6 in E6. rewrite H7, G7 in E7. rewrite H8, G8 in E8. clear H1 H2 H3 H4 H5 H6 H7 H8 G1 G2 G3 G4 G5 G6 G7 G8.
  destruct s as [a b c d e f g [h i]], s' as [a' b' c' d' e' f' g' [h' i']].
  cbn [se_start se_end se_rollup se_scope se_limit se_offset se_extrapolate se_indexer fst snd] in *. cbn [mv_eq] in E1, E2, E3, E4, E8.
  assert (a = a') by (assert (ODateTime a = ODateTime a') by (apply X; auto); congruence).
  assert (b = b') by (assert (ODateTime b = ODateTime b') by (apply X; auto); congruence).
  assert (c = c').
  { unfold rollup_eqb in E3. rewrite !andb_true_iff in E3. destruct E3 as (((A & B) & C) & D).
    apply opt_int_eq in A. apply X in A; [|right; right; left; left; reflexivity|right; right; left; left; reflexivity]. apply opt_int_inj in A.
    apply X in D; [|right; right; left; right; left; reflexivity|right; right; left; right; left; reflexivity].
    destruct c as [c1 c2 c3 c4], c' as [k1 k2 k3 k4]. cbn in *. subst.
    assert (c2 = k2) by (destruct c2 as [[]|], k2 as [[]|]; cbn in B; congruence).
    assert (c3 = k3) by (destruct c3 as [[]|], k3 as [[]|]; cbn in C; congruence). congruence. }
  assert (d = d').
  { unfold scope_eqb in E4. rewrite !andb_true_iff in E4. destruct E4 as ((A & B) & C). apply option_str_eq in C.
    apply (ints_eq _ _ _ _ X) in A; [|intros; auto|intros; auto]. apply (ints_eq _ _ _ _ X) in B; [|intros; auto 6|intros; auto 6].
    destruct d, d'. cbn in *. congruence. }
  assert (e = e').
  { apply opt_clause_eq in E5; [|reflexivity|reflexivity|reflexivity].
    apply X in E5; [|right; right; left; right; right; left; reflexivity|right; right; left; right; right; left; reflexivity]. apply opt_int_inj, E5. }
  assert (f = f').
  { apply opt_clause_eq in E6; [|reflexivity|reflexivity|reflexivity].
    apply X in E6; [|right; right; left; right; right; right; left; reflexivity|right; right; left; right; right; right; left; reflexivity]. apply opt_int_inj, E6. }
  assert (g = g') by (destruct g as [[]|], g' as [[]|]; cbn in E7; congruence).
  assert (h = h' /\ i = i') as (-> & ->).
  { cbn [fst snd se_indexer] in O1, O2, O3, O4. subst h'. split; [reflexivity|].
    pose proof (same_order h i i' O2 O3 O4 E8) as B.
    apply (vals_eq _ _ _ _ X) in B; [exact B|intros; auto 8|intros; auto 8]. }
  congruence.
Qed.
End E.
