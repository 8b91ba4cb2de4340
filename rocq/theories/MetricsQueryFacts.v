(** C47-C50: validating, serializing and printing a MetricsQuery. *)
From Coq Require Import ZifyBool.
From Verif Require Import PyBase PyFacts DateTime Utf8 Objects Exprs SpecExpr ExprFacts ExprProps WfFacts Translate Optimizer Query
  SpecText TextFacts LiteralFacts SpecTime DateFacts NumFacts TimeProps SpecOccurs SpecHazard SpecLogic OptFacts TotalFacts PyEqFacts
  Metrics Mql MetricsQuery MetricsFacts FormulaFacts SpecMetricsQuery.
From Verif Require SpecMetrics.

Section F.
Context {RT : PyRT}.

(** * Printing fails alike in MQL and SnQL *)
Definition sim {A B} (r : result A) (r' : result B) : Prop :=
  match r, r' with Ok _, Ok _ => True | Raise e, Raise e' => e = e' | _, _ => False end.
Lemma sim_refl {A} (r : result A) : sim r r.
Proof. destruct r; cbn; auto. Qed.
Lemma sim_bind {A B C D} (r : result A) (r' : result B) (k : A -> result C) (k' : B -> result D) :
  sim r r' -> (forall a b, sim (k a) (k' b)) -> sim (bind r k) (bind r' k').
Proof. intros H K. destruct r, r'; cbn in *; try contradiction; auto. Qed.
Lemma sim_mapM {A B C} (f : A -> result B) (g : A -> result C) l :
  Forall (fun x => sim (f x) (g x)) l -> sim (mapM f l) (mapM g l).
Proof.
  induction 1 as [|x l H _ IH]; [exact I|]. cbn [mapM]. apply sim_bind; [exact H|]. intros a b.
  apply sim_bind; [exact IH|]. intros; exact I.
Qed.
Lemma sim_params al l : Forall (fun x => sim (visit true al x) (visit false al x)) l ->
  sim (visit_params true al l) (visit_params false al l).
Proof.
  induction 1 as [|x l H _ IH]; [exact I|]. cbn [visit_params].
  destruct (if is_param_expr x then Ok true else is_scalar x) as [[|]|e]; cbn [bind]; [|exact IH|reflexivity].
  apply sim_bind; [exact H|]. intros a b. apply sim_bind; [exact IH|]. intros; exact I.
Qed.
Lemma visit_sim al o : sim (visit true al o) (visit false al o).
Proof.
  induction o using obj_ind'; try exact I; try reflexivity; try apply sim_refl.
  - cbn. destruct (utf8_decode b); reflexivity.
  - rewrite !visit_list. apply sim_bind; [apply sim_refl|]. intros _ _. apply sim_bind; [apply sim_mapM, H|]. intros; exact I.
  - rewrite !visit_tuple. apply sim_bind; [apply sim_refl|]. intros _ _. apply sim_bind; [apply sim_mapM, H|]. intros; exact I.
  - rewrite !visit_func. apply sim_bind; [|intros a0 b0; apply sim_bind; [|intros; exact I]].
    + assert (sim (mapM (visit true al) (filter init_ok il)) (mapM (visit false al) (filter init_ok il))) as S.
      { apply sim_mapM. rewrite Forall_forall in *. intros x Hx. apply filter_In in Hx. apply H; tauto. }
      destruct ik; try exact I; (apply sim_bind; [exact S|intros; exact I]).
    + assert (sim (visit_params true al pl) (visit_params false al pl)) as S by (apply sim_params, H0).
      destruct pk; try exact I; (apply sim_bind; [exact S|intros; exact I]).
  - cbn [visit]. apply sim_bind; [exact IHo|]. intros; exact I.
  - rewrite !visit_cond. apply sim_bind; [|intros a b; apply sim_bind; [exact IHo1|intros; exact I]].
    destruct (is_unary _); [exact I|]. destruct (is_col_or_func _); [apply sim_bind; [exact IHo2|intros; exact I]|].
    destruct (is_scalar _) as [[|]|e]; cbn [bind]; try reflexivity. apply sim_bind; [exact IHo2|intros; exact I].
  - rewrite !TextFacts.visit_bool. apply sim_bind; [apply sim_mapM, H|]. intros; exact I.
  - cbn [visit]. apply sim_bind; [exact IHo|]. intros; exact I.
Qed.

(** * What printing can raise *)
Definition outcome {A} (r : result A) (H : exn -> Prop) : Prop :=
  match r with Ok _ => True | Raise e => H e end.
Lemma out_bind {A B} (r : result A) (k : A -> result B) H :
  outcome r H -> (forall a, r = Ok a -> outcome (k a) H) -> outcome (bind r k) H.
Proof. destruct r; cbn; auto. Qed.
Lemma out_weak {A} (r : result A) (H H' : exn -> Prop) : outcome r H -> (forall e, H e -> H' e) -> outcome r H'.
Proof. destruct r; cbn; auto. Qed.
Lemma out_mapM {A B} (f : A -> result B) l (H : exn -> Prop) : Forall (fun x => outcome (f x) H) l -> outcome (mapM f l) H.
Proof.
  induction 1 as [|x l Hx _ IH]; [exact I|]. cbn [mapM]. apply out_bind; [exact Hx|]. intros y _.
  apply out_bind; [exact IH|]. intros; exact I.
Qed.
Lemma visit_out al o : wf o -> shown o ->
  outcome (visit true al o) (fun e => exists x, occurs x o /\ hazard e x).
Proof.
  intros W S. pose proof (visit_sim al o) as M. destruct (visit_tot al o W S) as (_ & T).
  destruct (visit true al o) as [s|e]; [exact I|]. destruct (visit false al o) as [s|e']; cbn in M; [contradiction|].
  subst e'. apply T; reflexivity.
Qed.
Lemma filter_out c : wf c -> is_condition_obj c = true ->
  outcome (visit_filter_mql true false c) (fun e => exists x, occurs x c /\ mql_hazard e x).
Proof.
  induction c using obj_ind'; intros W C; try discriminate C; inversion W; subst.
  - cbn [visit_filter_mql]. unfold visit_condition_mql.
    match goal with H : check_condition _ _ _ = _ |- _ => apply rhs_shown in H as [SL SR] end.
    apply out_bind; [|intros; exact I]. apply out_bind.
    + destruct (is_unary _); [exact I|].
      assert (outcome (visit true false c2) (fun e => exists x, occurs x (OCond c1 o c2) /\ mql_hazard e x)) as V.
      { eapply out_weak; [apply visit_out; [assumption|]|].
        - destruct SR as [SR|SR]; [apply colfunc_shown, SR|left; exact SR].
        - intros e (x & O & Hz). exists x. split; [apply oc_rhs, O|apply mh_hazard, Hz]. }
      assert (forall r : result str, outcome r (fun e => exists x, occurs x (OCond c1 o c2) /\ mql_hazard e x) -> is_col_or_func c2 = false ->
         outcome (let! b := is_scalar c2 in if b then r else Raise AssertionError)
         (fun e => exists x, occurs x (OCond c1 o c2) /\ mql_hazard e x) : Prop) as K.
      { intros r R N. destruct SR as [SR|SR]; [congruence|]. apply is_scalar_iff in SR. rewrite SR. exact R. }
      destruct c2; try (apply (K (visit true false _)); [exact V|reflexivity]); [exact V|].
      cbn. eexists. split; [apply oc_self|apply mh_function].
    + intros s _. apply out_bind; [|intros; exact I].
      eapply out_weak; [apply visit_out; [assumption|apply colfunc_shown, SL]|].
      intros e (x & O & Hz). exists x. split; [apply oc_lhs, O|apply mh_hazard, Hz].
  - cbn [visit_filter_mql]. apply out_bind; [|intros; exact I].
    assert (Forall (fun y => outcome (visit_filter_mql true false y)
       (fun e => exists x, occurs x (OBoolC c o k l) /\ mql_hazard e x)) l) as F.
    { rewrite Forall_forall in *. intros y Hy. eapply out_weak; [apply H; auto|].
      intros e (x & O & Hz). exists x. split; [eapply oc_cond; eassumption|exact Hz]. }
    revert F. generalize (fun e => exists x, occurs x (OBoolC c o k l) /\ mql_hazard e x) as E. intros E F.
    clear - F. induction F as [|y l' Hy _ IH]; [exact I|]. apply out_bind; [exact Hy|]. intros a _.
    apply out_bind; [exact IH|]. intros; exact I.
Qed.
Context {ST : PyStr}.
Lemma filters_out f : opt_all_obj (is_filter wf) f ->
  outcome (print_filters f) (fun e => exists x, in_obj x f /\ mql_hazard e x).
Proof.
  intros [->|(l & -> & F)]; [exact I|]. cbn [print_filters iter bind]. apply out_bind; [|intros; exact I].
  apply out_mapM. rewrite Forall_forall in *. intros c Hc. destruct (F c Hc) as (A & K).
  eapply out_weak; [apply filter_out; [exact A|apply is_condition_iff, K]|].
  intros e (x & O & Hz). exists x. split; [exists l, c; auto|exact Hz].
Qed.
Lemma groupby_out g : opt_all_obj (is_group wf) g -> outcome (print_groupby g) (fun e => exists x, in_obj x g /\ mql_hazard e x).
Proof.
  intros [->|(l & -> & F)]; [exact I|]. cbn [print_groupby iter bind]. apply out_bind; [|intros; exact I].
  apply out_mapM. rewrite Forall_forall in *. intros c Hc. destruct (F c Hc) as (A & K).
  destruct K as [(k & ->)|(k & a & ->)]; exact I.
Qed.
Lemma opt_obj_all (P : obj -> Prop) x : opt_all P x -> opt_all_obj P (obj_of_opt OList x).
Proof. destruct x as [l|]; cbn; [intros F; right; eauto|left; reflexivity]. Qed.
Lemma in_obj_opt x o : in_obj x (obj_of_opt OList o) -> in_opt x o.
Proof. intros (l & y & E & H). destruct o as [m|]; cbn in E; [injection E as ->; exists l, y; auto|discriminate]. Qed.
Lemma mval_out v : built wf v -> outcome (print_mval v) (fun e => exists x, within x v /\ mql_hazard e x).
Proof.
  induction v as [o|m|t|r|sc|n pk ps a f g IH] using mval_ind'; intros B; try exact I; inversion B; subst.
  - cbn [print_mval]. unfold print_ts. apply out_bind.
    { unfold print_metric. destruct (m_mri (ts_metric t)); [exact I|]. destruct (m_public (ts_metric t)); [exact I|].
      match goal with H : _ \/ _ |- _ => destruct H; congruence end. }
    intros ms _. apply out_bind.
    { match goal with H : opt_all (is_param wf) _ |- _ => rename H into F end. destruct (ts_params t) as [[|p l]|] eqn:Ep; try exact I.
      apply out_bind; [|intros; exact I]. apply out_mapM. rewrite Forall_forall in *. intros y Hy. cbn [opt_all] in F.
      rewrite Forall_forall in F. destruct (F y Hy) as (A & L).
      eapply out_weak; [apply visit_out; [exact A|left; apply sc_literal, L]|].
      intros e (x & O & Hz). exists x. split; [|apply mh_hazard, Hz]. apply wi_ts. left. eexists _, y. split; [exact Ep|auto]. }
    intros s _. apply out_bind.
    { eapply out_weak; [apply filters_out, opt_obj_all; assumption|]. intros e (x & O & Hz).
      exists x. split; [apply wi_ts; right; left; apply in_obj_opt, O|exact Hz]. }
    intros fs _. apply out_bind; [|intros; exact I].
    eapply out_weak; [apply groupby_out, opt_obj_all; assumption|]. intros e (x & O & Hz).
    exists x. split; [apply wi_ts; right; right; apply in_obj_opt, O|exact Hz].
  - cbn [print_mval].
    assert (outcome ((fix all (l : list mval) : result (list str) :=
        match l with
        | [] => Ok []
        | x :: l' => let! s := print_mval x in let! r := all l' in Ok (s :: r)
        end) ps) (fun e => exists x, within x (VFormula (OStr n0) (Some k) ps a f g) /\ mql_hazard e x)) as A.
    { assert (Forall (fun p => outcome (print_mval p) (fun e => exists x, within x (VFormula (OStr n0) (Some k) ps a f g) /\ mql_hazard e x)) ps) as F.
      { rewrite Forall_forall in *. intros p Hp. eapply out_weak; [apply IH; auto|]. intros e (x & O & Hz).
        exists x. split; [eapply wi_below; eassumption|exact Hz]. }
      clear - F. revert F. generalize (fun e => exists x, within x (VFormula (OStr n0) (Some k) ps a f g) /\ mql_hazard e x) as H.
      intros H F. induction F as [|p l Hp _ IHl]; [exact I|]. apply out_bind; [exact Hp|]. intros s _. apply out_bind; [exact IHl|]. intros; exact I. }
    assert (outcome (let! fs := print_filters f in let! gs := print_groupby g in Ok (fs ++ gs))
       (fun e => exists x, within x (VFormula (OStr n0) (Some k) ps a f g) /\ mql_hazard e x)) as FG.
    { apply out_bind.
      - eapply out_weak; [apply filters_out; assumption|]. intros e (x & O & Hz). exists x. split; [apply wi_formula; left; exact O|exact Hz].
      - intros fs _. apply out_bind; [|intros; exact I].
        eapply out_weak; [apply groupby_out; assumption|]. intros e (x & O & Hz). exists x. split; [apply wi_formula; right; exact O|exact Hz]. }
    assert (forall r : result str, outcome r (fun _ => False) -> outcome (let! h := r in let! fs := print_filters f in let! gs := print_groupby g in Ok (h ++ fs ++ gs))
       (fun e => exists x, within x (VFormula (OStr n0) (Some k) ps a f g) /\ mql_hazard e x)) as K.
    { intros r R. destruct r as [h|e]; [|elim R]. cbn [bind]. revert FG. destruct (print_filters f); cbn [bind]; [|auto]. destruct (print_groupby g); cbn; auto. }
    assert (forall l, outcome (match infix_of n0 with
                | Some o => Ok ($"(" ++ join ($" " ++ o ++ $" ") l ++ $")")
                | None => let! ap := print_aggp a in
                          Ok (prefix_of n0 ++ ap ++ $"(" ++ join ($", ") l ++ $")")
                end) (fun _ => False)) as Hd.
    { intros l. destruct (infix_of n0); [exact I|].
      match goal with H : opt_all_obj _ a |- _ => destruct H as [->|(la & -> & _)] end; [exact I|].
      unfold print_aggp. destruct (truthy (OList la)); exact I. }
    destruct k; try congruence; (apply out_bind; [exact A|]; intros l _; apply K, Hd).
Qed.

(** * Optimizing *)
Lemma optimized_occurs c c' x e : optimized_at c c' -> occurs x c' -> mql_hazard e x -> occurs x c.
Proof.
  intros [(_ & M)|(_ & ->)] O Hz; [|exact O]. destruct M as [cls k lhs rhs rest].
  assert (forall y, occurs x y -> In y [lhs; rhs] -> occurs x (OBoolC cls OR k (OCond lhs EQ rhs :: rest))) as K.
  { intros y Oy I. apply oc_cond with (OCond lhs EQ rhs); [left; reflexivity|].
    destruct I as [<-|[<-|[]]]; [apply oc_lhs, Oy|apply oc_rhs, Oy]. }
  inversion O; subst.
  - inversion Hz as [? ? Hz'|]; subst. inversion Hz'.
  - apply (K lhs); cbn; auto.
  - match goal with H : occurs x (OList _) |- _ => inversion H; subst end.
    + inversion Hz as [? ? Hz'|]; subst. inversion Hz'.
    + match goal with H : In _ (_ :: _) |- _ => destruct H as [<-|I] end; [apply (K rhs); cbn; auto|].
      apply in_map_iff in I. destruct I as (z & <- & Iz). apply oc_cond with z; [right; exact Iz|].
      destruct z; try (match goal with H : occurs x (rhs_of _) |- _ => cbn in H; inversion H; subst end;
        inversion Hz as [? ? Hz'|]; subst; inversion Hz'; fail).
      apply oc_rhs. assumption.
Qed.
Lemma optimized_wf c c' : wf c -> optimize_condition c = Ok (Some c') -> is_filter wf c'.
Proof.
  intros W E. rewrite optimize_condition_try in E. destruct (merge_try c) as [[lhs rs]|] eqn:M; [|discriminate].
  apply bind_Ok in E as (n & E & E'). injection E' as <-. apply merge_try_merged in M.
  unfold mk_condition in E. destruct (negb _); [discriminate|]. apply bind_Ok in E as ([] & E & E'). injection E' as <-.
  split; [|left; eauto]. inversion M; subst. inversion W as [| | | | | | | | | | | | | | | | | | | | | | | | | |? ? ? ? _ _ Wl| | | | | | |]; subst.
  inversion Wl as [|? ? W1 W2]; subst.
  constructor; [exact E|inversion W1; assumption|]. constructor. constructor; [inversion W1; assumption|].
  clear - W2. induction W2 as [|x l W _ IH]; constructor; [|exact IH]. destruct W; try constructor. assumption.
Qed.
Lemma optimize_each l l' : optimize l = Ok (Some l') ->
  Forall2 (fun c c' => c' = c \/ optimize_condition c = Ok (Some c')) l l'.
Proof.
  unfold optimize. intros E. apply bind_Ok in E as (rs & E & H). destruct (existsb _ rs); [|discriminate].
  injection H as <-. revert rs E. induction l as [|c l IH]; cbn [mapM]; intros rs E; [injection E as <-; constructor|].
  apply bind_Ok in E as (x & E1 & E). apply bind_Ok in E as (xs & E2 & E). injection E as <-.
  apply bind_Ok in E1 as (r & E1 & E3). injection E3 as <-. cbn [map fst snd]. constructor; [|apply IH, E2].
  destruct r; auto.
Qed.
Lemma optimize_filters l l' : Forall (is_filter wf) l -> optimize l = Ok (Some l') -> Forall (is_filter wf) l'.
Proof.
  intros F E. apply optimize_each in E. induction E as [|c c' l l' H _ IH]; [constructor|].
  inversion_clear F. constructor; [|apply IH; assumption]. destruct H as [->|H]; [assumption|].
  eapply optimized_wf; [|exact H]. match goal with K : is_filter wf c |- _ => apply K end.
Qed.
Lemma optimize_occurs l l' x e y : optimize l = Ok (Some l') -> In y l' -> occurs x y -> mql_hazard e x ->
  exists z, In z l /\ occurs x z.
Proof.
  intros E Iy O Hz. apply optimize_Some in E as (_ & F). induction F as [|c c' l l' H _ IH]; [elim Iy|].
  destruct Iy as [->|Iy].
  - exists c. split; [left; reflexivity|]. eapply optimized_occurs; eassumption.
  - destruct (IH Iy) as (z & Iz & Oz). exists z. split; [right; exact Iz|exact Oz].
Qed.

(** the value optimizing gives *)
Lemma wf_list_filters l : Forall (is_filter wf) l -> Forall wf l.
Proof. apply Forall_impl. intros c H. apply H. Qed.
Lemma ts_rebuild t fs' : ts_ok t -> Forall SpecMetrics.condition_obj fs' ->
  mk_timeseries (VMetric (ts_metric t)) (OStr (ts_agg t)) (obj_of_opt OList (ts_params t)) (OList fs') (obj_of_opt OList (ts_groupby t))
  = Ok (mkTS (ts_metric t) (ts_agg t) (ts_params t) (Some fs') (ts_groupby t)).
Proof.
  intros (Hm & Hp & Hf & Hg) F. apply ts_exact. cbn. repeat split; auto; apply opt_list_of; assumption.
Qed.
Lemma mk_ts_filters m a p f g t fs : mk_timeseries m a p (OList fs) g = Ok t -> f = Some fs -> ts_filters t = f /\ ts_ok t.
Proof.
  intros E ->. apply ts_exact in E as (-> & M & -> & P & F & G). split.
  - destruct (ts_filters t); cbn in F; [destruct F as [F _]|]; congruence.
  - split; [exact M|]. split; [|split]; intros l El; rewrite El in *; cbn in *; intuition.
Qed.

(** optimizing a second time changes nothing *)
Lemma optimize_mval_idem v v' : optimize_mval v = Ok v' -> optimize_mval v' = Ok v'.
Proof.
  destruct v as [o|m|t|r|sc|n pk ps a f g]; cbn [optimize_mval]; intros E; try (injection E as <-; reflexivity).
  - destruct (ts_filters t) as [fs|] eqn:Ef; [|injection E as <-; cbn; rewrite Ef; reflexivity].
    apply bind_Ok in E as (o & Eo & E). destruct o as [fs'|].
    + cbn [ts_fields] in E. apply bind_Ok in E as (t' & Et & E). injection E as <-.
      apply mk_ts_filters with (f := Some fs') in Et as [Ef' _]; [|reflexivity].
      cbn. rewrite Ef', (optimize_idempotent _ _ Eo). reflexivity.
    + injection E as <-. cbn. rewrite Ef, Eo. reflexivity.
  - assert (f = ONone \/ exists fs, iter f = Ok fs /\ (let! o := optimize fs in
             match o with
             | None => Ok (VFormula n pk ps a f g)
             | Some fs' => Ok (VFormula n pk ps a (OList fs') g)
             end) = Ok v') as K.
    { destruct f; [left; reflexivity|..]; right; (apply bind_Ok in E as (fs & Ei & E); exists fs; split; assumption). }
    destruct K as [->|(fs & Ei & K)]; [injection E as <-; reflexivity|].
    apply bind_Ok in K as (o & Eo & K). destruct o as [fs'|]; injection K as <-.
    + cbn. rewrite (optimize_idempotent _ _ Eo). reflexivity.
    + cbn [optimize_mval]. destruct f; try reflexivity; rewrite Ei; cbn [bind]; rewrite Eo; reflexivity.
Qed.
Lemma mk_ts_same t fs' t' : mk_timeseries (VMetric (ts_metric t)) (OStr (ts_agg t)) (obj_of_opt OList (ts_params t)) (OList fs') (obj_of_opt OList (ts_groupby t)) = Ok t' ->
  t' = mkTS (ts_metric t) (ts_agg t) (ts_params t) (Some fs') (ts_groupby t).
Proof.
  intros E. apply ts_exact in E as (A & _ & B & P & F & G). apply opt_list_back in P, G.
  assert (ts_filters t' = Some fs') as F' by (destruct (ts_filters t'); cbn in F; [destruct F|]; congruence).
  destruct t'; cbn in *. congruence.
Qed.
(** what optimizing changes: only the filters at the root *)
Lemma optimize_mval_changes v v' : check_query v = Ok tt -> optimize_mval v = Ok v' ->
  v' = v /\ (forall l, root_filters v l -> Forall (fun c => ~ mergeable c) l)
  \/ exists l l', root_filters v l /\ refiltered v l' v' /\ optimize l = Ok (Some l').
Proof.
  intros C. destruct v as [o|m|t|r|sc|n pk ps a f g]; cbn [optimize_mval]; intros E;
    try (injection E as <-; left; split; [reflexivity|intros l H; inversion H]).
  - destruct (ts_filters t) as [fs|] eqn:Ef.
    2:{ injection E as <-. left. split; [reflexivity|]. intros l H. inversion H; subst. discriminate Ef. }
    apply bind_Ok in E as (o & Eo & E). destruct o as [fs'|].
    + cbn [ts_fields] in E. apply bind_Ok in E as (t' & Et & E). injection E as <-. apply mk_ts_same in Et as ->.
      right. exists fs, fs'. destruct t as [m a p f g]; cbn in *. subst f. repeat split; try constructor. exact Eo.
    + injection E as <-. left. split; [reflexivity|]. intros l H. inversion H; subst. cbn in Ef. injection Ef as <-. apply optimize_None, Eo.
  - assert (f = ONone \/ exists fs, iter f = Ok fs /\ (let! o := optimize fs in
             match o with
             | None => Ok (VFormula n pk ps a f g)
             | Some fs' => Ok (VFormula n pk ps a (OList fs') g)
             end) = Ok v') as K.
    { destruct f; [left; reflexivity|..]; right; (apply bind_Ok in E as (fs & Ei & E); exists fs; split; assumption). }
    destruct K as [->|(fs & Ei & K)]; [injection E as <-; left; split; [reflexivity|intros l H; inversion H]|]. clear E.
    apply bind_Ok in K as (o & Eo & K). destruct o as [fs'|]; injection K as <-.
    + right. exists fs, fs'. assert (f = OList fs \/ f = OTuple fs) as D.
      { destruct f; try discriminate Ei; injection Ei as <-; auto.
        - exfalso. apply optimize_Some in Eo as [Ex _]. apply Exists_exists in Ex as (c & I & M). apply in_map_iff in I as (x & <- & _). inversion M.
        - exfalso. apply optimize_Some in Eo as [Ex _]. apply Exists_exists in Ex as (c & I & M). apply in_map_iff in I as (x & <- & _). inversion M.
        - exfalso. apply optimize_Some in Eo as [Ex _]. apply Exists_exists in Ex as (c & I & M). apply in_map_iff in I as (x & <- & _). inversion M. }
      destruct D as [-> | ->]; repeat split; try constructor; exact Eo.
    + left. split; [reflexivity|]. intros l H. apply optimize_None. inversion H; subst; cbn in Ei; congruence.
Qed.
Lemma check_query_optimized v v' : optimize_mval v = Ok v' -> check_query v = Ok tt -> check_query v' = Ok tt.
Proof.
  destruct v as [o|m|t|r|sc|n pk ps a f g]; cbn [optimize_mval]; intros E C; try (injection E as <-; exact C).
  - destruct (ts_filters t) as [fs|] eqn:Ef; [|injection E as <-; exact C].
    apply bind_Ok in E as (o & Eo & E). destruct o as [fs'|]; [|injection E as <-; exact C].
    cbn [ts_fields] in E. apply bind_Ok in E as (t' & Et & E). injection E as <-.
    apply mk_ts_filters with (f := Some fs') in Et as [_ T]; [|reflexivity]. cbn. apply ts_validate_iff, T.
  - assert (v' = VFormula n pk ps a f g \/ exists f', v' = VFormula n pk ps a f' g) as K.
    { destruct f; [left; congruence|..]; (apply bind_Ok in E as (fs & Ei & E); apply bind_Ok in E as (oo & Eo & E);
        destruct oo; injection E as <-; [right; eauto|left; reflexivity]). }
    destruct K as [->|(f' & ->)]; exact C.
Qed.
Lemma mq_put_query v w q : mq_put FQuery v (mq_put FQuery w q) = mq_put FQuery v q.
Proof. destruct q; reflexivity. Qed.
Lemma mq_put_same q : mq_put FQuery (mq_query q) q = q.
Proof. destruct q; reflexivity. Qed.
Lemma mq_validate_put v q : mq_validate q = Ok tt -> check_query v = Ok tt -> mq_validate (mq_put FQuery v q) = Ok tt.
Proof.
  destruct q. unfold mq_validate. cbn. intros H C. rewrite C. apply seq_ok in H as [_ H]. exact H.
Qed.
Lemma mq_validate_query q : mq_validate q = Ok tt -> check_query (mq_query q) = Ok tt.
Proof. intros H. apply seq_ok in H as [H _]. exact H. Qed.
Lemma serialize_again q q1 r : mq_serialize q = (q1, r) -> mq_serialize q1 = (q1, r).
Proof.
  unfold mq_serialize at 1. destruct (mq_validate q) as [[]|e] eqn:V.
  - destruct (optimize_mval (mq_query q)) as [v|e] eqn:O.
    + intros E. injection E as <- <-. unfold mq_serialize. rewrite mq_validate_put; [|exact V|].
      * replace (mq_query (mq_put FQuery v q)) with v by (destruct q; reflexivity).
        rewrite (optimize_mval_idem _ _ O), mq_put_query. reflexivity.
      * eapply check_query_optimized; [exact O|]. apply mq_validate_query, V.
    + intros E. injection E as <- <-. unfold mq_serialize. rewrite V, O. reflexivity.
  - intros E. injection E as <- <-. unfold mq_serialize. rewrite V. reflexivity.
Qed.
Lemma print_after q q1 r : mq_serialize q = (q1, Ok r) -> mq_print q1 = Ok r.
Proof.
  unfold mq_serialize, mq_print. destruct (mq_validate q) as [[]|e] eqn:V; [|discriminate].
  destruct (optimize_mval (mq_query q)) as [v|e] eqn:O; [|discriminate].
  intros E. injection E as <- E. rewrite mq_validate_put; [exact E|exact V|].
  eapply check_query_optimized; [exact O|]. apply mq_validate_query, V.
Qed.

(** * Built queries *)
Lemma opt_all_impl (P Q : obj -> Prop) x : (forall o, P o -> Q o) -> opt_all P x -> opt_all Q x.
Proof. intros H. destruct x; cbn; [apply Forall_impl, H|auto]. Qed.
Lemma opt_all_obj_impl (P Q : obj -> Prop) x : (forall o, P o -> Q o) -> opt_all_obj P x -> opt_all_obj Q x.
Proof. intros H [->|(l & -> & F)]; [left; reflexivity|right]. exists l. split; [reflexivity|]. eapply Forall_impl; [exact H|exact F]. Qed.
Lemma built_impl (P Q : obj -> Prop) v : (forall o, P o -> Q o) -> built P v -> built Q v.
Proof.
  intros H. induction v as [o|m|t|r|sc|n pk ps a f g IH] using mval_ind'; intros B; inversion B; subst; constructor;
    try assumption;
    try (eapply opt_all_impl; [|eassumption]; intros x Hx; destruct Hx; split; auto);
    try (eapply opt_all_obj_impl; [|eassumption]; intros x Hx; destruct Hx; split; auto).
  rewrite Forall_forall in *. auto.
Qed.
Lemma optimize_built v : built wf v -> check_query v = Ok tt ->
  exists v', optimize_mval v = Ok v' /\ built wf v'
    /\ forall x e, within x v' -> mql_hazard e x -> within x v.
Proof.
  intros B C. destruct B as [z|b|f|t M P F G|n k ps a f g K Ps A F G]; try discriminate C.
  - cbn [optimize_mval]. destruct (ts_filters t) as [fs|] eqn:Ef.
    2:{ eexists. split; [reflexivity|]. split; [constructor; try rewrite Ef; assumption|auto]. }
    cbn in F. destruct (optimize_total fs) as (o & Eo); [apply wf_list_filters, F|]. rewrite Eo. cbn [bind].
    destruct o as [fs'|]; [|eexists; split; [reflexivity|]; split; [constructor; try rewrite Ef; assumption|auto]].
    pose proof (optimize_filters _ _ F Eo) as F'.
    cbn [ts_fields]. rewrite ts_rebuild; [|apply ts_validate_iff, C|eapply Forall_impl; [|exact F']; intros c H; apply H].
    cbn [bind]. eexists. split; [reflexivity|]. split; [constructor; cbn; assumption|].
    intros x e W Hz. inversion W as [x' t' I| |]; subst. cbn in I. constructor.
    destruct I as [I|[(l & y & E & Iy & O)|I]]; [auto| |auto]. injection E as <-. right. left.
    rewrite Ef. destruct (optimize_occurs _ _ _ _ _ Eo Iy O Hz) as (z & Iz & Oz). exists fs, z. auto.
  - cbn [optimize_mval]. destruct F as [->|(fs & -> & F)].
    { eexists. split; [reflexivity|]. split; [constructor; auto; left; reflexivity|auto]. }
    cbn [iter bind]. destruct (optimize_total fs) as (o & Eo); [apply wf_list_filters, F|]. rewrite Eo. cbn [bind].
    destruct o as [fs'|]; [|eexists; split; [reflexivity|]; split; [constructor; auto; right; eauto|auto]].
    pose proof (optimize_filters _ _ F Eo) as F'.
    eexists. split; [reflexivity|]. split; [constructor; auto; right; eauto|].
    intros x e W Hz. inversion W as [|x' n' pk' ps' a' f' g' I|x' p n' pk' ps' a' f' g' Ip I]; subst; [|eapply wi_below; eassumption].
    apply wi_formula. destruct I as [(l & y & E & Iy & O)|I]; [|auto]. injection E as <-. left.
    destruct (optimize_occurs _ _ _ _ _ Eo Iy O Hz) as (z & Iz & Oz). exists fs, z. auto.
Qed.
Lemma time_prints v : check_time v = Ok tt -> exists t, v = VObj (ODateTime t).
Proof. destruct v as [[]| | | | |]; cbn; try discriminate. eauto. Qed.
(** a validated query: its settings *)
Lemma validated_settings q : mq_validate q = Ok tt -> mq_indexer q <> VObj ONone -> exists s, has_settings q s.
Proof.
  unfold mq_validate. intros H N.
  apply seq_ok in H as [_ H]. apply seq_ok in H as [H1 H]. apply seq_ok in H as [H2 H]. apply seq_ok in H as [H3 H].
  apply seq_ok in H as [H4 H]. apply seq_ok in H as [H5 H]. apply seq_ok in H as [H6 H]. apply seq_ok in H as [H7 H8].
  apply time_prints in H1 as (st & E1). apply time_prints in H2 as (en & E2).
  destruct (mq_rollup q) as [| | |ro| |] eqn:E3; try discriminate H3.
  destruct (mq_scope q) as [| | | |sc|] eqn:E4; try discriminate H4.
  assert (exists x, mq_limit q = opt_of OLimit x) as [li E5].
  { destruct (mq_limit q) as [[]| | | | |]; try discriminate H5; [exists None|eexists (Some _)]; reflexivity. }
  assert (exists x, mq_offset q = opt_of OOffset x) as [off E6].
  { destruct (mq_offset q) as [[]| | | | |]; try discriminate H6; [exists None|eexists (Some _)]; reflexivity. }
  assert (exists x, mq_extrapolate q = opt_of OExtrapolate x) as [ex E7].
  { destruct (mq_extrapolate q) as [[]| | | | |]; try discriminate H7; [exists None|eexists (Some _)]; reflexivity. }
  assert (exists ks vs, mq_indexer q = VObj (ODict ks vs)) as (ks & vs & E8).
  { destruct (mq_indexer q) as [[]| | | | |]; try discriminate H8; [congruence|eauto]. }
  exists (mkSet st en ro sc li off ex (ks, vs)). repeat split; cbn; assumption.
Qed.
Definition context_of (s : settings) : obj :=
  ODict [$"start"; $"end"; $"rollup"; $"scope"; $"indexer_mappings"; $"limit"; $"offset"; $"extrapolate"]
    [OStr (datetime_iso (se_start s)); OStr (datetime_iso (se_end s)); rollup_dict (se_rollup s); scope_dict (se_scope s);
     ODict (fst (se_indexer s)) (snd (se_indexer s)); or_none int_text (se_limit s); or_none int_text (se_offset s);
     or_none OBool (se_extrapolate s)].
Lemma payload_settings q s : has_settings q s ->
  mq_payload q = let! m := print_mq_query (mq_query q) in Ok (m, context_of s).
Proof.
  intros (E1 & E2 & E3 & E4 & E5 & E6 & E7 & E8). unfold mq_payload. rewrite E1, E2, E3, E4, E5, E6, E7, E8.
  destruct (print_mq_query _); [|reflexivity]. destruct s as [s1 s2 s3 s4 li off ex [h i]]; destruct li as [[?|?]|], off as [[?|?]|], ex as [?|]; reflexivity.
Qed.
Lemma has_settings_put v q s : has_settings q s <-> has_settings (mq_put FQuery v q) s.
Proof. destruct q; reflexivity. Qed.
Lemma payload_indexer q r : mq_payload q = Ok r -> mq_indexer q <> VObj ONone.
Proof.
  unfold mq_payload. intros H E. rewrite E in H.
  repeat (apply bind_Ok in H as (? & ? & H)). discriminate.
Qed.
Lemma serialize_parts q q1 r : mq_serialize q = (q1, Ok r) ->
  mq_validate q = Ok tt /\ exists v, optimize_mval (mq_query q) = Ok v /\ q1 = mq_put FQuery v q /\ mq_payload q1 = Ok r.
Proof.
  unfold mq_serialize. destruct (mq_validate q) as [[]|]; [|discriminate].
  destruct (optimize_mval _) as [v|]; [|discriminate]. intros E. injection E as <- E. eauto 6.
Qed.
Lemma serialize_settings q q1 m d : mq_serialize q = (q1, Ok (m, d)) -> exists s, has_settings q s /\ d = context_of s.
Proof.
  intros E. apply serialize_parts in E as (V & v & O & -> & P).
  destruct (validated_settings q V) as (s & S).
  { apply payload_indexer in P. destruct q; exact P. }
  exists s. split; [exact S|]. rewrite (payload_settings _ s) in P by (apply has_settings_put, S).
  apply bind_Ok in P as (x & _ & P). congruence.
Qed.
Lemma has_settings_fun q s s' : has_settings q s -> has_settings q s' -> s = s'.
Proof.
  intros (E1 & E2 & E3 & E4 & E5 & E6 & E7 & E8) (F1 & F2 & F3 & F4 & F5 & F6 & F7 & F8).
  destruct s as [a b c d e f g [h i]], s' as [a' b' c' d' e' f' g' [h' i']]; cbn in *.
  assert (forall A (k : A -> obj) x y, (forall u v, k u = k v -> u = v) -> (forall u, k u <> ONone) -> opt_of k x = opt_of k y -> x = y) as K.
  { intros A k [x|] [y|] I N H; unfold opt_of in H; try reflexivity; injection H as H; [f_equal; apply I, H| |]; elim (N _ (eq_sym H)) || elim (N _ H). }
  rewrite E5 in F5. rewrite E6 in F6. rewrite E7 in F7.
  apply K in F5; [|congruence|discriminate]. apply K in F6; [|congruence|discriminate]. apply K in F7; [|congruence|discriminate]. congruence.
Qed.
Lemma serialize_total q : built wf (mq_query q) -> mq_validate q = Ok tt -> mq_indexer q <> VObj ONone ->
  match snd (mq_serialize q) with Ok _ => True | Raise e => exists x, within x (mq_query q) /\ mql_hazard e x end.
Proof.
  intros B V N. destruct (optimize_built _ B (mq_validate_query _ V)) as (v & O & B' & W).
  unfold mq_serialize. rewrite V, O. cbn [snd]. destruct (validated_settings q V N) as (s & S).
  rewrite (payload_settings _ s) by (apply has_settings_put, S).
  replace (mq_query (mq_put FQuery v q)) with v by (destruct q; reflexivity).
  pose proof (mval_out v B') as T.
  assert (print_mq_query v = print_mval v) as ->.
  { pose proof (check_query_optimized _ _ O (mq_validate_query _ V)) as C. inversion B'; subst; try discriminate C; reflexivity. }
  destruct (print_mval v) as [m|e]; cbn in *; [exact I|]. destruct T as (x & Wx & Hz). exists x. split; [eapply W; eassumption|exact Hz].
Qed.
End F.
