(** What parse_mql returns can be printed (C47, C64). *)
From Verif Require Import PyBase PyFacts Objects Exprs Translate Query Metrics
  SpecExpr SpecMetrics MetricsFacts SpecMql SpecParsed Mql MqlExpr.

Section Print.
Context {RT : PyRT} {ST : PyStr}.

Lemma literal_prints o : parsed_literal o -> exists s, visit true false o = Ok s.
Proof. intros H. destruct H; eexists; reflexivity. Qed.
Lemma strings_print l : exists s, visit true false (OList (map OStr l)) = Ok s.
Proof.
  cbn [visit]. rewrite scalar_strings. cbn [bind].
  match goal with |- context [(?F (map OStr l))] =>
    assert (exists x, F (map OStr l) = Ok x) as (x & ->) end; [|eexists; reflexivity].
  induction l as [|s l (x & IH)]; [eexists; reflexivity|]. cbn. rewrite IH. eexists. reflexivity.
Qed.
Lemma test_prints k o r : parsed_test o r -> exists s, visit_condition_mql true false (tag k) o r = Ok s.
Proof.
  intros H. unfold visit_condition_mql.
  destruct H; try (eexists; reflexivity); cbn [is_unary]; rewrite scalar_strings; cbn [bind];
    destruct (strings_print l) as (s & ->); eexists; reflexivity.
Qed.
Fixpoint parsed_filter_ind' (P : obj -> Prop)
  (H1 : forall k o r, mql_key k -> parsed_test o r -> P (OCond (tag k) o r))
  (H2 : forall b o l, 2 <= List.length l -> Forall parsed_filter l -> Forall P l -> P (OBoolC b o KList l))
  c (H : parsed_filter c) : P c :=
  let go := fix go l (F : Forall parsed_filter l) : Forall P l :=
    match F with
    | Forall_nil _ => Forall_nil _
    | Forall_cons x h t => Forall_cons x (parsed_filter_ind' P H1 H2 x h) (go _ t)
    end in
  match H with
  | pf_test k o r hk ht => H1 k o r hk ht
  | pf_and l hl F => H2 BAnd AND l hl F (go l F)
  | pf_or l hl F => H2 BOr OR l hl F (go l F)
  end.
Lemma filter_prints c : parsed_filter c -> exists l, visit_filter_mql true false c = Ok l.
Proof.
  apply (parsed_filter_ind' (fun c => exists l, visit_filter_mql true false c = Ok l)).
  1: intros k o r K T. 2: intros b o l L F IH.
  - cbn [visit_filter_mql]. destruct (test_prints k o r T) as (s & ->). eexists. reflexivity.
  - cbn [visit_filter_mql]. clear L F.
    match goal with |- context [bind (?G l)] => assert (exists x, G l = Ok x) as (x & E) end.
    { induction IH as [|y l (s & E) _ (x & IHl)]; [eexists; reflexivity|].
      rewrite E. cbn [bind]. rewrite IHl. eexists. reflexivity. }
    rewrite E. eexists. reflexivity.
Qed.

Lemma mapM_total {A B} (f : A -> result B) l :
  Forall (fun x => exists y, f x = Ok y) l -> exists r, mapM f l = Ok r.
Proof.
  induction 1 as [|x l (y & E) _ (r & IH)]; [eexists; reflexivity|].
  cbn. rewrite E. cbn. rewrite IH. eexists. reflexivity.
Qed.
Lemma filters_print f : opt_nonempty_obj parsed_filter f -> exists s, print_filters f = Ok s.
Proof.
  intros [->|(l & -> & _ & F)]; [eexists; reflexivity|]. cbn [print_filters iter bind].
  destruct (mapM_total (visit_filter_mql true false) l) as (r & ->); [|eexists; reflexivity].
  eapply Forall_impl; [|exact F]. intros c H. apply filter_prints, H.
Qed.
Lemma groupby_prints g : opt_nonempty_obj plain_tag g -> exists s, print_groupby g = Ok s.
Proof.
  intros [->|(l & -> & _ & F)]; [eexists; reflexivity|]. cbn [print_groupby iter bind].
  destruct (mapM_total (visit true false) l) as (r & ->); [|eexists; reflexivity].
  eapply Forall_impl; [|exact F]. intros c (k & _ & ->). eexists. reflexivity.
Qed.
Lemma opt_obj {P : obj -> Prop} x : opt_nonempty P x -> opt_nonempty_obj P (obj_of_opt OList x).
Proof. intros [->|(l & -> & N & F)]; [left; reflexivity|right; exists l; auto]. Qed.
Lemma ts_prints t : parsed_ts t -> exists s, print_ts t = Ok s.
Proof.
  intros [m a p f g M A P F G]. unfold print_ts. cbn [ts_metric ts_params ts_agg ts_filters ts_groupby].
  assert (exists x, print_metric m = Ok x) as (x & ->) by (destruct M; eexists; reflexivity).
  destruct (filters_print _ (opt_obj f F)) as (fs & ->).
  destruct (groupby_prints _ (opt_obj g G)) as (gs & ->). cbn [bind].
  assert (match p with
     | Some (p :: ps) => exists r, mapM (visit true false) (p :: ps) = Ok r
     | _ => True end) as H.
  { destruct p as [[|y p]|]; auto. apply mapM_total. eapply Forall_impl; [|exact P].
    intros o. apply literal_prints. }
  destruct p as [[|y p]|]; [eexists; reflexivity| |eexists; reflexivity].
  destruct H as (r & ->). eexists. reflexivity.
Qed.
Lemma value_prints v : parsed_value v -> exists s, print_mval v = Ok s.
Proof.
  induction v as [o|m|t|r|sc|n pk ps a f g IH] using mval_ind'; intros H; inversion H; subst;
    [eexists; reflexivity|eexists; reflexivity|cbn [print_mval]; apply ts_prints; assumption|].
  cbn [print_mval].
  match goal with |- context [bind (?G ps)] => assert (exists x, G ps = Ok x) as (x & E) end.
  { match goal with Q : Forall parsed_value ps |- _ => clear - IH Q; rename Q into F end.
    induction IH as [|y l P _ IHl]; [eexists; reflexivity|]. inversion F; subst.
    destruct P as (s & E); [assumption|]. destruct IHl as (x & E2); [assumption|].
    exists (s :: x). rewrite E. cbn [bind]. rewrite E2. reflexivity. }
  rewrite E. cbn [bind].
  assert (exists y, print_aggp a = Ok y) as (y & EA).
  { match goal with Q : a = ONone \/ _ |- _ => destruct Q as [->|(l & -> & _)] end; [eexists; reflexivity|].
    unfold print_aggp. destruct (truthy _); eexists; reflexivity. }
  destruct (filters_print f) as (fs & EF); [assumption|].
  destruct (groupby_prints g) as (gs & EG); [assumption|].
  rewrite EA, EF, EG. destruct (infix_of _); eexists; reflexivity.
Qed.
End Print.
