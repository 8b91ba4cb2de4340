(** Calls: aggregates over a metric, and why function arguments are not read as one. *)
From Verif Require Import PyBase PyFacts Regex RegexFacts Objects Exprs Translate Query Metrics SpecExpr
  ExprFacts ExprProps TextFacts SpecMetrics MetricsFacts FormulaFacts SpecMql Peg PegTotal Mql MqlParse
  MqlTokens MqlFilter MqlExpr MqlCall MqlParams.

Section Body.
Context {RT : PyRT}.

(** * Values *)
Definition good (v : mval) : Prop :=
  match v with
  | VTS t => ts_ok t
  | VFormula _ _ _ _ f g =>
      (exists y, opt_list condition_obj f y) /\ (exists y, opt_list groupable g y)
  | VObj (OFloat _) => True
  | _ => False
  end.
Lemma good_operand v : good v -> is_operand (PVal v) = true.
Proof. destruct v as [o| | | | |]; cbn; try contradiction; try reflexivity. destruct o; try contradiction; reflexivity. Qed.
Lemma plain_groupable l : Forall plain_tag l -> Forall groupable l.
Proof. intros H. eapply Forall_impl; [|exact H]. intros o (k & _ & ->). left. eexists. reflexivity. Qed.
Lemma app_extend l cur : extend l (OList cur) = Ok (l ++ cur).
Proof. unfold extend. destruct cur; cbn; [rewrite app_nil_r|]; reflexivity. Qed.
Lemma extend_none l : extend l ONone = Ok l.
Proof. reflexivity. Qed.
Lemma query_is v : mql_query v -> is_query (PVal v) = true.
Proof. intros H; destruct H; reflexivity. Qed.
Lemma with_query f v : mql_query v -> mql_query (with_filter f v).
Proof. intros H. destruct H, f; constructor. Qed.
Lemma group_query l v : mql_query v -> mql_query (with_groupby l v).
Proof. intros H. destruct H, l; constructor. Qed.
Lemma apply_filters_ok v f p : good v -> mql_query v -> packed_of f p ->
  apply_filters v p = Ok (with_filter f v) /\ good (with_filter f v).
Proof.
  intros G Q P. destruct f as [c|]; cbn in P; [|subst p; split; [reflexivity|destruct Q; exact G]].
  destruct P as (x & y & -> & C). cbn [apply_filters pvc as_obj bind].
  apply is_condition_iff in C. destruct Q as [t|n pk ps a f g].
  - cbn in G. cbn [get_filters bind].
    assert (extend [c] (obj_of_opt OList (ts_filters t)) = Ok (c :: opt_items (ts_filters t))) as ->.
    { destruct (ts_filters t); [apply app_extend|reflexivity]. }
    cbn [bind put_filters].
    assert (Forall condition_obj (c :: opt_items (ts_filters t))) as F.
    { constructor; [exact C|]. destruct (ts_filters t) eqn:E; [|constructor]. apply G, E. }
    rewrite (proj2 (set_filters_iff t (OList (c :: opt_items (ts_filters t))) _ G)
       (ex_intro _ (Some (c :: opt_items (ts_filters t))) (conj (conj eq_refl F) eq_refl))).
    split; [reflexivity|]. cbn. destruct G as (G1 & G2 & G3 & G4).
    repeat split; cbn; auto. intros l E. inversion E; subst. exact F.
  - destruct G as ((y1 & G1) & G2). cbn [get_filters bind].
    assert (extend [c] f = Ok (c :: items_of f) /\ Forall condition_obj (c :: items_of f)) as (-> & F).
    { destruct y1 as [l|]; cbn in G1; [destruct G1 as (-> & F)|subst f].
      - split; [apply app_extend|constructor; [exact C|exact F]].
      - split; [reflexivity|constructor; [exact C|constructor]]. }
    cbn [bind put_filters].
    rewrite (proj2 (formula_set_filters_iff n pk ps a f g (OList (c :: items_of f)) _)
       (conj (ex_intro _ (Some (c :: items_of f)) (conj eq_refl F)) eq_refl)).
    split; [reflexivity|]. cbn. split; [|exact G2]. exists (Some (c :: items_of f)). split; [reflexivity|exact F].
Qed.
Lemma apply_groupby_ok v l p : good v -> mql_query v -> groups_of l p ->
  apply_groupby v p = Ok (with_groupby l v) /\ good (with_groupby l v).
Proof.
  intros G Q P. destruct l as [l|]; cbn in P; [|subst p; split; [reflexivity|destruct Q; exact G]].
  destruct P as (x & -> & L & T). apply plain_groupable in T. cbn [apply_groupby]. rewrite L. cbn [bind].
  destruct Q as [t|n pk ps a f g].
  - cbn in G. cbn [get_groupby bind].
    assert (extend l (obj_of_opt OList (ts_groupby t)) = Ok (l ++ opt_items (ts_groupby t))) as ->.
    { destruct (ts_groupby t); [apply app_extend|cbn; rewrite app_nil_r; reflexivity]. }
    cbn [bind put_groupby].
    assert (Forall groupable (l ++ opt_items (ts_groupby t))) as F.
    { apply Forall_app. split; [exact T|]. destruct (ts_groupby t) eqn:E; [|constructor]. apply G, E. }
    rewrite (proj2 (set_groupby_iff t (OList (l ++ opt_items (ts_groupby t))) _ G)
       (ex_intro _ (Some (l ++ opt_items (ts_groupby t))) (conj (conj eq_refl F) eq_refl))).
    split; [reflexivity|]. cbn. destruct G as (G1 & G2 & G3 & G4).
    repeat split; cbn; auto. intros l' E. inversion E; subst. exact F.
  - destruct G as (G1 & (y2 & G2)). cbn [get_groupby bind].
    assert (extend l g = Ok (l ++ items_of g) /\ Forall groupable (l ++ items_of g)) as (-> & F).
    { destruct y2 as [l'|]; cbn in G2; [destruct G2 as (-> & F)|subst g].
      - split; [apply app_extend|apply Forall_app; auto].
      - cbn. rewrite app_nil_r. auto. }
    cbn [bind put_groupby].
    rewrite (proj2 (formula_set_groupby_iff n pk ps a f g (OList (l ++ items_of g)) _)
       (conj (ex_intro _ (Some (l ++ items_of g)) (conj eq_refl F)) eq_refl)).
    split; [reflexivity|]. cbn. split; [exact G1|]. exists (Some (l ++ items_of g)). split; [reflexivity|exact F].
Qed.

(** * The metric in an aggregate *)
Definition inner_seq : list (peg rule) :=
  [PRef Ropen_paren; PRef Rws; PRef Rinner_filter; PRef Rws; PRef Rclose_paren].
Lemma blank_mri1 w : white w -> forallb mri1 w = true.
Proof.
  intros B. apply forallb_forall. intros c I. unfold white in B. rewrite Forall_forall in B. specialize (B c I). apply space_num in B.
  unfold mri1, mri_char. rewrite one_of_false by (cbn; lia).
  replace (N.eqb c 58) with false by (symmetry; apply N.eqb_neq; lia).
  replace (N.eqb c DQ) with false by (symmetry; apply N.eqb_neq; unfold DQ; lia). reflexivity.
Qed.
Lemma key_mri1 k : mql_key k -> forallb mri1 k = true.
Proof.
  intros K. apply forallb_forall. intros c I. destruct (mql_key_all k K) as (_ & A).
  rewrite forallb_forall in A. specialize (A c I). apply key_b_iff in A.
  unfold mri1, mri_char. unfold key_char, ascii_word, ascii_letter, ascii_digit in A.
  rewrite one_of_false by (cbn; lia).
  replace (N.eqb c 58) with false by (symmetry; apply N.eqb_neq; lia).
  replace (N.eqb c DQ) with false by (symmetry; apply N.eqb_neq; unfold DQ; lia). reflexivity.
Qed.
Lemma no_mri_stop z x t : forallb mri1 z = true -> mri1 x = false -> x <> 58%N -> no_mri (z ++ x :: t).
Proof.
  intros Z X N. unfold no_mri. rewrite skip_stop; [|exact Z|exact X]. cbn [heads]. apply N.eqb_neq. congruence.
Qed.
Lemma group_end g l w rest : opt_group_text g l -> white w -> metric_end (g ++ w ++ 41%N :: rest).
Proof.
  intros H B. assert (forall c, space_char c -> public_char c = false /\ N.eqb 46 c = false) as K.
  { intros c C. apply space_num in C. split; [|apply N.eqb_neq; lia]. destruct (public_char c) eqn:E; [|reflexivity].
    apply public_iff in E. lia. }
  destruct H as [|g l H].
  - cbn [app]. split; [split; apply blank_heads; auto; apply K|].
    apply no_mri_stop; [apply blank_mri1, B|reflexivity|discriminate].
  - destruct H as [w1 w2 k B1 N1 B2 Kk|w1 w2 w3 t l w4 B1 N1 B2 B3 T B4]; rewrite <- !app_assoc.
    + split.
      * destruct w1 as [|c w1]; [congruence|]. inversion B1; subst. split; cbn; apply K; assumption.
      * pose proof (no_mri_stop (w1 ++ $"by" ++ w2 ++ k ++ w) 41%N rest) as G.
        rewrite <- !app_assoc in G. apply G; [|reflexivity|discriminate].
        rewrite !forallb_app, (blank_mri1 w1 B1), (blank_mri1 w2 B2), (blank_mri1 w B), (key_mri1 k Kk). reflexivity.
    + split.
      * destruct w1 as [|c w1]; [congruence|]. inversion B1; subst. split; cbn; apply K; assumption.
      * pose proof (no_mri_stop (w1 ++ $"by" ++ w2) 40%N (w3 ++ t ++ w4 ++ $")" ++ w ++ 41%N :: rest)) as G.
        rewrite <- !app_assoc in G. apply G; [|reflexivity|discriminate].
        rewrite !forallb_app, (blank_mri1 w1 B1), (blank_mri1 w2 B2). reflexivity.
Qed.
Lemma no_by_blank w x t : white w -> mql_space x = false -> x <> 98%N -> no_by (w ++ x :: t).
Proof.
  intros B S N. unfold no_by. rewrite skip_stop; [|apply blank_space, B|exact S]. cbn [heads].
  apply N.eqb_neq. congruence.
Qed.
Lemma group_brace g l w rest : opt_group_text g l -> white w -> heads (N.eqb 123) (g ++ w ++ 41%N :: rest) = false.
Proof.
  intros H B. assert (forall c, space_char c -> N.eqb 123 c = false) as K.
  { intros c C. apply space_num in C. apply N.eqb_neq. lia. }
  destruct H as [|g l H].
  - cbn [app]. apply blank_heads; auto.
  - destruct H as [w1 w2 k B1 N1 B2 Kk|w1 w2 w3 t l w4 B1 N1 B2 B3 T B4];
      (destruct w1 as [|c w1]; [congruence|]; inversion B1; subst; cbn [app heads]; apply K; assumption).
Qed.
Definition inner_ts (m : metric) (f g : option (list obj)) : timeseries := mkTS m placeholder None f g.
Lemma metric_text_ok s m : metric_text s m -> metric_ok m.
Proof. intros H. destruct H as [s m [] |]; cbn; try discriminate; intros; (left + right); discriminate. Qed.
Lemma inner_value m fs p pg f l : metric_ok m -> packed_filters fs = Ok p -> packed_of f p -> groups_of l pg ->
  visit_inner_filter [metric_pv m; PList fs; PList pg] = Ok (PVal (VTS (inner_ts m (filter_list f) l)))
  /\ ts_ok (inner_ts m (filter_list f) l).
Proof.
  intros M Pk Pf Pg.
  assert (placeholder_ts (VMetric m) = Ok (inner_ts m None None)) as E0.
  { apply ts_exact. cbn. repeat split. exact M. }
  assert (ts_ok (inner_ts m None None)) as T0.
  { repeat split; cbn; try discriminate. exact M. }
  cbn [visit_inner_filter metric_pv]. rewrite Pk. cbn [bind]. rewrite E0. cbn [bind].
  assert (exists t1, match p with
                     | [] => Ok (inner_ts m None None)
                     | PList (_ :: cond :: _) :: _ =>
                         let! c := as_obj cond in set_filters (inner_ts m None None) (OList [c])
                     | _ => Raise ValueError
                     end = Ok t1 /\ t1 = inner_ts m (filter_list f) None /\ ts_ok t1) as (t1 & -> & -> & T1).
  { destruct f as [c|]; cbn in Pf.
    - destruct Pf as (x & y & -> & C). apply is_condition_iff in C.
      assert (Forall condition_obj [c]) as F by (constructor; [exact C|constructor]).
      eexists. split; [|split; [reflexivity|]].
      + cbn [as_obj pvc bind]. apply (set_filters_iff _ _ _ T0). exists (Some [c]). split; [split; [reflexivity|exact F]|reflexivity].
      + repeat split; cbn; try discriminate; [exact M|]. intros l' E. inversion E; subst. exact F.
    - subst p. eexists. split; [reflexivity|]. split; [reflexivity|exact T0]. }
  cbn [bind]. destruct l as [l|]; cbn in Pg.
  - destruct Pg as (x & -> & L & T). apply plain_groupable in T. rewrite L. cbn [bind].
    rewrite (proj2 (set_groupby_iff _ (OList l) (inner_ts m (filter_list f) (Some l)) T1)).
    + split; [reflexivity|]. destruct T1 as (T1 & T2 & T3 & T4). repeat split; cbn; auto.
      intros l' E. inversion E; subst. exact T.
    + exists (Some l). split; [split; [reflexivity|exact T]|reflexivity].
  - subst pg. split; [reflexivity|exact T1].
Qed.
Lemma body_space b m f g rest : body_text b m f g -> heads mql_space (b ++ rest) = false.
Proof.
  intros H. destruct H; rewrite <- ?app_assoc; try (eapply metric_heads; eassumption);
    try (eapply closed_heads; eassumption).
  eapply (metric_heads s). apply mx_mri. assumption.
Qed.
Lemma p_body b m f g w rest : white w -> body_text b m f g ->
  exists x1 x2 x4 x5, parses_all inner_seq (40%N :: w ++ b ++ 41%N :: rest)
    [x1; x2; PVal (VTS (inner_ts m f g)); x4; x5] rest /\ ts_ok (inner_ts m f g).
Proof.
  intros B H. pose proof (body_space b m f g (41%N :: rest) H) as S.
  assert (exists w2, white w2 /\ parses (PRef Rinner_filter) (b ++ 41%N :: rest) (PVal (VTS (inner_ts m f g))) (w2 ++ 41%N :: rest)
    /\ ts_ok (inner_ts m f g)) as (w2 & B2 & P & T).
  { destruct H as [s M|s m g l w2 M G B2|s m b f g l w2 M Bt G B2].
    - exists []. split; [constructor|].
      destruct (inner_value (mkMetric None (Some s) None) [] [] [] None None) as (V & T);
        [cbn; right; discriminate|reflexivity|reflexivity|reflexivity|]. cbn [filter_list option_map] in *.
      split; [|exact T]. eapply p_ref; [reflexivity| |].
      + cbn [grammar]. apply p_seq. eapply pa_cons; [apply p_metric; [apply mx_mri, M|reflexivity]|].
        eapply pa_cons; [apply p_no_braces; reflexivity|].
        eapply pa_cons; [apply p_opt_none, f_group; reflexivity|apply pa_nil].
      + cbn [act]. exact V.
    - exists w2. split; [exact B2|].
      destruct (p_opt_group g l (w2 ++ 41%N :: rest) G) as (pg & Pg & Gg).
      { apply blank_heads; [exact B2|apply key_blank|reflexivity]. }
      { apply no_by_blank; [exact B2|reflexivity|discriminate]. }
      destruct (inner_value m [] [] pg None l) as (V & T);
        [eapply metric_text_ok, mx_closed, M|reflexivity|reflexivity|exact Gg|].
      split; [|exact T]. eapply p_ref; [reflexivity| |].
      + cbn [grammar]. rewrite <- !app_assoc. apply p_seq.
        eapply pa_cons; [apply p_metric_closed; [exact M|eapply group_end; eassumption]|].
        eapply pa_cons; [apply p_no_braces; eapply group_brace; eassumption|].
        eapply pa_cons; [exact Pg|apply pa_nil].
      + cbn [act]. exact V.
    - exists w2. split; [exact B2|].
      destruct (p_opt_group g l (w2 ++ 41%N :: rest) G) as (pg & Pg & Gg).
      { apply blank_heads; [exact B2|apply key_blank|reflexivity]. }
      { apply no_by_blank; [exact B2|reflexivity|discriminate]. }
      destruct (p_braces b f (g ++ w2 ++ 41%N :: rest) Bt) as (fs & p & Pf & Pk & Pp).
      destruct (inner_value m fs p pg f l) as (V & T);
        [eapply metric_text_ok, M|exact Pk|exact Pp|exact Gg|].
      split; [|exact T]. eapply p_ref; [reflexivity| |].
      + cbn [grammar]. rewrite <- !app_assoc. apply p_seq.
        eapply pa_cons; [apply p_metric; [exact M|destruct Bt; reflexivity]|].
        eapply pa_cons; [exact Pf|].
        eapply pa_cons; [exact Pg|apply pa_nil].
      + cbn [act]. exact V. }
  do 4 eexists. split; [|exact T].
  eapply pa_cons; [apply (p_chr Ropen_paren 40%N); reflexivity|].
  eapply pa_cons; [apply p_blank; [exact B|exact S]|].
  eapply pa_cons; [exact P|].
  eapply pa_cons; [apply p_blank; [exact B2|reflexivity]|].
  eapply pa_cons; [apply (p_chr Rclose_paren 41%N); reflexivity|apply pa_nil].
Qed.
End Body.
