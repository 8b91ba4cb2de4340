(** MQL texts built from accepted ones are accepted (C82). *)
From Verif Require Import PyBase PyFacts Regex RegexFacts Objects Exprs Translate Query Metrics SpecExpr
  ExprFacts ExprProps TextFacts SpecMetrics MetricsFacts FormulaFacts SpecMql SpecParsed SpecCompose Peg PegTotal Mql MqlParse
  MqlTokens MqlFilter MqlExpr MqlCall MqlParams MqlBody MqlText MqlRead Extend.
From Verif Require MqlTyping MqlActs.

Scheme bcall_ind' := Induction for built_call Sort Prop
  with bargs_ind' := Induction for built_args Sort Prop
  with bmore_ind' := Induction for built_more Sort Prop
  with bcoef_ind' := Induction for built_coef Sort Prop
  with bunary_ind' := Induction for built_unary Sort Prop
  with bproduct_ind' := Induction for built_product Sort Prop
  with built_ind' := Induction for built Sort Prop.
Combined Scheme compose_ind from bcall_ind', bargs_ind', bmore_ind', bcoef_ind', bunary_ind', bproduct_ind', built_ind'.

Section Compose.
Context {RT : PyRT}.

(** * Accepted texts *)
Lemma blank_iff c : is_space c = true <-> blank_char c.
Proof.
  unfold is_space, blank_char, in_range. destruct (N.ltb_spec c 128).
  - rewrite !orb_true_iff, !andb_true_iff, !N.leb_le, N.eqb_eq. lia.
  - intuition lia.
Qed.
Lemma trimmed_ends s : trimmed s -> fin s /\ heads is_space s = false /\ heads mql_space s = false.
Proof.
  intros ((c & t & E & B) & (t' & c' & E' & B')). split; [|split].
  - exists t', c'. split; [exact E'|]. destruct (is_space c') eqn:X; [|reflexivity]. apply blank_iff in X. contradiction.
  - subst s. cbn. destruct (is_space c) eqn:X; [|reflexivity]. apply blank_iff in X. contradiction.
  - subst s. cbn. destruct (mql_space c) eqn:X; [|reflexivity]. exfalso. apply B. apply mql_space_iff in X.
    unfold blank_char. destruct X as [X|(X & U)]; [lia|]. destruct X; [lia|]. auto.
Qed.
Lemma trimmed_strip s : trimmed s -> strip is_space s = s.
Proof.
  intros T. destruct (trimmed_ends s T) as (F & H & _). rewrite <- (app_nil_r s) at 1.
  apply (strip_blank [] s []); [constructor|constructor|exact F|exact H].
Qed.
Lemma lex_body b s r : quoted_body b s -> lex LQuo (b ++ DQ :: r) = lex LOut r.
Proof.
  induction 1 as [|c t s N1 N2 _ IH|t s _ IH|c t s N1 N2 _ IH]; cbn [app lex].
  - reflexivity.
  - apply N.eqb_neq in N1, N2. unfold DQ, BSL. rewrite N1, N2. exact IH.
  - exact IH.
  - change (N.eqb 92 DQ) with false. change (N.eqb 92 BSL) with true. cbv iota.
    apply N.eqb_neq in N2. unfold NL. rewrite N2. exact IH.
Qed.
Lemma tidy_lex s : tidy s -> exists d, lex LOut s = Some d.
Proof.
  induction 1 as [|c s N1 N2 _ (d & IH)|q x s (b & -> & B) _ (d & IH)|m s F NI _ (d & IH)].
  - exists 0%Z. reflexivity.
  - apply N.eqb_neq in N1, N2. cbn [lex]. unfold DQ. rewrite N1, N2.
    destruct (N.eqb c 40); [rewrite IH; eexists; reflexivity|].
    destruct (N.eqb c 41); [rewrite IH; eexists; reflexivity|]. eauto.
  - exists d. rewrite <- !app_assoc. change (lex LQuo (b ++ DQ :: s) = Some d).
    rewrite (lex_body b x s B). exact IH.
  - exists d. change (lex LOut ($"`" ++ m ++ $"`" ++ s)) with (lex LTick (m ++ 96%N :: s)).
    induction m as [|c m IHm]; [exact IH|]. inversion F as [|? ? C F']; subst. cbn [app lex].
    cbn in NI. destruct (N.eqb_spec c 96); [tauto|]. rewrite (proj1 (pattern_unquoted c) C). apply IHm; tauto.
Qed.
Lemma accepted_good s v : accepted s v -> good v /\ mql_query v.
Proof.
  intros (P & _). pose proof (MqlActs.parse_typed True True s) as T.
  assert (MqlTyping.chars_ok True True s) as C by (apply Forall_forall; intros; split; auto).
  specialize (T C). rewrite P in T. destruct T as (Q & V). split; [|exact Q]. destruct Q as [t|n pk ps a f g].
  - inversion V as [| |? Pt|]; subst. apply MqlActs.parsed_ts_ok, Pt.
  - inversion V as [| | |n' ps' a' f' g' Nn Np Fp Ha Hf Hg]; subst. cbn. split.
    + destruct Hf as [->|(l & -> & _ & F)]; [exists None; reflexivity|]. exists (Some l). split; [reflexivity|].
      eapply Forall_impl; [|exact F]. exact MqlActs.parsed_filter_cond.
    + destruct Hg as [->|(l & -> & _ & F)]; [exists None; reflexivity|]. exists (Some l). split; [reflexivity|].
      apply plain_groupable, F.
Qed.
Lemma accepted_parses s v rest : accepted s v -> parses (PRef Rexpression) (s ++ 41%N :: rest) (PVal v) (41%N :: rest).
Proof.
  intros (P & T & D). destruct (tidy_lex s D) as (d & L). eapply parses_before; [apply b_ref; reflexivity|exact L|].
  unfold parse_mql in P. rewrite trimmed_strip in P by exact T.
  destruct (run grammar (parse_depth s) (PRef Rexpression) s) as [| |nd r] eqn:R; try discriminate.
  destruct r; [|discriminate]. destruct (vis nd) as [x|] eqn:V; [|discriminate]. cbn [bind] in P.
  exists nd. split; [apply parse_depth_exact, R|]. rewrite V. destruct x as [w| |]; try discriminate.
  destruct w; try discriminate; inversion P; reflexivity.
Qed.

(** * An accepted text in parentheses *)
Lemma p_target_accepted w1 s v rest : white w1 -> accepted s v ->
  parses (PRef Rtarget) (40%N :: w1 ++ s ++ 41%N :: rest) (PVal v) rest.
Proof.
  intros B1 A. destruct (accepted_good s v A) as (G & Q). pose proof A as (_ & T & _).
  destruct (trimmed_ends s T) as (F & _ & H).
  eapply p_ref with (cs := [PVal v]); [reflexivity| |].
  - cbn [grammar]. apply p_alt. apply pl_next; [apply f_variable; reflexivity|]. apply pl_here.
    eapply p_ref with (cs := [PList []; PList []; PVal v; PList []; PList []]); [reflexivity| |].
    + cbn [grammar]. apply p_seq. eapply pa_cons; [apply (p_chr Ropen_paren 40%N); reflexivity|].
      eapply pa_cons; [apply p_blank; [exact B1|]|].
      { rewrite heads_app_ne; [exact H|]. destruct F as (x & c & -> & _). destruct x; discriminate. }
      eapply pa_cons; [apply accepted_parses, A|].
      eapply pa_cons; [apply p_ws0; reflexivity|].
      eapply pa_cons; [apply (p_chr Rclose_paren 41%N); reflexivity|apply pa_nil].
    + cbn [act]. rewrite query_is by exact Q. reflexivity.
  - cbn [act visit_target]. destruct Q; reflexivity.
Qed.
Lemma coef_accepted_filter w1 s v b f g l : white w1 -> accepted s v -> braces_text b f -> opt_group_text g l ->
  coef_ok ($"(" ++ w1 ++ s ++ $")" ++ b ++ g) (with_groupby l (with_filter f v)).
Proof.
  intros B1 A Bt O. destruct (accepted_good s v A) as (G & Q).
  assert (forall rest, coef_end rest -> parses (PRef Rcoefficient) (($"(" ++ w1 ++ s ++ $")" ++ b ++ g) ++ rest)
     (PVal (with_groupby l (with_filter f v))) rest /\ good (with_groupby l (with_filter f v))) as K.
  { intros rest (E1 & E2 & E3 & E4). rewrite <- !app_assoc.
    pose proof (p_target_accepted w1 s v (b ++ g ++ rest) B1 A) as Pt.
    destruct (p_braces b f (g ++ rest) Bt) as (fs & p & Pb & Pk & Pp).
    destruct (p_opt_group g l rest O E1 E4) as (pg & Pg & Gg).
    destruct (p_filter _ _ _ _ _ _ _ _ _ _ Pt G Q Pb Pk Pp Pg Gg) as (R & G2).
    split; [|exact G2]. apply p_coef_filter; [reflexivity|reflexivity|exact R]. }
  split; [apply (K []); apply sum_end_nil|].
  split. { apply paren_shape. apply (fin_app [40%N]). do 3 apply fin_app.
           eapply opt_group_fin; [eapply braces_fin, Bt|exact O]. }
  split; [reflexivity|]. intros rest E. apply K, E.
Qed.
Lemma coef_accepted w1 s v g l : white w1 -> accepted s v -> opt_group_text g l ->
  coef_ok ($"(" ++ w1 ++ s ++ $")" ++ g) (with_groupby l v).
Proof.
  intros B1 A O. destruct (accepted_good s v A) as (G & Q).
  assert (forall rest, coef_end rest -> parses (PRef Rcoefficient) (($"(" ++ w1 ++ s ++ $")" ++ g) ++ rest)
     (PVal (with_groupby l v)) rest /\ good (with_groupby l v)) as K.
  { intros rest (E1 & E2 & E3 & E4). rewrite <- !app_assoc.
    pose proof (p_target_accepted w1 s v (g ++ rest) B1 A) as Pt.
    destruct (p_opt_group g l rest O E1 E4) as (pg & Pg & Gg).
    assert (heads (N.eqb 123) (g ++ rest) = false) as NB.
    { destruct O as [|g' l' O]; [exact E3|].
      destruct O as [[|c w1'] ? ? B N _ _|[|c w1'] ? ? ? ? ? B N _ _ _ _]; try congruence;
        inversion B as [|? ? Sp _]; subst; apply space_num in Sp; cbn [app heads]; apply N.eqb_neq; lia. }
    destruct (p_filter _ _ _ [] [] None _ _ _ _ Pt G Q (p_no_braces _ NB) eq_refl eq_refl Pg Gg) as (R & G2).
    rewrite p_no_filter in R, G2.
    split; [|exact G2]. apply p_coef_filter; [reflexivity|reflexivity|exact R]. }
  split; [apply (K []); apply sum_end_nil|].
  split. { apply paren_shape. apply (fin_app [40%N]). do 2 apply fin_app.
           eapply opt_group_fin; [apply (fin_char 41%N); lia|exact O]. }
  split; [reflexivity|]. intros rest E. apply K, E.
Qed.
Lemma aggregated_placed v : aggregated v -> has_placeholder v = None.
Proof. destruct v as [|m|t|r|sc|n pk ps a f g]; intros H; try reflexivity. destruct t. apply placed, H. Qed.

(** * All texts *)
Theorem built_ok :
  (forall s v, built_call s v -> call_ok s v) /\ (forall a ps, built_args a ps -> args_ok a ps)
  /\ (forall r vs, built_more r vs -> more_ok r vs) /\ (forall s v, built_coef s v -> coef_ok s v)
  /\ (forall s v, built_unary s v -> unary_ok s v) /\ (forall s v, built_product s v -> product_ok s v)
  /\ (forall s v, built s v -> sum_ok s v).
Proof.
  apply (compose_ind RT (fun s v _ => call_ok s v) (fun s v _ => args_ok s v) (fun s v _ => more_ok s v)
    (fun s v _ => coef_ok s v) (fun s v _ => unary_ok s v) (fun s v _ => product_ok s v) (fun s v _ => sum_ok s v)).
  - intros. apply call_function; assumption.
  - intros. apply call_function_params; assumption.
  - intros. apply args_one; try assumption. apply aggregated_placed. assumption.
  - intros. apply args_more; try assumption. apply aggregated_placed. assumption.
  - intros. apply more_one; assumption.
  - intros. apply more_more; assumption.
  - intros. apply texts_ok. assumption.
  - intros. apply coef_accepted; assumption.
  - intros. apply coef_accepted_filter; assumption.
  - intros. apply coef_call; assumption.
  - intros. apply coef_call_filter; assumption.
  - intros. apply coef_paren; assumption.
  - intros. apply coef_paren_filter; assumption.
  - intros. apply unary_coef; assumption.
  - intros. apply unary_minus; assumption.
  - intros. apply unary_negate; assumption.
  - intros. apply product_one; assumption.
  - intros. apply product_op; assumption.
  - intros. apply sum_one; assumption.
  - intros. apply sum_op; assumption.
Qed.
Theorem parse_built s v w w' : built s v -> mql_query v -> white w -> white w' -> parse_mql (w ++ s ++ w') = Ok v.
Proof.
  intros H Q B B'. apply sum_ok_parse; try assumption. apply built_ok, H.
Qed.
End Compose.
