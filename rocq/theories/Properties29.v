(** C82: MQL texts can be put in parentheses and combined. *)
From Verif Require Import PyBase PyFacts Objects SpecExpr Metrics SpecMetrics SpecMql Mql MqlRead SpecCompose ComposeFacts Concrete.

Section P.
Context {RT : PyRT}.

(** ** C82 An MQL text that is accepted on its own, put in parentheses, stands for the same value
    inside calls, arithmetic, filters and group-bys. *)
(** every text built from accepted texts in parentheses *)
Theorem C82_built : forall s v w w', built s v -> mql_query v -> white w -> white w' ->
  parse_mql (w ++ s ++ w') = Ok v.
Proof. exact parse_built. Qed.

Lemma built_parse s v : built s v -> mql_query v -> parse_mql s = Ok v.
Proof.
  intros B Q. pose proof (parse_built s v [] [] B Q (Forall_nil _) (Forall_nil _)) as P.
  cbn [app] in P. rewrite app_nil_r in P. exact P.
Qed.
Definition in_parens (s : str) : str := $"(" ++ s ++ $")".
Lemma coef_parens s v : accepted s v -> built_coef (in_parens s) v.
Proof.
  intros A. pose proof (bf_accepted [] s v [] None (Forall_nil _) A og_none) as C.
  rewrite p_no_group, app_nil_r in C. exact C.
Qed.
Lemma accepted_query s v : accepted s v -> mql_query v.
Proof. intros A. apply (accepted_good s v A). Qed.
(** parentheses change nothing, and the result can be used again *)
Theorem C82_parentheses : forall s v, accepted s v ->
  parse_mql (in_parens s) = Ok v /\ accepted (in_parens s) v.
Proof.
  intros s v A.
  assert (parse_mql (in_parens s) = Ok v) as P.
  { apply built_parse; [apply bs_one, bp_one, bu_coef, coef_parens, A|eapply accepted_query, A]. }
  split; [exact P|]. split; [exact P|]. destruct A as (_ & _ & T). clear P. split.
  - split; [exists 40%N, (s ++ $")")|exists ($"(" ++ s), 41%N]; (split; [reflexivity|unfold blank_char; lia]).
  - apply tidy_char; [discriminate|discriminate|]. induction T as [|c s N1 N2 _ IH|q x s Q _ IH|m s F NI _ IH].
    + apply tidy_char; [discriminate|discriminate|constructor].
    + apply tidy_char; assumption.
    + rewrite <- app_assoc. eapply tidy_quoted; eassumption.
    + rewrite <- !app_assoc. apply tidy_ticks; assumption.
Qed.
Fixpoint parens (n : nat) (s : str) : str := match n with O => s | S n => in_parens (parens n s) end.
Theorem C82_nested : forall n s v, accepted s v -> parse_mql (parens n s) = Ok v.
Proof.
  intros n s v A. assert (accepted (parens n s) v) as (P & _); [|exact P].
  induction n as [|n IH]; [exact A|]. apply C82_parentheses, IH.
Qed.
(** (s1) + (s2), and the other three operators *)
Definition infix : list (str * str) :=
  [($"+", $"plus"); ($"-", $"minus"); ($"*", $"multiply"); ($"/", $"divide")].
Theorem C82_operator : forall s1 v1 s2 v2 o n w1 w2, accepted s1 v1 -> accepted s2 v2 -> In (o, n) infix ->
  white w1 -> white w2 ->
  parse_mql (in_parens s1 ++ w1 ++ o ++ w2 ++ in_parens s2) = Ok (function n [v1; v2] ONone).
Proof.
  intros s1 v1 s2 v2 o n w1 w2 A1 A2 I B1 B2. apply built_parse; [|constructor].
  apply coef_parens in A1, A2. apply bu_coef in A1, A2.
  assert (In (o, n) [($"+", $"plus"); ($"-", $"minus")] \/ In (o, n) [($"*", $"multiply"); ($"/", $"divide")]) as [J|J].
  { cbn in I. cbn. tauto. }
  - apply bs_op; auto. { apply bs_one, bp_one, A1. } apply bp_one, A2.
  - apply bs_one. apply bp_op; auto. apply bp_one, A1.
Qed.
(** products bind tighter than sums *)
Theorem C82_precedence : forall s1 v1 s2 v2 s3 v3, accepted s1 v1 -> accepted s2 v2 -> accepted s3 v3 ->
  parse_mql (in_parens s1 ++ $" + " ++ in_parens s2 ++ $" * " ++ in_parens s3)
    = Ok (function ($"plus") [v1; function ($"multiply") [v2; v3] ONone] ONone)
  /\ parse_mql (in_parens s1 ++ $" * " ++ in_parens s2 ++ $" + " ++ in_parens s3)
    = Ok (function ($"plus") [function ($"multiply") [v1; v2] ONone; v3] ONone)
  /\ parse_mql (in_parens s1 ++ $" - " ++ in_parens s2 ++ $" - " ++ in_parens s3)
    = Ok (function ($"minus") [function ($"minus") [v1; v2] ONone; v3] ONone).
Proof.
  intros s1 v1 s2 v2 s3 v3 A1 A2 A3. apply coef_parens in A1, A2, A3. apply bu_coef in A1, A2, A3.
  assert (white ($" ")) as W by (repeat constructor; lia).
  split; [|split]; (apply built_parse; [|constructor]).
  - apply (bs_op (in_parens s1) v1 ($" ") ($"+") ($"plus") ($" ") (in_parens s2 ++ $" * " ++ in_parens s3));
      [apply bs_one, bp_one, A1|exact W|cbn; auto|exact W|].
    apply (bp_op (in_parens s2) v2 ($" ") ($"*") ($"multiply") ($" ")); [apply bp_one, A2|exact W|cbn; auto|exact W|exact A3].
  - pose proof (bp_op _ _ ($" ") ($"*") ($"multiply") ($" ") _ _ (bp_one _ _ A1) W (or_introl eq_refl) W A2) as M.
    pose proof (bs_op _ _ ($" ") ($"+") ($"plus") ($" ") _ _ (bs_one _ _ M) W (or_introl eq_refl) W (bp_one _ _ A3)) as R.
    rewrite <- !app_assoc in R. exact R.
  - pose proof (bs_op _ _ ($" ") ($"-") ($"minus") ($" ") _ _ (bs_one _ _ (bp_one _ _ A1)) W (or_intror (or_introl eq_refl)) W (bp_one _ _ A2)) as M.
    pose proof (bs_op _ _ ($" ") ($"-") ($"minus") ($" ") _ _ M W (or_intror (or_introl eq_refl)) W (bp_one _ _ A3)) as R.
    rewrite <- !app_assoc in R. exact R.
Qed.
(** -(s) *)
Theorem C82_minus : forall s v, accepted s v ->
  parse_mql ($"-" ++ in_parens s) = Ok (function ($"negate") [v] ONone).
Proof.
  intros s v A. apply built_parse; [|constructor]. apply bs_one, bp_one, bu_negate; [apply coef_parens, A|].
  eapply accepted_query, A.
Qed.
(** f((s1), ..., (sn)) *)
Theorem C82_call : forall f s v l, mql_name f -> accepted s v -> aggregated v ->
  Forall (fun sv => accepted (fst sv) (snd sv)) l ->
  parse_mql (f ++ $"(" ++ join ($", ") (map in_parens (s :: map fst l)) ++ $")")
    = Ok (function f (v :: map snd l) ONone).
Proof.
  intros f s v l N A G F. apply built_parse; [|constructor]. apply bs_one, bp_one, bu_coef.
  assert (forall s v, accepted s v -> built (in_parens s) v) as P.
  { intros s' v' A'. apply bs_one, bp_one, bu_coef, coef_parens, A'. }
  assert (white ($" ")) as W by (repeat constructor; lia).
  assert (built_args (join ($", ") (map in_parens (s :: map fst l))) (v :: map snd l)) as B.
  { destruct l as [|[s1 v1] l].
    - pose proof (ba_one [] _ [] _ (Forall_nil _) (P s v A) G (Forall_nil _)) as B. cbn [app] in B.
      rewrite app_nil_r in B. exact B.
    - inversion F as [|? ? A1 F']; subst. cbn [map fst snd] in *.
      change (join ($", ") (in_parens s :: in_parens s1 :: map in_parens (map fst l)))
        with (in_parens s ++ $", " ++ join ($", ") (in_parens s1 :: map in_parens (map fst l))).
      apply (ba_more []); [constructor|apply P, A|exact G|].
      clear A G F. revert s1 v1 A1. induction F' as [|[s2 v2] l A2 F' IH]; intros s1 v1 A1.
      + apply (bm_one [] ($" ")); [constructor|exact W|apply P, A1].
      + cbn [map fst snd] in *.
        change (join ($", ") (in_parens s1 :: in_parens s2 :: map in_parens (map fst l)))
          with (in_parens s1 ++ $", " ++ join ($", ") (in_parens s2 :: map in_parens (map fst l))).
        apply (bm_more [] ($" ")); [constructor|exact W|apply P, A1|apply IH, A2]. }
  pose proof (bf_call _ _ [] None (bc_function f _ _ N B) og_none) as C. rewrite p_no_group, app_nil_r in C. exact C.
Qed.
(** (s){filter} by (keys): the filter and the keys are added in front of those of s *)
Theorem C82_filter : forall s v b f g l, accepted s v -> braces_text b f -> opt_group_text g l ->
  parse_mql (in_parens s ++ b ++ g) = Ok (with_groupby l (with_filter f v)).
Proof.
  intros s v b f g l A B G. apply built_parse.
  - apply bs_one, bp_one, bu_coef.
    pose proof (bf_accepted_filter [] s v b f g l (Forall_nil _) A B G) as C. unfold in_parens. rewrite <- !app_assoc.
    exact C.
  - apply accepted_query in A. destruct A, f, l; constructor.
Qed.

(** *** What the conditions are for *)
(** white space at the end of an MRI is part of it inside parentheses *)
Theorem C82_space_needed : ~ forall s v, parse_mql s = Ok v -> parse_mql (in_parens s) = Ok v.
Proof.
  intros H. specialize (H ($"d:a/b@c ") (VTS (mkTS (mkMetric None (Some ($"d:a/b@c")) None) placeholder_name None None None))).
  assert (parse_mql (in_parens ($"d:a/b@c ")) =
    Ok (VTS (mkTS (mkMetric None (Some ($"d:a/b@c ")) None) placeholder_name None None None))) as E by (vm_compute; reflexivity).
  rewrite E in H. discriminate H. vm_compute. reflexivity.
Qed.
(** without parentheses two MRIs and an operator are one MRI *)
Theorem C82_parentheses_needed : ~ forall s1 v1 s2 v2, parse_mql s1 = Ok v1 -> parse_mql s2 = Ok v2 ->
  parse_mql (s1 ++ $" + " ++ s2) = Ok (function ($"plus") [v1; v2] ONone).
Proof.
  intros H. specialize (H ($"d:a/b@c") _ ($"d:a/b@c") _ eq_refl eq_refl). vm_compute in H. discriminate H.
Qed.
End P.

(** ** Concrete cases *)
Section Examples.
#[local] Existing Instance demoRT.
Ltac tidies := repeat first [apply tidy_nil | apply tidy_char; [discriminate|discriminate|]].
Definition c82_ts (a m : string) : mval :=
  VTS (mkTS (mkMetric None (Some (lit m)) None) (lit a) None None None).
Lemma c82_sum : accepted ($"sum(`d:transactions/duration@ms`)") (c82_ts "sum" "d:transactions/duration@ms").
Proof.
  split; [vm_compute; reflexivity|]. split.
  - split; [exists 115%N, ($"um(`d:transactions/duration@ms`)")|exists ($"sum(`d:transactions/duration@ms`"), 41%N];
      (split; [reflexivity|unfold blank_char; lia]).
  - tidies. apply (tidy_ticks ($"d:transactions/duration@ms") ($")")); [|cbn; intuition discriminate|tidies].
    apply Forall_forall. intros c I. apply MqlExpr.pattern_unquoted.
    apply (proj1 (forallb_forall unquoted_char _) (eq_refl true : forallb unquoted_char ($"d:transactions/duration@ms") = true) c I).
Qed.
Lemma c82_filtered : accepted ([99; 111; 117; 110; 116; 40; 97; 41; 123; 107; 58; 34; 41; 34; 125]%N)
  (with_filter (Some (OCond (tag ($"k")) EQ (OStr ($")")))) (VTS (mkTS (mkMetric (Some ($"a")) None None) ($"count") None None None))).
Proof.
  split; [vm_compute; reflexivity|]. split.
  - split; [exists 99%N; eexists|exists ([99; 111; 117; 110; 116; 40; 97; 41; 123; 107; 58; 34; 41; 34]%N), 125%N];
      (split; [reflexivity|unfold blank_char; lia]).
  - tidies. apply (tidy_quoted [34; 41; 34]%N ($")") ($"}")); [|tidies].
    exists [41%N]. split; [reflexivity|]. repeat constructor; discriminate.
Qed.
(** two separately written texts in a quotient; the second has a parenthesis in a string *)
Example C82_case :
  parse_mql (in_parens ($"sum(`d:transactions/duration@ms`)") ++ $" / "
             ++ in_parens [99; 111; 117; 110; 116; 40; 97; 41; 123; 107; 58; 34; 41; 34; 125]%N)
  = Ok (function ($"divide") [c82_ts "sum" "d:transactions/duration@ms";
          with_filter (Some (OCond (tag ($"k")) EQ (OStr ($")")))) (VTS (mkTS (mkMetric (Some ($"a")) None None) ($"count") None None None))] ONone).
Proof.
  assert (white ($" ")) as W by (repeat constructor; lia).
  apply (C82_operator _ _ _ _ ($"/") ($"divide") ($" ") ($" ") c82_sum c82_filtered); [cbn; auto|exact W|exact W].
Qed.
Example C82_call_case :
  parse_mql ($"failure_rate((sum(`d:transactions/duration@ms`)), (sum(`d:transactions/duration@ms`)))")
  = Ok (function ($"failure_rate") [c82_ts "sum" "d:transactions/duration@ms"; c82_ts "sum" "d:transactions/duration@ms"] ONone).
Proof.
  pose (t := $"sum(`d:transactions/duration@ms`)"). pose (v := c82_ts "sum" "d:transactions/duration@ms").
  assert (Forall (fun sv : str * mval => accepted (fst sv) (snd sv)) [(t, v)]) as F by (constructor; [exact c82_sum|constructor]).
  refine (C82_call ($"failure_rate") t v [(t, v)] _ c82_sum _ F); [|discriminate].
  exists 102%N, ($"ailure_rate"). split; [reflexivity|]. split; [left; unfold ascii_letter; lia|].
  unfold name_char, ascii_word, ascii_letter, ascii_digit.
  unfold lit. cbn [String.list_ascii_of_string map]. repeat (apply Forall_cons; [cbn; lia|]). apply Forall_nil.
Qed.
End Examples.

Print Assumptions C82_built.
Print Assumptions C82_parentheses.
Print Assumptions C82_nested.
Print Assumptions C82_operator.
Print Assumptions C82_precedence.
Print Assumptions C82_minus.
Print Assumptions C82_call.
Print Assumptions C82_filter.
Print Assumptions C82_space_needed.
Print Assumptions C82_parentheses_needed.
