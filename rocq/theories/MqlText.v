(** Every MQL text of the described form is read as described (C43-C46). *)
From Verif Require Import PyBase PyFacts Regex RegexFacts Objects Exprs Translate Query Metrics SpecExpr
  ExprFacts ExprProps TextFacts SpecMetrics MetricsFacts FormulaFacts SpecMql Peg PegTotal Mql MqlParse
  MqlTokens MqlFilter MqlExpr MqlCall MqlParams MqlBody.

Scheme call_ind' := Induction for call_text Sort Prop
  with args_ind' := Induction for args_text Sort Prop
  with more_ind' := Induction for more_args Sort Prop
  with coef_ind' := Induction for coef_text Sort Prop
  with unary_ind' := Induction for unary_text Sort Prop
  with product_ind' := Induction for product_text Sort Prop
  with sum_ind' := Induction for sum_text Sort Prop.
Combined Scheme text_ind from call_ind', args_ind', more_ind', coef_ind', unary_ind', product_ind', sum_ind'.

Section Text.
Context {RT : PyRT}.

(** * Characters *)
Definition calm_char (c : N) : Prop := clean_char c /\ c <> 58%N.
Definition calm (u : str) : Prop := Forall calm_char u.
Lemma calm_clean u : calm u -> clean u.
Proof. intros H. eapply Forall_impl; [|exact H]. intros c (C & _). exact C. Qed.
Lemma blank_calm w : white w -> calm w.
Proof. intros H. eapply Forall_impl; [|exact H]. intros c C. unfold calm_char, clean_char. apply space_num in C. lia. Qed.
Lemma blank_clean w : white w -> clean w.
Proof. intros H. apply calm_clean, blank_calm, H. Qed.
Lemma word_calm n : Forall name_char n -> calm n.
Proof.
  intros H. eapply Forall_impl; [|exact H]. intros c C. unfold calm_char, clean_char.
  unfold name_char, ascii_word, ascii_letter, ascii_digit in C. lia.
Qed.
Lemma name_all n : mql_name n -> n <> [] /\ Forall name_char n.
Proof.
  intros (c & t & -> & W & F). split; [discriminate|]. constructor; [|exact F].
  destruct W as [W| ->]; [left; exact W|right; right; reflexivity].
Qed.
Lemma key_clean k : mql_key k -> clean k.
Proof.
  intros K. destruct (mql_key_all k K) as (_ & A). apply Forall_forall. intros c I. rewrite forallb_forall in A.
  specialize (A c I). apply key_b_iff in A. unfold key_char, ascii_word, ascii_letter, ascii_digit in A.
  unfold clean_char. lia.
Qed.
Lemma number_calm t : number_text t -> calm t.
Proof.
  assert (forall d, digits d -> calm d) as D.
  { intros d (_ & F). eapply Forall_impl; [|exact F]. intros c C. unfold ascii_digit in C. unfold calm_char, clean_char. lia. }
  intros [H|(a & b & -> & A & B)]; [apply D, H|]. apply Forall_app. split; [apply D, A|].
  change ($"." ++ b) with (46%N :: b). constructor; [unfold calm_char, clean_char; lia|apply D, B].
Qed.
Lemma mri_clean s : mri_text s -> clean s.
Proof.
  intros (a & b & c & d & -> & A & B & C & D & Q & _). apply Forall_forall. intros x I.
  assert (x <> 34%N) as X by (intros ->; contradiction).
  assert (forall (stop : string) p, mri_part stop p -> In x p -> In 40%N (lit stop) -> In 41%N (lit stop) -> clean_char x) as K.
  { intros stop p (_ & F) J H1 H2. rewrite Forall_forall in F. specialize (F x J).
    repeat split; [intros ->|intros ->|exact X]; contradiction. }
  assert (forall y, y = x -> y <> 40%N -> y <> 41%N -> clean_char x) as Y.
  { intros y <- H1 H2. repeat split; assumption. }
  rewrite !in_app_iff in I. decompose [or] I; try (match goal with J : In x ?p, M : mri_part _ ?p |- _ => apply (K _ _ M J); cbn; tauto end);
    match goal with H : In x (lit _) |- _ => cbn in H; destruct H as [H|[]]; apply (Y _ H); discriminate end.
Qed.
Lemma public_clean s : public_name s -> clean s.
Proof.
  intros P. destruct (public_class (fun c => negb (N.eqb c 40 || N.eqb c 41 || N.eqb c 34)) s) as (F & _); [|exact P|].
  - intros c H. replace (N.eqb c 40) with false by (symmetry; apply N.eqb_neq; lia).
    replace (N.eqb c 41) with false by (symmetry; apply N.eqb_neq; lia).
    replace (N.eqb c 34) with false by (symmetry; apply N.eqb_neq; lia). reflexivity.
  - apply Forall_forall. intros c I. rewrite forallb_forall in F. specialize (F c I).
    apply negb_true_iff in F. rewrite !orb_false_iff, !N.eqb_neq in F. unfold clean_char. tauto.
Qed.
Lemma closed_clean s m : closed_metric_text s m -> clean s.
Proof.
  intros [s' H|s' H|s' H].
  - constructor; [vm_compute; repeat split; discriminate|]. apply Forall_app. split; [apply mri_clean, H|].
    constructor; [vm_compute; repeat split; discriminate|constructor].
  - constructor; [vm_compute; repeat split; discriminate|]. apply Forall_app. split; [apply public_clean, H|].
    constructor; [vm_compute; repeat split; discriminate|constructor].
  - apply public_clean, H.
Qed.
Lemma metric_clean s m : metric_text s m -> clean s.
Proof. intros [s' m' H|s' H]; [eapply closed_clean, H|apply mri_clean, H]. Qed.
Lemma clean_app a b : clean a -> clean b -> clean (a ++ b).
Proof. intros. apply Forall_app; auto. Qed.
Lemma calm_app a b : calm a -> calm b -> calm (a ++ b).
Proof. intros. apply Forall_app; auto. Qed.
Lemma by_clean : clean ($"by").
Proof. repeat constructor; discriminate. Qed.
Lemma body_not_params w b m f g rest : white w -> body_text b m f g -> heads (N.eqb 40) rest = false ->
  not_params (w ++ b ++ 41%N :: rest).
Proof.
  intros B H R. apply blank_clean in B. destruct H as [s M|s m g l w2 M G B2|s m b f g l w2 M Bt G B2].
  - exists (w ++ s), 41%N, rest. split; [apply app_assoc|]. split; [apply clean_app; [exact B|apply mri_clean, M]|auto].
  - apply closed_clean in M. apply blank_clean in B2. destruct G as [|g l G].
    + exists (w ++ s ++ w2), 41%N, rest. cbn [app]. rewrite <- !app_assoc. split; [reflexivity|].
      split; [repeat apply clean_app; assumption|auto].
    + destruct G as [w3 w4 k B3 N3 B4 K|w3 w4 w5 t l w6 B3 N3 B4 B5 T B6].
      * exists (w ++ s ++ w3 ++ $"by" ++ w4 ++ k ++ w2), 41%N, rest. rewrite <- !app_assoc.
        split; [reflexivity|]. split; [|auto].
        repeat apply clean_app; try assumption; try (apply blank_clean; assumption); [apply by_clean|apply key_clean, K].
      * exists (w ++ s ++ w3 ++ $"by" ++ w4), 40%N, (w5 ++ t ++ w6 ++ $")" ++ w2 ++ 41%N :: rest).
        rewrite <- !app_assoc. split; [reflexivity|]. split; [|auto].
        repeat apply clean_app; try assumption; try (apply blank_clean; assumption). apply by_clean.
  - apply metric_clean in M. destruct Bt as [|w3 e l' w4 B3 E B4].
    + exists (w ++ s), 123%N, (125%N :: g ++ w2 ++ 41%N :: rest). rewrite <- !app_assoc. split; [reflexivity|].
      split; [apply clean_app; assumption|auto].
    + exists (w ++ s), 123%N, ((w3 ++ e ++ w4 ++ $"}") ++ g ++ w2 ++ 41%N :: rest). rewrite <- !app_assoc.
      split; [reflexivity|]. split; [apply clean_app; assumption|auto].
Qed.

(** * Names *)
Lemma p_name r n s : grammar r = PRe re_name -> mql_name n -> act r n [] = Ok (PStr n) ->
  parses (PRef r) (n ++ 40%N :: s) (PStr n) (40%N :: s).
Proof.
  intros G N A. destruct (name_all n N) as (Ne & F). eapply p_ref; [rewrite G; reflexivity| |].
  - rewrite G. apply p_plus; [exact Ne| |reflexivity]. apply forallb_forall. intros c I. apply is_alnum_iff.
    rewrite Forall_forall in F. apply F, I.
  - rewrite cut_app. exact A.
Qed.
Lemma name_heads n s f : mql_name n -> exists c, word_start c /\ heads f (n ++ s) = f c.
Proof. intros (c & t & -> & W & _). exists c. auto. Qed.

(** * The start of an expression *)
Definition opens (s : str) : Prop := calm s \/ exists u t, s = u ++ 40%N :: t /\ calm u.
Lemma opens_app a b : opens a -> opens b -> opens (a ++ b).
Proof.
  intros [A|(u & t & -> & A)] B.
  - destruct B as [B|(u & t & -> & B)]; [left; apply calm_app; assumption|].
    right. exists (a ++ u), t. split; [apply app_assoc|apply calm_app; assumption].
  - right. exists u, (t ++ b). split; [rewrite <- app_assoc; reflexivity|exact A].
Qed.
Lemma opens_calm a : calm a -> opens a.
Proof. left. assumption. Qed.
Definition head_ok (s : str) : Prop :=
  (exists c t, s = c :: t /\ (ascii_digit c \/ c = 45%N \/ c = 40%N))
  \/ exists n t, s = n ++ 40%N :: t /\ mql_name n.
Lemma head_app a b : head_ok a -> head_ok (a ++ b).
Proof.
  intros [(c & t & -> & H)|(n & t & -> & H)]; [left; exists c, (t ++ b); auto|].
  right. exists n, (t ++ b). rewrite <- app_assoc. auto.
Qed.
Lemma head_space s rest : head_ok s -> heads mql_space (s ++ rest) = false.
Proof.
  intros [(c & t & -> & H)|(n & t & -> & H)].
  - cbn [app heads]. apply space_low. unfold ascii_digit in H. lia.
  - rewrite <- app_assoc. destruct (name_heads n ((40%N :: t) ++ rest) mql_space H) as (c & W & ->).
    apply word_start_range in W. apply space_low. lia.
Qed.
Lemma opens_params a rest : opens a -> heads (N.eqb 40) rest = false -> not_params (a ++ 41%N :: rest).
Proof.
  intros [A|(u & t & -> & A)] R.
  - exists a, 41%N, rest. split; [reflexivity|]. split; [apply calm_clean, A|auto].
  - exists u, 40%N, (t ++ 41%N :: rest). rewrite <- app_assoc. split; [reflexivity|].
    split; [apply calm_clean, A|auto].
Qed.
Lemma calm_no_mri u x t : calm u -> paren x -> no_mri (u ++ x :: t).
Proof.
  intros C P. unfold no_mri. induction u as [|c u IH].
  - rewrite skip_none; destruct P as [-> | [-> | ->]]; reflexivity.
  - inversion C as [|? ? (_ & D) C']; subst. cbn [app]. unfold skip in *. cbn [span]. destruct (mri1 c).
    + specialize (IH C'). destruct (span mri1 (u ++ x :: t)); exact IH.
    + cbn [snd heads]. apply N.eqb_neq. congruence.
Qed.
Lemma opens_no_mri a rest : opens a -> no_mri (a ++ 41%N :: rest).
Proof.
  intros [A|(u & t & -> & A)].
  - apply calm_no_mri; [exact A|unfold paren; auto].
  - rewrite <- app_assoc. apply calm_no_mri; [exact A|unfold paren; auto].
Qed.
Lemma f_public s : heads public_char s = false -> fails (PRef Runquoted_public_name) s.
Proof.
  intros H. apply f_ref, f_re. unfold re_match, re_public. apply mtch_none. intros s' M.
  apply mt_seq_iff in M. destruct M as (m & M & _). apply mt_plus_class_iff in M.
  destruct M as (p & N & -> & F). destruct p as [|c p]; [congruence|]. cbn in H, F. rewrite H in F. discriminate.
Qed.
Lemma f_inner s l : opens s -> head_ok s -> forall w rest, white w ->
  fails_seq (PSeq inner_seq :: l) (40%N :: w ++ s ++ 41%N :: rest).
Proof.
  intros O H w rest B. apply fs_here, f_seq. unfold inner_seq.
  eapply fs_later; [apply (p_chr Ropen_paren 40%N); reflexivity|].
  eapply fs_later; [apply p_blank; [exact B|apply head_space, H]|].
  assert (heads (N.eqb 96) (s ++ 41%N :: rest) = false) as T.
  { destruct H as [(c & t & -> & H)|(n & t & -> & H)].
    - cbn [app heads]. apply N.eqb_neq. unfold ascii_digit in H. lia.
    - rewrite <- app_assoc. destruct (name_heads n ((40%N :: t) ++ 41%N :: rest) (N.eqb 96) H) as (c & W & ->).
      apply N.eqb_neq. unfold word_start, ascii_letter in W. lia. }
  pose proof (opens_no_mri s rest O) as M.
  assert (heads public_char (s ++ 41%N :: rest) = false -> fails (PRef Rmetric) (s ++ 41%N :: rest)) as FM.
  { intros P. apply f_ref, f_alt. constructor; [eapply f_backtick; [reflexivity|exact T]|].
    constructor; [apply f_unquoted_mri, M|]. constructor; [eapply f_backtick; [reflexivity|exact T]|].
    constructor; [apply f_public, P|constructor]. }
  destruct H as [(c & t & -> & H)|(n & t & -> & H)].
  - apply fs_here, f_ref, f_seq, fs_here, FM. cbn [app heads]. destruct (public_char c) eqn:E; [|reflexivity].
    apply public_iff in E. unfold ascii_digit in H. lia.
  - destruct (heads public_char ((n ++ 40%N :: t) ++ 41%N :: rest)) eqn:E; [|apply fs_here, f_ref, f_seq, fs_here, FM; reflexivity].
    clear FM. destruct (name_all n H) as (Ne & F).
    pose proof (span_split public_char n) as Sp. pose proof (MqlFilter.span_all public_char n) as A.
    pose proof (skip_heads public_char n) as Sk. revert Sp A Sk.
    generalize (fst (span public_char n)) as p, (skip public_char n) as n'. intros p n' Sp A Sk.
    assert (p <> []) as Np.
    { intros E0. rewrite E0 in Sp. cbn in Sp. rewrite <- app_assoc in E. rewrite heads_app_ne in E by exact Ne.
      rewrite Sp in E. rewrite Sk in E. discriminate. }
    assert (public_name p) as PN.
    { exists [p]. split; [discriminate|]. split; [reflexivity|]. constructor; [|constructor]. split; [exact Np|].
      apply Forall_forall. intros c I. apply public_iff.
      rewrite forallb_forall in A. apply A, I. }
    assert (Forall name_char n') as F'.
    { rewrite Sp in F. apply Forall_app in F. apply F. }
    set (r := n' ++ 40%N :: t ++ 41%N :: rest).
    assert (forall f, (forall c, name_char c -> f c = false) -> f 40%N = false -> heads f r = false) as K.
    { intros f K1 K2. unfold r. destruct n' as [|c n'']; [exact K2|]. inversion F'; subst. cbn [app heads]. auto. }
    assert (heads public_char r = false) as P1.
    { unfold r. destruct n' as [|c n''] eqn:En; [reflexivity|]. cbn [app heads].
      exact Sk. }
    assert (public_end r) as PE.
    { split; [exact P1|]. apply K; [|reflexivity]. intros c C. apply N.eqb_neq.
      unfold name_char, ascii_word, ascii_letter, ascii_digit in C. lia. }
    assert (heads mql_space r = false) as Sr.
    { apply K; [|reflexivity]. intros c C. apply space_low. unfold name_char, ascii_word, ascii_letter, ascii_digit in C. lia. }
    assert ((n ++ 40%N :: t) ++ 41%N :: rest = p ++ r) as Et.
    { unfold r. rewrite Sp at 1. rewrite <- !app_assoc. reflexivity. }
    rewrite Et in *.
    assert (exists nd, gives grammar (PRef Rinner_filter) (p ++ r) (Done nd r)) as (nd & G).
    { assert (parses (PRef Rmetric) (p ++ r) (metric_pv (mkMetric (Some p) None None)) r) as Pm.
      { eapply p_ref; [reflexivity| |reflexivity]. cbn [grammar]. apply p_alt.
        apply pl_next; [eapply f_backtick; [reflexivity|exact T]|].
        apply pl_next; [apply f_unquoted_mri, M|].
        apply pl_next; [eapply f_backtick; [reflexivity|exact T]|].
        apply pl_here. eapply p_ref; [reflexivity|cbn [grammar]; apply p_re, public_ok; [exact PN|exact PE]|].
        rewrite cut_app. reflexivity. }
      destruct Pm as (nm & Gm & _).
      assert (parses (POpt braces_peg) r (PList []) r) as (nb & Gb & _).
      { apply p_no_braces. apply K; [|reflexivity]. intros c C. apply N.eqb_neq.
        unfold name_char, ascii_word, ascii_letter, ascii_digit in C. lia. }
      assert (parses (POpt (PRef Rgroup_by)) r (PList []) r) as (ng & Gg & _).
      { apply p_opt_none, f_group. unfold no_by. rewrite skip_none by exact Sr.
        eapply heads_weaken; [|exact P1]. intros c C. apply N.eqb_eq in C. subst c. reflexivity. }
      eexists. eapply gives_ref. cbn [grammar]. apply gives_pseq.
      eapply gs_cons; [exact Gm|]. eapply gs_cons; [exact Gb|]. eapply gs_cons; [exact Gg|apply gs_nil]. }
    eapply fs_skip; [exact G|]. eapply fs_later; [apply p_ws0, Sr|].
    apply fs_here, (f_chr _ 41%N); [reflexivity|]. apply K; [|reflexivity]. intros c C. apply N.eqb_neq.
    unfold name_char, ascii_word, ascii_letter, ascii_digit in C. lia.
Qed.
End Text.
