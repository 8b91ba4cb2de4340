(** Parsing filter text: tests, terms and filters (C43, C46). *)
From Verif Require Import PyBase PyFacts Regex RegexFacts Objects Exprs Translate Query Metrics SpecExpr
  ExprFacts ExprProps TextFacts SpecMetrics SpecMql Peg PegTotal Mql MqlParse MqlTokens MqlFilter.

Scheme factor_ind' := Induction for factor_reads Sort Prop
  with term_ind' := Induction for term_reads Sort Prop
  with expr_ind' := Induction for expr_reads Sort Prop.
Combined Scheme reads_ind from factor_ind', term_ind', expr_ind'.

Section Expr.
Context {RT : PyRT}.

(** * Characters *)
Definition key_b (c : N) : bool := is_alnum_ c || N.eqb c 46.
Lemma key_b_iff c : key_b c = true <-> key_char c.
Proof.
  unfold key_b, key_char. rewrite orb_true_iff, is_alnum_iff, N.eqb_eq. reflexivity.
Qed.
Lemma alnum_lt c : is_alnum_ c = true -> (c < 128)%N.
Proof. intros H. apply is_alnum_iff in H. unfold ascii_word, ascii_letter, ascii_digit in H. lia. Qed.
Lemma space_low c : (33 <= c < 128)%N -> mql_space c = false.
Proof.
  intros H. unfold mql_space, in_range.
  replace (c <=? 13)%N with false by (symmetry; apply N.leb_gt; lia).
  replace (c <=? 31)%N with false by (symmetry; apply N.leb_gt; lia).
  replace (N.eqb c 32) with false by (symmetry; apply N.eqb_neq; lia).
  replace (c <? 128)%N with true by (symmetry; apply N.ltb_lt; lia).
  rewrite !andb_false_r. reflexivity.
Qed.
Lemma key_range c : key_char c -> (46 <= c < 123)%N /\ c <> 58%N.
Proof. unfold key_char, ascii_word, ascii_letter, ascii_digit. lia. Qed.
Lemma key_not_space c : key_b c = true -> mql_space c = false.
Proof. intros H. apply key_b_iff, key_range in H. apply space_low. lia. Qed.
Lemma mql_space_iff c : mql_space c = true <-> space_char c.
Proof.
  unfold mql_space, space_char, in_range. rewrite !orb_true_iff, !andb_true_iff, !N.leb_le, N.eqb_eq, orb_true_iff, andb_true_iff, !N.leb_le, negb_true_iff, N.ltb_ge.
  tauto.
Qed.
Lemma space_num c : space_char c -> (9 <= c <= 13 \/ c = 32 \/ 28 <= c <= 31 \/ 128 <= c)%N.
Proof. unfold space_char. tauto. Qed.
Lemma blank_space w : white w -> forallb mql_space w = true.
Proof.
  intros H. apply forallb_forall. intros c I. unfold white in H. rewrite Forall_forall in H.
  apply mql_space_iff, H, I.
Qed.
Lemma key_forallb k : Forall key_char k -> forallb key_b k = true.
Proof. intros H. apply forallb_forall. intros c I. apply key_b_iff. rewrite Forall_forall in H. auto. Qed.
Lemma mql_key_all k : mql_key k -> k <> [] /\ forallb key_b k = true.
Proof.
  intros (c & t & -> & W & T). split; [discriminate|]. apply key_forallb. constructor; [|exact T].
  left. destruct W as [W|W]; [left; exact W|right; right; exact W].
Qed.
Lemma heads_app_ne f (t s : str) : t <> [] -> heads f (t ++ s) = heads f t.
Proof. destruct t; [congruence|reflexivity]. Qed.

(** * Columns *)
Lemma column_ok k : mql_key k -> text_column k = Ok (PVal (VObj (tag k))).
Proof.
  intros K. unfold text_column.
  assert (mk_column (OStr k) ONone = Ok (tag k)) as ->; [|reflexivity].
  apply mk_column_Ok. exists k, None. destruct K as (c & t & -> & W & T).
  split; [reflexivity|]. split.
  - exists c, t, [], []. split; [rewrite !app_nil_r; reflexivity|].
    split; [exact W|]. split; [|split; [left; reflexivity|left; reflexivity]].
    rewrite Forall_forall in T |- *. intros x I. destruct (T x I) as [H| ->].
    + left. left. split; [|exact H]. unfold ascii_word, ascii_letter, ascii_digit in H. lia.
    + right. cbn. auto.
  - split; [left; reflexivity|]. split; [left; auto|].
    rewrite column_parts_plain; [reflexivity|]. intros [E|I].
    + subst c. destruct W as [[W|W]|W]; lia.
    + rewrite Forall_forall in T. specialize (T _ I). unfold key_char, ascii_word, ascii_letter, ascii_digit in T. lia.
Qed.
Lemma p_key k s : mql_key k -> heads key_b s = false ->
  parses (PRef Rtag_key) (k ++ s) (PVal (VObj (tag k))) s.
Proof.
  intros K H. destruct (mql_key_all k K) as (N & A).
  eapply p_ref; [reflexivity|apply (p_plus key_b); assumption|]. rewrite cut_app. apply column_ok, K.
Qed.
Lemma f_variable s : heads (N.eqb 36) s = false -> fails (PRef Rvariable) s.
Proof.
  intros H. apply f_ref, f_seq. cbn [grammar]. apply fs_here, f_lit. etransitivity; [apply (prefix1 36%N)|exact H].
Qed.
Lemma p_blank w s : white w -> heads mql_space s = false -> parses (PRef Rws) (w ++ s) (PList []) s.
Proof. intros B H. apply p_ws; [apply blank_space, B|exact H]. Qed.

(** * Values *)
Lemma pattern_unquoted c : pattern_char c <-> unquoted_char c = true.
Proof.
  unfold pattern_char, unquoted_char. rewrite negb_true_iff, !orb_false_iff.
  assert (one_of ",[]}{()*" c = false <-> ~ In c ($",[]}{()*")) as ->.
  { rewrite <- one_of_iff. destruct (one_of ",[]}{()*" c); split; congruence. }
  rewrite N.eqb_neq. change DQ with 34%N.
  assert (mql_space c = false <-> ~ (9 <= c <= 13 \/ c = 32)%N
     /\ ~ ((28 <= c <= 31 \/ 128 <= c)%N /\ uni_space c = true)) as ->; [|tauto].
  unfold mql_space, in_range. rewrite orb_false_iff, orb_false_iff, andb_false_iff, andb_false_iff, orb_false_iff, andb_false_iff, negb_false_iff.
  rewrite !N.leb_gt, N.ltb_lt, N.eqb_neq. assert (uni_space c = false <-> ~ uni_space c = true) as -> by (destruct (uni_space c); split; congruence).
  lia.
Qed.

(** * Strings in quotes *)
Lemma p_white w s : white w -> heads mql_space s = false -> parses (PRef Rws) (w ++ s) (PList []) s.
Proof.
  intros B H. apply p_ws; [|exact H]. apply forallb_forall. intros c I. apply mql_space_iff.
  unfold white in B. rewrite Forall_forall in B. auto.
Qed.
Lemma body_head t s : quoted_body t s -> match t with c :: _ => c <> 34%N | [] => True end.
Proof. intros H. destruct H; auto; discriminate. Qed.
Lemma body_scan b s rest : quoted_body b s -> qscan (b ++ DQ :: rest) = Some rest.
Proof.
  induction 1 as [|c t s H1 H2 _ IH|t s _ IH|c t s H1 H2 _ IH]; [reflexivity| | |]; cbn [app qscan].
  - apply N.eqb_neq in H1, H2. change DQ with 34%N. change BSL with 92%N. rewrite H1, H2. exact IH.
  - exact IH.
  - apply N.eqb_neq in H2. change (N.eqb 92 DQ) with false. change (N.eqb 92 BSL) with true. change NL with 10%N.
    rewrite H2. exact IH.
Qed.
Lemma body_repl b s : quoted_body b s -> repl [BSL; DQ] [DQ] 0 b = s.
Proof.
  induction 1 as [|c t s H1 H2 _ IH|t s _ IH|c t s H1 H2 B IH]; [reflexivity| | |].
  - cbn [repl prefixb]. replace (N.eqb BSL c) with false; [cbn [andb]; rewrite IH; reflexivity|].
    symmetry. apply N.eqb_neq. change BSL with 92%N. congruence.
  - cbn. rewrite IH. reflexivity.
  - apply N.eqb_neq in H1. rewrite <- IH. apply body_head in B. change BSL with 92%N. change DQ with 34%N.
    destruct t as [|e u].
    + cbn [repl prefixb]. rewrite (N.eqb_sym 34 c), H1. cbn [andb]. rewrite !andb_false_r. reflexivity.
    + assert (N.eqb 34 e = false) as He by (apply N.eqb_neq; congruence).
      change (repl [92; 34]%N [34%N] 0 (92%N :: c :: e :: u))
        with (if N.eqb 34 c && true then [34%N] ++ repl [92; 34]%N [34%N] 1 (c :: e :: u)
              else 92%N :: (if N.eqb 92 c && (N.eqb 34 e && true) then [34%N] ++ repl [92; 34]%N [34%N] 1 (e :: u)
                else c :: repl [92; 34]%N [34%N] 0 (e :: u)))%bool.
      rewrite (N.eqb_sym 34 c), H1, He. cbn [andb]. rewrite andb_false_r. reflexivity.
Qed.
Lemma said_unquote t s : quoted_said t s -> unquote t = s.
Proof.
  intros (b & -> & B). unfold unquote, replace, slice_1_m1. cbn [app List.tl]. rewrite removelast_last. apply body_repl, B.
Qed.
Lemma said_match t s rest : quoted_said t s -> re_match re_quoted (t ++ rest) = Some rest.
Proof.
  intros (b & -> & B). rewrite re_quoted_scan. cbn [app]. change (N.eqb 34 DQ) with true. cbv iota.
  rewrite <- app_assoc. apply (body_scan b s rest B).
Qed.
Lemma body_same b s : quoted_body b s -> ~ In 34%N b -> s = b.
Proof.
  induction 1 as [|c t s _ _ _ IH|t s _ _|c t s _ _ _ IH]; intros N; cbn [In] in N; [reflexivity| |exfalso; tauto|];
    rewrite IH by tauto; reflexivity.
Qed.
Lemma p_said t s rest : quoted_said t s -> parses (PRef Rquoted_string) (t ++ rest) (PStr s) rest.
Proof.
  intros H. eapply p_ref; [reflexivity|apply p_re, (said_match t s rest H)|]. rewrite cut_app. cbn [act].
  rewrite (said_unquote t s H). reflexivity.
Qed.

(** * Words *)
Lemma word_forallb s : word s -> s <> [] /\ forallb unquoted_char s = true.
Proof.
  intros (N & F). split; [exact N|]. apply forallb_forall. intros c I. apply pattern_unquoted.
  rewrite Forall_forall in F. auto.
Qed.
Lemma word_end_heads s : word_end s -> heads unquoted_char s = false /\ heads (N.eqb 42) s = false.
Proof.
  intros (c & t & -> & N & S). cbn [heads]. split.
  - destruct (unquoted_char c) eqn:E; [|reflexivity]. apply pattern_unquoted in E. contradiction.
  - apply N.eqb_neq. congruence.
Qed.
Lemma word_open s : word s -> ~ closed_text s.
Proof.
  intros (_ & F) (t & c & -> & I). apply Forall_app in F. destruct F as (_ & F). inversion F as [|? ? (H & Q & _) _]; subst.
  cbn in I, H. change 93%N with (93%N) in *. intuition (subst; tauto || congruence).
Qed.
Lemma word_heads f s t : word s -> exists c, pattern_char c /\ heads f (s ++ t) = f c.
Proof. intros (N & F). destruct s as [|c s]; [congruence|]. inversion F; subst. exists c. split; [assumption|reflexivity]. Qed.
Lemma word_dq s t : word s -> heads (N.eqb DQ) (s ++ t) = false.
Proof.
  intros W. destruct (word_heads (N.eqb DQ) s t W) as (c & (_ & Q & _) & ->). apply N.eqb_neq. change DQ with 34%N. congruence.
Qed.
Lemma word_not_space s t : word s -> heads mql_space (s ++ t) = false.
Proof.
  intros W. destruct (word_heads mql_space s t W) as (c & (_ & _ & S1 & S2) & ->).
  destruct (mql_space c) eqn:E; [|reflexivity]. apply mql_space_iff in E. destruct E; contradiction.
Qed.
Lemma white_unquoted w s : white w -> heads unquoted_char s = false -> heads unquoted_char (w ++ s) = false.
Proof.
  intros B H. destruct w as [|c w]; [exact H|]. cbn [app heads]. inversion B as [|? ? S _]; subst.
  destruct (unquoted_char c) eqn:E; [|reflexivity]. apply pattern_unquoted in E. destruct E as (_ & _ & E1 & E2).
  destruct S; contradiction.
Qed.
Lemma p_word r s rest : grammar r = PRe re_unquoted -> word s -> heads unquoted_char rest = false ->
  forall v, act r s [] = Ok v -> parses (PRef r) (s ++ rest) v rest.
Proof.
  intros G W H v A. destruct (word_forallb s W) as (N & F).
  eapply p_ref; [rewrite G; reflexivity|rewrite G; apply p_plus; assumption|]. rewrite cut_app. exact A.
Qed.

(** * Lists of strings *)
Lemma p_item t s rest : string_said t s -> heads unquoted_char rest = false ->
  parses (PAlt [PRef Rquoted_string; PRef Runquoted_string]) (t ++ rest) (PList [PStr s]) rest.
Proof.
  intros [Q|(W & ->)] H; apply p_alt.
  - apply pl_here, p_said, Q.
  - apply pl_next; [apply f_quoted; [reflexivity|apply word_dq, W]|]. apply pl_here.
    apply p_word; [reflexivity|exact W|exact H|reflexivity].
Qed.
Lemma item_not_space t s rest : string_said t s -> heads mql_space (t ++ rest) = false.
Proof. intros [(b & -> & _)|(W & _)]; [reflexivity|apply word_not_space, W]. Qed.
Lemma items_not_space t l rest : strings_said t l -> heads mql_space (t ++ rest) = false.
Proof. intros [u s H|u s w1 w2 x m H _ _ _]; rewrite <- ?app_assoc; apply (item_not_space u s), H. Qed.
Definition more_items : peg rule :=
  PSeq [PRef Rws; PRef Rcomma; PRef Rws; PAlt [PRef Rquoted_string; PRef Runquoted_string]].
Definition item_pv (s : str) : pv := PList [PStr s].
Definition more_pv (s : str) : pv := PList [PList []; PList []; PList []; item_pv s].
Lemma p_items t l : strings_said t l -> forall w rest, white w ->
  exists t0 s0 ss rs, l = s0 :: ss /\ t = t0 ++ rs /\ string_said t0 s0
  /\ heads unquoted_char (rs ++ w ++ 93%N :: rest) = false
  /\ parses_many more_items (rs ++ w ++ 93%N :: rest) (map more_pv ss) (w ++ 93%N :: rest).
Proof.
  intros H w rest B. induction H as [t s S|t s w1 w2 u l S B1 B2 H IH].
  - exists t, s, [], []. split; [reflexivity|]. split; [symmetry; apply app_nil_r|]. split; [exact S|].
    cbn [app]. split; [apply white_unquoted; [exact B|reflexivity]|].
    apply pm_stop, f_seq. eapply fs_later; [apply p_white; [exact B|reflexivity]|].
    apply fs_here, (f_chr _ 44%N); reflexivity.
  - destruct IH as (t0 & s0 & ss & rs & -> & -> & S0 & Hr & P).
    exists t, s, (s0 :: ss), (w1 ++ $"," ++ w2 ++ t0 ++ rs).
    split; [reflexivity|]. split; [reflexivity|]. split; [exact S|].
    split; [rewrite <- app_assoc; apply white_unquoted; [exact B1|reflexivity]|].
    rewrite <- !app_assoc. eapply pm_next; [| |exact P].
    + apply p_seq. eapply pa_cons; [apply p_white; [exact B1|reflexivity]|].
      eapply pa_cons; [apply (p_chr Rcomma 44%N); reflexivity|].
      eapply pa_cons; [apply p_white; [exact B2|apply (item_not_space t0 s0), S0]|].
      eapply pa_cons; [apply p_item; [exact S0|exact Hr]|apply pa_nil].
    + rewrite !app_length. cbn. lia.
Qed.
Lemma fourths_more ss : fourths (map more_pv ss) = Ok (map item_pv ss).
Proof. induction ss as [|s ss IH]; [reflexivity|]. cbn. rewrite IH. reflexivity. Qed.
Lemma firsts_items ss : firsts (map item_pv ss) = Ok (map OStr ss).
Proof. induction ss as [|s ss IH]; [reflexivity|]. cbn. rewrite IH. reflexivity. Qed.
Lemma p_list_value t l w1 w2 rest : strings_said t l -> white w1 -> white w2 ->
  parses (PRef Rtag_value) (($"[" ++ w1 ++ t ++ w2 ++ $"]") ++ rest)
    (PFactor (OList (map OStr l)) false) rest.
Proof.
  intros H B1 B2. rewrite <- !app_assoc. cbn [app lit].
  eapply p_ref with (cs := [_]); [reflexivity| |reflexivity]. cbn [grammar]. apply p_alt.
  apply pl_next; [apply f_ref, f_seq; apply fs_here, (f_chr _ DQ); reflexivity|].
  apply pl_next; [apply f_ref, f_seq; apply fs_here, f_ref, f_plus; reflexivity|].
  apply pl_next; [apply f_quoted; reflexivity|].
  apply pl_next; [apply f_ref, f_plus; reflexivity|].
  apply pl_here.
  destruct (p_items t l H w2 rest B2) as (t0 & s0 & ss & rs & -> & -> & S0 & Hr & P).
  eapply p_ref; [reflexivity| |].
  - apply p_seq.
    eapply pa_cons; [apply (p_chr Ropen_square_bracket 91%N); reflexivity|].
    eapply pa_cons; [apply p_white; [exact B1|]; rewrite <- app_assoc; apply (item_not_space t0 s0), S0|].
    eapply pa_cons; [rewrite <- app_assoc; apply p_item; [exact S0|exact Hr]|].
    eapply pa_cons; [apply p_star, P|].
    eapply pa_cons; [apply p_white; [exact B2|reflexivity]|].
    eapply pa_cons; [apply (p_chr Rclose_square_bracket 93%N); reflexivity|]. apply pa_nil.
  - cbn [act visit_string_tuple]. rewrite fourths_more. cbn [bind].
    change (PList [PStr s0] :: map item_pv ss) with (map item_pv (s0 :: ss)).
    rewrite firsts_items. reflexivity.
Qed.

(** * Tests *)
Lemma p_value neg t o r rest : value_said neg t o r -> apart t rest -> exists w,
  parses (PRef Rtag_value) (t ++ rest) (PFactor r w) rest /\ factor_op neg w r = o.
Proof.
  intros V A. destruct V as [p W|p W|t s Q NW|s W|w1 t l w2 B1 S B2].
  - exists true. split; [|destruct neg; reflexivity]. destruct (word_forallb p W) as (N & F).
    eapply p_ref with (cs := [_]); [reflexivity| |reflexivity]. cbn [grammar]. apply p_alt, pl_here.
    rewrite <- !app_assoc. cbn [app lit]. apply p_quoted_suffix; assumption.
  - exists true. split; [|destruct neg; reflexivity]. destruct (word_forallb p W) as (N & F).
    eapply p_ref with (cs := [_]); [reflexivity| |reflexivity]. cbn [grammar]. apply p_alt.
    rewrite <- app_assoc. cbn [app lit].
    apply pl_next; [apply f_ref, f_seq; apply fs_here, (f_chr _ DQ); [reflexivity|apply word_dq, W]|].
    apply pl_here. eapply p_ref; [reflexivity| |].
    + cbn [grammar]. apply p_seq. eapply pa_cons.
      { apply p_word; [reflexivity|exact W|reflexivity|reflexivity]. }
      eapply pa_cons; [apply (p_chr Rwildcard 42%N); reflexivity|apply pa_nil].
    + reflexivity.
  - exists false. split; [|destruct neg; reflexivity]. pose proof Q as (b & -> & B).
    eapply p_ref with (cs := [_]); [reflexivity| |reflexivity]. cbn [grammar]. apply p_alt.
    apply pl_next.
    { cbn [app]. rewrite <- app_assoc. cbn [app]. apply (f_quoted_suffix (b ++ 34%N :: rest)). intros u x Nu F E.
      destruct (unquoted_free u F) as (F1 & F2). pose proof (body_scan b s rest B) as K. change DQ with 34%N in K.
      rewrite E in K. change 34%N with DQ in K. rewrite (qscan_star u x F1 F2) in K. injection K as ->.
      change (42%N :: DQ :: rest) with ([42%N] ++ DQ :: rest) in E. rewrite app_assoc in E. apply app_inv_tail in E.
      apply NW. exists u. split; [|split; [exact Nu|]].
      - subst b. apply (body_same _ _ B). intros I. apply in_app_or in I. destruct I as [I|[I|[]]]; [auto|discriminate].
      - apply Forall_forall. intros c I. apply pattern_unquoted. rewrite forallb_forall in F. auto. }
    apply pl_next; [apply f_suffix_dq|]. apply pl_here.
    eapply p_ref; [reflexivity|apply p_re, (said_match _ s rest Q)|]. rewrite cut_app. cbn [act].
    rewrite (said_unquote _ s Q). reflexivity.
  - exists false. split; [|destruct neg; reflexivity].
    destruct A as [A|A]; [exfalso; exact (word_open s W A)|]. apply word_end_heads in A. destruct A as (A1 & A2).
    destruct (word_forallb s W) as (N & F).
    eapply p_ref with (cs := [_]); [reflexivity| |reflexivity]. cbn [grammar]. apply p_alt.
    apply pl_next; [apply f_ref, f_seq; apply fs_here, (f_chr _ DQ); [reflexivity|apply word_dq, W]|].
    apply pl_next.
    { apply f_ref, f_seq. cbn [grammar].
      eapply fs_later; [apply p_word; [reflexivity|exact W|exact A1|reflexivity]|].
      apply fs_here, (f_chr _ 42%N); [reflexivity|exact A2]. }
    apply pl_next; [apply f_quoted; [reflexivity|apply word_dq, W]|].
    apply pl_here. apply p_word; [reflexivity|exact W|exact A1|reflexivity].
  - exists false. split; [|destruct neg; reflexivity]. apply p_list_value; assumption.
Qed.
Lemma scalar_strings l : is_scalar (OList (map OStr l)) = Ok true.
Proof. cbn. induction l as [|s l IH]; [reflexivity|]. cbn. exact IH. Qed.
Lemma test_condition neg t k o r : value_said neg t o r -> mk_condition (tag k) (OOp o) r = Ok (OCond (tag k) o r).
Proof.
  intros T. destruct T; destruct neg; try reflexivity; unfold mk_condition, check_condition; cbn [is_col_or_func tag negb is_unary andb];
    rewrite scalar_strings; reflexivity.
Qed.
Lemma value_not_space neg v o r s : value_said neg v o r -> heads mql_space (v ++ s) = false.
Proof.
  intros [p W|p W|t u (b & -> & _) NW|u W|w1 t l w2 B1 S B2]; try reflexivity; rewrite <- ?app_assoc; apply word_not_space, W.
Qed.
Lemma key_heads k f s : mql_key k -> exists c, word_start c /\ heads f (k ++ s) = f c.
Proof. intros (c & t & -> & W & _). exists c. split; [exact W|reflexivity]. Qed.
Lemma word_start_range c : word_start c -> (65 <= c <= 122)%N.
Proof. unfold word_start, ascii_letter. lia. Qed.
Lemma heads_eqb_neq c (s : str) x t : s = x :: t -> x <> c -> heads (N.eqb c) s = false.
Proof. intros -> H. cbn [heads]. apply N.eqb_neq. congruence. Qed.
Lemma p_test (neg : bool) k o r v w1 w2 rest : mql_key k -> value_said neg v o r -> white w1 -> white w2 -> apart v rest ->
  parses (PRef Rfilter_factor) (((if neg then $"!" else []) ++ k ++ w1 ++ $":" ++ w2 ++ v) ++ rest)
    (PVal (VObj (OCond (tag k) o r))) rest.
Proof.
  intros K V B1 B2 A. rewrite <- !app_assoc. cbn [app lit].
  destruct (p_value neg v o r rest V A) as (w & P & O).
  assert (parses_all [PAlt [PRef Rvariable; PRef Rtag_key]; PRef Rws; PRef Rcolon; PRef Rws; PRef Rtag_value]
     (k ++ w1 ++ 58%N :: w2 ++ v ++ rest) [PList [PVal (VObj (tag k))]; PList []; PList []; PList []; PFactor r w] rest) as PA.
  { eapply pa_cons.
    { apply p_alt, pl_next.
      - apply f_variable. destruct K as (c & t & -> & W & _). cbn [app heads]. apply N.eqb_neq.
        apply word_start_range in W. lia.
      - apply pl_here, p_key; [exact K|]. destruct w1 as [|c w1]; [reflexivity|]. cbn [app heads].
        inversion B1 as [|? ? S _]; subst. apply space_num in S. destruct (key_b c) eqn:E; [|reflexivity]. apply key_b_iff, key_range in E. lia. }
    eapply pa_cons; [apply p_blank; [exact B1|reflexivity]|].
    eapply pa_cons; [apply (p_chr Rcolon 58%N); reflexivity|].
    eapply pa_cons; [apply p_blank; [exact B2|apply (value_not_space neg v o r), V]|].
    eapply pa_cons; [exact P|apply pa_nil]. }
  assert (exists ns, parses (POpt (PRef Rcondition_op)) ((if neg then [33%N] else []) ++ k ++ w1 ++ 58%N :: w2 ++ v ++ rest) (PList ns)
      (k ++ w1 ++ 58%N :: w2 ++ v ++ rest)
      /\ match ns with [PVal (VObj (OOp NOT))] => true | _ => false end = neg) as (ns & Q & E).
  { exists (if neg then [PVal (VObj (OOp NOT))] else []). destruct neg; (split; [|reflexivity]).
    - apply p_opt, (p_chr Rcondition_op 33%N); reflexivity.
    - apply p_opt_none, (f_chr _ 33%N); [reflexivity|]. destruct K as (c & t & -> & W & _). cbn [app heads].
      apply N.eqb_neq. apply word_start_range in W. lia. }
  eapply p_ref with (cs := [_]); [reflexivity| |].
  - cbn [grammar]. apply p_alt, pl_here, p_seq. eapply pa_cons; [|exact PA]. destruct neg; exact Q.
  - cbn [act visit_filter_factor]. rewrite E. cbn [as_obj bind]. rewrite O, (test_condition neg v k o r V). reflexivity.
Qed.

(** * Terms and filters *)
Definition and_item : peg rule :=
  PSeq [PRef Rws; POpt (PRef Rjoint_operator); PRef Rws; PRef Rfilter_factor].
Definition or_item : peg rule := PSeq [PRef Rws; PRef Ror; PRef Rws; PRef Rfilter_term].
Definition ends_term (rest : str) : Prop := fails and_item rest.
Definition ends_expr (rest : str) : Prop := fails and_item rest /\ fails or_item rest.
Definition start_char (c : N) : Prop := c = 33%N \/ c = 40%N \/ word_start c.
Definition starts (s : str) : Prop := exists c t, s = c :: t /\ start_char c.
Lemma start_not_space c : start_char c -> mql_space c = false /\ c <> 58%N.
Proof.
  unfold start_char, word_start, ascii_letter. intros H. split; [apply space_low; lia|lia].
Qed.
Lemma starts_space s rest : starts s -> heads mql_space (s ++ rest) = false.
Proof. intros (c & t & -> & S). cbn [app heads]. apply start_not_space, S. Qed.
Lemma starts_app s t : starts s -> starts (s ++ t).
Proof. intros (c & u & -> & S). exists c, (u ++ t). auto. Qed.

Lemma f_factor_char x s : x <> 33%N -> x <> 36%N -> x <> 40%N -> key_b x = false ->
  fails (PRef Rfilter_factor) (x :: s).
Proof.
  intros H1 H2 H3 H4. apply f_ref, f_alt. constructor; [|constructor; [|constructor]].
  - apply f_seq. eapply fs_later.
    { apply p_opt_none, (f_chr _ 33%N); [reflexivity|]. cbn [heads]. apply N.eqb_neq. congruence. }
    apply fs_here, f_alt. constructor; [|constructor; [|constructor]].
    + apply f_variable. cbn [heads]. apply N.eqb_neq. congruence.
    + apply f_ref, f_plus. exact H4.
  - apply f_ref, f_seq, fs_here, (f_chr _ 40%N); [reflexivity|]. cbn [heads]. apply N.eqb_neq. congruence.
Qed.
Lemma f_word w s : prefixb w s = false -> fails (PLit (R := rule) w) s.
Proof. apply f_lit. Qed.
Lemma f_joint x s : x <> 44%N -> x <> 65%N -> x <> 97%N -> fails (PRef Rjoint_operator) (x :: s).
Proof.
  intros H1 H2 H3. apply f_ref, f_alt. constructor; [|constructor; [|constructor]].
  - apply (f_chr _ 44%N); [reflexivity|]. cbn [heads]. apply N.eqb_neq. congruence.
  - apply f_ref, f_alt. constructor; [|constructor; [|constructor]]; apply f_lit.
    + change (prefixb ($"AND") (x :: s)) with (N.eqb 65 x && prefixb ($"ND") s)%bool.
      replace (N.eqb 65 x) with false by (symmetry; apply N.eqb_neq; congruence). reflexivity.
    + change (prefixb ($"and") (x :: s)) with (N.eqb 97 x && prefixb ($"nd") s)%bool.
      replace (N.eqb 97 x) with false by (symmetry; apply N.eqb_neq; congruence). reflexivity.
Qed.
Lemma f_or x s : x <> 79%N -> x <> 111%N -> fails (PRef Ror) (x :: s).
Proof.
  intros H1 H2. apply f_ref, f_alt. constructor; [|constructor; [|constructor]]; apply f_lit.
  - change (prefixb ($"OR") (x :: s)) with (N.eqb 79 x && prefixb ($"R") s)%bool.
    replace (N.eqb 79 x) with false by (symmetry; apply N.eqb_neq; congruence). reflexivity.
  - change (prefixb ($"or") (x :: s)) with (N.eqb 111 x && prefixb ($"r") s)%bool.
    replace (N.eqb 111 x) with false by (symmetry; apply N.eqb_neq; congruence). reflexivity.
Qed.
(** closing parenthesis and brace *)
Lemma ends_close w x s : white w -> x = 41%N \/ x = 125%N -> ends_expr (w ++ x :: s).
Proof.
  intros B X. assert (heads mql_space (x :: s) = false) as NS by (destruct X; subst; reflexivity).
  split; apply f_seq.
  - eapply fs_later; [apply p_blank; [exact B|exact NS]|].
    eapply fs_later; [apply p_opt_none, f_joint; destruct X; subst; discriminate|].
    eapply fs_later; [apply p_ws0, NS|].
    apply fs_here, f_factor_char; destruct X; subst; (discriminate || reflexivity).
  - eapply fs_later; [apply p_blank; [exact B|exact NS]|].
    apply fs_here, f_or; destruct X; subst; discriminate.
Qed.
Lemma or_sep_space s : or_sep s -> exists w1 a b w2, s = w1 ++ a :: b :: w2 /\ white w1 /\ white w2
  /\ w2 <> [] /\ (a = 79%N /\ b = 82%N \/ a = 111%N /\ b = 114%N).
Proof.
  intros (w1 & x & w2 & -> & B1 & B2 & N & [<-|[<-|[]]]).
  - exists w1, 79%N, 82%N, w2. cbn. auto 10.
  - exists w1, 111%N, 114%N, w2. cbn. auto 10.
Qed.
Lemma or_ends_term s e : or_sep s -> starts e -> ends_term (s ++ e).
Proof.
  intros S E. apply or_sep_space in S. destruct S as (w1 & a & b & w2 & -> & B1 & B2 & N & AB).
  rewrite <- app_assoc. cbn [app].
  assert (key_b a = true /\ key_b b = true) as (Ka & Kb) by (destruct AB as [[-> ->]|[-> ->]]; auto).
  assert (heads mql_space (a :: b :: w2 ++ e) = false) as NS by (apply key_not_space, Ka).
  apply f_seq. eapply fs_later; [apply p_blank; [exact B1|exact NS]|].
  eapply fs_later; [apply p_opt_none, f_joint; destruct AB as [[-> ->]|[-> ->]]; discriminate|].
  eapply fs_later; [apply p_ws0, NS|].
  apply fs_here, f_ref, f_alt. constructor; [|constructor; [|constructor]].
  - apply f_seq. eapply fs_later.
    { apply p_opt_none, (f_chr _ 33%N); [reflexivity|]. destruct AB as [[-> ->]|[-> ->]]; reflexivity. }
    eapply fs_later.
    { apply p_alt, pl_next.
      - apply f_variable. destruct AB as [[-> ->]|[-> ->]]; reflexivity.
      - apply pl_here. change (a :: b :: w2 ++ e) with ([a; b] ++ w2 ++ e). apply p_key.
        + exists a, [b]. split; [reflexivity|]. split; [destruct AB as [[-> ->]|[-> ->]]; left; unfold ascii_letter; lia|].
          constructor; [apply key_b_iff, Kb|constructor].
        + destruct w2 as [|c w2]; [congruence|]. cbn [app heads]. inversion B2 as [|? ? Sp _]; subst. apply space_num in Sp.
          destruct (key_b c) eqn:K; [|reflexivity]. apply key_b_iff, key_range in K. lia. }
    eapply fs_later; [apply p_blank; [exact B2|apply (starts_space e []) in E; rewrite app_nil_r in E; exact E]|].
    apply fs_here, (f_chr _ 58%N); [reflexivity|]. destruct E as (c & t & -> & S). cbn [heads].
    apply N.eqb_neq. apply start_not_space in S. intuition congruence.
  - apply f_ref, f_seq, fs_here, (f_chr _ 40%N); [reflexivity|]. destruct AB as [[-> ->]|[-> ->]]; reflexivity.
Qed.
Lemma p_or_sep s e rest v rest' : or_sep s -> starts e -> parses (PRef Rfilter_term) (e ++ rest) v rest' ->
  exists v1 v2 v3, parses or_item (s ++ e ++ rest) (PList [v1; v2; v3; v]) rest'.
Proof.
  intros S E P. apply or_sep_space in S. destruct S as (w1 & a & b & w2 & -> & B1 & B2 & N & AB).
  rewrite <- app_assoc. cbn [app]. do 3 eexists. apply p_seq.
  eapply pa_cons. { apply p_blank; [exact B1|]. destruct AB as [[-> ->]|[-> ->]]; reflexivity. }
  eapply pa_cons.
  { destruct AB as [[-> ->]|[-> ->]].
    - eapply p_ref with (cs := [_]); [reflexivity| |reflexivity]. cbn [grammar].
      apply p_alt, pl_here. apply (p_lit ($"OR")).
    - eapply p_ref with (cs := [_]); [reflexivity| |reflexivity]. cbn [grammar].
      apply p_alt, pl_next; [apply f_lit; reflexivity|apply pl_here]. apply (p_lit ($"or")). }
  eapply pa_cons. { apply p_blank; [exact B2|apply starts_space, E]. }
  eapply pa_cons; [exact P|apply pa_nil].
Qed.
Lemma p_and_sep s f rest v rest' : and_sep s -> starts f -> parses (PRef Rfilter_factor) (f ++ rest) v rest' ->
  exists v1 v2 v3, parses and_item (s ++ f ++ rest) (PList [v1; v2; v3; v]) rest'.
Proof.
  intros (w1 & x & w2 & -> & B1 & B2 & X) F P. rewrite <- !app_assoc.
  assert (exists v2, parses (POpt (PRef Rjoint_operator)) (x ++ w2 ++ f ++ rest) v2 (w2 ++ f ++ rest)) as (v2 & Q).
  { destruct X as [<-|[<-|[<-|[]]]]; eexists; apply p_opt.
    - eapply p_ref with (cs := [_]); [reflexivity| |reflexivity]. cbn [grammar].
      apply p_alt, pl_next; [apply (f_chr _ 44%N); reflexivity|apply pl_here].
      eapply p_ref with (cs := [_]); [reflexivity| |reflexivity]. cbn [grammar].
      apply p_alt, pl_here. apply (p_lit ($"AND")).
    - eapply p_ref with (cs := [_]); [reflexivity| |reflexivity]. cbn [grammar].
      apply p_alt, pl_next; [apply (f_chr _ 44%N); reflexivity|apply pl_here].
      eapply p_ref with (cs := [_]); [reflexivity| |reflexivity]. cbn [grammar].
      apply p_alt, pl_next; [apply f_lit; reflexivity|apply pl_here]. apply (p_lit ($"and")).
    - eapply p_ref with (cs := [_]); [reflexivity| |reflexivity]. cbn [grammar].
      apply p_alt, pl_here. apply (p_chr Rcomma 44%N); reflexivity. }
  do 3 eexists. apply p_seq.
  eapply pa_cons. { apply p_blank; [exact B1|]. destruct X as [<-|[<-|[<-|[]]]]; reflexivity. }
  eapply pa_cons; [exact Q|].
  eapply pa_cons. { apply p_blank; [exact B2|apply starts_space, F]. }
  eapply pa_cons; [exact P|apply pa_nil].
Qed.

(** * Reading filters *)
Definition pvc (c : obj) : pv := PVal (VObj c).
Lemma closed_app a b : b <> [] -> closed_text (a ++ b) <-> closed_text b.
Proof.
  intros N. split; intros (t & c & E & I).
  - destruct (exists_last N) as (b' & d & ->). rewrite app_assoc in E. apply app_inj_tail in E. destruct E as (_ & ->).
    exists b', c. auto.
  - exists (a ++ t), c. subst b. rewrite app_assoc. auto.
Qed.
Lemma starts_ne s : starts s -> s <> [].
Proof. intros (c & t & -> & _). discriminate. Qed.
(** what follows the last part follows the whole *)
Lemma apart_last a b rest : starts b -> apart (a ++ b) rest -> apart b rest.
Proof. intros S [C|W]; [left; exact (proj1 (closed_app a b (starts_ne b S)) C)|right; exact W]. Qed.
Lemma apart_app f s rest : s <> [] -> apart f s -> apart f (s ++ rest).
Proof.
  intros N [C|(c & t & -> & P)]; [left; exact C|right]. exists c, (t ++ rest). auto.
Qed.
Lemma apart_close f w x s : white w -> x = 41%N \/ x = 125%N -> apart f (w ++ x :: s).
Proof.
  intros B X. right. destruct w as [|c w].
  - exists x, s. split; [reflexivity|]. split; [|destruct X; subst; discriminate].
    intros (H & _). apply H. destruct X; subst; cbn; tauto.
  - exists c, (w ++ x :: s). split; [reflexivity|]. inversion B as [|? ? Sp _]; subst. split; [|apply space_num in Sp; lia]. intros (_ & _ & H & U). destruct Sp; tauto.
Qed.
Lemma and_sep_ne s : and_sep s -> s <> [].
Proof. intros (w1 & x & w2 & -> & _ & _ & X) E. destruct X as [<-|[<-|[<-|[]]]]; destruct w1; discriminate E. Qed.
Lemma or_sep_ne s : or_sep s -> s <> [].
Proof. intros (w1 & x & w2 & -> & _ & _ & _ & X) E. destruct X as [<-|[<-|[]]]; destruct w1; discriminate E. Qed.
Definition factor_ok (f : str) (c : obj) : Prop :=
  starts f /\ is_condition_obj c = true
  /\ forall rest, apart f rest -> parses (PRef Rfilter_factor) (f ++ rest) (pvc c) rest.
Definition term_ok (t : str) (l : list obj) : Prop :=
  starts t /\ Forall (fun c => is_condition_obj c = true) l /\ l <> []
  /\ exists f0 c0 cs rs, l = c0 :: cs /\ t = f0 ++ rs /\ factor_ok f0 c0
  /\ forall rest, apart t rest -> ends_term rest -> apart f0 (rs ++ rest)
       /\ exists vs, parses_many and_item (rs ++ rest) vs rest
       /\ fourths vs = Ok (map pvc cs).
Definition expr_ok (e : str) (l : list obj) : Prop :=
  starts e /\ Forall (fun c => is_condition_obj c = true) l /\ l <> []
  /\ exists t0 c0 cs rs, l = c0 :: cs /\ e = t0 ++ rs /\ starts t0
  /\ (forall rest, apart t0 rest -> ends_term rest -> parses (PRef Rfilter_term) (t0 ++ rest) (pvc c0) rest)
  /\ (forall rest, apart e rest -> ends_expr rest -> apart t0 (rs ++ rest) /\ ends_term (rs ++ rest)
       /\ exists vs, parses_many or_item (rs ++ rest) vs rest
       /\ fourths vs = Ok (map pvc cs)).
Lemma mapM_as_obj l : mapM as_obj (map pvc l) = Ok l.
Proof. induction l as [|c l IH]; [reflexivity|]. cbn. rewrite IH. reflexivity. Qed.
Lemma conds_forallb l : Forall (fun c => is_condition_obj c = true) l -> forallb is_condition_obj l = true.
Proof. intros H. apply forallb_forall. rewrite Forall_forall in H. exact H. Qed.
Lemma visit_bool_ok o c cs vs : Forall (fun c => is_condition_obj c = true) (c :: cs) ->
  fourths vs = Ok (map pvc cs) ->
  visit_bool o [pvc c; PList vs] = Ok (pvc (match o with AND => all_of (c :: cs) | OR => any_of (c :: cs) end)).
Proof.
  intros F E. unfold visit_bool. rewrite E. cbn [bind].
  destruct cs as [|d cs]; [destruct o; reflexivity|]. cbn [map].
  change (mapM as_obj (pvc c :: pvc d :: map pvc cs)) with (mapM as_obj (map pvc (c :: d :: cs))).
  rewrite mapM_as_obj. cbn [bind]. apply conds_forallb in F.
  assert (check_bool_items (c :: d :: cs) = Ok tt) as K.
  { unfold check_bool_items. cbn [List.length Nat.ltb Nat.leb]. rewrite F. reflexivity. }
  destruct o; unfold mk_and, mk_or, mk_boolean; cbn [as_list_or_tuple]; rewrite K; reflexivity.
Qed.
Lemma is_condition_all l : l <> [] -> Forall (fun c => is_condition_obj c = true) l ->
  is_condition_obj (all_of l) = true.
Proof. destruct l as [|c [|d l]]; [congruence| |reflexivity]. intros _ H. inversion H; assumption. Qed.
Lemma is_condition_any l : l <> [] -> Forall (fun c => is_condition_obj c = true) l ->
  is_condition_obj (any_of l) = true.
Proof. destruct l as [|c [|d l]]; [congruence| |reflexivity]. intros _ H. inversion H; assumption. Qed.
Lemma term_parses t l : term_ok t l -> forall rest, apart t rest -> ends_term rest ->
  parses (PRef Rfilter_term) (t ++ rest) (pvc (all_of l)) rest.
Proof.
  intros (_ & F & _ & f0 & c0 & cs & rs & -> & -> & (_ & _ & P0) & PM) rest A E.
  destruct (PM rest A E) as (A0 & vs & M & V). rewrite <- app_assoc.
  eapply p_ref; [reflexivity| |].
  - cbn [grammar]. apply p_seq. eapply pa_cons; [apply P0, A0|].
    eapply pa_cons; [apply p_star, M|apply pa_nil].
  - cbn [act]. apply (visit_bool_ok AND); assumption.
Qed.
Lemma expr_parses e l : expr_ok e l -> forall rest, apart e rest -> ends_expr rest ->
  parses (PRef Rfilter_expr) (e ++ rest) (pvc (any_of l)) rest.
Proof.
  intros (_ & F & _ & t0 & c0 & cs & rs & -> & -> & _ & P0 & PM) rest A E.
  destruct (PM rest A E) as (A0 & T & vs & M & V). rewrite <- app_assoc.
  eapply p_ref; [reflexivity| |].
  - cbn [grammar]. apply p_seq. eapply pa_cons; [apply P0; [exact A0|exact T]|].
    eapply pa_cons; [apply p_star, M|apply pa_nil].
  - cbn [act]. apply (visit_bool_ok OR); assumption.
Qed.
Lemma value_ne neg v o r : value_said neg v o r -> v <> [].
Proof.
  intros [p W|p W|t u (b & -> & _) NW|u (W & _)|w1 t l w2 B1 S B2]; try discriminate; [|exact W].
  destruct p; discriminate.
Qed.
Theorem reads_ok :
  (forall f c, factor_reads f c -> factor_ok f c)
  /\ (forall t l, term_reads t l -> term_ok t l)
  /\ (forall e l, expr_reads e l -> expr_ok e l).
Proof.
  apply reads_ind.
  - intros neg k o r v w1 w2 K B1 B2 V. split; [|split; [reflexivity|]].
    + destruct neg; [eexists; eexists; split; [reflexivity|left; reflexivity]|].
      destruct K as (c & t & -> & W & _). eexists; eexists; split; [reflexivity|right; right; exact W].
    + intros rest A. apply p_test; try assumption. pose proof (value_ne neg v o r V) as N.
      destruct A as [C|A]; [left|right; exact A]. rewrite !app_assoc in C. exact (proj1 (closed_app _ v N) C).
  - intros e l w1 w2 _ E B1 B2. split; [|split].
    + eexists; eexists; split; [reflexivity|right; left; reflexivity].
    + destruct E as (_ & F & N & _). apply is_condition_any; assumption.
    + intros rest _. rewrite <- !app_assoc. cbn [app lit].
      assert (ends_expr (w2 ++ 41%N :: rest)) as EE by (apply ends_close; auto).
      assert (apart e (w2 ++ 41%N :: rest)) as AE by (apply apart_close; auto).
      pose proof (expr_parses e l E _ AE EE) as P.
      eapply p_ref with (cs := [_]); [reflexivity| |].
      * cbn [grammar]. apply p_alt, pl_next.
        -- apply f_seq. eapply fs_later; [apply p_opt_none, (f_chr _ 33%N); reflexivity|].
           apply fs_here, f_alt. constructor; [|constructor; [|constructor]].
           ++ apply f_variable. reflexivity.
           ++ apply f_ref, f_plus. reflexivity.
        -- apply pl_here. eapply p_ref with (cs := [_; _; _; _; _]); [reflexivity| |reflexivity].
           cbn [grammar]. apply p_seq.
           eapply pa_cons; [apply (p_chr Ropen_paren 40%N); reflexivity|].
           eapply pa_cons. { apply p_blank; [exact B1|]. apply starts_space. apply E. }
           eapply pa_cons; [exact P|].
           eapply pa_cons; [apply p_blank; [exact B2|reflexivity]|].
           eapply pa_cons; [apply (p_chr Rclose_paren 41%N); reflexivity|apply pa_nil].
      * cbn [act]. destruct E as (_ & F & N & _). pose proof (is_condition_any l N F) as C.
        unfold pvc. destruct (any_of l); try discriminate C; reflexivity.
  - intros f c _ H. pose proof H as (S & C & P). split; [exact S|]. split; [constructor; [exact C|constructor]|].
    split; [discriminate|]. exists f, c, [], []. split; [reflexivity|].
    split; [symmetry; apply app_nil_r|]. split; [exact H|].
    intros rest A E. split; [exact A|]. exists []. split; [apply pm_stop, E|reflexivity].
  - intros f c s t l _ H A AP _ (S' & F' & N' & f0 & c0 & cs & rs & -> & -> & H0 & PM).
    pose proof H as (S & C & P). split; [apply starts_app, S|]. split; [constructor; assumption|].
    split; [discriminate|].
    exists f, c, (c0 :: cs), (s ++ f0 ++ rs). split; [reflexivity|]. split; [reflexivity|].
    split; [exact H|]. intros rest AR E. split; [rewrite <- app_assoc; apply apart_app; [apply and_sep_ne, A|exact AP]|].
    rewrite app_assoc in AR. apply apart_last in AR; [|exact S'].
    destruct (PM rest AR E) as (A0 & vs & M & V).
    destruct H0 as (S0 & C0 & P0).
    destruct (p_and_sep s f0 (rs ++ rest) _ _ A S0 (P0 (rs ++ rest) A0)) as (v1 & v2 & v3 & Q).
    exists (PList [v1; v2; v3; pvc c0] :: vs). split.
    + rewrite <- !app_assoc. eapply pm_next; [exact Q| |exact M].
      rewrite !app_length. destruct S0 as (x & u & -> & _). cbn. lia.
    + cbn. rewrite V. reflexivity.
  - intros t l _ H. pose proof H as (S & F & N & _). split; [exact S|].
    split; [constructor; [apply is_condition_all; assumption|constructor]|]. split; [discriminate|].
    exists t, (all_of l), [], []. split; [reflexivity|]. split; [symmetry; apply app_nil_r|].
    split; [exact S|].
    split; [apply term_parses, H|]. intros rest A (E1 & E2). split; [exact A|]. split; [exact E1|].
    exists []. split; [apply pm_stop, E2|reflexivity].
  - intros t l s e r _ H O AP _ HE. pose proof H as (S & F & N & _).
    pose proof HE as (S' & F' & N' & t0 & c0 & cs & rs & -> & -> & S0 & P0 & PM).
    split; [apply starts_app, S|].
    split; [constructor; [apply is_condition_all; assumption|exact F']|]. split; [discriminate|].
    exists t, (all_of l), (c0 :: cs), (s ++ t0 ++ rs). split; [reflexivity|]. split; [reflexivity|].
    split; [exact S|].
    split; [apply term_parses, H|]. intros rest AR E.
    split; [rewrite <- app_assoc; apply apart_app; [apply or_sep_ne, O|exact AP]|].
    rewrite app_assoc in AR. apply apart_last in AR; [|exact S'].
    destruct (PM rest AR E) as (A0 & T & vs & M & V).
    split.
    + rewrite <- !app_assoc. apply or_ends_term; [exact O|apply starts_app, S0].
    + destruct (p_or_sep s t0 (rs ++ rest) _ _ O S0 (P0 (rs ++ rest) A0 T)) as (v1 & v2 & v3 & Q).
      exists (PList [v1; v2; v3; pvc c0] :: vs). split.
      * rewrite <- !app_assoc. eapply pm_next; [exact Q| |exact M].
        rewrite !app_length. destruct S0 as (x & u & -> & _). cbn. lia.
      * cbn. rewrite V. reflexivity.
Qed.
Lemma expr_reads_parse e l : expr_reads e l -> starts e /\ l <> []
  /\ is_condition_obj (any_of l) = true
  /\ forall rest, apart e rest -> ends_expr rest -> parses (PRef Rfilter_expr) (e ++ rest) (pvc (any_of l)) rest.
Proof.
  intros H. pose proof (proj2 (proj2 reads_ok) e l H) as E. pose proof E as (S & F & N & _).
  split; [exact S|]. split; [exact N|]. split; [apply is_condition_any; assumption|].
  apply expr_parses, E.
Qed.
End Expr.
