(** Parsing printed filters: string values, tests, conjunctions and disjunctions. *)
From Verif Require Import PyBase PyFacts Regex RegexFacts Objects Exprs Translate Query Metrics
  TextFacts Peg PegTotal Mql MqlParse MqlTokens.

Section Filter.
Context {RT : PyRT}.

(** * One-character tokens *)
Lemma prefix1 c s : prefixb [c] s = heads (N.eqb c) s.
Proof. destruct s as [|d s]; cbn; [reflexivity|]. apply andb_true_r. Qed.
Lemma p_chr r c s v : grammar r = PLit [c] -> act r [c] [] = Ok v ->
  parses (PRef r) (c :: s) v s.
Proof.
  intros G A. eapply p_ref; [rewrite G; reflexivity|rewrite G; apply (p_lit [c] s)|].
  rewrite (cut_eq (c :: s) [c] s eq_refl). exact A.
Qed.
Lemma f_chr r c s : grammar r = PLit [c] -> heads (N.eqb c) s = false -> fails (PRef r) s.
Proof. intros G H. apply f_ref. rewrite G. apply f_lit. rewrite prefix1. exact H. Qed.

(** * Quoted strings *)
Lemma p_quoted s rest : parses (PRef Rquoted_string) (quoted true s ++ rest)
  (PStr (unquote (quoted true s))) rest.
Proof.
  eapply p_ref; [reflexivity|apply p_re, quoted_match|]. rewrite cut_app. reflexivity.
Qed.
Lemma p_quoted_filter s rest : parses (PRef Rquoted_string_filter) (quoted true s ++ rest)
  (PFactor (OStr (unquote (quoted true s))) false) rest.
Proof.
  eapply p_ref; [reflexivity|apply p_re, quoted_match|]. rewrite cut_app. reflexivity.
Qed.
Lemma f_quoted r s : grammar r = PRe re_quoted -> heads (N.eqb DQ) s = false -> fails (PRef r) s.
Proof.
  intros G H. apply f_ref. rewrite G. apply f_re. rewrite re_quoted_scan.
  destruct s as [|c s]; [reflexivity|]. cbn [heads] in H. rewrite N.eqb_sym, H. reflexivity.
Qed.

(** the wildcard alternative, where it matches, also ends at the closing quote *)
Lemma qscan_star u r : ~ In DQ u -> ~ In NL u -> qscan (u ++ 42%N :: DQ :: r) = Some r.
Proof.
  assert (forall n u, List.length u <= n -> ~ In DQ u -> ~ In NL u ->
     qscan (u ++ 42%N :: DQ :: r) = Some r) as H; [|eauto].
  clear u. induction n as [|n IH]; intros [|c u] L H1 H2; try (cbn in L; lia); try reflexivity.
  cbn [app qscan]. destruct (N.eqb_spec c DQ) as [->|N1]; [exfalso; apply H1; left; reflexivity|].
  cbn in L. destruct (N.eqb_spec c BSL) as [->|N2].
  - destruct u as [|d u]; cbn [app].
    + reflexivity.
    + destruct (N.eqb_spec d NL) as [->|]; [exfalso; apply H2; right; left; reflexivity|].
      cbn in L. apply IH; [lia| |]; intros I; [apply H1|apply H2]; right; right; exact I.
  - apply IH; [lia| |]; intros I; [apply H1|apply H2]; right; exact I.
Qed.
Lemma span_split f s : s = fst (span f s) ++ skip f s.
Proof.
  unfold skip. induction s as [|c s IH]; [reflexivity|]. cbn. destruct (f c); [|reflexivity].
  destruct (span f s); cbn in *. congruence.
Qed.
Lemma span_all f s : forallb f (fst (span f s)) = true.
Proof.
  induction s as [|c s IH]; [reflexivity|]. cbn. destruct (f c) eqn:E; [|reflexivity].
  destruct (span f s); cbn in *. rewrite E. exact IH.
Qed.
Lemma unquoted_dq c : unquoted_char c = true -> c <> DQ /\ c <> NL /\ mql_space c = false
  /\ one_of ",[]}{()*" c = false.
Proof.
  unfold unquoted_char. intros H. apply negb_true_iff in H. apply orb_false_iff in H.
  destruct H as (H & S). apply orb_false_iff in H. destruct H as (O & D).
  apply N.eqb_neq in D. repeat split; auto. intros ->. discriminate.
Qed.
Lemma unquoted_free u : forallb unquoted_char u = true -> ~ In DQ u /\ ~ In NL u.
Proof.
  intros H. rewrite forallb_forall in H. split; intros I; apply H, unquoted_dq in I; tauto.
Qed.

(** the alternative fails on a string value that is not of the form text* *)
Lemma f_quoted_suffix t : (forall u r, u <> [] -> forallb unquoted_char u = true -> t <> u ++ 42%N :: DQ :: r) ->
  fails (PRef Rquoted_suffix_wildcard_tag_value) (DQ :: t).
Proof.
  intros H. apply f_ref, f_seq. cbn [grammar].
  eapply fs_later; [apply (p_chr Rquote DQ); reflexivity|].
  destruct (heads unquoted_char t) eqn:E.
  2:{ apply fs_here, f_ref. cbn [grammar]. apply f_plus, E. }
  eapply fs_skip.
  { apply gives_ref with (x := None) (ch := []). apply gives_re.
    unfold re_unquoted. rewrite re_plus, E. reflexivity. }
  destruct (heads (N.eqb 42) (skip unquoted_char t)) eqn:S.
  2:{ apply fs_here, (f_chr _ 42%N); [reflexivity|exact S]. }
  destruct (skip unquoted_char t) as [|c r] eqn:K; [discriminate|]. cbn [heads] in S.
  apply N.eqb_eq in S. subst c.
  eapply fs_later; [apply (p_chr Rwildcard 42%N); reflexivity|].
  apply fs_here, (f_chr _ DQ); [reflexivity|].
  destruct r as [|d r]; [reflexivity|]. cbn [heads]. apply N.eqb_neq. intros <-.
  apply (H (fst (span unquoted_char t)) r).
  - destruct t as [|c t]; [discriminate|]. cbn [heads] in E. cbn. rewrite E.
    destruct (span unquoted_char t). discriminate.
  - apply span_all.
  - rewrite <- K. apply span_split.
Qed.
Lemma p_quoted_suffix u rest : u <> [] -> forallb unquoted_char u = true ->
  parses (PRef Rquoted_suffix_wildcard_tag_value) (DQ :: u ++ 42%N :: DQ :: rest)
    (PFactor (OStr (u ++ $"*")) true) rest.
Proof.
  intros N A. eapply p_ref; [reflexivity| |].
  - cbn [grammar]. apply p_seq.
    eapply pa_cons; [apply (p_chr Rquote DQ); reflexivity|].
    eapply pa_cons.
    { eapply p_ref; [reflexivity|apply p_plus; [exact N|exact A|reflexivity]|].
      rewrite cut_app. reflexivity. }
    eapply pa_cons; [apply (p_chr Rwildcard 42%N); reflexivity|].
    eapply pa_cons; [apply (p_chr Rquote DQ); reflexivity|]. apply pa_nil.
  - reflexivity.
Qed.
Lemma f_suffix_dq t : fails (PRef Rsuffix_wildcard_tag_value) (DQ :: t).
Proof.
  apply f_ref, f_seq. cbn [grammar]. apply fs_here, f_ref. cbn [grammar]. apply f_plus. reflexivity.
Qed.

(** a tag value in quotes: ends at the closing quote *)
Lemma quoted_is_dq s : quoted true s = DQ :: escape true s ++ [DQ].
Proof. reflexivity. Qed.
Lemma tag_value_cases s rest :
  (exists u, u <> [] /\ forallb unquoted_char u = true /\ escape true s = u ++ [42%N]
     /\ parses (PRef Rtag_value) (quoted true s ++ rest) (PFactor (OStr (u ++ $"*")) true) rest)
  \/ ((forall u, u <> [] -> forallb unquoted_char u = true -> escape true s <> u ++ [42%N])
     /\ parses (PRef Rtag_value) (quoted true s ++ rest)
               (PFactor (OStr (unquote (quoted true s))) false) rest).
Proof.
  set (e := escape true s).
  assert ((exists u, u <> [] /\ forallb unquoted_char u = true /\ e = u ++ [42%N])
     \/ (forall u, u <> [] -> forallb unquoted_char u = true -> e <> u ++ [42%N])) as [(u & N & A & E)|H].
  { destruct (rev e) as [|c v] eqn:R.
    - right. intros u _ _ E. rewrite E, rev_app_distr in R. discriminate.
    - apply (f_equal (@rev N)) in R. rewrite rev_involutive in R. cbn in R.
      destruct (N.eqb_spec c 42) as [->|Nc].
      + destruct (rev v) as [|x u] eqn:V.
        * right. intros u Nu _ E. rewrite R in E. change [42%N] with ([] ++ [42%N]) in E.
          apply app_inj_tail in E. destruct E; congruence.
        * destruct (forallb unquoted_char (x :: u)) eqn:F.
          -- left. exists (x :: u). split; [discriminate|]. split; [exact F|exact R].
          -- right. intros w Nw Fw E. rewrite R in E. apply app_inj_tail in E. destruct E; congruence.
      + right. intros u _ _ E. rewrite R in E. apply app_inj_tail in E. destruct E; congruence. }
  - left. exists u. split; [exact N|]. split; [exact A|]. split; [exact E|].
    eapply p_ref with (cs := [_]); [reflexivity| |reflexivity]. cbn [grammar]. apply p_alt, pl_here.
    rewrite quoted_is_dq. fold e. rewrite E. cbn [app]. rewrite <- !app_assoc. cbn [app].
    apply p_quoted_suffix; assumption.
  - right. split; [exact H|].
    eapply p_ref with (cs := [_]); [reflexivity| |reflexivity]. cbn [grammar]. apply p_alt.
    apply pl_next.
    { rewrite quoted_is_dq. fold e. cbn [app]. apply f_quoted_suffix. intros u r Nu A E.
      rewrite <- app_assoc in E. cbn [app] in E.
      pose proof (qscan_escape s rest) as Q. fold e in Q. rewrite E in Q.
      destruct (unquoted_free u A) as (F1 & F2). rewrite (qscan_star u r F1 F2) in Q.
      injection Q as ->. apply (H u Nu A).
      change (42%N :: DQ :: rest) with ([42%N] ++ DQ :: rest) in E. rewrite app_assoc in E.
      apply app_inv_tail in E. exact E. }
    apply pl_next; [apply f_suffix_dq|]. apply pl_here, p_quoted_filter.
Qed.
End Filter.
