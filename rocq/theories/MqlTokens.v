(** Tokens of the MQL grammar on printed text (C40, C41). *)
From Verif Require Import PyBase PyFacts Regex RegexFacts Objects Exprs Translate Query Metrics
  TextFacts Peg PegTotal Mql MqlParse.

(** * Quoted strings *)
(** the text after the opening quote up to and including the closing one *)
Fixpoint qscan (s : str) : option str :=
  match s with
  | [] => None
  | c :: s' =>
      if N.eqb c DQ then Some s'
      else if N.eqb c BSL then
        match s' with
        | d :: s'' => if N.eqb d NL then None else qscan s''
        | [] => None
        end
      else qscan s'
  end.

Section Tokens.
Context {RT : PyRT}.

Definition re_esc : re :=
  RSeq (RChar BSL) (RSeq (RClass (fun c => negb (N.eqb c NL))) (RStar (RClass plain_char))).
Lemma qscan_plain p t : forallb plain_char p = true -> qscan (p ++ t) = qscan t.
Proof.
  induction p as [|c p IH]; [reflexivity|]. cbn [forallb app]. intros H.
  apply andb_true_iff in H. destruct H as (Hc & H). unfold plain_char in Hc.
  apply andb_true_iff in Hc. destruct Hc as (H1 & H2). apply negb_true_iff in H1, H2.
  cbn [qscan]. rewrite H1, H2. apply IH, H.
Qed.
Lemma mt_char_iff c s s' : mt (RChar c) s s' <-> s = c :: s'.
Proof.
  unfold RChar. rewrite mt_class_iff. split.
  - intros (d & -> & E). apply N.eqb_eq in E. congruence.
  - intros ->. exists c. rewrite N.eqb_refl. auto.
Qed.
Lemma qscan_esc t m : mt re_esc t m -> qscan t = qscan m.
Proof.
  unfold re_esc. rewrite mt_seq_iff. intros (t1 & H1 & H). apply mt_char_iff in H1. subst t.
  apply mt_seq_iff in H. destruct H as (t2 & H2 & H3). apply mt_class_iff in H2.
  destruct H2 as (d & -> & Hd). apply mt_star_class_iff in H3. destruct H3 as (p & -> & Hp).
  cbn [qscan]. change (N.eqb BSL DQ) with false. change (N.eqb BSL BSL) with true. cbv iota.
  apply negb_true_iff in Hd. rewrite Hd. apply qscan_plain, Hp.
Qed.
Lemma qscan_escs t m : mt (RStar re_esc) t m -> qscan t = qscan m.
Proof.
  intros H. remember (RStar re_esc) as r. induction H; try discriminate; inversion Heqr; subst.
  - reflexivity.
  - etransitivity; [apply qscan_esc; eassumption|]. auto.
Qed.
Lemma mt_quoted_scan s s' : mt re_quoted s s' -> exists t, s = DQ :: t /\ qscan t = Some s'.
Proof.
  unfold re_quoted. rewrite mt_seq_iff. intros (t & H1 & H). apply mt_char_iff in H1. subst s.
  exists t. split; [reflexivity|]. apply mt_seq_iff in H. destruct H as (t1 & H & H4).
  apply mt_seq_iff in H. destruct H as (t2 & H2 & H3). apply mt_star_class_iff in H2.
  destruct H2 as (p & -> & Hp). apply mt_char_iff in H4. subst t1.
  rewrite (qscan_plain _ _ Hp). fold re_esc in H3. rewrite (qscan_escs _ _ H3). reflexivity.
Qed.
Lemma scan_mt_body n : forall t s', List.length t <= n -> qscan t = Some s' ->
  exists m, mt (RStar (RClass plain_char)) t m /\ mt (RStar re_esc) m (DQ :: s').
Proof.
  induction n as [|n IH]; intros t s' L H; destruct t as [|c t]; cbn in L; try lia; try discriminate H.
  cbn [qscan] in H. destruct (N.eqb_spec c DQ) as [->|N1].
  - inversion H; subst. exists (DQ :: s'). split; apply mt_star0.
  - destruct (N.eqb_spec c BSL) as [->|N2].
    + destruct t as [|d t]; [discriminate|]. destruct (N.eqb_spec d NL) as [->|N3]; [discriminate|].
      cbn in L. destruct (IH t s') as (m & M1 & M2); [lia|exact H|].
      exists (BSL :: d :: t). split; [apply mt_star0|].
      eapply mt_starS; [| |exact M2].
      * unfold re_esc. rewrite mt_seq_iff. exists (d :: t). split; [apply mt_char_iff; reflexivity|].
        rewrite mt_seq_iff. exists t. split; [|exact M1]. apply mt_class_iff. exists d.
        split; [reflexivity|]. apply negb_true_iff, N.eqb_neq, N3.
      * apply mt_length in M1. cbn. lia.
    + destruct (IH t s') as (m & M1 & M2); [lia|exact H|]. exists m. split; [|exact M2].
      apply mt_starS with (s1 := t); [|cbn; lia|exact M1]. apply mt_class_iff. exists c. split; [reflexivity|].
      unfold plain_char. apply N.eqb_neq in N1, N2. rewrite N1, N2. reflexivity.
Qed.
Lemma scan_mt t s' : qscan t = Some s' -> mt re_quoted (DQ :: t) s'.
Proof.
  intros H. destruct (scan_mt_body _ t s' (le_n _) H) as (m & M1 & M2).
  unfold re_quoted. rewrite mt_seq_iff. exists t. split; [apply mt_char_iff; reflexivity|].
  rewrite mt_seq_iff. exists (DQ :: s'). split; [|apply mt_char_iff; reflexivity].
  rewrite mt_seq_iff. exists m. auto.
Qed.
Theorem re_quoted_scan s : re_match re_quoted s =
  match s with c :: t => if N.eqb c DQ then qscan t else None | [] => None end.
Proof.
  destruct (re_match re_quoted s) as [x|] eqn:E.
  - apply re_match_mt, mt_quoted_scan in E. destruct E as (t & -> & Q). symmetry. exact Q.
  - destruct s as [|c t]; [reflexivity|]. destruct (N.eqb_spec c DQ) as [->|]; [|reflexivity].
    destruct (qscan t) as [y|] eqn:Q; [|reflexivity]. apply scan_mt in Q.
    destruct (mtch_complete _ _ _ Some y Q eq_refl) as (z & Z). unfold re_match in E. congruence.
Qed.

Lemma qscan_escape s rest : qscan (escape true s ++ DQ :: rest) = Some rest.
Proof.
  rewrite escape_flat. change (quote_char true) with DQ. induction s as [|c s IH]; [reflexivity|].
  cbn [flat_map]. rewrite <- app_assoc. unfold esc1 at 1.
  destruct (N.eqb_spec c 92) as [->|H1]; [exact IH|].
  destruct (N.eqb_spec c DQ) as [->|H2]; [exact IH|].
  destruct (N.eqb_spec c 10) as [->|H3]; [exact IH|].
  cbn [app qscan]. apply N.eqb_neq in H1, H2. unfold BSL. rewrite H1, H2. exact IH.
Qed.
(** the quoted-string token matches the printed literal exactly *)
Theorem quoted_match s rest : re_match re_quoted (quoted true s ++ rest) = Some rest.
Proof.
  rewrite re_quoted_scan. unfold quoted. cbn [app]. change (quote_char true) with DQ.
  change (N.eqb DQ DQ) with true. cbv iota. rewrite <- app_assoc. apply qscan_escape.
Qed.

Lemma escape_plain s : ~ In 92%N s -> ~ In 10%N s -> ~ In DQ s -> escape true s = s.
Proof.
  intros H1 H2 H3. rewrite escape_flat. change (quote_char true) with DQ. induction s as [|c s IH]; [reflexivity|].
  cbn [flat_map]. cbn [In] in H1, H2, H3. rewrite IH by tauto. unfold esc1.
  destruct (N.eqb_spec c 92) as [->|]; [tauto|]. destruct (N.eqb_spec c DQ) as [->|]; [tauto|].
  destruct (N.eqb_spec c 10) as [->|]; [tauto|]. reflexivity.
Qed.
Lemma escape_dq s : In DQ s -> In DQ (escape true s).
Proof. intros I. rewrite escape_flat. apply in_flat_map. exists DQ. split; [exact I|]. cbn. auto. Qed.

(** * Unquoting *)
(** what is left of a character after printing and unquoting *)
Definition unq1 (c : N) : str :=
  if N.eqb c 92 then [92; 92]%N else if N.eqb c 10 then [92; 110]%N else [c].
Lemma esc_head s : heads (N.eqb DQ) (flat_map (esc1 DQ) s) = false.
Proof.
  destruct s as [|c s]; [reflexivity|]. cbn [flat_map]. unfold esc1.
  destruct (N.eqb_spec c 92) as [->|H1]; [reflexivity|].
  destruct (N.eqb_spec c DQ) as [->|H2]; [reflexivity|].
  destruct (N.eqb_spec c 10) as [->|H3]; [reflexivity|].
  cbn [app heads]. apply N.eqb_neq. congruence.
Qed.
Lemma repl_pair s : repl [BSL; DQ] [DQ] 0 (flat_map (esc1 DQ) s) = flat_map unq1 s.
Proof.
  induction s as [|c s IH]; [reflexivity|]. cbn [flat_map]. unfold esc1 at 1, unq1 at 1.
  destruct (N.eqb_spec c 92) as [->|H1].
  - cbn [app]. pose proof (esc_head s) as E. cbn [repl]. cbn [prefixb].
    change (N.eqb BSL 92) with true. change (N.eqb DQ 92) with false. cbn [andb].
    destruct (flat_map (esc1 DQ) s) as [|d t].
    + cbn in *. rewrite <- IH. reflexivity.
    + cbn [heads] in E. rewrite E. cbn [andb]. cbn [app]. rewrite <- IH. reflexivity.
  - destruct (N.eqb_spec c DQ) as [->|H2].
    + cbn. rewrite <- IH. reflexivity.
    + destruct (N.eqb_spec c 10) as [->|H3].
      * cbn [app repl prefixb]. change (N.eqb BSL 92) with true. change (N.eqb DQ 110) with false.
        change (N.eqb BSL 110) with false. cbn [andb]. rewrite IH. reflexivity.
      * cbn [app repl prefixb]. assert (N.eqb BSL c = false) as -> by (apply N.eqb_neq; intros E; apply H1; symmetry; exact E).
        cbn [andb]. rewrite IH. reflexivity.
Qed.
Theorem unquote_quoted s : unquote (quoted true s) = flat_map unq1 s.
Proof.
  unfold unquote, quoted, slice_1_m1. cbn [app tl]. rewrite removelast_last, escape_flat.
  apply repl_pair.
Qed.
Lemma unq1_length s : List.length s <= List.length (flat_map unq1 s).
Proof.
  induction s as [|c s IH]; [reflexivity|]. cbn. rewrite app_length. unfold unq1 at 1.
  destruct (N.eqb c 92); [cbn; lia|]. destruct (N.eqb c 10); cbn; lia.
Qed.
Theorem unquote_same s : unquote (quoted true s) = s <-> ~ In 92%N s /\ ~ In 10%N s.
Proof.
  rewrite unquote_quoted. split.
  - induction s as [|c s IH]; [intros _; cbn; tauto|]. cbn [flat_map]. intros E.
    pose proof (unq1_length s) as L. unfold unq1 at 1 in E.
    destruct (N.eqb_spec c 92) as [->|H1].
    { apply (f_equal (@List.length N)) in E. cbn in E. lia. }
    destruct (N.eqb_spec c 10) as [->|H2].
    { apply (f_equal (@List.length N)) in E. cbn in E. lia. }
    cbn [app] in E. injection E as E. apply IH in E. cbn. intuition congruence.
  - intros (H1 & H2). induction s as [|c s IH]; [reflexivity|]. cbn [flat_map]. cbn in H1, H2.
    rewrite IH by tauto. unfold unq1.
    destruct (N.eqb_spec c 92) as [->|]; [tauto|]. destruct (N.eqb_spec c 10) as [->|]; [tauto|].
    reflexivity.
Qed.
End Tokens.
