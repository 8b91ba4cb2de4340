(** C21: the SnQL text has no newline if no name has one. *)
From Verif Require Import PyBase PyFacts DateTime Objects Exprs SpecExpr ExprFacts ExprProps WfFacts Translate Query
  SpecText TextFacts LiteralFacts SpecTime TimeProps SpecOccurs TameFacts SpecQuery RenameFacts PrintProps.

Section O.
Context {RT : PyRT}.
Definition float_one_line : Prop := forall f, one_line (float_repr f).

Lemma ol_app a b : one_line a -> one_line b -> one_line (a ++ b).
Proof. unfold one_line. intros A B I. apply in_app_iff in I. tauto. Qed.
Lemma ol_nil : one_line [].
Proof. intros []. Qed.
Lemma ol_join sep l : one_line sep -> Forall one_line l -> one_line (join sep l).
Proof.
  intros S F. induction F as [|x l Hx F IH]; [exact ol_nil|]. destruct l as [|y l]; [exact Hx|].
  change (one_line (x ++ sep ++ join sep (y :: l))). repeat apply ol_app; assumption.
Qed.
Lemma ol_chars (P : N -> Prop) s : (forall c, P c -> c <> 10%N) -> Forall P s -> one_line s.
Proof. intros H F I. rewrite Forall_forall in F. exact (H _ (F _ I) eq_refl). Qed.
Lemma ol_dec s : is_dec s -> one_line s.
Proof.
  intros D I. unfold is_dec in D. rewrite Forall_forall in D. specialize (D _ I).
  first [apply is_digit_range in D; lia | unfold ascii_digit in D; lia | lia].
Qed.
Lemma ol_decZ z : one_line (dec_of_Z z).
Proof.
  destruct (dec_of_Z_cases z) as [(n & -> & _)|(n & E & _)]; [apply ol_dec, dec_of_N_digits|].
  rewrite E. apply (ol_app [45%N]); [|apply ol_dec, dec_of_N_digits]. intros [H|[]]; discriminate.
Qed.
Ltac ol_lit := let I := fresh in intros I; vm_compute in I; repeat (destruct I as [I|I]; [discriminate I|]); exact I.
Lemma ol_pad w s : one_line s -> one_line (pad_left w s).
Proof. intros H. apply ol_app; [|exact H]. intros I. apply repeat_spec in I. discriminate. Qed.
Lemma ol_fixed p f : one_line (fmt_fixed p f).
Proof.
  destruct f as [|neg|neg m e]; [ol_lit|destruct neg; ol_lit|]. unfold fmt_fixed, fixed_digits.
  apply ol_app; [destruct neg; [ol_lit|apply ol_nil]|]. apply ol_app; [apply ol_dec, dec_of_N_digits|].
  apply ol_app; [ol_lit|]. apply ol_pad, ol_dec, dec_of_N_digits.
Qed.
Lemma ol_sample s : one_line (sample_clause s).
Proof.
  destruct s as [f|]; [|apply ol_nil]. unfold sample_clause. apply ol_app; [ol_lit|]. destruct (flt_is_int f); apply ol_fixed.
Qed.
Lemma ol_to_datetime s : Forall iso_char s -> one_line (to_datetime s).
Proof.
  intros F. unfold to_datetime. apply ol_app; [ol_lit|]. apply ol_app; [|ol_lit].
  eapply ol_chars; [|exact F]. intros c H. apply iso_char_range in H. tauto.
Qed.
Lemma ol_alias a : opt_is one_line a -> one_line (alias_suffix a).
Proof.
  destruct a as [a|]; [|intros _; apply ol_nil]. intros H. unfold alias_suffix. apply ol_app; [ol_lit|].
  apply ol_app; [apply H; reflexivity|ol_lit].
Qed.
Lemma ol_backquoted s : one_line s -> one_line (backquoted s).
Proof. intros H. unfold backquoted. apply ol_app; [ol_lit|]. apply ol_app; [exact H|ol_lit]. Qed.

Definition all_one_line (o : obj) : Prop := forall x, occurs x o -> names_are one_line x.
Lemma all_sub o x : all_one_line o -> (forall y, occurs y x -> occurs y o) -> all_one_line x.
Proof. intros A H y O. apply A, H, O. Qed.
Lemma ol_column al c : all_one_line (OColumn c) -> one_line (tr_column al c).
Proof.
  intros A. pose proof (A _ (oc_self _)) as N. cbn in N. unfold tr_column. apply ol_app; [|exact N].
  destruct (c_entity c) as [e|] eqn:E; [|apply ol_nil]. destruct al; [|apply ol_nil]. apply ol_app; [|ol_lit].
  pose proof (A (OEntity e) (oc_entity _ _ _ E (oc_self _))) as [_ B]. destruct (e_alias e); [apply B; reflexivity|ol_lit].
Qed.
Lemma ol_entity al e : names_are one_line (OEntity e) -> one_line (tr_entity al e).
Proof.
  intros [N A]. unfold tr_entity. apply ol_app; [ol_lit|]. apply ol_app; [|apply ol_app; [exact N|apply ol_app; [apply ol_sample|ol_lit]]].
  destruct (e_alias e) as [a|]; [|apply ol_nil]. destruct al; [|apply ol_nil]. apply ol_app; [apply A; reflexivity|ol_lit].
Qed.
Lemma ol_rel al r : all_one_line (ORel r) -> one_line (tr_rel al r).
Proof.
  intros A. unfold tr_rel. apply ol_app; [apply ol_entity, A; apply oc_rel_l, oc_self|]. apply ol_app; [ol_lit|].
  apply ol_app; [exact (A _ (oc_self _))|]. apply ol_app; [ol_lit|]. apply ol_entity, A. apply oc_rel_r, oc_self.
Qed.
Lemma ol_op p : one_line (op_value p).
Proof. destruct p; ol_lit. Qed.
Lemma ol_pyint i : one_line (pyint_str i).
Proof. destruct i as [z|[]]; [apply ol_decZ|ol_lit..]. Qed.
Lemma ol_join_items l k (sep : str) : one_line sep -> Forall one_line l -> one_line ($"(" ++ join sep l ++ k) -> True.
Proof. auto. Qed.
Lemma ol_paren sep l : one_line sep -> Forall one_line l -> one_line ($"(" ++ join sep l ++ $")").
Proof. intros S F. apply ol_app; [ol_lit|]. apply ol_app; [apply ol_join; assumption|ol_lit]. Qed.

Lemma visit_one_line al o : float_one_line -> forall t, wf o -> all_one_line o -> visit false al o = Ok t -> one_line t.
Proof.
  intros FR. induction o using obj_ind'; intros t0 W T E; inversion W; subst; try (cbn [visit stringify_literal] in E; discriminate E).
  - apply Ok_inj in E; subst t0; ol_lit.
  - apply Ok_inj in E; subst t0; destruct b; ol_lit.
  - apply Ok_inj in E; subst t0; apply ol_decZ.
  - apply Ok_inj in E; subst t0. apply FR.
  - apply Ok_inj in E; subst t0. apply quoted_no_nl.
  - cbn [visit stringify_literal] in E. destruct (Utf8.utf8_decode b); [|discriminate]. apply Ok_inj in E; subst t0. apply quoted_no_nl.
  - apply Ok_inj in E; subst t0. apply ol_to_datetime, (iso_date_chars d), date_iso_text.
    apply DateFacts.real_date_iff. assumption.
  - cbn [visit stringify_literal] in E. apply bind_Ok in E as (u & Eu & E). apply Ok_inj in E; subst t0.
    apply ol_to_datetime, (iso_chars u).
    assert (V : valid_datetime u /\ dt_tz u = None).
    { unfold to_naive_utc in Eu. destruct (dt_tz t) as [off|] eqn:Z; [|injection Eu as <-; auto].
      destruct (sub_offset_ok t off H0 Z) as [(u' & E' & V & N & _)|(E' & _)]; rewrite E' in Eu; [|discriminate].
      injection Eu as <-. auto. }
    apply datetime_iso_text; [apply real_datetime_iff|]; apply V.
  - rewrite visit_list in E. apply bind_Ok in E as (b & _ & E). apply bind_Ok in E as (ss & Es & E). apply Ok_inj in E; subst t0.
    apply ol_app; [ol_lit|]. apply ol_app; [|ol_lit]. apply ol_join; [ol_lit|]. eapply mapM_Forall; [exact Es|]. intros x y Hx Hy.
    rewrite Forall_forall in H, H1. eapply H; [exact Hx|auto| |exact Hy].
    apply (all_sub _ _ T). intros; econstructor; eassumption.
  - rewrite visit_tuple in E. apply bind_Ok in E as (b & _ & E). apply bind_Ok in E as (ss & Es & E). apply Ok_inj in E; subst t0.
    apply ol_app; [ol_lit|]. apply ol_app; [|ol_lit]. apply ol_join; [ol_lit|]. eapply mapM_Forall; [exact Es|]. intros x y Hx Hy.
    rewrite Forall_forall in H, H1. eapply H; [exact Hx|auto| |exact Hy].
    apply (all_sub _ _ T). intros; econstructor; eassumption.
  - apply Ok_inj in E; subst t0. apply ol_column. exact T.
  - apply Ok_inj in E; subst t0. apply ol_app; [|apply ol_alias, (T _ (oc_self _))].
    apply ol_column. apply (all_sub _ _ T). intros; constructor; assumption.
  - rewrite visit_func in E. apply bind_Ok in E as (ic & Ei & E). apply bind_Ok in E as (pc & Ep & E). apply Ok_inj in E; subst t0.
    pose proof (T _ (oc_self _)) as [Tn Ta].
    apply ol_app; [exact Tn|]. apply ol_app; [|apply ol_app; [|apply ol_alias; assumption]].
    + destruct ik; [injection Ei as <-; apply ol_nil|..];
        (apply bind_Ok in Ei as (ss & Es & Ei); injection Ei as <-; apply ol_paren; [ol_lit|];
         eapply mapM_Forall; [exact Es|]; intros x y Hx Hy; apply filter_In in Hx as [Hx _];
         rewrite Forall_forall in H; eapply H; [exact Hx| | |exact Hy];
         [match goal with F : Forall wf il |- _ => rewrite Forall_forall in F; auto end|apply (all_sub _ _ T)];
         intros z Hz; eapply oc_init; eassumption).
    + destruct pk; [injection Ep as <-; apply ol_nil|..];
        (apply bind_Ok in Ep as (ss & Es & Ep); injection Ep as <-; apply ol_paren; [ol_lit|];
         eapply visit_params_Forall; [exact Es|]; intros x y Hx Hy;
         rewrite Forall_forall in H0; eapply H0; [exact Hx| | |exact Hy];
         [match goal with F : Forall wf pl |- _ => rewrite Forall_forall in F; auto end|apply (all_sub _ _ T)];
         intros z Hz; eapply oc_param; eassumption).
  - apply Ok_inj in E; subst t0. apply ol_backquoted. exact (T _ (oc_self _)).
  - cbn [visit] in E. apply bind_Ok in E as (s & Es & E). apply Ok_inj in E; subst t0.
    apply ol_app; [ol_lit|]. apply ol_app; [|apply ol_app; [ol_lit|]].
    + apply ol_join; [ol_lit|]. apply Forall_forall. intros x Hx. apply in_map_iff in Hx as (i & <- & Hi).
      apply ol_backquoted. pose proof (T _ (oc_self _)) as F. cbn in F. rewrite Forall_forall in F. auto.
    + apply IHo; [assumption| |exact Es]. apply (all_sub _ _ T). intros; constructor; assumption.
  - apply Ok_inj in E; subst t0. apply ol_entity. exact (T _ (oc_self _)).
  - apply Ok_inj in E; subst t0. unfold tr_storage. apply ol_app; [ol_lit|]. apply ol_app; [exact (T _ (oc_self _))|].
    apply ol_app; [apply ol_sample|ol_lit].
  - apply Ok_inj in E; subst t0. apply ol_rel. exact T.
  - apply Ok_inj in E; subst t0. unfold tr_join. apply ol_join; [ol_lit|]. apply Forall_forall.
    intros x Hx. apply in_map_iff in Hx as (r & <- & Hr). apply ol_rel.
    apply (all_sub _ _ T). intros; econstructor; eassumption.
  - rewrite visit_cond in E. apply bind_Ok in E as (rs & Er & E). apply bind_Ok in E as (ls & El & E). apply Ok_inj in E; subst t0.
    apply ol_app; [apply IHo1; [assumption| |exact El]; apply (all_sub _ _ T); intros; constructor; assumption|].
    apply ol_app; [ol_lit|]. apply ol_app; [apply ol_op|].
    assert (R : forall s, visit false al o3 = Ok s -> one_line s).
    { intros s Hs. apply IHo2; [assumption| |exact Hs]. apply (all_sub _ _ T). intros; apply oc_rhs; assumption. }
    destruct (is_unary o2); [injection Er as <-; apply ol_nil|]. destruct (is_col_or_func o3).
    + apply bind_Ok in Er as (s & Hs & Er). apply Ok_inj in Er; subst rs. apply ol_app; [ol_lit|auto].
    + apply bind_Ok in Er as (b & _ & Er). destruct b; [|discriminate].
      apply bind_Ok in Er as (s & Hs & Er). apply Ok_inj in Er; subst rs. apply ol_app; [ol_lit|auto].
  - rewrite visit_bool in E. apply bind_Ok in E as (ss & Es & E). apply Ok_inj in E; subst t0.
    apply ol_paren; [destruct o; ol_lit|]. eapply mapM_Forall; [exact Es|]. intros x y Hx Hy.
    rewrite Forall_forall in H. eapply H; [exact Hx| | |exact Hy].
    + match goal with F : Forall wf l |- _ => rewrite Forall_forall in F; auto end.
    + apply (all_sub _ _ T). intros; econstructor; eassumption.
  - cbn [visit] in E. apply bind_Ok in E as (s & Es & E). apply Ok_inj in E; subst t0.
    apply ol_app; [apply IHo; [assumption| |exact Es]; apply (all_sub _ _ T); intros; constructor; assumption|].
    apply ol_app; [ol_lit|destruct d; ol_lit].
  - apply Ok_inj in E; subst t0. apply ol_app; [apply ol_pyint|]. apply ol_app; [ol_lit|]. apply ol_join; [ol_lit|].
    apply Forall_forall. intros x Hx. apply in_map_iff in Hx as (c & <- & Hc). apply ol_column. apply (all_sub _ _ T).
    intros; econstructor; eassumption.
  - apply Ok_inj in E; subst t0. apply ol_decZ.
  - apply Ok_inj in E; subst t0. apply ol_decZ.
  - apply Ok_inj in E; subst t0. apply ol_decZ.
  - apply Ok_inj in E; subst t0. destruct b; ol_lit.
Qed.

(** * queries *)
Definition query_one_line (q : query) : Prop := forall o x, part_of o q -> occurs x o -> names_are one_line x.
Lemma ol_clause al k o t : float_one_line -> wf o -> all_one_line o -> print_clause al k o = Ok t -> one_line t.
Proof.
  intros FR W T E. unfold print_clause in E.
  assert (K : one_line (clause_keyword k)) by (destruct k; ol_lit).
  assert (S : one_line (clause_sep k)) by (destruct k; ol_lit).
  destruct (is_list_clause k).
  - destruct (truthy o); [|injection E as <-; apply ol_nil]. apply bind_Ok in E as (l & I & E).
    apply bind_Ok in E as (ss & Es & E). apply Ok_inj in E; subst t. apply ol_app; [exact K|]. apply ol_join; [exact S|].
    eapply mapM_Forall; [exact Es|]. intros x y Hx Hy.
    assert (H : wf x /\ all_one_line x).
    { destruct o; try discriminate; cbn in I; injection I as <-;
        try (apply in_map_iff in Hx as (z & <- & _); split; [constructor|intros u Hu; inversion Hu; exact Logic.I]).
      - inversion W; subst. split; [match goal with F : Forall wf _ |- _ => rewrite Forall_forall in F; auto end|].
        apply (all_sub _ _ T). intros; econstructor; eassumption.
      - inversion W; subst. split; [match goal with F : Forall wf _ |- _ => rewrite Forall_forall in F; auto end|].
        apply (all_sub _ _ T). intros; econstructor; eassumption. }
    eapply visit_one_line; [exact FR|apply H|apply H|exact Hy].
  - destruct (is_none o); [injection E as <-; apply ol_nil|]. apply bind_Ok in E as (s & Es & E). apply Ok_inj in E; subst t.
    apply ol_app; [exact K|]. eapply visit_one_line; eassumption.
Qed.
Lemma filter_Forall {A} (f : A -> bool) (P : A -> Prop) l : Forall P l -> Forall P (filter f l).
Proof. intros F. apply Forall_forall. intros x Hx. apply filter_In in Hx as [Hx _]. rewrite Forall_forall in F. auto. Qed.
Lemma query_text_one_line sep q : float_one_line -> one_line sep -> forall s, wf_query q -> query_one_line q -> print_query sep q = Ok s -> one_line s.
Proof.
  intros FR. revert sep. induction q as [b c|i IH c]; intros sep OS s W T E.
  - destruct W as [W1 W2]. cbn [print_query] in E. apply bind_Ok in E as (m & E1 & E). apply bind_Ok in E as (cs & E2 & E). apply Ok_inj in E; subst s.
    apply ol_join; [exact OS|]. apply filter_Forall. constructor.
    + apply ol_app; [ol_lit|]. eapply visit_one_line; [exact FR|exact W1| |exact E1]. intros x Hx. eapply T; [apply po_base|exact Hx].
    + eapply mapM_Forall; [exact E2|]. intros k t _ Ht. eapply ol_clause; [exact FR|apply W2| |exact Ht].
      intros x Hx. eapply T; [apply po_clause|exact Hx].
  - destruct W as [W1 W2]. cbn [print_query] in E. apply bind_Ok in E as (m & E1 & E). apply bind_Ok in E as (cs & E2 & E). apply Ok_inj in E; subst s.
    apply ol_join; [exact OS|]. apply filter_Forall. constructor.
    + apply ol_app; [ol_lit|]. apply ol_app; [|ol_lit]. eapply IH; [|exact W1| |exact E1]; [ol_lit|].
      intros o x Ho Hx. eapply T; [apply po_inner; exact Ho|exact Hx].
    + eapply mapM_Forall; [exact E2|]. intros k t _ Ht. eapply ol_clause; [exact FR|apply W2| |exact Ht].
      intros x Hx. eapply T; [apply po_sub_clause|exact Hx].
Qed.
End O.
