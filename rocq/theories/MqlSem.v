(** The text of every parse tree of the MQL grammar and what the visitor makes of it (C66). *)
From Verif Require Import PyBase PyFacts Regex RegexFacts Objects Exprs Translate Query Metrics
  SpecExpr SpecMetrics SpecMql SpecParsed SpecGrammar Peg PegTotal Mql MqlParse MqlTokens MqlFilter MqlTyping MqlActs.

Section Sem.
Context {RT : PyRT}.
Variable D : Prop.
Notation ty := (ty True).
Notation sty := (sty True).

Definition said1 (P : str -> mval -> Prop) (t : str) (v : pv) : Prop := exists m, v = PVal m /\ P t m.
(** the relation between the text of a rule and its value *)
Definition rel (r : rule) (t : str) (v : pv) : Prop :=
  match r with
  | Rexpression => said1 (sum_said D) t v
  | Rterm => said1 (product_said D) t v
  | Runary => said1 (unary_said D) t v
  | Rcoefficient | Rfilter => said1 (coef_said D) t v
  | Rtarget | Rnested_expression | Rfunction => said1 (target_said D) t v
  | Raggregate | Rarbitrary_function | Rcurried_aggregate | Rcurried_arbitrary_function => said1 (call_said D) t v
  | Rexpr_op => exists n, v = PStr n /\ In (t, n) [($"+", $"plus"); ($"-", $"minus")]
  | Rterm_op => exists n, v = PStr n /\ In (t, n) [($"*", $"multiply"); ($"/", $"divide")]
  | Runary_op => t = $"-" /\ v = PStr ($"negate")
  | Rnumber => number_text t /\ v = POb (OFloat (float_of_text t))
  | Rquoted_string => exists s, v = PStr s /\ quoted_said t s
  | Runquoted_string => v = PStr t /\ word t
  | Rinner_filter => exists m f g, v = PVal (VTS (mkTS m placeholder None f g)) /\ body_said t m f g
  | Rmetric => exists m, v = PList [PVal (VMetric m)] /\ metric_said t m
  | Rquoted_mri | Runquoted_mri | Rquoted_public_name => exists m, v = PVal (VMetric m) /\ metric_said t m
  | Runquoted_public_name => v = PVal (VMetric (mkMetric (Some t) None None)) /\ public_name t
  | Rlenient_mri => any_mri t
  | Rfilter_expr => exists l, v = POb (any_of l) /\ expr_said t l
  | Rfilter_term => exists l, v = POb (all_of l) /\ term_said t l
  | Rfilter_factor | Rnested_expr => exists c, v = POb c /\ factor_said t c
  | Rcondition_op => t = $"!"
  | Rjoint_operator => In t [$","; $"AND"; $"and"]
  | Rand => In t [$"AND"; $"and"]
  | Ror => In t [$"OR"; $"or"]
  | Rtag_key | Rgroup_by_name => v = POb (tag t) /\ mql_key t
  | Rgroup_by_name_tuple => exists l w1 k w2, v = PList (map POb l) /\ t = $"(" ++ w1 ++ k ++ w2 ++ $")"
      /\ white w1 /\ white w2 /\ keys_said k l
  | Rgroup_by => exists l, (v = PList (map POb l) \/ exists c, v = POb c /\ l = [c]) /\ group_said t (Some l)
  | Rtag_value | Rsuffix_wildcard_tag_value | Rquoted_suffix_wildcard_tag_value
  | Rquoted_string_filter | Runquoted_string_filter | Rstring_tuple =>
      exists r w, v = PFactor r w /\ forall neg, value_said neg t (factor_op neg w r) r
  | Raggregate_list => exists l, v = PList (map POb l) /\ params_said t l
  | Rparam => exists o p w1 w2, v = POb o /\ t = p ++ w1 ++ $"," ++ w2 /\ white w1 /\ white w2 /\ param_said p o
  | Rparam_expression => exists o, v = POb o /\ param_said t o
  | Raggregate_name | Rcurried_aggregate_name | Rarbitrary_function_name
  | Rcurried_arbitrary_function_name => v = PStr t /\ mql_name t
  | Rws => white t
  | Ropen_paren => t = $"(" | Rclose_paren => t = $")" | Ropen_square_bracket => t = $"["
  | Rclose_square_bracket => t = $"]" | Ropen_brace => t = $"{" | Rclose_brace => t = $"}"
  | Rcomma => t = $"," | Rbacktick => t = $"`" | Rcolon => t = $":" | Rquote => t = [DQ] | Rwildcard => t = $"*"
  | Rvariable => False
  end.
Definition sem (r : rule) (t : str) (v : pv) : Prop := ty r v /\ rel r t v.

(** the same for expressions; [rest] is the text after [t] *)
Fixpoint gs (e : peg rule) (t rest : str) (v : pv) {struct e} : Prop :=
  match e with
  | PLit l => t = l /\ v = PList []
  | PRe r => mt r (t ++ rest) rest /\ v = PList []
  | PSeq l => exists vs, v = PList vs /\
      (fix go l t vs := match l, vs with
                        | [], [] => t = []
                        | e :: l', v :: vs' => exists a b, t = a ++ b /\ gs e a (b ++ rest) v /\ go l' b vs'
                        | _, _ => False
                        end) l t vs
  | PAlt l => exists x, v = PList [x] /\
      (fix go l := match l with
                   | [] => False
                   | e :: l' => gs e t rest x \/ (fails e (t ++ rest) /\ go l')
                   end) l
  | POpt e => t = [] /\ v = PList [] \/ exists x, v = PList [x] /\ gs e t rest x
  | PStar e => exists vs ts, v = PList vs /\ t = List.concat ts
      /\ Forall2 (fun t v => exists rest', gs e t rest' v) ts vs
  | PRef r => sem r t v
  end.

Lemma gs_sty : forall e t rest v, gs e t rest v -> sty e v.
Proof.
  fix IH 1. intros [l|r|l|l|e|e|r] t rest v H; cbn in H |- *.
  - apply H.
  - apply H.
  - destruct H as (vs & -> & H). exists vs. split; [reflexivity|]. revert t vs H.
    induction l as [|e l IHl]; intros t [|v vs] H; cbn in H |- *; try exact I; try contradiction.
    destruct H as (a & b & -> & H1 & H2). split; [eapply IH; exact H1|eapply IHl; exact H2].
  - destruct H as (x & -> & H). exists x. split; [reflexivity|].
    induction l as [|e l IHl]; cbn in H |- *; [exact H|].
    destruct H as [H|(_ & H)]; [left; eapply IH; exact H|right; apply IHl, H].
  - destruct H as [(-> & ->)|(x & -> & H)]; [left; reflexivity|]. right. exists x. split; [reflexivity|]. eapply IH. exact H.
  - destruct H as (vs & ts & -> & _ & F). exists vs. split; [reflexivity|].
    induction F as [|t' v' ts vs (r' & G) _ IHF]; constructor; [eapply IH; exact G|exact IHF].
  - apply H.
Qed.

Definition acts_said : Prop := forall r t rest cs v, pre r (t ++ rest) -> ty r v ->
  gs (grammar r) t rest (PList cs) -> act r t cs = Ok v -> rel r t v.

Lemma chars_any s : chars_ok True True s.
Proof. apply Forall_forall. intros c _. split; trivial. Qed.

Lemma run_seq_suffix n l : forall s ch rest, run_seq rule (run grammar n) l s = SDone ch rest -> exists u, s = u ++ rest.
Proof.
  induction l as [|e l IHl]; intros s ch rest E.
  - cbn in E. inversion E; subst. exists []. reflexivity.
  - cbn in E. fold (run_seq rule (run grammar n)) in E.
    destruct (run grammar n e s) as [| |[x0 t0 c0] r1] eqn:E0; try discriminate.
    destruct (run_seq rule (run grammar n) l r1) as [| |ch2 r2] eqn:E2; try discriminate.
    inversion E; subst. destruct (IHl _ _ _ E2) as (u & ->).
    destruct (run_text _ 0 _ _ _ _ _ _ E0) as (-> & _). exists (t0 ++ u). rewrite app_assoc. reflexivity.
Qed.
Lemma said_run : acts_said -> forall n e s x t ch rest v, run grammar n e s = Done (Node x t ch) rest ->
  pre_ok e s -> vis (Node x t ch) = Ok v -> gs e t rest v.
Proof.
  intros A n. induction n as [|n IH]; intros e s x t ch rest v H Pre V; [discriminate|].
  destruct (run_text _ 0 _ _ _ _ _ _ H) as (-> & _).
  change (run grammar (S n) e (t ++ rest)) with (step rule grammar (run grammar n) e (t ++ rest)) in H.
  destruct e as [l|r|l|l|e|e|r]; unfold step in H.
  - destruct (prefixb l (t ++ rest)) eqn:P; [|discriminate]. injection H as <- <- <- H. rewrite vis_node in V. injection V as <-.
    split; reflexivity.
  - destruct (re_match r (t ++ rest)) eqn:E; [|discriminate]. injection H as <- H1 <- ->. rewrite vis_node in V. injection V as <-.
    split; [|reflexivity]. apply re_match_mt in E. exact E.
  - destruct (run_seq _ _ l (t ++ rest)) as [| |ch' r'] eqn:E; try discriminate. injection H as <- H1 -> ->.
    rewrite vis_node in V. destruct (vis_all ch) as [cs|] eqn:Vc; [|discriminate]. injection V as <-.
    clear H1. cbn [gs]. exists cs. split; [reflexivity|].
    revert t ch cs E Vc Pre. induction l as [|e l IHl]; intros t ch cs E Vc Pre.
    + cbn in E. injection E as <- E. injection Vc as <-. rewrite <- (app_nil_l rest) in E at 2. apply app_inv_tail in E. exact E.
    + cbn in E. fold (run_seq rule (run grammar n)) in E.
      destruct (run grammar n e (t ++ rest)) as [| |[x0 t0 c0] r0] eqn:E0; try discriminate.
      destruct (run_seq rule (run grammar n) l r0) as [| |ch1 r1] eqn:E1; try discriminate.
      injection E as <- ->. destruct Pre as [Pre1 Pre2]. cbn [vis_all] in Vc.
      destruct (vis (Node x0 t0 c0)) as [v0|] eqn:V0; [|discriminate]. cbn [bind] in Vc. fold vis_all in Vc.
      destruct (vis_all ch1) as [vs|] eqn:V1; [|discriminate]. injection Vc as <-.
      pose proof (IH _ _ _ _ _ _ _ E0 Pre1 V0) as G0.
      assert (pre_ok (PSeq l) r0) as Pre3.
      { destruct l as [|e2 l2]; [exact I|]. split; [apply (Pre2 r0)|]. intros s'. apply (Pre2 s'). }
      destruct (run_text _ 0 _ _ _ _ _ _ E0) as (Er & _).
      destruct (run_seq_suffix _ _ _ _ _ E1) as (u & ->).
      exists t0, u. rewrite app_assoc in Er. apply app_inv_tail in Er. split; [exact Er|]. split; [exact G0|].
      eapply IHl; [exact E1|exact V1|exact Pre3].
  - destruct (run_alt _ _ l (t ++ rest)) as [| |nd0 r'] eqn:E; try discriminate. injection H as <- _ <- ->.
    rewrite vis_node in V. cbn [vis_all] in V. destruct (vis nd0) as [x0|] eqn:V0; [|discriminate]. injection V as <-.
    exists x0. split; [reflexivity|].
    induction l as [|e l IHl]; [discriminate|]. cbn in E. fold (run_alt rule (run grammar n)) in E.
    destruct (run grammar n e (t ++ rest)) as [| |[x1 t1 c1] r0] eqn:E0; try discriminate.
    + destruct Pre as [Pre1 Pre2]. apply run_fails in E0. right. split; [exact E0|]. exact (IHl (Pre2 E0) E).
    + injection E as <- ->. destruct Pre as [Pre1 Pre2]. left.
      pose proof (IH _ _ _ _ _ _ _ E0 Pre1 V0) as G0. destruct (run_text _ 0 _ _ _ _ _ _ E0) as (Et & _).
      apply app_inv_tail in Et. subst t1. exact G0.
  - destruct (run grammar n e (t ++ rest)) as [| |[x0 t0 c0] r0] eqn:E0; try discriminate.
    + injection H as <- <- <- _. left. rewrite vis_node in V. injection V as <-. auto.
    + injection H as <- _ <- ->. rewrite vis_node in V. cbn [vis_all] in V.
      destruct (vis (Node x0 t0 c0)) as [v0|] eqn:V0; [|discriminate].
      injection V as <-. right. exists v0. split; [reflexivity|].
      destruct (run_text _ 0 _ _ _ _ _ _ E0) as (Et & _). apply app_inv_tail in Et. subst t0.
      eapply IH; [exact E0|exact Pre|exact V0].
  - destruct (run grammar n e (t ++ rest)) as [| |[x0 t0 c0] r0] eqn:E0; try discriminate.
    + injection H as <- <- <- _. rewrite vis_node in V. injection V as <-. exists [], []. repeat split. constructor.
    + destruct (Nat.ltb _ _).
      * destruct (run grammar n (PStar e) r0) as [| |[x' t' ch'] r2] eqn:E1; try discriminate.
        injection H as <- _ <- ->. rewrite vis_node in V. cbn [vis_all] in V.
        destruct (vis (Node x0 t0 c0)) as [v0|] eqn:V0; [|discriminate]. cbn [bind] in V. fold vis_all in V.
        destruct (vis_all ch') as [vs|] eqn:V1; [|discriminate]. injection V as <-.
        pose proof (IH _ _ _ _ _ _ _ E0 (Pre _) V0) as G0.
        pose proof (run_node _ _ _ _ _ _ _ E1) as (_ & N). rewrite (N eq_refl) in E1.
        assert (gs (PStar e) t' rest (PList vs)) as (vs' & ts & X & -> & F).
        { eapply IH; [exact E1|exact Pre|]. rewrite vis_node, V1. reflexivity. }
        injection X as <-. destruct (run_text _ 0 _ _ _ _ _ _ E0) as (Et & _).
        destruct (run_text _ 0 _ _ _ _ _ _ E1) as (Er & _). rewrite Er, app_assoc in Et. apply app_inv_tail in Et. subst t.
        exists (v0 :: vs), (t0 :: ts). split; [reflexivity|]. split; [reflexivity|].
        constructor; [exists r0; exact G0|exact F].
      * injection H as <- <- <- _. rewrite vis_node in V. injection V as <-. exists [], []. repeat split. constructor.
  - destruct (run grammar n (grammar r) (t ++ rest)) as [| |[x' t' ch'] r2] eqn:E; try discriminate.
    injection H as <- -> -> ->.
    pose proof (run_node _ _ _ _ _ _ _ E) as (_ & N).
    assert (not_ref (grammar r) = true) as NR by (destruct r; reflexivity).
    rewrite (N NR) in E. rewrite vis_node in V.
    destruct (vis_all ch) as [cs|] eqn:Vc; [|discriminate].
    assert (gs (grammar r) t rest (PList cs)) as G.
    { eapply IH; [exact E|apply grammar_pre, Pre|]. rewrite vis_node, Vc. reflexivity. }
    assert (ty r v) as T.
    { pose proof (acts_typed True True r t rest cs Pre (gs_sty _ _ _ _ G)) as K.
      destruct (run_text _ 1 _ _ _ _ _ _ E) as (_ & T). specialize (K T (chars_any t)). cbn in V. rewrite V in K. exact K. }
    split; [exact T|]. eapply A; [exact Pre|exact T|exact G|exact V].
Qed.
End Sem.
