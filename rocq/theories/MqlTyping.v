(** The shape of every parse tree of the MQL grammar and of what the visitor makes of it
    (C64). *)
From Verif Require Import PyBase PyFacts Regex RegexFacts Objects Exprs Translate Query Metrics
  SpecExpr SpecMetrics SpecMql SpecParsed Peg PegTotal Mql MqlParse MqlTokens MqlFilter.

Section Typing.
Context {RT : PyRT}.

(** * The texts of an expression, rule references unfolded [k] times *)
Fixpoint texts (ref : rule -> str -> Prop) (e : peg rule) (x : str) {struct e} : Prop :=
  match e with
  | PLit t => x = t
  | PRe r => exists rest, mt r (x ++ rest) rest
  | PSeq l => (fix go l x := match l with
                             | [] => x = []
                             | e :: l' => exists a b, x = a ++ b /\ texts ref e a /\ go l' b
                             end) l x
  | PAlt l => (fix go l := match l with [] => False | e :: l' => texts ref e x \/ go l' end) l
  | POpt e => x = [] \/ texts ref e x
  | PStar e => True
  | PRef r => ref r x
  end.
Fixpoint unfolds (k : nat) (r : rule) (x : str) : Prop :=
  match k with O => True | S k => texts (unfolds k) (grammar r) x end.

Lemma mt_suffix r s s' : mt r s s' -> exists t, s = t ++ s'.
Proof.
  induction 1; try (exists []; reflexivity).
  - exists [c]. reflexivity.
  - destruct IHmt1 as (t1 & ->), IHmt2 as (t2 & ->). exists (t1 ++ t2). rewrite app_assoc. reflexivity.
  - exact IHmt.
  - exact IHmt.
  - destruct IHmt1 as (t1 & ->), IHmt2 as (t2 & ->). exists (t1 ++ t2). rewrite app_assoc. reflexivity.
Qed.

Lemma run_text n : forall k e s x t ch rest, run grammar n e s = Done (Node x t ch) rest ->
  s = t ++ rest /\ texts (unfolds k) e t.
Proof.
  induction n as [|n IH]; intros k e s x t ch rest H; [discriminate|].
  change (run grammar (S n) e s) with (step rule grammar (run grammar n) e s) in H.
  destruct e as [l|r|l|l|e|e|r]; unfold step in H.
  - destruct (prefixb l s) eqn:P; [|discriminate]. inversion H; subst. split; [|reflexivity].
    apply prefixb_iff in P. destruct P as (u & ->). rewrite skipn_app, skipn_all, Nat.sub_diag. reflexivity.
  - destruct (re_match r s) eqn:E; [|discriminate]. inversion H; subst.
    apply re_match_mt in E. destruct (mt_suffix _ _ _ E) as (t & ->). rewrite cut_app.
    split; [reflexivity|]. exists rest. exact E.
  - destruct (run_seq _ _ l s) as [| |ch' r'] eqn:E; try discriminate. inversion H; subst. clear H.
    assert (exists u, s = u ++ rest /\ texts (unfolds k) (PSeq l) u) as (u & -> & T); [|rewrite cut_app; auto].
    revert s ch E. induction l as [|e l IHl]; intros s ch E.
    + cbn in E. inversion E; subst. exists []. split; reflexivity.
    + cbn in E. fold (run_seq rule (run grammar n)) in E.
      destruct (run grammar n e s) as [| |[x0 t0 c0] r0] eqn:E0; try discriminate.
      destruct (run_seq rule (run grammar n) l r0) as [| |ch1 r1] eqn:E1; try discriminate.
      inversion E; subst. apply (IH k) in E0 as (-> & T0).
      apply IHl in E1 as (u & -> & T1). exists (t0 ++ u). split; [rewrite app_assoc; reflexivity|].
      exists t0, u. auto.
  - destruct (run_alt _ _ l s) as [| |nd r'] eqn:E; try discriminate. inversion H; subst. clear H.
    assert (exists u, s = u ++ rest /\ texts (unfolds k) (PAlt l) u) as (u & -> & T); [|rewrite cut_app; auto].
    induction l as [|e l IHl]; [discriminate|]. cbn in E. fold (run_alt rule (run grammar n)) in E.
    destruct (run grammar n e s) as [| |[x0 t0 c0] r0] eqn:E0; try discriminate.
    + destruct (IHl E) as (u & -> & T). exists u. split; [reflexivity|right; exact T].
    + inversion E; subst. apply (IH k) in E0 as (-> & T0). exists t0. split; [reflexivity|left; exact T0].
  - destruct (run grammar n e s) as [| |[x0 t0 c0] r0] eqn:E0; try discriminate; inversion H; subst.
    + split; [reflexivity|left; reflexivity].
    + apply (IH k) in E0 as (-> & T0). rewrite cut_app. split; [reflexivity|right; exact T0].
  - destruct (run grammar n e s) as [| |[x0 t0 c0] r0] eqn:E0; try discriminate.
    + inversion H; subst. split; [reflexivity|exact I].
    + destruct (Nat.ltb _ _).
      * destruct (run grammar n (PStar e) r0) as [| |[x' t' ch'] r2] eqn:E1; try discriminate.
        inversion H; subst. apply (IH k) in E0 as (-> & _). apply (IH k) in E1 as (-> & _).
        rewrite app_assoc, cut_app. split; [reflexivity|exact I].
      * inversion H; subst. split; [reflexivity|exact I].
  - destruct (run grammar n (grammar r) s) as [| |[x' t' ch'] r2] eqn:E; try discriminate.
    inversion H; subst. destruct k as [|k].
    + apply (IH 0) in E as (-> & _). split; [reflexivity|exact I].
    + apply (IH k) in E as (-> & T). split; [reflexivity|exact T].
Qed.

(** * What is known of the text at the start of a rule *)
Definition no_pattern (s : str) : Prop :=
  forall u r, u <> [] -> forallb unquoted_char u = true -> s <> DQ :: u ++ 42%N :: DQ :: r.
Definition pre (r : rule) (s : str) : Prop :=
  match r with
  | Rfilter | Rtarget | Rfunction | Raggregate | Rcurried_aggregate | Rarbitrary_function
  | Rcurried_arbitrary_function | Raggregate_name | Rcurried_aggregate_name | Rarbitrary_function_name
  | Rcurried_arbitrary_function_name => heads is_digit s = false
  | Rquoted_string_filter => no_pattern s
  | _ => True
  end.
Fixpoint pre_ok (e : peg rule) (s : str) {struct e} : Prop :=
  match e with
  | PRef r => pre r s
  | PSeq l => match l with
              | [] => True
              | e :: l' => pre_ok e s /\ forall s', (fix all l := match l with [] => True | e :: l' => pre_ok e s' /\ all l' end) l'
              end
  | PAlt l => (fix go l := match l with [] => True | e :: l' => pre_ok e s /\ (fails e s -> go l') end) l
  | POpt e => pre_ok e s
  | PStar e => forall s', pre_ok e s'
  | _ => True
  end.
Lemma run_fails n e s : run grammar n e s = Fail -> fails e s.
Proof. intros H. split; [discriminate|]. exists n. exact H. Qed.
Lemma number_fails s : fails (PRef Rnumber) s -> heads is_digit s = false.
Proof.
  intros F. destruct (heads is_digit s) eqn:H; [|reflexivity]. exfalso.
  destruct F as (_ & n & R). destruct n as [|n]; [discriminate|].
  change (step rule grammar (run grammar n) (PRef Rnumber) s = Fail) in R. unfold step in R.
  destruct (run grammar n (grammar Rnumber) s) as [| |[x t ch] r] eqn:E; try discriminate. clear R.
  destruct n as [|n]; [discriminate|]. cbn [grammar] in E.
  match type of E with run _ (S n) (PSeq ?l) _ = _ => change (step rule grammar (run grammar n) (PSeq l) s = Fail) in E end.
  unfold step in E. cbn [run_seq] in E.
  destruct n as [|n]; [discriminate|].
  match type of E with context [run grammar (S n) (PRe ?r) s] =>
    change (run grammar (S n) (PRe r) s) with (step rule grammar (run grammar n) (PRe r) s) in E end.
  cbn [step] in E. unfold re_digits in E. rewrite re_plus, H in E.
  match type of E with context [run grammar (S n) (POpt ?e) ?x] =>
    change (run grammar (S n) (POpt e) x) with (step rule grammar (run grammar n) (POpt e) x) in E end.
  cbn [step] in E. destruct (run grammar n _ _); discriminate.
Qed.
Lemma pattern_fails s : fails (PRef Rquoted_suffix_wildcard_tag_value) s -> no_pattern s.
Proof.
  intros (_ & F) u r N A ->. destruct (p_quoted_suffix u r N A) as (nd & G & _).
  pose proof (gives_fun _ _ _ _ _ _ (conj (fun H : Fail = Stuck => ltac:(discriminate H)) F) G). discriminate.
Qed.
Lemma grammar_pre r s : pre r s -> pre_ok (grammar r) s.
Proof.
  destruct r; intros H; cbn in H |- *; repeat (split || intros); try exact I; try exact H; auto.
  - apply number_fails. assumption.
  - apply pattern_fails. assumption.
Qed.

(** * Types of the visited values *)
Section Types.
Variables K1 K2 : Prop.

Definition good (P : pv -> Prop) (r : result pv) : Prop :=
  match r with
  | Ok v => P v
  | Raise e => e = InvalidMQLQueryError \/ (K1 /\ e = AssertionError) \/ (K2 /\ e = InvalidColumnError)
  end.
Definition chars_ok (s : str) : Prop :=
  Forall (fun c => (ascii_digit c \/ c = 34%N -> K1) /\ (ascii_digit c \/ c = 46%N -> K2)) s.

Definition POb (o : obj) : pv := PVal (VObj o).
Definition ty_operand (v : pv) : Prop := exists m, v = PVal m /\ parsed_value m /\ (mql_query m \/ K1).
Definition ty_query (v : pv) : Prop := exists m, v = PVal m /\ parsed_query m.
Definition ty_coef (v : pv) : Prop :=
  exists m, v = PVal m /\ (parsed_query m \/ (K1 /\ exists o, m = VObj o /\ parsed_literal o)).
Definition ty_name (v : pv) : Prop := exists n, v = PStr n /\ mql_name n.
Definition ty_string (v : pv) : Prop := exists n, v = PStr n /\ n <> [] /\ Forall pattern_char n.
Definition ty_filter (v : pv) : Prop := exists c, v = POb c /\ parsed_filter c.
Definition ty_tag (v : pv) : Prop := exists c, v = POb c /\ plain_tag c.
Definition ty_tags (v : pv) : Prop := exists l, v = PList (map POb l) /\ l <> [] /\ Forall plain_tag l.
Definition ty_metric (v : pv) : Prop := exists m, v = PVal (VMetric m) /\ parsed_metric m.
Definition ty_literal (v : pv) : Prop := exists o, v = POb o /\ parsed_literal o.
Definition ty_factor (v : pv) : Prop :=
  (exists s, ~ wildcard s /\ v = PFactor (OStr s) false) \/ (exists s, wildcard s /\ v = PFactor (OStr s) true)
  \/ (exists l, l <> [] /\ v = PFactor (OList (map OStr l)) false).
Definition ty (r : rule) (v : pv) : Prop :=
  match r with
  | Rexpression | Rterm | Runary => ty_operand v
  | Rcoefficient => ty_coef v
  | Rexpr_op | Rterm_op | Runary_op => ty_name v
  | Rnumber => K1 /\ exists t, number_text t /\ v = POb (OFloat (float_of_text t))
  | Rquoted_string => K1 /\ exists s, v = PStr s
  | Rfilter | Rtarget | Rnested_expression | Rfunction | Rarbitrary_function
  | Rcurried_arbitrary_function | Raggregate | Rcurried_aggregate => ty_query v
  | Rinner_filter => exists t, v = PVal (VTS t) /\ parsed_ts t
  | Rmetric => exists m, v = PList [m] /\ ty_metric m
  | Rquoted_mri | Rlenient_mri | Runquoted_mri | Rquoted_public_name | Runquoted_public_name => ty_metric v
  | Rfilter_expr | Rfilter_term | Rfilter_factor | Rnested_expr => ty_filter v
  | Rcondition_op => v = POb (OOp NOT)
  | Rtag_key | Rgroup_by_name => ty_tag v
  | Rgroup_by_name_tuple => ty_tags v
  | Rgroup_by => ty_tag v \/ ty_tags v
  | Rtag_value | Rsuffix_wildcard_tag_value | Rquoted_suffix_wildcard_tag_value
  | Rquoted_string_filter | Runquoted_string_filter | Rstring_tuple => ty_factor v
  | Rvariable => False
  | Runquoted_string => ty_string v
  | Raggregate_list => exists l, v = PList (map POb l) /\ Forall parsed_literal l
  | Rparam | Rparam_expression => ty_literal v
  | Raggregate_name | Rcurried_aggregate_name | Rarbitrary_function_name
  | Rcurried_arbitrary_function_name => ty_name v
  | _ => True
  end.
Fixpoint sty (e : peg rule) (v : pv) {struct e} : Prop :=
  match e with
  | PLit _ | PRe _ => v = PList []
  | PSeq l => exists vs, v = PList vs /\
      (fix go l vs := match l, vs with
                      | [], [] => True
                      | e :: l', v :: vs' => sty e v /\ go l' vs'
                      | _, _ => False
                      end) l vs
  | PAlt l => exists x, v = PList [x] /\
      (fix go l := match l with [] => False | e :: l' => sty e x \/ go l' end) l
  | POpt e => v = PList [] \/ exists x, v = PList [x] /\ sty e x
  | PStar e => exists vs, v = PList vs /\ Forall (sty e) vs
  | PRef r => ty r v
  end.

Definition acts_ok : Prop := forall r t rest cs, pre r (t ++ rest) -> sty (grammar r) (PList cs) -> unfolds 2 r t -> chars_ok t ->
  good (ty r) (act r t cs).
Lemma good_impl (P Q : pv -> Prop) r : good P r -> (forall v, P v -> Q v) -> good Q r.
Proof. destruct r; cbn; auto. Qed.

Lemma good_run : acts_ok -> forall n e s nd rest, run grammar n e s = Done nd rest -> chars_ok s ->
  pre_ok e s -> good (sty e) (vis nd).
Proof.
  intros A n. induction n as [|n IH]; intros e s nd rest H C Pre; [discriminate|].
  pose proof H as H0.
  change (run grammar (S n) e s) with (step rule grammar (run grammar n) e s) in H.
  assert (forall e s nd rest, run grammar n e s = Done nd rest -> chars_ok s -> chars_ok rest) as Crest.
  { intros e0 s0 [x0 t0 c0] r0 E C0. apply (run_text n 0) in E as (-> & _). apply Forall_app in C0. apply C0. }
  destruct e as [l|r|l|l|e|e|r]; unfold step in H.
  - destruct (prefixb l s); [|discriminate]. inversion H; subst. reflexivity.
  - destruct (re_match r s); [|discriminate]. inversion H; subst. reflexivity.
  - destruct (run_seq _ _ l s) as [| |ch' r'] eqn:E; try discriminate. inversion H; subst.
    rewrite vis_node. clear H H0.
    assert (match vis_all ch' with Ok cs => sty (PSeq l) (PList cs)
            | Raise e => good (fun _ => True) (Raise e) end) as K; [|destruct (vis_all ch'); exact K].
    revert s ch' E C Pre. induction l as [|e l IHl]; intros s ch E C Pre.
    + cbn in E. inversion E; subst. exists []. split; [reflexivity|exact I].
    + cbn in E. fold (run_seq rule (run grammar n)) in E.
      destruct (run grammar n e s) as [| |nd0 r0] eqn:E0; try discriminate.
      destruct (run_seq rule (run grammar n) l r0) as [| |ch1 r1] eqn:E1; try discriminate.
      inversion E; subst. destruct Pre as [Pre1 Pre2]. pose proof (IH _ _ _ _ E0 C Pre1) as G0.
      assert (pre_ok (PSeq l) r0) as Pre3.
      { destruct l as [|e2 l2]; [exact I|]. split; [apply (Pre2 r0)|]. intros s'. apply (Pre2 s'). }
      specialize (IHl _ _ E1 (Crest _ _ _ _ E0 C) Pre3). cbn [vis_all].
      destruct (vis nd0) as [v|x] eqn:V0; cbn in G0 |- *; [|exact G0].
      fold vis_all. destruct (vis_all ch1) as [vs|x]; cbn in IHl |- *; [|exact IHl].
      destruct IHl as (vs' & X & IHl). inversion X; subst.
      exists (v :: vs'). split; [reflexivity|]. split; [exact G0|exact IHl].
  - destruct (run_alt _ _ l s) as [| |nd0 r'] eqn:E; try discriminate. inversion H; subst.
    rewrite vis_node. clear H H0. cbn [vis_all].
    assert (good (fun x => sty (PAlt l) (PList [x])) (vis nd0)) as K;
      [|destruct (vis nd0); cbn in K |- *; exact K].
    induction l as [|e l IHl]; [discriminate|]. cbn in E. fold (run_alt rule (run grammar n)) in E.
    destruct (run grammar n e s) as [| |nd1 r0] eqn:E0; try discriminate.
    + destruct Pre as [Pre1 Pre2]. apply run_fails in E0. eapply good_impl; [exact (IHl E (Pre2 E0))|]. intros v (x & X & S). inversion X; subst.
      exists x. split; [reflexivity|right; exact S].
    + inversion E; subst. destruct Pre as [Pre1 Pre2]. eapply good_impl; [exact (IH _ _ _ _ E0 C Pre1)|].
      intros v S. exists v. split; [reflexivity|left; exact S].
  - destruct (run grammar n e s) as [| |nd0 r0] eqn:E0; try discriminate; inversion H; subst.
    + left. reflexivity.
    + rewrite vis_node. cbn [vis_all]. pose proof (IH _ _ _ _ E0 C Pre) as G0.
      destruct (vis nd0) as [v|x]; cbn in G0 |- *; [|exact G0]. right. eauto.
  - destruct (run grammar n e s) as [| |nd0 r0] eqn:E0; try discriminate.
    + inversion H; subst. exists []. split; [reflexivity|constructor].
    + destruct (Nat.ltb _ _).
      * destruct (run grammar n (PStar e) r0) as [| |[x' t' ch'] r2] eqn:E1; try discriminate.
        inversion H; subst. pose proof (IH _ _ _ _ E0 C (Pre _)) as G0.
        pose proof (IH _ _ _ _ E1 (Crest _ _ _ _ E0 C) Pre) as G1.
        apply run_node in E1 as (_ & N). rewrite (N eq_refl) in G1. rewrite vis_node in G1 |- *.
        cbn [vis_all]. destruct (vis nd0) as [v|x]; cbn in G0 |- *; [|exact G0].
        fold vis_all. destruct (vis_all ch') as [vs|x]; cbn in G1 |- *; [|exact G1].
        destruct G1 as (vs' & X & F). inversion X; subst. exists (v :: vs'). auto.
      * inversion H; subst. exists []. split; [reflexivity|constructor].
  - destruct (run grammar n (grammar r) s) as [| |[x' t' ch'] r2] eqn:E; try discriminate.
    inversion H; subst. pose proof (IH _ _ _ _ E C (grammar_pre _ _ Pre)) as G.
    pose proof (run_node _ _ _ _ _ _ _ E) as (_ & N).
    assert (not_ref (grammar r) = true) as NR by (destruct r; reflexivity).
    rewrite (N NR) in G. rewrite vis_node in G |- *.
    destruct (vis_all ch') as [cs|x]; cbn in G |- *; [|exact G].
    destruct (run_text _ 1 _ _ _ _ _ _ E) as (-> & T). apply Forall_app in C as [C _].
    eapply A; [exact Pre|exact G|exact T|exact C].
Qed.

End Types.
End Typing.
