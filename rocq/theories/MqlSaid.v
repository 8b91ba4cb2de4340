(** Every visit method of the MQL visitor builds what the text of its rule says (C66). *)
From Verif Require Import PyBase PyFacts Regex RegexFacts Objects Exprs Translate Query Metrics
  SpecExpr ExprFacts ExprProps SpecMetrics MetricsFacts FormulaFacts SpecMql SpecParsed SpecGrammar Peg PegTotal Mql
  MqlParse MqlTokens MqlFilter MqlExpr MqlCall MqlTyping MqlActs MqlSem.
From Verif Require MqlBody MqlRead.

Section Said.
Context {RT : PyRT}.

(** * Texts *)
Lemma ws_text t rest : mt re_ws (t ++ rest) rest -> white t.
Proof.
  intros M. apply mt_star_class_iff in M as (p & E & F). apply app_inv_tail in E as ->.
  apply Forall_forall. rewrite forallb_forall in F. intros c I. apply mql_space_iff, F, I.
Qed.
Lemma white_app a b : white a -> white b -> white (a ++ b).
Proof. intros. apply Forall_app. auto. Qed.
Lemma scan_body n : forall u rest, List.length u <= n -> qscan (u ++ DQ :: rest) = Some rest ->
  quoted_body u (repl [BSL; DQ] [DQ] 0 u).
Proof.
  induction n as [|n IH]; intros u rest L H; destruct u as [|c u]; cbn in L; try lia; try constructor.
  cbn [app qscan] in H. destruct (N.eqb_spec c DQ) as [->|Nq].
  - injection H as H. exfalso. apply (f_equal (@List.length N)) in H. rewrite app_length in H. cbn in H. lia.
  - destruct (N.eqb_spec c BSL) as [->|Nb].
    + destruct u as [|d u].
      * cbn [app] in H. change (N.eqb DQ NL) with false in H. exfalso. apply qscan_len in H. lia.
      * cbn [app] in H. destruct (N.eqb_spec d NL) as [|Nl]; [discriminate|]. cbn in L.
        pose proof (IH u rest ltac:(lia) H) as B.
        destruct (N.eqb_spec d DQ) as [->|Nd].
        -- cbn. apply qb_quote. exact B.
        -- assert (repl [BSL; DQ] [DQ] 0 (BSL :: d :: u) = BSL :: d :: repl [BSL; DQ] [DQ] 0 u) as ->.
           { apply N.eqb_neq in Nd. cbn [repl prefixb]. rewrite (N.eqb_sym DQ d), Nd. cbn [andb N.eqb].
             rewrite andb_false_r. f_equal.
             replace (N.eqb BSL d && match u with c :: _ => N.eqb DQ c && true | [] => false end)%bool with false; [reflexivity|].
             symmetry. apply andb_false_iff. right. apply body_head in B. destruct u as [|e u]; [reflexivity|].
             apply andb_false_iff. left. apply N.eqb_neq. intros <-. apply B. reflexivity. }
           apply qb_escape; [exact Nd|exact Nl|exact B].
    + cbn in L. pose proof (IH u rest ltac:(lia) H) as B.
      assert (repl [BSL; DQ] [DQ] 0 (c :: u) = c :: repl [BSL; DQ] [DQ] 0 u) as ->.
      { cbn [repl prefixb]. replace (N.eqb BSL c) with false; [reflexivity|]. symmetry. apply N.eqb_neq. congruence. }
      apply qb_char; assumption.
Qed.
Lemma quoted_reads t rest : mt re_quoted (t ++ rest) rest -> quoted_said t (unquote t).
Proof.
  intros M. apply mt_quoted_scan in M as (u & E & Q). destruct (qscan_suffix _ _ _ (le_n _) Q) as (v & ->).
  assert (t = DQ :: v ++ [DQ]) as ->.
  { apply (app_inv_tail rest). rewrite E. cbn. rewrite <- app_assoc. reflexivity. }
  exists v. split; [reflexivity|]. unfold unquote, replace. rewrite slice_mid. eapply scan_body; [apply le_n|exact Q].
Qed.
Lemma word_text t rest : mt re_unquoted (t ++ rest) rest -> word t.
Proof. apply unquoted_pattern. Qed.
Lemma bare_text x rest : mt re_unquoted_mri (x ++ rest) rest -> bare_mri x.
Proof.
  intros M. apply mri_parts in M as (p & q & r & u & -> & (P & P') & (Q & Q') & (R & R') & (U & U')).
  assert (forall c, mri_char c = true -> one_of "(){}[]`," c = false /\ c <> 34%N) as K.
  { intros c H. unfold mri_char in H. apply negb_true_iff, orb_false_iff in H as [H H']. split; [exact H|]. apply N.eqb_neq, H'. }
  exists p, q, r, u. split; [reflexivity|].
  assert (forall c k, (negb (N.eqb c k) && mri_char c)%bool = true -> c <> k /\ one_of "(){}[]`," c = false /\ c <> 34%N) as K'.
  { intros c k H. apply andb_true_iff in H as [H1 H2]. apply negb_true_iff, N.eqb_neq in H1. split; [exact H1|apply K, H2]. }
  assert (forall c k, c <> k -> one_of "(){}[]`," c = false -> ~ In c (k :: lit "(){}[]`,")) as W.
  { intros c k N O [I|I]; [congruence|]. apply one_of_iff in I. congruence. }
  split; [|split; [|split; [|split]]].
  - split; [exact P|]. eapply Forall_impl; [|exact P']. intros c H. destruct (K' c 58%N H) as (H1 & H2 & _). exact (W c 58%N H1 H2).
  - split; [exact Q|]. eapply Forall_impl; [|exact Q']. intros c H. destruct (K' c 47%N H) as (H1 & H2 & _). exact (W c 47%N H1 H2).
  - split; [exact R|]. eapply Forall_impl; [|exact R']. intros c H. destruct (K' c 64%N H) as (H1 & H2 & _). exact (W c 64%N H1 H2).
  - split; [exact U|]. eapply Forall_impl; [|exact U']. intros c H I. apply one_of_iff in I. apply K in H as (H & _). congruence.
  - intros I. rewrite !in_app_iff in I. rewrite Forall_forall in P', Q', R', U'.
    destruct I as [I|[[I|[]]|[I|[[I|[]]|[I|[[I|[]]|I]]]]]]; try discriminate.
    + apply P', K' in I. tauto.
    + apply Q', K' in I. tauto.
    + apply R', K' in I. tauto.
    + apply U', K in I. tauto.
Qed.

(** * Values *)
Lemma filters_said v f p : parsed_query v -> packed_of f p -> (forall c, f = Some c -> parsed_filter c) ->
  apply_filters v p = Ok (with_filter f v).
Proof.
  intros (Q & V) P C. destruct f as [c|]; cbn in P; [|subst p; destruct Q; reflexivity].
  destruct P as (x & y & -> & _). specialize (C c eq_refl). cbn [apply_filters pvc as_obj bind].
  destruct Q as [t|n pk ps a f g].
  - inversion V as [| |? Pt|]; subst. pose proof (parsed_ts_ok _ Pt) as O. cbn [get_filters bind].
    assert (extend [c] (obj_of_opt OList (ts_filters t)) = Ok (c :: opt_items (ts_filters t))) as ->.
    { destruct (ts_filters t); [apply MqlBody.app_extend|reflexivity]. }
    cbn [bind put_filters with_filter].
    assert (Forall condition_obj (c :: opt_items (ts_filters t))) as F.
    { constructor; [apply parsed_filter_cond, C|]. destruct (ts_filters t) eqn:E; [apply O, E|constructor]. }
    rewrite (proj2 (set_filters_iff t (OList (c :: opt_items (ts_filters t))) _ O)
       (ex_intro _ (Some (c :: opt_items (ts_filters t))) (conj (conj eq_refl F) eq_refl))). reflexivity.
  - inversion V as [| | |n' ps' a' f' g' Nn Np Fp Ha Hf Hg]; subst. cbn [get_filters bind with_filter].
    assert (extend [c] f = Ok (c :: items_of f) /\ Forall condition_obj (c :: items_of f)) as (-> & F).
    { destruct Hf as [->|(l & -> & _ & F)].
      - split; [reflexivity|constructor; [apply parsed_filter_cond, C|constructor]].
      - split; [apply MqlBody.app_extend|constructor; [apply parsed_filter_cond, C|]].
        eapply Forall_impl; [|exact F]. exact parsed_filter_cond. }
    cbn [bind put_filters].
    exact (proj2 (formula_set_filters_iff (OStr n') (Some KList) ps a f g (OList (c :: items_of f)) _)
       (conj (ex_intro _ (Some (c :: items_of f)) (conj eq_refl F)) eq_refl)).
Qed.
Lemma groups_said v l p : parsed_query v -> groups_of l p -> apply_groupby v p = Ok (with_groupby l v).
Proof.
  intros (Q & V) P. destruct l as [l|]; cbn in P; [|subst p; destruct Q; reflexivity].
  destruct P as (x & -> & L & T). apply MqlBody.plain_groupable in T. cbn [apply_groupby]. rewrite L. cbn [bind].
  destruct Q as [t|n pk ps a f g].
  - inversion V as [| |? Pt|]; subst. pose proof (parsed_ts_ok _ Pt) as O. cbn [get_groupby bind].
    assert (extend l (obj_of_opt OList (ts_groupby t)) = Ok (l ++ opt_items (ts_groupby t))) as ->.
    { destruct (ts_groupby t); [apply MqlBody.app_extend|cbn; rewrite app_nil_r; reflexivity]. }
    cbn [bind put_groupby with_groupby].
    assert (Forall groupable (l ++ opt_items (ts_groupby t))) as F.
    { apply Forall_app. split; [exact T|]. destruct (ts_groupby t) eqn:E; [apply O, E|constructor]. }
    rewrite (proj2 (set_groupby_iff t (OList (l ++ opt_items (ts_groupby t))) _ O)
       (ex_intro _ (Some (l ++ opt_items (ts_groupby t))) (conj (conj eq_refl F) eq_refl))). reflexivity.
  - inversion V as [| | |n' ps' a' f' g' Nn Np Fp Ha Hf Hg]; subst. cbn [get_groupby bind with_groupby].
    assert (extend l g = Ok (l ++ items_of g) /\ Forall groupable (l ++ items_of g)) as (-> & F).
    { destruct Hg as [->|(l' & -> & _ & F)].
      - cbn. rewrite app_nil_r. auto.
      - split; [apply MqlBody.app_extend|]. apply Forall_app. split; [exact T|]. apply MqlBody.plain_groupable, F. }
    cbn [bind put_groupby].
    exact (proj2 (formula_set_groupby_iff (OStr n') (Some KList) ps a f g (OList (l ++ items_of g)) _)
       (conj (ex_intro _ (Some (l ++ items_of g)) (conj eq_refl F)) eq_refl)).
Qed.

(** * Parts of a rule *)
Notation D := True.
Notation gs := (gs D).
Notation sem := (sem D).
Notation rel := (rel D).
Fixpoint gl (l : list (peg rule)) (t rest : str) (vs : list pv) : Prop :=
  match l, vs with
  | [], [] => t = []
  | e :: l', v :: vs' => exists a b, t = a ++ b /\ gs e a (b ++ rest) v /\ gl l' b rest vs'
  | _, _ => False
  end.
Lemma gs_seq l t rest v : gs (PSeq l) t rest v <-> exists vs, v = PList vs /\ gl l t rest vs.
Proof.
  cbn [MqlSem.gs]. split; intros (vs & -> & H); exists vs; (split; [reflexivity|]); revert t vs H;
    induction l as [|e l IH]; intros t [|v vs] H; cbn in H |- *; try contradiction; auto;
    destruct H as (a & b & -> & H1 & H2); exists a, b; (split; [reflexivity|]); (split; [exact H1|]); apply IH, H2.
Qed.
Lemma gl_nil t rest vs : gl [] t rest vs -> vs = [] /\ t = [].
Proof. destruct vs; cbn; intuition. Qed.
Lemma gl_cons e l t rest vs : gl (e :: l) t rest vs ->
  exists a b v vs', vs = v :: vs' /\ t = a ++ b /\ gs e a (b ++ rest) v /\ gl l b rest vs'.
Proof. destruct vs as [|v vs]; cbn; [contradiction|]. intros (a & b & -> & H1 & H2). exists a, b, v, vs. auto. Qed.
Lemma gs_ref r t rest v : gs (PRef r) t rest v <-> ty True r v /\ rel r t v.
Proof. reflexivity. Qed.

Ltac parts S := repeat (let u := fresh "u" in let b := fresh "b" in let x := fresh "x" in let vs := fresh "vs" in
    let G := fresh "G" in apply gl_cons in S as (u & b & x & vs & -> & -> & G & S));
  apply gl_nil in S as (-> & ->); rewrite ?app_nil_r.
Ltac gk S := let vs := fresh "vs" in let E := fresh "E" in
  apply gs_seq in S as (vs & E & S); first [injection E as ->|subst]; parts S.
Ltac sm G := let T := fresh "T" in let R := fresh "R" in destruct G as (T & R); cbn in T, R.

Lemma sum_chain ts vs : Forall2 (fun t v => exists rest', gs (PSeq [PRef Rws; PRef Rexpr_op; PRef Rws; PRef Rterm]) t rest' v) ts vs ->
  forall s m v, sum_said D s m -> fold_ops m vs = Ok v -> sum_said D (s ++ List.concat ts) v.
Proof.
  induction 1 as [|t x ts vs (rest & G) _ IH]; intros s m v S E.
  - injection E as <-. cbn. rewrite app_nil_r. exact S.
  - gk G. sm G0. sm G1. sm G2. sm G3. destruct R0 as (n & -> & In1). destruct R2 as (r & -> & P).
    cbn [fold_ops as_mval PStr as_obj bind] in E. apply IH with (s := s ++ u ++ u0 ++ u1 ++ u2) in E.
    + cbn [List.concat]. rewrite <- !app_assoc in *. exact E.
    + apply sa_op; assumption.
Qed.
Lemma product_chain ts vs : Forall2 (fun t v => exists rest', gs (PSeq [PRef Rws; PRef Rterm_op; PRef Rws; PRef Runary]) t rest' v) ts vs ->
  forall s m v, product_said D s m -> fold_ops m vs = Ok v -> product_said D (s ++ List.concat ts) v.
Proof.
  induction 1 as [|t x ts vs (rest & G) _ IH]; intros s m v S E.
  - injection E as <-. cbn. rewrite app_nil_r. exact S.
  - gk G. sm G0. sm G1. sm G2. sm G3. destruct R0 as (n & -> & In1). destruct R2 as (r & -> & P).
    cbn [fold_ops as_mval PStr as_obj bind] in E. apply IH with (s := s ++ u ++ u0 ++ u1 ++ u2) in E.
    + cbn [List.concat]. rewrite <- !app_assoc in *. exact E.
    + apply ps_op; assumption.
Qed.
Lemma said_chains r t rest cs v : In r [Rexpression; Rterm] -> gs (grammar r) t rest (PList cs) ->
  act r t cs = Ok v -> rel r t v.
Proof.
  intros [<-|[<-|[]]] G E; cbn [grammar] in G; gk G; sm G0; destruct R as (m & -> & S);
    destruct G1 as (vs & ts & -> & -> & F); cbn [act visit_chain] in E;
    (destruct (is_operand (PVal m)); [|discriminate]); cbn [assert_ bind as_mval] in E;
    (destruct (fold_ops m vs) as [w|] eqn:Ef; [|discriminate]); injection E as <-; exists w; (split; [reflexivity|]).
  - eapply sum_chain; [exact F|apply sa_one; exact S|exact Ef].
  - eapply product_chain; [exact F|apply ps_one; exact S|exact Ef].
Qed.

Lemma said_column t v : ty_tag v -> text_column t = Ok v -> v = POb (tag t) /\ mql_key t.
Proof.
  intros (c & -> & k & K & ->) E. unfold text_column, mk_column in E.
  destruct (re_matches column_name_re t); [|discriminate]. cbn [bind] in E. destruct (column_parts t) as (a, b).
  injection E as E. subst k. auto.
Qed.

(** * Filters *)
Lemma said_bool o l c : match o with AND => mk_and (OList l) | OR => mk_or (OList l) end = Ok c ->
  c = match o with AND => OBoolC BAnd AND KList l | OR => OBoolC BOr OR KList l end.
Proof.
  destruct o; unfold mk_and, mk_or, mk_boolean; cbn [as_list_or_tuple]; destruct (check_bool_items l); try discriminate;
    cbn; intros E; injection E as <-; reflexivity.
Qed.
Lemma expr_chain ts vs : Forall2 (fun t v => exists rest', gs (PSeq [PRef Rws; PRef Ror; PRef Rws; PRef Rfilter_term]) t rest' v) ts vs ->
  forall t0 l0, term_said t0 l0 -> exists cs, fourths vs = Ok (map POb cs) /\ expr_said (t0 ++ List.concat ts) (all_of l0 :: cs).
Proof.
  induction 1 as [|t x ts vs (rest & G) _ IH]; intros t0 l0 S.
  - exists []. split; [reflexivity|]. cbn. rewrite app_nil_r. apply es_one. exact S.
  - gk G. sm G0. sm G1. sm G2. sm G3. destruct R2 as (l & -> & P). destruct (IH _ _ P) as (cs & E & X).
    exists (all_of l :: cs). split; [cbn; rewrite E; reflexivity|]. cbn [List.concat]. rewrite <- !app_assoc.
    apply es_or; assumption.
Qed.
Lemma term_chain ts vs : Forall2 (fun t v => exists rest', gs (PSeq [PRef Rws; POpt (PRef Rjoint_operator); PRef Rws; PRef Rfilter_factor]) t rest' v) ts vs ->
  forall t0 c0, factor_said t0 c0 -> exists cs, fourths vs = Ok (map POb cs) /\ term_said (t0 ++ List.concat ts) (c0 :: cs).
Proof.
  induction 1 as [|t x ts vs (rest & G) _ IH]; intros t0 c0 S.
  - exists []. split; [reflexivity|]. cbn. rewrite app_nil_r. apply ts_one. exact S.
  - gk G. sm G0. sm G2. sm G3. destruct R1 as (c & -> & P). destruct (IH _ _ P) as (cs & E & X).
    exists (c :: cs). split; [cbn; rewrite E; reflexivity|]. cbn [List.concat]. rewrite <- !app_assoc.
    apply ts_and; try assumption. destruct G1 as [(-> & _)|(y & _ & (_ & J))]; [left; reflexivity|right; exact J].
Qed.
Lemma said_filters r t rest cs v : In r [Rfilter_expr; Rfilter_term] -> gs (grammar r) t rest (PList cs) ->
  act r t cs = Ok v -> rel r t v.
Proof.
  intros [<-|[<-|[]]] G E; cbn [grammar] in G; gk G; sm G0;
    destruct G1 as (vs & ts & -> & -> & F); cbn [act visit_bool] in E.
  - destruct R as (l & -> & S). destruct (expr_chain _ _ F _ _ S) as (cs & E' & X). rewrite E' in E. cbn [bind] in E.
    exists (all_of l :: cs). split; [|exact X]. destruct cs as [|c cs]; [injection E as <-; reflexivity|].
    change (POb (all_of l) :: map POb (c :: cs)) with (map POb (all_of l :: c :: cs)) in E.
    cbn [map] in E. change (POb (all_of l) :: POb c :: map POb cs) with (map POb (all_of l :: c :: cs)) in E.
    rewrite mapM_ob in E. cbn [bind] in E. destruct (mk_or _) as [d|] eqn:M; [|discriminate].
    apply (said_bool OR) in M. subst d. injection E as <-. reflexivity.
  - destruct R as (c0 & -> & S). destruct (term_chain _ _ F _ _ S) as (cs & E' & X). rewrite E' in E. cbn [bind] in E.
    exists (c0 :: cs). split; [|exact X]. destruct cs as [|c cs]; [injection E as <-; reflexivity|].
    cbn [map] in E. change (POb c0 :: POb c :: map POb cs) with (map POb (c0 :: c :: cs)) in E.
    rewrite mapM_ob in E. cbn [bind] in E. destruct (mk_and _) as [d|] eqn:M; [|discriminate].
    apply (said_bool AND) in M. subst d. injection E as <-. reflexivity.
Qed.
Lemma said_factor t rest cs v : gs (grammar Rfilter_factor) t rest (PList cs) ->
  act Rfilter_factor t cs = Ok v -> rel Rfilter_factor t v.
Proof.
  intros (x & X & G) E. injection X as ->. change (act Rfilter_factor t) with visit_filter_factor in E.
  destruct G as [G|(_ & [G|(_ & [])])].
  - gk G. destruct G1 as (y & -> & [(_ & [])|(_ & [G1|(_ & [])])]). destruct G1 as (_ & -> & K).
    sm G2. sm G3. sm G4. destruct G5 as (_ & r & w & -> & V). subst u2.
    assert (exists (neg : bool) cop, x = PList cop /\ u = (if neg then $"!" else [])
      /\ (match cop with [PVal (VObj (OOp NOT))] => true | _ => false end) = neg) as (neg & cop & -> & -> & N).
    { destruct G0 as [(-> & ->)|(z & -> & (H & ->))]; [exists false, []|cbn in H; subst z; exists true, [POb (OOp NOT)]]; repeat split. }
    unfold visit_filter_factor in E. cbn [POb as_obj bind] in E. rewrite N in E. specialize (V neg).
    destruct (mk_condition _ _ _) as [c|] eqn:M; [|discriminate]. injection E as <-. exists c. split; [reflexivity|].
    unfold mk_condition in M. cbn [is_col_or_func tag negb] in M. destruct (check_condition _ _ _); [|discriminate].
    cbn in M. injection M as <-. apply fs_test; assumption.
  - destruct G as ((c & -> & P) & (c' & X & R)). injection X as <-. exists c. split; [|exact R].
    destruct P; injection E as <-; reflexivity.
Qed.
Lemma said_strings ts vs : Forall2 (fun t v => exists rest', gs (PSeq [PRef Rws; PRef Rcomma; PRef Rws; PAlt [PRef Rquoted_string; PRef Runquoted_string]]) t rest' v) ts vs ->
  forall t0 s0, string_said t0 s0 -> exists ws l, fourths vs = Ok ws /\ firsts ws = Ok (map OStr l) /\ strings_said (t0 ++ List.concat ts) (s0 :: l).
Proof.
  induction 1 as [|t x ts vs (rest & G) _ IH]; intros t0 s0 S.
  - exists [], []. split; [reflexivity|]. split; [reflexivity|]. cbn. rewrite app_nil_r. apply ss_one. exact S.
  - gk G. sm G0. sm G1. sm G2. subst u0.
    assert (exists s, x2 = PList [PStr s] /\ string_said u2 s) as (s & -> & P).
    { destruct G3 as (y & -> & [(_ & s & -> & Q)|(_ & [(_ & -> & W)|(_ & [])])]); eexists; (split; [reflexivity|]);
        [left; exact Q|right; auto]. }
    destruct (IH _ _ P) as (ws & l & E & E' & X).
    exists (PList [PStr s] :: ws), (s :: l). split; [cbn; rewrite E; reflexivity|].
    split; [cbn; rewrite E'; reflexivity|]. cbn [List.concat]. rewrite <- !app_assoc.
    apply ss_more; assumption.
Qed.
Lemma said_tuple t rest cs v : gs (grammar Rstring_tuple) t rest (PList cs) ->
  act Rstring_tuple t cs = Ok v -> rel Rstring_tuple t v.
Proof.
  intros G E. cbn [grammar] in G. gk G. sm G0. sm G1. sm G4. sm G5. subst u u4.
  destruct G3 as (vs & ts & -> & -> & F).
  assert (exists s, x1 = PList [PStr s] /\ string_said u1 s) as (s & -> & P).
  { destruct G2 as (y & -> & [(_ & s & -> & Q)|(_ & [(_ & -> & W)|(_ & [])])]); eexists; (split; [reflexivity|]);
      [left; exact Q|right; auto]. }
  destruct (said_strings _ _ F _ _ P) as (ws & l & E1 & E2 & X). cbn [act visit_string_tuple] in E. rewrite E1 in E.
  cbn [bind] in E. cbn [firsts PStr as_obj bind] in E. rewrite E2 in E. cbn in E. injection E as <-.
  exists (OList (map OStr (s :: l))), false. split; [reflexivity|]. intros neg.
  pose proof (vs_list neg u0 _ _ u3 R0 X R1) as V. rewrite <- !app_assoc in V. destruct neg; exact V.
Qed.
Lemma said_values r t rest cs v : In r [Rtag_value; Rsuffix_wildcard_tag_value; Rquoted_suffix_wildcard_tag_value; Rquoted_string_filter; Runquoted_string_filter] ->
  pre r (t ++ rest) -> gs (grammar r) t rest (PList cs) -> act r t cs = Ok v -> rel r t v.
Proof.
  intros [<-|[<-|[<-|[<-|[<-|[]]]]]] P G E.
  - destruct G as (x & X & G). injection X as ->. injection E as <-.
    destruct G as [G|(_ & [G|(_ & [G|(_ & [G|(_ & [G|(_ & [G|(_ & [])])])])])])]; try apply G. destruct G as ([] & _).
  - cbn [grammar] in G. gk G. destruct G0 as (_ & -> & W). sm G1. subst u0. injection E as <-.
    exists (OStr (u ++ $"*")), true. split; [reflexivity|]. intros neg. pose proof (vs_pattern neg u W) as V. destruct neg; exact V.
  - cbn [grammar] in G. gk G. destruct G1 as (_ & -> & W). sm G0. sm G2. sm G3. subst u u1 u2. injection E as <-.
    exists (OStr (u0 ++ $"*")), true. split; [reflexivity|]. intros neg. pose proof (vs_quoted_pattern neg u0 W) as V. destruct neg; exact V.
  - destruct G as (M & X). injection E as <-. exists (OStr (unquote t)), false. split; [reflexivity|]. intros neg.
    pose proof (vs_quoted neg t _ (quoted_reads _ _ M) (quoted_no_wildcard _ _ M P)) as V. destruct neg; exact V.
  - destruct G as (M & X). injection E as <-. exists (OStr t), false. split; [reflexivity|]. intros neg.
    pose proof (vs_word neg t (word_text _ _ M)) as V. destruct neg; exact V.
Qed.

(** * Group-by, parameters, metrics *)
Lemma said_keys ts vs : Forall2 (fun t v => exists rest', gs (PSeq [PRef Rws; PRef Rcomma; PRef Rws; PRef Rgroup_by_name]) t rest' v) ts vs ->
  forall k, mql_key k -> exists l, fourths vs = Ok (map POb l) /\ keys_said (k ++ List.concat ts) (tag k :: l).
Proof.
  induction 1 as [|t x ts vs (rest & G) _ IH]; intros k K.
  - exists []. split; [reflexivity|]. cbn. rewrite app_nil_r. apply ks_one. exact K.
  - gk G. sm G0. sm G1. sm G2. destruct G3 as (_ & -> & P). subst u0. destruct (IH _ P) as (l & E & X).
    exists (tag u2 :: l). split; [cbn; rewrite E; reflexivity|]. cbn [List.concat]. rewrite <- !app_assoc.
    apply ks_more; assumption.
Qed.
Lemma said_key_tuple t rest cs v : gs (grammar Rgroup_by_name_tuple) t rest (PList cs) ->
  act Rgroup_by_name_tuple t cs = Ok v -> rel Rgroup_by_name_tuple t v.
Proof.
  intros G E. cbn [grammar] in G. gk G. sm G0. sm G1. sm G4. sm G5. subst u u4. destruct G2 as (_ & -> & K).
  destruct G3 as (vs & ts & -> & -> & F). destruct (said_keys _ _ F _ K) as (l & E' & X).
  cbn [act] in E. rewrite E' in E. cbn in E. injection E as <-.
  exists (tag u1 :: l), u0, (u1 ++ List.concat ts), u3. split; [reflexivity|]. split; [rewrite <- !app_assoc; reflexivity|]. auto.
Qed.
Lemma said_group t rest cs v : gs (grammar Rgroup_by) t rest (PList cs) -> act Rgroup_by t cs = Ok v -> rel Rgroup_by t v.
Proof.
  intros G E. cbn [grammar] in G. gk G. sm G0. sm G2. destruct G1 as (-> & ->). destruct G3 as (y & -> & G3).
  cbn in E. injection E as <-. destruct G3 as [(_ & -> & K)|(_ & [(_ & l & w1 & k & w2 & -> & -> & W1 & W2 & K)|(_ & [])])].
  - exists [tag u2]. split; [right; exists (tag u2); auto|]. apply gs_one; assumption.
  - exists l. split; [left; reflexivity|]. apply gs_many; assumption.
Qed.
Lemma said_opt_group t rest x : gs (POpt (PRef Rgroup_by)) t rest x -> exists p l, x = PList p /\ group_said t l /\ groups_of l p.
Proof.
  intros [(-> & ->)|(y & -> & (T & l & V & G))].
  - exists [], None. split; [reflexivity|]. split; [constructor|reflexivity].
  - exists [y], (Some l). split; [reflexivity|]. split; [exact G|]. exists y. split; [reflexivity|].
    destruct (groupby_list_ok y T) as (l' & E & N & F). rewrite E.
    assert (l' = l) as ->; [|auto].
    destruct V as [->|(c & -> & ->)]; cbn in E; [rewrite mapM_ob in E|]; congruence.
Qed.
Lemma said_braces t rest x :
  gs (POpt (PSeq [PRef Ropen_brace; POpt (PSeq [PRef Rws; PRef Rfilter_expr; PRef Rws]); PRef Rclose_brace])) t rest x ->
  exists fs p f, x = PList fs /\ packed_filters fs = Ok p /\ braces_said t f /\ packed_of f p
    /\ (forall c, f = Some c -> parsed_filter c).
Proof.
  intros [(-> & ->)|(y & -> & G)].
  - exists [], [], None. split; [reflexivity|]. split; [reflexivity|]. split; [constructor|]. split; [reflexivity|discriminate].
  - gk G. sm G0. sm G2. subst u u1. destruct G1 as [(-> & ->)|(z & -> & G)].
    + eexists _, [], None. split; [reflexivity|]. split; [reflexivity|]. split; [apply bs_empty|]. split; [reflexivity|discriminate].
    + gk G. sm G0. sm G2. destruct G1 as ((c & -> & C) & (l & X & S)). injection X as ->.
      eexists _, _, (Some (any_of l)). split; [reflexivity|]. split; [reflexivity|].
      split; [rewrite <- !app_assoc; apply bs_filter; assumption|]. split.
      * eexists _, _. split; [reflexivity|]. apply is_condition_iff, parsed_filter_cond, C.
      * intros d E. injection E as <-. exact C.
Qed.
Lemma digit_head f t rest : heads f (t ++ rest) = false -> t <> [] -> exists c u, t = c :: u /\ f c = false.
Proof. destruct t as [|c u]; [congruence|]. intros H _. exists c, u. auto. Qed.
Lemma said_params r t rest cs v : In r [Rparam; Rparam_expression; Raggregate_list] -> gs (grammar r) t rest (PList cs) ->
  act r t cs = Ok v -> rel r t v.
Proof.
  intros [<-|[<-|[<-|[]]]] G E; cbn [grammar] in G.
  - gk G. destruct G0 as (_ & o & -> & P). sm G1. sm G2. sm G3. subst u1. cbn [act] in E.
    destruct (is_param_value _); [|discriminate]. injection E as <-. exists o, u, u0, u2. auto.
  - destruct G as (x & X & G). injection X as ->. cbn [act] in E.
    destruct (is_param_value x); [|discriminate]. injection E as <-.
    destruct G as [(_ & N & ->)|(F & [(_ & s & -> & Q)|(_ & [(_ & -> & W)|(_ & [])])])].
    + eexists. split; [reflexivity|]. apply ps_number. exact N.
    + eexists. split; [reflexivity|]. apply ps_string. exact Q.
    + apply number_fails in F. destruct (digit_head _ _ _ F (proj1 W)) as (c & u & -> & H).
      eexists. split; [reflexivity|]. apply ps_word; [exact W|]. intros D. apply is_digit_iff in D. congruence.
  - gk G. destruct G0 as (vs & ts & -> & -> & F). destruct G1 as (_ & o & -> & P). injection E as <-.
    induction F as [|t x ts vs (rest' & (_ & o' & p' & w1 & w2 & -> & -> & W1 & W2 & P')) _ (l & E & IH)].
    + exists [o]. split; [reflexivity|]. apply pss_one. exact P.
    + exists (o' :: l). injection E as E. split; [cbn; rewrite E; reflexivity|]. cbn [List.concat]. rewrite <- !app_assoc.
      apply pss_more; assumption.
Qed.
Lemma said_names r t rest cs v : In r [Raggregate_name; Rcurried_aggregate_name; Rarbitrary_function_name; Rcurried_arbitrary_function_name] ->
  pre r (t ++ rest) -> gs (grammar r) t rest (PList cs) -> act r t cs = Ok v -> rel r t v.
Proof.
  intros I P G E. assert (mt re_name (t ++ rest) rest) as M by (destruct I as [<-|[<-|[<-|[<-|[]]]]]; apply G).
  assert (mql_name t) as N by (eapply name_text; [exact M|]; destruct I as [<-|[<-|[<-|[<-|[]]]]]; exact P).
  destruct I as [<-|[<-|[<-|[<-|[]]]]]; injection E as <-; split; auto.
Qed.
Lemma text_metric_mri s v : text_metric ONone (OStr s) = Ok v -> v = PVal (VMetric (mkMetric None (Some s) None)).
Proof. cbn. intros E. injection E as <-. reflexivity. Qed.
Lemma text_metric_public s v : text_metric (OStr s) ONone = Ok v -> v = PVal (VMetric (mkMetric (Some s) None None)).
Proof. cbn. intros E. injection E as <-. reflexivity. Qed.
Lemma said_metrics r t rest cs v : In r [Rlenient_mri; Runquoted_mri; Runquoted_public_name; Rquoted_mri; Rquoted_public_name; Rmetric] ->
  gs (grammar r) t rest (PList cs) -> act r t cs = Ok v -> rel r t v.
Proof.
  intros [<-|[<-|[<-|[<-|[<-|[<-|[]]]]]]] G E; cbn [grammar] in G.
  - eapply lenient_shape. apply G.
  - apply text_metric_mri in E. subst v. eexists. split; [reflexivity|]. apply me_mri. eapply bare_text. apply G.
  - apply text_metric_public in E. subst v. split; [reflexivity|]. eapply public_shape. apply G.
  - gk G. sm G0. sm G2. destruct G1 as (_ & M). subst u u1. cbn [act] in E. rewrite ?app_nil_r in E. cbn [app] in E.
    rewrite slice_mid in E. apply text_metric_mri in E. subst v. eexists. split; [reflexivity|]. apply me_quoted_mri. exact M.
  - gk G. sm G0. sm G2. destruct G1 as (_ & _ & M). subst u u1. cbn [act] in E. rewrite ?app_nil_r in E. cbn [app] in E.
    rewrite slice_mid in E. apply text_metric_public in E. subst v. eexists. split; [reflexivity|]. apply me_quoted_public. exact M.
  - destruct G as (x & X & G). injection X as ->. injection E as <-.
    destruct G as [(_ & m & -> & M)|(_ & [(_ & m & -> & M)|(_ & [(_ & m & -> & M)|(_ & [(_ & -> & M)|(_ & [])])])])];
      eexists; (split; [reflexivity|]); try exact M. apply me_public. exact M.
Qed.
Lemma said_inner t rest cs v : gs (grammar Rinner_filter) t rest (PList cs) -> act Rinner_filter t cs = Ok v -> rel Rinner_filter t v.
Proof.
  intros G E. cbn [grammar] in G. gk G. destruct G0 as ((x' & X & (m' & -> & Pm)) & (m & -> & M)). injection X as ->.
  apply said_braces in G1 as (fs & p & f & -> & Ep & B & Pf & _). apply said_opt_group in G2 as (pg & l & -> & Gr & Pg).
  cbn [act] in E.
  assert (metric_ok m') as O by (destruct Pm; cbn; [right|left]; discriminate).
  destruct (MqlBody.inner_value m' fs p pg f l O Ep Pf Pg) as (E' & _). unfold metric_pv in E'. rewrite E' in E. injection E as <-.
  exists m', (filter_list f), l. split; [reflexivity|]. constructor; assumption.
Qed.

(** * Expressions *)
Lemma said_plist t rest x : gs (PSeq [PRef Ropen_paren; PRef Rws; POpt (PRef Raggregate_list); PRef Rws; PRef Rclose_paren]) t rest x ->
  exists l2 l, x = PList l2 /\ agg_params_of l2 = Ok (OList l) /\ plist_said t l.
Proof.
  intros G. gk G. sm G0. sm G1. sm G3. sm G4. subst u u3. destruct G2 as [(-> & ->)|(y & -> & (_ & l & -> & P))].
  - eexists _, []. split; [reflexivity|]. split; [reflexivity|]. cbn [app].
    pose proof (pl_empty (u0 ++ u2) (white_app _ _ R0 R1)) as H. rewrite <- app_assoc in H. exact H.
  - eexists _, l. split; [reflexivity|]. split; [cbn [agg_params_of]; rewrite mapM_ob; reflexivity|]. apply pl_params; assumption.
Qed.
Lemma said_more ts vs : Forall2 (fun t v => exists rest', gs (PSeq [PRef Rws; PRef Rcomma; PRef Rws; PRef Rexpression]) t rest' v) ts vs ->
  exists l, lasts vs = Ok l /\ more_said D (List.concat ts) l.
Proof.
  induction 1 as [|t x ts vs (rest & G) _ (l & E & IH)].
  - exists []. split; [reflexivity|constructor].
  - gk G. sm G0. sm G1. sm G2. destruct G3 as (_ & m & -> & S). subst u0. exists (m :: l). split.
    + cbn [lasts rev app as_mval bind]. rewrite E. reflexivity.
    + cbn [List.concat]. rewrite <- !app_assoc. apply ms_more; assumption.
Qed.
Lemma said_set t n p ps t' : parsed_ts t -> opt_list literal_obj p ps -> set_aggregate t (OStr n) p = Ok t' ->
  t' = mkTS (ts_metric t) n ps (ts_filters t) (ts_groupby t).
Proof.
  intros T P E. apply (set_aggregate_iff _ _ _ _ (parsed_ts_ok _ T)) in E as (n' & ps' & X & P' & ->). injection X as <-.
  f_equal. destruct ps, ps'; cbn in P, P'; intuition congruence.
Qed.
Lemma literal_list l : Forall parsed_literal l -> opt_list literal_obj (OList l) (Some l).
Proof. intros H. split; [reflexivity|]. eapply Forall_impl; [|exact H]. exact parsed_literal_ok. Qed.
Lemma said_plist_ty t l : plist_said t l -> Forall parsed_literal l.
Proof.
  intros H. destruct H as [|w1 t l w2 _ P _]; [constructor|].
  assert (forall t p, param_said t p -> parsed_literal p) as K by (intros t' p' Q; destruct Q; constructor; assumption).
  induction P as [t p Q|t p w3 w4 u l Q _ _ P IH]; constructor; try (eapply K; exact Q); [constructor|exact IH].
Qed.
Lemma no_placeholder v : has_placeholder v = None -> forall t, ~ bare_metric v t.
Proof.
  intros H t (-> & A). unfold has_placeholder in H. destruct (str_eqb (ts_agg t) placeholder) eqn:E; [discriminate|].
  apply str_eqb_neq in E. apply E, A.
Qed.
Lemma a_placeholder v t : has_placeholder v = Some t -> bare_metric v t.
Proof.
  intros H. pose proof (placeholder_query _ _ H) as ->. unfold has_placeholder in H. destruct (str_eqb (ts_agg t) placeholder) eqn:E; [|discriminate].
  apply str_eqb_eq in E. split; [reflexivity|exact E].
Qed.
Lemma said_calls r t rest cs v : In r [Raggregate; Rarbitrary_function; Rcurried_aggregate; Rcurried_arbitrary_function] ->
  gs (grammar r) t rest (PList cs) -> act r t cs = Ok v -> rel r t v.
Proof.
  intros [<-|[<-|[<-|[<-|[]]]]] G E; cbn [grammar] in G; gk G.
  - destruct G0 as (_ & -> & N). gk G1. sm G. sm G0. sm G3. sm G4. destruct G2 as ((t0 & X & Ht) & (m & f & g & -> & B)). injection X as <-.
    subst. cbn [act visit_aggregate ts_agg] in E. rewrite str_eqb_refl in E. cbn [PStr as_obj bind] in E.
    destruct (set_aggregate _ _ _) as [t'|] eqn:Es; [|discriminate]. injection E as <-.
    eapply said_set with (ps := None) in Es; [|exact Ht|reflexivity]. subst t'. eexists. split; [reflexivity|].
    apply cs_aggregate; assumption.
  - destruct G0 as (_ & -> & N). gk G1. sm G. sm G3. gk G0. sm G. sm G3. destruct G2 as (vs & ts & -> & -> & F).
    destruct G1 as (_ & m & -> & S). subst. destruct (said_more _ _ F) as (ps & El & P).
    cbn [act visit_arbitrary_function] in E. rewrite El in E. cbn [bind as_mval] in E.
    destruct (has_placeholder m) eqn:H; [discriminate|]. injection E as <-. eexists. split; [reflexivity|].
    pose proof (as_args D _ _ m _ _ _ R S R0 P) as A. pose proof (no_placeholder _ H) as H1.
    pose proof (cs_function D u _ _ _ N A H1) as C. rewrite <- !app_assoc in *. exact C.
  - destruct G0 as (_ & -> & N). apply said_plist in G1 as (l2 & l & -> & Ea & P). gk G2. sm G. sm G0. sm G3. sm G4.
    destruct G1 as ((t0 & X & Ht) & (m & f & g & -> & B)). injection X as <-. subst.
    cbn [act visit_curried_aggregate] in E. rewrite Ea in E. cbn [PStr as_obj bind] in E.
    destruct (set_aggregate _ _ _) as [t'|] eqn:Es; [|discriminate]. injection E as <-.
    eapply said_set with (ps := Some l) in Es; [|exact Ht|apply literal_list; eapply said_plist_ty; exact P].
    subst t'. eexists. split; [reflexivity|]. apply cs_curried; assumption.
  - destruct G0 as (_ & -> & N). apply said_plist in G1 as (l2 & l & -> & Ea & P). gk G2. sm G. sm G0. sm G4. gk G1. sm G. sm G2.
    destruct G3 as (vs & ts & -> & -> & F). destruct G0 as ((m' & X & Vm & _) & m & -> & S). injection X as <-. subst. destruct (said_more _ _ F) as (ps & El & Pm).
    cbn [act visit_curried_arbitrary_function] in E. rewrite Ea in E. cbn [bind] in E. rewrite El in E. cbn [bind as_mval] in E.
    pose proof (as_args D _ _ m _ _ _ (white_app _ _ R0 R) S R1 Pm) as A.
    destruct (has_placeholder m) as [t0|] eqn:H.
    + apply a_placeholder in H. pose proof H as (-> & _). inversion Vm as [| |? Ht|]; subst.
      cbn [PStr as_obj bind] in E. destruct (set_aggregate _ _ _) as [t'|] eqn:Es; [|discriminate]. injection E as <-.
      eapply said_set with (ps := Some l) in Es; [|exact Ht|apply literal_list; eapply said_plist_ty; exact P].
      subst t'. eexists. split; [reflexivity|].
      pose proof (cs_curried_metric D u _ _ _ _ _ _ N P A H (or_intror I)) as C. rewrite <- !app_assoc in *. exact C.
    + injection E as <-. eexists. split; [reflexivity|]. pose proof (no_placeholder _ H) as H1.
      pose proof (cs_curried_function D u _ _ _ _ _ N P A H1) as C. rewrite <- !app_assoc in *. exact C.
Qed.

Lemma said_function t rest cs v : gs (grammar Rfunction) t rest (PList cs) -> act Rfunction t cs = Ok v -> rel Rfunction t v.
Proof.
  intros G E. cbn [grammar] in G. gk G. destruct G0 as (y & -> & G0). apply said_opt_group in G1 as (p & l & -> & Gr & P).
  assert (exists m, y = PVal m /\ parsed_query m /\ call_said D u m) as (m & -> & Q & C).
  { destruct G0 as [G0|(_ & [G0|(_ & [G0|(_ & [G0|(_ & [])])])])]; destruct G0 as ((m & -> & Q) & (m' & X & C));
      injection X as <-; eauto. }
  cbn [act visit_function] in E. rewrite (query_is_query m Q) in E. cbn [assert_ bind as_mval] in E.
  rewrite (groups_said m l p Q P) in E. injection E as <-. eexists. split; [reflexivity|]. apply tg_call; assumption.
Qed.
Lemma said_target t rest cs v : gs (grammar Rtarget) t rest (PList cs) -> act Rtarget t cs = Ok v -> rel Rtarget t v.
Proof.
  intros (x & X & G) E. injection X as ->. cbn [act] in E.
  destruct G as [([] & _)|(_ & [G|(_ & [G|(_ & [G|(_ & [])])])])].
  - destruct G as ((m & -> & Q) & (m' & X & S)). injection X as <-. exists m. split; [|exact S].
    destruct Q as (Q & _). destruct Q; injection E as <-; reflexivity.
  - destruct G as ((m & -> & Q) & (m' & X & S)). injection X as <-. exists m. split; [|exact S].
    destruct Q as (Q & _). destruct Q; injection E as <-; reflexivity.
  - destruct G as ((y & X & (m & -> & M)) & (m' & X' & S)). subst x. injection X' as <-.
    cbn [visit_target bind] in E. rewrite (proj1 (placeholder_ok m M)) in E. injection E as <-.
    eexists. split; [reflexivity|]. apply tg_metric. exact S.
Qed.
Lemma said_nested t rest cs v : gs (grammar Rnested_expression) t rest (PList cs) -> act Rnested_expression t cs = Ok v ->
  rel Rnested_expression t v.
Proof.
  intros G E. cbn [grammar] in G. gk G. sm G0. sm G1. sm G3. sm G4. destruct G2 as (_ & m & -> & S). subst u u3.
  cbn [act] in E. destruct (is_query (PVal m)) eqn:Q; [|discriminate]. injection E as <-. exists m. split; [reflexivity|].
  apply tg_paren; auto. destruct m; try discriminate; constructor.
Qed.
Lemma said_filter t rest cs v : gs (grammar Rfilter) t rest (PList cs) -> act Rfilter t cs = Ok v -> rel Rfilter t v.
Proof.
  intros G E. cbn [grammar] in G. gk G. destruct G0 as ((m & -> & Q) & (m' & X & S)). injection X as <-.
  pose proof (gs_sty _ _ _ _ _ G1) as Y. apply packed_filters_ty in Y as (fs' & p' & Ex & Ep' & Hp').
  apply said_braces in G1 as (fs & p & f & -> & Ep & B & Pf & Cf). injection Ex as <-.
  apply said_opt_group in G2 as (pg & l & -> & Gr & Pg).
  cbn [act visit_filter] in E. rewrite Ep in E. cbn [bind] in E. rewrite (query_is_query m Q) in E. cbn [assert_ bind as_mval] in E.
  rewrite Ep in Ep'. injection Ep' as <-. destruct (apply_filters_ty m p Q Hp') as (v1 & E1 & Q1).
  rewrite (filters_said m f p Q Pf Cf) in E1. injection E1 as <-. rewrite (filters_said m f p Q Pf Cf) in E. cbn [bind] in E.
  rewrite (groups_said _ l pg Q1 Pg) in E. injection E as <-. eexists. split; [reflexivity|]. apply co_target; assumption.
Qed.
Lemma said_coefficient t rest cs v : gs (grammar Rcoefficient) t rest (PList cs) -> act Rcoefficient t cs = Ok v ->
  rel Rcoefficient t v.
Proof.
  intros (x & X & G) E. injection X as ->. injection E as <-.
  destruct G as [(_ & N & ->)|(_ & [(_ & s & -> & Q)|(_ & [(_ & C)|(_ & [])])])].
  - eexists. split; [reflexivity|]. apply co_number. exact N.
  - eexists. split; [reflexivity|]. apply co_string. exact Q.
  - exact C.
Qed.
Lemma target_query s v : target_said D s v -> mql_query v.
Proof.
  intros H. destruct H as [w1 e v w2 _ _ _ Q|s v g l C _|s m _]; [exact Q| |constructor].
  apply MqlBody.group_query. destruct C; constructor.
Qed.
Lemma coef_number s f : coef_said D s (VObj (OFloat f)) -> number_text s /\ f = float_of_text s.
Proof.
  intros H. inversion H as [t N|t x Q|t v b g gr l T B G Es Ev]; subst; [auto|].
  exfalso. apply target_query in T. apply (MqlBody.with_query g), (MqlBody.group_query l) in T. rewrite Ev in T. inversion T.
Qed.
Lemma said_unary t rest cs v : gs (grammar Runary) t rest (PList cs) -> act Runary t cs = Ok v -> rel Runary t v.
Proof.
  intros G E. cbn [grammar] in G. gk G. destruct G1 as ((m & -> & T) & (m' & X & C)). injection X as <-.
  destruct G0 as [(-> & ->)|(y & -> & (_ & -> & ->))]; cbn [act visit_unary] in E.
  - injection E as <-. exists m. split; [reflexivity|]. apply un_coef. exact C.
  - destruct T as [(Q & V)|(_ & o & -> & L)].
    + destruct Q; injection E as <-; eexists; (split; [reflexivity|]); apply un_negate; try exact C; constructor.
    + destruct L as [f N|s]; [|discriminate]. injection E as <-. eexists. split; [reflexivity|].
      apply coef_number in C as (N' & Ef). rewrite Ef. apply un_minus. exact N'.
Qed.
Lemma said_rest r t rest cs v : In r [Rexpr_op; Rterm_op; Runary_op; Rnumber; Rquoted_string; Runquoted_string; Rnested_expr;
    Rcondition_op; Rjoint_operator; Rand; Ror; Rws; Ropen_paren; Rclose_paren; Ropen_square_bracket; Rclose_square_bracket;
    Ropen_brace; Rclose_brace; Rcomma; Rbacktick; Rcolon; Rquote; Rwildcard] ->
  gs (grammar r) t rest (PList cs) -> act r t cs = Ok v -> rel r t v.
Proof.
  intros I G E. cbn [In] in I.
  destruct I as [<-|I].
  { destruct G as (x & _ & [(-> & _)|(_ & [(-> & _)|(_ & [])])]); injection E as <-; eexists; (split; [reflexivity|]); cbn; auto. }
  destruct I as [<-|I].
  { destruct G as (x & _ & [(-> & _)|(_ & [(-> & _)|(_ & [])])]); injection E as <-; eexists; (split; [reflexivity|]); cbn; auto. }
  destruct I as [<-|I].
  { destruct G as (-> & _). injection E as <-. split; reflexivity. }
  destruct I as [<-|I].
  { cbn [grammar] in G. gk G. rewrite app_nil_r in *. destruct G0 as (M & _). injection E as <-. split; [|reflexivity].
    assert (forall x r, mt re_digits (x ++ r) r -> digits x) as K.
    { intros y r' M'. apply plus_text in M' as (N & F). split; [exact N|].
      eapply Forall_impl; [|exact F]. intros c. apply is_digit_iff. }
    apply K in M. destruct G1 as [(-> & ->)|(y & -> & G)].
    - left. rewrite app_nil_r. exact M.
    - gk G. destruct G0 as (-> & _). destruct G1 as (M' & _). apply K in M'. right. eexists _, _. split; [reflexivity|]. auto. }
  destruct I as [<-|I].
  { destruct G as (M & _). injection E as <-. eexists. split; [reflexivity|]. eapply quoted_reads. exact M. }
  destruct I as [<-|I].
  { destruct G as (M & _). injection E as <-. split; [reflexivity|]. eapply word_text. exact M. }
  destruct I as [<-|I].
  { cbn [grammar] in G. gk G. sm G0. sm G1. sm G3. sm G4. destruct G2 as (_ & l & -> & S). subst u u3. injection E as <-.
    eexists. split; [reflexivity|]. apply fs_paren; assumption. }
  destruct I as [<-|I]; [apply G|].
  destruct I as [<-|I].
  { destruct G as (x & _ & [(_ & ->)|(_ & [(_ & J)|(_ & [])])]); [left; reflexivity|right; exact J]. }
  destruct I as [<-|I].
  { destruct G as (x & _ & [(-> & _)|(_ & [(-> & _)|(_ & [])])]); cbn; auto. }
  destruct I as [<-|I].
  { destruct G as (x & _ & [(-> & _)|(_ & [(-> & _)|(_ & [])])]); cbn; auto. }
  destruct I as [<-|I].
  { destruct G as (M & _). eapply ws_text. exact M. }
  repeat (destruct I as [<-|I]; [apply G|]). destruct I.
Qed.

Theorem acts_all : acts_said D.
Proof.
  intros r t rest cs v Pre T G E. destruct r;
    try (eapply said_chains; [cbn; tauto|exact G|exact E]); try (eapply said_filters; [cbn; tauto|exact G|exact E]);
    try (eapply said_values; [cbn; tauto|exact Pre|exact G|exact E]); try (eapply said_params; [cbn; tauto|exact G|exact E]);
    try (eapply said_names; [cbn; tauto|exact Pre|exact G|exact E]); try (eapply said_metrics; [cbn; tauto|exact G|exact E]);
    try (eapply said_calls; [cbn; tauto|exact G|exact E]);
    try (eapply said_rest; [cbn; tauto|exact G|exact E]).
  - eapply said_unary; eassumption.
  - eapply said_coefficient; eassumption.
  - eapply said_filter; eassumption.
  - eapply said_factor; eassumption.
  - eapply said_column; [exact T|exact E].
  - eapply said_tuple; eassumption.
  - eapply said_target; eassumption.
  - eapply said_nested; eassumption.
  - eapply said_function; eassumption.
  - eapply said_group; eassumption.
  - eapply said_column; [exact T|exact E].
  - eapply said_key_tuple; eassumption.
  - eapply said_inner; eassumption.
Qed.

Lemma is_space_iff c : is_space c = true <-> strip_char c.
Proof.
  unfold is_space, strip_char, in_range. destruct (N.ltb_spec c 128).
  - rewrite !orb_true_iff, !andb_true_iff, !N.leb_le, N.eqb_eq. lia.
  - split; [auto|]. intros [K|K]; [lia|apply K].
Qed.
Lemma lstrip_said f s : exists a, s = a ++ lstrip f s /\ Forall (fun c => f c = true) a.
Proof.
  induction s as [|c s (a & IH & F)]; [exists []; split; [reflexivity|constructor]|]. cbn.
  destruct (f c) eqn:E; [|exists []; split; [reflexivity|constructor]].
  exists (c :: a). cbn. rewrite <- IH. split; [reflexivity|constructor; assumption].
Qed.
Lemma strip_said s : exists a b, s = a ++ strip is_space s ++ b /\ Forall strip_char a /\ Forall strip_char b.
Proof.
  assert (forall a, Forall (fun c => is_space c = true) a -> Forall strip_char a) as K.
  { intros a F. eapply Forall_impl; [|exact F]. intros c. apply is_space_iff. }
  unfold strip. destruct (lstrip_said is_space (rstrip is_space s)) as (a & E & Fa).
  destruct (lstrip_said is_space (rev s)) as (b & E' & Fb).
  exists a, (rev b). split; [|split; [apply K, Fa|apply K, Forall_rev, Fb]].
  rewrite app_assoc, <- E. unfold rstrip. rewrite <- rev_app_distr, <- E', rev_involutive. reflexivity.
Qed.
Theorem parse_said s v : parse_mql s = Ok v -> mql_said D s v.
Proof.
  unfold parse_mql. intros E. destruct (strip_said s) as (a & b & Es & A & B). exists a, (strip is_space s), b.
  split; [exact Es|]. split; [exact A|]. split; [exact B|].
  destruct (run grammar _ _ _) as [| |[x t ch] [|c rest]] eqn:R; try discriminate.
  destruct (vis (Node x t ch)) as [w|] eqn:V; [|discriminate]. cbn [bind] in E.
  destruct (run_text _ 0 _ _ _ _ _ _ R) as (Et & _). rewrite app_nil_r in Et.
  pose proof (said_run D acts_all _ _ _ _ _ _ _ _ R I V) as G. rewrite Et.
  destruct G as (_ & m & -> & S). destruct m; try discriminate; injection E as <-; (split; [constructor|exact S]).
Qed.

(** without a comma no argument is lost *)
Scheme call_ind' := Minimality for call_said Sort Prop
  with args_ind' := Minimality for args_said Sort Prop
  with more_ind' := Minimality for more_said Sort Prop
  with target_ind' := Minimality for target_said Sort Prop
  with coef_ind' := Minimality for coef_said Sort Prop
  with unary_ind' := Minimality for unary_said Sort Prop
  with product_ind' := Minimality for product_said Sort Prop
  with sum_ind' := Minimality for sum_said Sort Prop.
Combined Scheme said_ind from call_ind', args_ind', more_ind', target_ind', coef_ind', unary_ind', product_ind', sum_ind'.
Definition kept (P : str -> mval -> Prop) (s : str) (v : mval) : Prop := ~ In 44%N s -> P s v.
Lemma comma_free a b : ~ In 44%N (a ++ b) -> ~ In 44%N a /\ ~ In 44%N b.
Proof. intros H. split; intros I; apply H, in_app_iff; auto. Qed.
Ltac nc := repeat match goal with H : ~ In 44%N (_ ++ _) |- _ => apply comma_free in H as (? & ?) end.
Lemma said_kept : (forall s v, call_said True s v -> kept (call_said False) s v)
  /\ (forall s l, args_said True s l -> ~ In 44%N s -> args_said False s l /\ List.length l = 1%nat)
  /\ (forall s l, more_said True s l -> ~ In 44%N s -> s = [] /\ l = [])
  /\ (forall s v, target_said True s v -> kept (target_said False) s v)
  /\ (forall s v, coef_said True s v -> kept (coef_said False) s v)
  /\ (forall s v, unary_said True s v -> kept (unary_said False) s v)
  /\ (forall s v, product_said True s v -> kept (product_said False) s v)
  /\ (forall s v, sum_said True s v -> kept (sum_said False) s v).
Proof.
  apply said_ind; unfold kept; intros; nc.
  - apply cs_aggregate; assumption.
  - apply cs_curried; assumption.
  - apply cs_function; [assumption|apply H1; assumption|assumption].
  - apply cs_curried_function; [assumption|assumption|apply H2; assumption|assumption].
  - eapply cs_curried_metric; try eassumption; [apply H2; assumption|]. left.
    match goal with H : ~ In _ a -> args_said _ _ _ /\ _, K : ~ In _ a |- _ => destruct (H K) as (_ & L) end.
    destruct vs; [reflexivity|discriminate].
  - match goal with H : ~ In _ r -> r = [] /\ _, K : ~ In _ r |- _ => destruct (H K) as (-> & ->) end. split; [|reflexivity]. apply as_args; [assumption|auto|assumption|constructor].
  - auto.
  - exfalso. match goal with K : ~ In _ _ |- _ => apply K; left; reflexivity end.
  - apply tg_paren; auto.
  - apply tg_call; auto.
  - apply tg_metric; auto.
  - apply co_number; auto.
  - apply co_string; auto.
  - apply co_target; auto.
  - apply un_coef; auto.
  - apply un_minus; auto.
  - apply un_negate; auto.
  - apply ps_one; auto.
  - apply ps_op; auto.
  - apply sa_one; auto.
  - apply sa_op; auto.
Qed.
Theorem parse_kept s v : parse_mql s = Ok v -> ~ In 44%N s -> mql_said False s v.
Proof.
  intros E N. destruct (parse_said s v E) as (a & t & b & -> & A & B & Q & S). exists a, t, b. nc.
  split; [reflexivity|]. split; [exact A|]. split; [exact B|]. split; [exact Q|]. apply said_kept; assumption.
Qed.

(** the names of a query are written in the text, are operators, or the placeholder *)
Definition own (x : str) : Prop := x = placeholder_name \/ In x [$"plus"; $"minus"; $"multiply"; $"divide"; $"negate"].
Definition named (s : str) (v : mval) : Prop := forall x, names_of v x -> written_in x s \/ own x.
Lemma written_l x a b : written_in x a -> written_in x (a ++ b).
Proof. intros (l & r & ->). exists l, (r ++ b). rewrite <- !app_assoc. reflexivity. Qed.
Lemma written_r x a b : written_in x b -> written_in x (a ++ b).
Proof. intros (l & r & ->). exists (a ++ l), r. rewrite <- !app_assoc. reflexivity. Qed.
Lemma written_self x : written_in x x.
Proof. exists [], []. rewrite app_nil_r. reflexivity. Qed.
Lemma named_l s b v : named s v -> named (s ++ b) v.
Proof. intros H x N. destruct (H x N) as [K|K]; [left; apply written_l; exact K|right; exact K]. Qed.
Lemma named_r s b v : named s v -> named (b ++ s) v.
Proof. intros H x N. destruct (H x N) as [K|K]; [left; apply written_r; exact K|right; exact K]. Qed.
Lemma named_group l v s : named s v -> named s (with_groupby l v).
Proof.
  intros H x N. apply H. destruct l as [l|]; [|exact N]. destruct v; cbn [with_groupby] in N; try exact N;
    inversion N; subst; cbn [ts_agg]; econstructor; eassumption.
Qed.
Lemma named_filter l v s : named s v -> named s (with_filter l v).
Proof.
  intros H x N. apply H. destruct l as [l|]; [|exact N]. destruct v; cbn [with_filter] in N; try exact N;
    inversion N; subst; cbn [ts_agg]; econstructor; eassumption.
Qed.
Lemma named_function s n ps a : (written_in n s \/ own n) -> Forall (named s) ps -> named s (function n ps a).
Proof.
  intros W F x N. inversion N; subst; [exact W|]. rewrite Forall_forall in F. eapply F; eassumption.
Qed.
Ltac nl := solve [assumption | apply named_l; nl | apply named_r; nl].
Lemma said_named : (forall s v, call_said True s v -> named s v)
  /\ (forall s l, args_said True s l -> Forall (named s) l)
  /\ (forall s l, more_said True s l -> Forall (named s) l)
  /\ (forall s v, target_said True s v -> named s v)
  /\ (forall s v, coef_said True s v -> named s v)
  /\ (forall s v, unary_said True s v -> named s v)
  /\ (forall s v, product_said True s v -> named s v)
  /\ (forall s v, sum_said True s v -> named s v).
Proof.
  assert (forall a l, Forall (named a) l -> forall b, Forall (named (a ++ b)) l) as FL
    by (intros a l F b; eapply Forall_impl; [|exact F]; intros; apply named_l; assumption).
  assert (forall a l, Forall (named a) l -> forall b, Forall (named (b ++ a)) l) as FR
    by (intros a l F b; eapply Forall_impl; [|exact F]; intros; apply named_r; assumption).
  assert (forall n s m p f g, named (n ++ s) (VTS (mkTS m n p f g))) as TS
    by (intros n s m p f g x N; inversion N; subst; left; apply written_l, written_self).
  apply said_ind; intros; try solve [intros x N; inversion N].
  - apply TS.
  - apply TS.
  - apply named_function; [left; apply written_l, written_self|]. apply FR, FR, FL. assumption.
  - apply named_function; [left; apply written_l, written_self|]. apply FR, FR, FR, FL. assumption.
  - apply TS.
  - constructor; [nl|]. apply FR, FR, FR. assumption.
  - constructor.
  - constructor; [nl|]. apply FR, FR, FR, FR. assumption.
  - nl.
  - apply named_l, named_group. assumption.
  - intros x N. inversion N; subst. right. left. reflexivity.
  - apply named_l, named_group, named_filter. assumption.
  - assumption.
  - apply named_function; [right; right; cbn; tauto|]. constructor; [nl|constructor].
  - assumption.
  - apply named_function; [right; right|constructor; [nl|constructor; [nl|constructor]]].
    match goal with I : In (_, _) _ |- _ => destruct I as [I|[I|[]]]; injection I as <- <-; cbn; tauto end.
  - assumption.
  - apply named_function; [right; right|constructor; [nl|constructor; [nl|constructor]]].
    match goal with I : In (_, _) _ |- _ => destruct I as [I|[I|[]]]; injection I as <- <-; cbn; tauto end.
Qed.
Theorem parse_named s v : parse_mql s = Ok v -> named s v.
Proof.
  intros E. destruct (parse_said s v E) as (a & t & b & -> & _ & _ & _ & S). apply named_r, named_l, said_named. exact S.
Qed.
End Said.
