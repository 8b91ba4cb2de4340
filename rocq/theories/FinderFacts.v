(** The column finder finds exactly the referenced columns. *)
From Verif Require Import PyBase PyFacts Objects Exprs SpecExpr ExprFacts ExprProps WfFacts Finder Query SpecQuery SpecSetters SpecRefs.

Section F.
Context {RT : PyRT}.

Definition find_exprs (t : ety) := fix find_exprs (l : list obj) : result (list obj) :=
  match l with
  | [] => Ok []
  | x :: l' => if is_expression x then let! a := find t x in let! r := find_exprs l' in Ok (a ++ r)
               else find_exprs l'
  end.
Definition find_all (t : ety) := fix find_all (l : list obj) : result (list obj) :=
  match l with
  | [] => Ok []
  | x :: l' => let! a := find t x in let! r := find_all l' in Ok (a ++ r)
  end.
Lemma find_func f n ik il pk pl a : find TColumn (OFunc f n ik il pk pl a) =
  (let! x := find_exprs TColumn il in let! y := find_exprs TColumn pl in Ok (x ++ y)).
Proof. reflexivity. Qed.
Lemma find_bool t c o k l : find t (OBoolC c o k l) = find_all t l.
Proof. reflexivity. Qed.

Definition exact_find (o : obj) : Prop :=
  forall l, find TColumn o = Ok l -> forall x, In x l <-> exists c, x = OColumn c /\ refers o c.
Lemma refers_expression o c : refers o c -> is_expression o = true.
Proof. intros []; reflexivity. Qed.
Lemma find_exprs_exact l : Forall exact_find l -> forall r, find_exprs TColumn l = Ok r ->
  forall x, In x r <-> exists y c, In y l /\ x = OColumn c /\ refers y c.
Proof.
  induction 1 as [|y l Hy _ IH]; intros r E x.
  - injection E as <-. cbn. firstorder.
  - cbn in E. destruct (is_expression y) eqn:Ey.
    + apply bind_Ok in E as (a & E1 & E). apply bind_Ok in E as (b & E2 & E). injection E as <-.
      rewrite in_app_iff, (Hy a E1), (IH b E2). split.
      * intros [(c & -> & R)|(y' & c & I & -> & R)]; [exists y, c|exists y', c]; cbn; auto.
      * intros (y' & c & [<-|I] & -> & R); [left|right]; eauto.
    + rewrite (IH r E). split.
      * intros (y' & c & I & -> & R). exists y', c. cbn. auto.
      * intros (y' & c & [<-|I] & -> & R); [apply refers_expression in R; congruence|eauto].
Qed.
Lemma find_all_exact l : Forall exact_find l -> forall r, find_all TColumn l = Ok r ->
  forall x, In x r <-> exists y c, In y l /\ x = OColumn c /\ refers y c.
Proof.
  induction 1 as [|y l Hy _ IH]; intros r E x.
  - injection E as <-. cbn. firstorder.
  - cbn in E. apply bind_Ok in E as (a & E1 & E). apply bind_Ok in E as (b & E2 & E). injection E as <-.
    rewrite in_app_iff, (Hy a E1), (IH b E2). split.
    * intros [(c & -> & R)|(y' & c & I & -> & R)]; [exists y, c|exists y', c]; cbn; auto.
    * intros (y' & c & [<-|I] & -> & R); [left|right]; eauto.
Qed.
Lemma no_refs o : (forall c, ~ refers o c) -> (forall l, find TColumn o = Ok l -> l = []) -> exact_find o.
Proof.
  intros N H l E x. apply H in E. subst l. split; [intros []|]. intros (c & _ & R). elim (N c R).
Qed.
Lemma find_exact o : exact_find o.
Proof.
  induction o using obj_ind'; try (apply no_refs; [intros c' R; inversion R|]; cbn; intros m E; try discriminate E;
    try (injection E as <-; reflexivity); fail).
  - apply no_refs; [intros c' R; inversion R|]. intros m E. cbn [find] in E. apply bind_Ok in E as (? & _ & E). injection E as <-. reflexivity.
  - apply no_refs; [intros c' R; inversion R|]. intros m E. cbn [find] in E. apply bind_Ok in E as (? & _ & E). injection E as <-. reflexivity.
  - intros m E x. injection E as <-. cbn. split.
    + intros [<-|[]]. eexists. split; [reflexivity|constructor].
    + intros (c' & -> & R). inversion R. auto.
  - intros m E x. injection E as <-. cbn. split.
    + intros [<-|[]]. eexists. split; [reflexivity|constructor].
    + intros (c' & -> & R). inversion R. auto.
  - intros m E x. rewrite find_func in E. apply bind_Ok in E as (r1 & E1 & E). apply bind_Ok in E as (r2 & E2 & E).
    injection E as <-. rewrite in_app_iff, (find_exprs_exact il H r1 E1), (find_exprs_exact pl H0 r2 E2). split.
    + intros [(y & c & I & -> & R)|(y & c & I & -> & R)]; exists c; (split; [reflexivity|]); econstructor; eassumption.
    + intros (c & -> & R). inversion R; subst; [left|right]; eauto.
  - intros m E x. cbn [find isinst is_tident] in E. rewrite (IHo m E). split.
    + intros (c & -> & R). exists c. split; [reflexivity|constructor; exact R].
    + intros (c & -> & R). inversion R; subst. eauto.
  - apply no_refs; [intros c' R; inversion R|]. cbn. intros m E. destruct l as [|r l]; [discriminate|]. cbn in E. injection E as <-. reflexivity.
  - intros m E x. cbn [find] in E. apply bind_Ok in E as (a & E1 & E). destruct (negb (is_unary o2) && is_expression o3) eqn:U.
    + apply bind_Ok in E as (b & E2 & E). injection E as <-. rewrite in_app_iff, (IHo1 a E1), (IHo2 b E2).
      apply andb_true_iff in U as [U _]. split.
      * intros [(c & -> & R)|(c & -> & R)]; exists c; (split; [reflexivity|]).
        -- apply rf_lhs, R.
        -- apply rf_rhs; [intros ->; discriminate..|exact R].
      * intros (c & -> & R). inversion R; subst; [left|right]; eauto.
    + injection E as <-. rewrite (IHo1 a E1). split.
      * intros (c & -> & R); exists c; (split; [reflexivity|]). apply rf_lhs, R.
      * intros (c & -> & R). inversion R; subst; [eauto|].
        match goal with H : refers o3 c |- _ => apply refers_expression in H; rewrite H in U end.
        rewrite andb_true_r in U. destruct o2; try discriminate U; congruence.
  - intros m E x. rewrite find_bool in E. rewrite (find_all_exact l H m E). split.
    + intros (y & c' & I & -> & R). exists c'. split; [reflexivity|econstructor; eassumption].
    + intros (c' & -> & R). inversion R; subst. eauto.
  - intros m E x. cbn [find isinst] in E. rewrite (IHo m E). split.
    + intros (c & -> & R). exists c. split; [reflexivity|constructor; exact R].
    + intros (c & -> & R). inversion R; subst. eauto.
  - intros m E x. cbn [find isinst] in E. destruct l as [|c l]; [discriminate|]. injection E as <-.
    change (In x (flat_map (fun c => [OColumn c]) (c :: l)) <-> exists c0, x = OColumn c0 /\ refers (OLimitBy k (c :: l) n) c0).
    rewrite in_flat_map. split.
    + intros (c' & I & [<-|[]]). exists c'. split; [reflexivity|constructor; exact I].
    + intros (c' & -> & R). inversion R; subst. exists c'. cbn. auto.
Qed.

(** * the whole query *)
Lemma search_match_none q l : search_match TColumn q = Ok l -> l = [].
Proof.
  destruct q as [[e|s|k [|r rels]] c|i c]; cbn; intros E; try discriminate; injection E as <-; reflexivity.
Qed.
Lemma iter_items o l : iter o = Ok l -> forall x c, In x l -> refers x c -> list_or_tuple o l.
Proof.
  destruct o; try discriminate; cbn; intros E x c I R; injection E as <-; try constructor;
    apply in_map_iff in I as (y & <- & _); inversion R.
Qed.
Lemma search_terms_exact o r : search_terms TColumn o = Ok r ->
  forall x, In x r <-> exists l y c, list_or_tuple o l /\ In y l /\ x = OColumn c /\ refers y c.
Proof.
  unfold search_terms. intros E x. destruct (truthy o) eqn:T.
  - apply bind_Ok in E as (l & I & E). apply bind_Ok in E as (fs & E & H). injection H as <-.
    assert (P : forall x, In x (List.concat fs) <-> exists y c, In y l /\ x = OColumn c /\ refers y c).
    { clear - RT E. revert fs E. induction l as [|y l IH]; cbn; intros fs E.
      - injection E as <-. cbn. firstorder.
      - apply bind_Ok in E as (a & E1 & E). apply bind_Ok in E as (b & E2 & E). injection E as <-. intros x. cbn [List.concat].
        rewrite in_app_iff, (find_exact y a E1), (IH b E2). split.
        + intros [(c & -> & R)|(y' & c & I & -> & R)]; [exists y, c|exists y', c]; auto.
        + intros (y' & c & [<-|I] & -> & R); [left|right]; eauto. }
    rewrite P. split.
    + intros (y & c & J & -> & R). exists l, y, c. repeat split; try assumption. eapply iter_items; eassumption.
    + intros (l' & y & c & L & J & -> & R). destruct L; injection I as <-; eauto.
  - injection E as <-. split; [intros []|]. intros (l & y & c & L & J & _). destruct L; destruct l; cbn in *; discriminate || contradiction.
Qed.
Lemma search_one_exact o r : search_one TColumn o = Ok r ->
  forall x, In x r <-> exists c, x = OColumn c /\ refers o c.
Proof.
  unfold search_one. destruct (truthy o) eqn:T; [apply find_exact|]. intros E; injection E as <-. intros x. split; [intros []|].
  intros (c & -> & R). destruct R; discriminate T.
Qed.
Lemma search_clause_exact k o r : search_clause TColumn k o = Ok r ->
  forall x, In x r <-> exists y c, clause_item k o y /\ x = OColumn c /\ refers y c.
Proof.
  unfold search_clause, clause_item. intros E x.
  destruct k; cbn [is_list_clause snql_separator] in *;
    try (rewrite (search_terms_exact o r E); split;
         [intros (l & y & c & L & I & -> & R); exists y, c; eauto
         |intros (y & c & (l & L & I) & -> & R); exists l, y, c; auto]);
    rewrite (search_one_exact o r E); (split; [intros (c & -> & R); exists o, c; auto|intros (y & c & -> & -> & R); eauto]).
Qed.
Lemma search_exact q r : search TColumn q = Ok r ->
  forall x, In x r <-> exists c, x = OColumn c /\ query_refers q c.
Proof.
  unfold search, query_refers. intros E x. apply bind_Ok in E as (m & E0 & E). apply bind_Ok in E as (cs & E & H).
  injection H as <-. apply search_match_none in E0. subst m. cbn [app].
  assert (P : forall ks cs, mapM (fun k => search_clause TColumn k (get k (q_clauses q))) ks = Ok cs ->
    (In x (List.concat cs) <-> exists k y c, In k ks /\ clause_item k (get k (q_clauses q)) y /\ x = OColumn c /\ refers y c)).
  { clear - RT. induction ks as [|k ks IH]; cbn; intros cs E.
    - injection E as <-. cbn. firstorder.
    - apply bind_Ok in E as (a & E1 & E). apply bind_Ok in E as (b & E2 & E). injection E as <-. cbn [List.concat].
      rewrite in_app_iff, (search_clause_exact _ _ _ E1), (IH b E2). split.
      + intros [(y & c & I & -> & R)|(k' & y & c & K & I & -> & R)]; [exists k, y, c|exists k', y, c]; auto.
      + intros (k' & y & c & [<-|K] & I & -> & R); [left; exists y, c|right; exists k', y, c]; auto. }
  rewrite (P _ _ E). split.
  - intros (k & y & c & _ & I & -> & R). exists c. split; [reflexivity|]. exists k, y. auto.
  - intros (c & -> & k & y & I & R). exists k, y, c. split; [|auto]. destruct k; cbn; tauto.
Qed.
End F.
