(** Equal queries are equally valid (C77). *)
From Verif Require Import PyBase PyFacts DateTime Objects Exprs Translate Optimizer Finder Query SpecExpr ExprFacts WfFacts PrintProps
  SpecOccurs SpecQuery LiteralFacts PyEqFacts OptFacts FinderFacts ValidateProps SpecEqual EqText.

Section E.
Context {RT : PyRT}.
Ltac ands := repeat match goal with H : _ && _ = true |- _ => apply andb4 in H as [? ?] end.
Definition peq (a b : obj) : Prop := py_eq a b = true.

(** * Kinds of equal objects *)
Lemma peq_kind a b : peq a b -> is_expression a = is_expression b /\ is_literal a = is_literal b /\ is_none a = is_none b.
Proof. unfold peq. intros E. destruct a, b; try discriminate E; repeat split. Qed.
Lemma scalar_all_eq l m : Forall (fun a => forall b, peq a b -> is_scalar a = is_scalar b) l -> Forall2 peq l m -> scalar_all l = scalar_all m.
Proof.
  intros H F. induction F as [|a b l m E F IH]; [reflexivity|]. inversion_clear H. cbn [scalar_all].
  destruct (peq_kind a b E) as (-> & _). rewrite (H0 b E), IH by assumption. reflexivity.
Qed.
Lemma scalar_eq a : forall b, peq a b -> is_scalar a = is_scalar b.
Proof.
  induction a using obj_ind'; intros y E; unfold peq in E; try (destruct y; try discriminate E; reflexivity).
  - destruct y; try discriminate E. rewrite !is_scalar_list. apply scalar_all_eq; [assumption|]. apply eq_list_Forall2, E.
  - destruct y; try discriminate E. rewrite !is_scalar_tuple. apply scalar_all_eq; [assumption|]. apply eq_list_Forall2, E.
Qed.
Lemma flt_zero f g : flt_eqb f g = true -> truthy (OFloat f) = truthy (OFloat g).
Proof.
  destruct f as [|x|n m e], g as [|y|n' m' e']; cbn; try discriminate; try reflexivity.
  destruct (fin_cmp n m e n' m' e') eqn:C; try discriminate. intros _. f_equal.
  set (k := Z.min e e'). apply (fin_eq _ _ _ _ _ _ k) in C; [|lia|lia]. unfold flt_num in C.
  assert (P : (0 < 2 ^ (e - k))%Z) by (apply Z.pow_pos_nonneg; lia). assert (P' : (0 < 2 ^ (e' - k))%Z) by (apply Z.pow_pos_nonneg; lia).
  destruct (N.eqb_spec m 0) as [->|M], (N.eqb_spec m' 0) as [->|M']; try reflexivity; exfalso; destruct n, n'; nia.
Qed.
Lemma truthy_int z : truthy (OInt z) = truthy (OFloat (flt_of_Z z)).
Proof. cbn. f_equal. destruct (Z.eqb_spec z 0) as [->|N]; [reflexivity|]. symmetry. apply N.eqb_neq. lia. Qed.
Lemma truthy_eq a b : peq a b -> truthy a = truthy b.
Proof.
  unfold peq. intros E.
  assert (B : forall x, truthy (OBool x) = truthy (OInt (if x then 1 else 0))) by (intros []; reflexivity).
  destruct a; destruct b; try discriminate E; try reflexivity; cbn [py_eq num_of num_eqb] in E; rewrite ?B.
  - apply Z.eqb_eq in E. rewrite E. reflexivity.
  - apply Z.eqb_eq in E. rewrite E. reflexivity.
  - rewrite truthy_int. apply flt_zero, E.
  - apply Z.eqb_eq in E. rewrite E. reflexivity.
  - apply Z.eqb_eq in E. rewrite E. reflexivity.
  - rewrite truthy_int. apply flt_zero, E.
  - rewrite truthy_int. symmetry. apply flt_zero, E.
  - rewrite truthy_int. symmetry. apply flt_zero, E.
  - apply flt_zero, E.
  - apply str_eqb_eq in E. subst. reflexivity.
  - apply str_eqb_eq in E. subst. reflexivity.
  - apply eq_list_Forall2 in E. destruct E; reflexivity.
  - apply eq_list_Forall2 in E. destruct E; reflexivity.
  - apply dict_iff in E as (L & _). match type of L with List.length ?a = List.length ?b => destruct a, b; cbn in L; try discriminate L; reflexivity end.
Qed.
Lemma leaf_refl {A} (mk : A -> obj) l : (forall a, peq (mk a) (mk a)) -> Forall2 peq (map mk l) (map mk l).
Proof. intros H. induction l; constructor; auto. Qed.
(** results: equal failures, or related values *)
Definition rel {A B} (R : A -> B -> Prop) (r : result A) (r' : result B) : Prop :=
  match r, r' with Ok a, Ok b => R a b | Raise e, Raise e' => e = e' | _, _ => False end.
Lemma rel_bind {A B C D} (R : A -> B -> Prop) (S : C -> D -> Prop) r r' (k : A -> result C) (k' : B -> result D) :
  rel R r r' -> (forall a b, R a b -> rel S (k a) (k' b)) -> rel S (bind r k) (bind r' k').
Proof. destruct r, r'; cbn; auto; contradiction. Qed.
Lemma rel_eq {A} (r r' : result A) : rel eq r r' -> r = r'.
Proof. destruct r, r'; cbn; try contradiction; congruence. Qed.
Lemma rel_refl {A} (r : result A) : rel eq r r.
Proof. destruct r; reflexivity. Qed.
(** the items of equal objects: equal, or keys of dictionaries, which may be in another order *)
Definition loose (a b : obj) : Prop := peq a b \/ exists s t, a = OStr s /\ b = OStr t.
Lemma loose_all l m : Forall2 peq l m -> Forall2 loose l m.
Proof. induction 1; constructor; [left; assumption|assumption]. Qed.
Lemma loose_keys : forall ks ks', List.length ks = List.length ks' -> Forall2 loose (map OStr ks) (map OStr ks').
Proof.
  induction ks as [|k ks IH]; intros [|k' ks'] L; try discriminate L; [constructor|]. injection L as L.
  cbn [map]. constructor; [right; eauto|apply IH, L].
Qed.
Lemma iter_eq a b : peq a b -> rel (Forall2 loose) (iter a) (iter b).
Proof.
  unfold peq. intros E. destruct a; destruct b; try discriminate E; try reflexivity; cbn [iter rel]; cbn [py_eq] in E.
  - apply str_eqb_eq in E. subst. apply loose_all, (leaf_refl (fun c => OStr [c])). intros; apply str_eqb_refl.
  - apply str_eqb_eq in E. subst. apply loose_all, (leaf_refl (fun c => OInt (Z.of_N c))). intros; apply Z.eqb_refl.
  - apply loose_all, eq_list_Forall2, E.
  - apply loose_all, eq_list_Forall2, E.
  - apply dict_iff in E as (L & _). apply loose_keys, L.
Qed.

(** * Columns of equal objects *)
Lemma column_eq_parts c c' : column_eqb c c' = true ->
  c_name c = c_name c' /\ c_sub c = c_sub c' /\ option_eqb entity_eqb (c_entity c) (c_entity c') = true.
Proof.
  unfold column_eqb. intros E. ands. split; [apply str_eqb_eq; assumption|]. split; [apply option_str_eq; assumption|assumption].
Qed.
Lemma peq_app l m l' m' : Forall2 peq l l' -> Forall2 peq m m' -> Forall2 peq (l ++ m) (l' ++ m').
Proof. apply Forall2_app. Qed.
Definition find_ok (a : obj) : Prop := forall b, peq a b -> rel (Forall2 peq) (find TColumn a) (find TColumn b).
Lemma find_exprs_eq l m : Forall find_ok l -> Forall2 peq l m -> rel (Forall2 peq) (find_exprs TColumn l) (find_exprs TColumn m).
Proof.
  intros H F. induction F as [|a b l m E F IH]; [constructor|]. inversion_clear H. cbn [find_exprs].
  destruct (peq_kind a b E) as (-> & _). destruct (is_expression b); [|apply IH; assumption].
  eapply rel_bind; [apply H0, E|]. intros x y X. eapply rel_bind; [apply IH; assumption|]. intros u v U. apply peq_app; assumption.
Qed.
Lemma find_all_eq l m : Forall find_ok l -> Forall2 peq l m -> rel (Forall2 peq) (find_all TColumn l) (find_all TColumn m).
Proof.
  intros H F. induction F as [|a b l m E F IH]; [constructor|]. inversion_clear H. cbn [find_all].
  eapply rel_bind; [apply H0, E|]. intros x y X. eapply rel_bind; [apply IH; assumption|]. intros u v U. apply peq_app; assumption.
Qed.
Lemma find_eq a : find_ok a.
Proof.
  induction a using obj_ind'; intros y E; pose proof E as E0; unfold peq in E; try (destruct y; try discriminate E; constructor; fail);
    destruct y; try discriminate E; cbn [py_eq] in E; fold eq_list in E; ands.
  - cbn [find]. eapply rel_bind; [|intros x y _; constructor]. rewrite (scalar_eq (OList l) (OList l0) E0). apply rel_refl.
  - cbn [find]. eapply rel_bind; [|intros x y _; constructor]. rewrite (scalar_eq (OTuple l) (OTuple l0) E0). apply rel_refl.
  - cbn. constructor; [exact E|constructor].
  - cbn. constructor; [assumption|constructor].
  - rewrite !find_func. eapply rel_bind; [apply find_exprs_eq; [assumption|apply eq_list_Forall2; assumption]|]. intros x y X.
    eapply rel_bind; [apply find_exprs_eq; [assumption|apply eq_list_Forall2; assumption]|]. intros u v U. apply peq_app; assumption.
  - cbn. apply IHa. assumption.
  - cbn. destruct l, rels; cbn in *; try discriminate; constructor.
  - cbn [find]. assert (o = o0) as <- by (destruct o, o0; cbn in *; congruence).
    destruct (peq_kind a2 y2) as (-> & _); [assumption|].
    eapply rel_bind; [apply IHa1; assumption|]. intros x y X. destruct (negb (is_unary o) && is_expression y2); [|exact X].
    eapply rel_bind; [apply IHa2; assumption|]. intros u v U. apply peq_app; assumption.
  - rewrite !find_bool. apply find_all_eq; [assumption|apply eq_list_Forall2; assumption].
  - cbn. apply IHa. assumption.
  - cbn [find isinst]. match goal with H : list_eqb column_eqb _ _ = true |- _ => rename H into L end.
    destruct l, cols; cbn in L; try discriminate L; [reflexivity|]. ands. cbn [flat_map app]. constructor; [assumption|].
    match goal with H : list_eqb column_eqb _ _ = true |- _ => revert H end. clear. revert cols.
    induction l as [|x l IH]; intros [|x' l'] L; cbn in L; try discriminate L; [constructor|]. ands. constructor; [assumption|apply IH; assumption].
Qed.
Lemma search_clause_eq k a b : peq a b -> rel (Forall2 peq) (search_clause TColumn k a) (search_clause TColumn k b).
Proof.
  intros E. unfold search_clause, search_terms, search_one. rewrite (truthy_eq a b E). destruct (is_list_clause k), (truthy b); try constructor; [|apply find_eq, E].
  eapply rel_bind; [apply iter_eq, E|]. intros l m F. eapply rel_bind with (R := Forall2 (Forall2 peq)).
  - induction F as [|x y l m X F IH]; [constructor|]. cbn [mapM]. eapply rel_bind with (R := Forall2 peq);
      [destruct X as [X|(s & t & -> & ->)]; [apply find_eq, X|constructor]|]. intros u v U.
    eapply rel_bind; [exact IH|]. intros us vs Us. constructor; assumption.
  - intros us vs U. cbn. induction U; [constructor|]. cbn [List.concat]. apply peq_app; assumption.
Qed.
Definition base_eq (q q' : query) : Prop :=
  match q, q' with
  | QBase b _, QBase b' _ => peq (obj_of_base b) (obj_of_base b') | QSub _ _, QSub _ _ => True | _, _ => False
  end.
Lemma search_eq q q' : base_eq q q' -> clauses_eq (q_clauses q) (q_clauses q') -> rel (Forall2 peq) (search TColumn q) (search TColumn q').
Proof.
  intros B C. unfold search. eapply rel_bind with (R := Forall2 peq).
  - destruct q as [b c|i c], q' as [b' c'|i' c']; cbn [base_eq] in B; try contradiction; [|constructor].
    destruct b, b'; try discriminate B; cbn [search_match]; [apply (find_eq (OEntity e)), B|constructor|apply (find_eq (OJoin k rels)), B].
  - intros x y X. eapply rel_bind with (R := Forall2 (Forall2 peq)).
    + generalize all_clauses as ks. induction ks as [|k ks IH]; [constructor|]. cbn [mapM].
      eapply rel_bind; [apply search_clause_eq, C|]. intros u v U. eapply rel_bind; [exact IH|]. intros us vs Us. constructor; assumption.
    + intros us vs U. cbn. apply peq_app; [exact X|]. induction U; [constructor|]. cbn [List.concat]. apply peq_app; assumption.
Qed.

(** * Data models and columns *)
Lemma sc_incl_contains l m n : sc_incl l m = true -> mem_str n (map sc_name l) = true -> mem_str n (map sc_name m) = true.
Proof.
  unfold sc_incl, mem_str. rewrite forallb_forall, !existsb_exists. intros H (x & I & X). apply in_map_iff in I as (s & <- & I).
  specialize (H s I). apply existsb_exists in H as (t & J & T). unfold sc_eqb in T. ands. exists (sc_name t). split; [apply in_map, J|].
  apply str_eqb_eq in X. subst. assumption.
Qed.
Lemma dm_contains_eq d d' n : dm_eqb d d' = true -> dm_contains d n = dm_contains d' n.
Proof.
  unfold dm_eqb, dm_contains. intros E. ands. apply Bool.eq_iff_eq_true. split; apply sc_incl_contains; assumption.
Qed.
Lemma option_rel {A} (f : A -> A -> bool) x y : option_eqb f x y = true ->
  match x, y with Some a, Some b => f a b = true | None, None => True | _, _ => False end.
Proof. destruct x, y; cbn; auto; discriminate. Qed.
Lemma validate_dm_eq dm dm' n s : option_eqb dm_eqb dm dm' = true -> validate_data_model dm n s = validate_data_model dm' n s.
Proof.
  intros E. apply option_rel in E. destruct dm as [d|], dm' as [d'|]; try contradiction; [|reflexivity]. cbn.
  rewrite (dm_contains_eq d d' _ E). reflexivity.
Qed.
Lemma entity_parts e e' : entity_eqb e e' = true -> e_name e = e_name e' /\ e_alias e = e_alias e' /\ option_eqb dm_eqb (e_dm e) (e_dm e') = true.
Proof.
  unfold entity_eqb. intros E. ands. split; [apply str_eqb_eq; assumption|]. split; [apply option_str_eq; assumption|assumption].
Qed.
Lemma column_validate_eq c c' : column_eqb c c' = true -> column_validate c = column_validate c'.
Proof.
  intros E. apply column_eq_parts in E as (N & S & E). unfold column_validate. rewrite N, S. apply option_rel in E.
  destruct (c_entity c) as [e|], (c_entity c') as [e'|]; try contradiction; [|reflexivity].
  apply entity_parts in E as (_ & A & D). unfold column_entity_check. rewrite A, (validate_dm_eq _ _ (c_name c') (c_sub c') D). reflexivity.
Qed.
Lemma rels_mappings l : forall l', list_eqb rel_eqb l l' = true -> alias_mappings l = alias_mappings l'.
Proof.
  induction l as [|r l IH]; intros [|r' l'] E; cbn [list_eqb] in E; try discriminate E; [reflexivity|]. ands. unfold alias_mappings in *. cbn [flat_map].
  rewrite (IH l') by assumption. match goal with H : rel_eqb r r' = true |- _ => unfold rel_eqb in H end. ands.
  match goal with H : entity_eqb (r_lhs r) _ = true, K : entity_eqb (r_rhs r) _ = true |- _ => apply entity_parts in H as (X1 & X2 & _), K as (Y1 & Y2 & _) end.
  unfold alias_pair. rewrite X1, X2, Y1, Y2. reflexivity.
Qed.
Lemma rel_ok r : wf_rel r -> rel_validate r = Ok tt.
Proof.
  intros (_ & _ & A & B & N). unfold rel_validate, has_alias. destruct (e_alias (r_lhs r)), (e_alias (r_rhs r)), (r_name r); try reflexivity; contradiction.
Qed.
Lemma revalidate_eq a b : wf a -> wf b -> peq a b -> revalidate a = revalidate b.
Proof.
  intros W V E. destruct (searchable a) eqn:S.
  - destruct a; try discriminate S; destruct b; try discriminate E;
      try (rewrite (wf_revalidate _ W), (wf_revalidate _ V); try reflexivity; intros; discriminate).
    apply column_validate_eq, E.
  - destruct a; try discriminate S; destruct b; try discriminate E; try reflexivity.
    + etransitivity; [exact (base_revalidate (BEntity _) W)|symmetry; exact (base_revalidate (BEntity _) V)].
    + etransitivity; [exact (base_revalidate (BStorage _) W)|symmetry; exact (base_revalidate (BStorage _) V)].
    + assert (X : forall x, wf (ORel x) -> wf_rel x) by (intros x X; inversion X; assumption). cbn [revalidate].
      rewrite (rel_ok _ (X _ W)), (rel_ok _ (X _ V)). reflexivity.
    + etransitivity; [exact (base_revalidate (BJoin _ _) W)|symmetry; exact (base_revalidate (BJoin _ _) V)].
Qed.

(** * The clauses *)
Lemma check_all_eq {A} (f g : A -> result unit) (R : A -> A -> Prop) l m : Forall2 R l m -> (forall x y, R x y -> f x = g y) -> check_all f l = check_all g m.
Proof. intros F H. induction F as [|x y l m X F IH]; [reflexivity|]. cbn [check_all]. rewrite (H x y X), IH. reflexivity. Qed.
Lemma iter_wf a l : wf a -> iter a = Ok l -> Forall wf l.
Proof.
  intros W E. destruct W; try discriminate E; cbn in E; injection E as <-; try assumption.
  - apply Forall_forall. intros x I. apply in_map_iff in I as (c & <- & _). constructor.
  - apply Forall_forall. intros x I. apply in_map_iff in I as (c & <- & _). constructor.
  - apply Forall_forall. intros x I. apply in_map_iff in I as (c & <- & _). constructor.
Qed.
Lemma validate_clause_eq k a b : wf a -> wf b -> peq a b -> validate_clause k a = validate_clause k b.
Proof.
  intros W V E. unfold validate_clause, list_validate, opt_validate. destruct (peq_kind a b E) as (_ & _ & ->).
  destruct (is_list_clause k), (is_none b); try reflexivity; [|apply revalidate_eq; assumption].
  pose proof (iter_eq a b E) as I. destruct (iter a) as [l|] eqn:A, (iter b) as [m|] eqn:B; cbn [rel] in I; try contradiction; [|subst; reflexivity].
  cbn [bind]. apply iter_wf in A, B; try assumption. clear - A B I. induction I as [|x y l m X F IH]; [reflexivity|].
  inversion_clear A. inversion_clear B. cbn [check_all]. rewrite IH by assumption. destruct X as [X|(s & t & -> & ->)]; [rewrite (revalidate_eq x y) by assumption|]; reflexivity.
Qed.
Lemma clauses_valid c c' : (forall k, wf (get k c)) -> (forall k, wf (get k c')) -> clauses_eq c c' ->
  check_all (fun k => validate_clause k (get k c)) all_clauses = check_all (fun k => validate_clause k (get k c')) all_clauses.
Proof.
  intros W V E. generalize all_clauses as ks. induction ks as [|k ks IH]; [reflexivity|]. cbn [check_all].
  rewrite IH, (validate_clause_eq k (get k c) (get k c') (W k) (V k) (E k)). reflexivity.
Qed.

(** * Columns against the match *)
Lemma dm_valid dm dm' l m : option_eqb dm_eqb dm dm' = true -> Forall2 peq l m -> validate_dm dm l = validate_dm dm' m.
Proof.
  intros D F. apply (check_all_eq _ _ _ _ _ F). intros x y E. unfold peq in E. destruct x, y; try discriminate E; try reflexivity.
  apply column_eq_parts in E as (-> & -> & _). apply validate_dm_eq, D.
Qed.
Lemma join_valid maps l m : Forall2 peq l m -> validate_join_with maps l = validate_join_with maps m.
Proof.
  intros F. apply (check_all_eq _ _ _ _ _ F). intros x y E. unfold peq in E. destruct x, y; try discriminate E; try reflexivity.
  apply column_eq_parts in E as (_ & _ & E). apply option_rel in E. destruct (c_entity c) as [e|], (c_entity c0) as [e'|]; try contradiction; [|reflexivity].
  apply entity_parts in E as (-> & -> & _). reflexivity.
Qed.
Definition names_eq (l m : list obj) : Prop := forall x y, In x l -> In y m -> peq x y ->
  match x, y with OFunc _ _ _ _ _ _ a, OFunc _ _ _ _ _ _ b => a = b | _, _ => True end.
Lemma inner_names_eq l m : Forall2 loose l m -> names_eq l m -> inner_names l = inner_names m.
Proof.
  intros F. unfold inner_names. induction F as [|x y l m E F IH]; intros N; [reflexivity|]. cbn [flat_map].
  rewrite IH by (intros u v I J; apply N; right; assumption). f_equal. destruct E as [E|(s & t & -> & ->)]; [|reflexivity]. pose proof (N x y (or_introl eq_refl) (or_introl eq_refl) E) as K. unfold peq in E.
  destruct x, y; try discriminate E; try reflexivity; [|subst; reflexivity]. apply column_eq_parts in E as (-> & _). reflexivity.
Qed.
Definition selects_agree (q q' : query) : Prop := forall l m,
  iter (c_select (q_clauses q)) = Ok l -> iter (c_select (q_clauses q')) = Ok m -> names_eq l m.
Fixpoint names_agree (q q' : query) : Prop :=
  match q, q' with QSub i _, QSub i' _ => selects_agree i i' /\ names_agree i i' | _, _ => True end.
Lemma get_of q k : get k (q_clauses q) = match q with QBase _ c | QSub _ c => get k c end.
Proof. destruct q; reflexivity. Qed.
Lemma sub_valid i i' l m : clauses_eq (q_clauses i) (q_clauses i') -> selects_agree i i' -> Forall2 peq l m ->
  validate_subquery i l = validate_subquery i' m.
Proof.
  intros C N F. unfold validate_subquery. pose proof (C CSelect) as S. cbn [get] in S. destruct (peq_kind _ _ S) as (_ & _ & ->).
  destruct (is_none _); [reflexivity|]. pose proof (iter_eq _ _ S) as I. unfold selects_agree in N.
  destruct (iter (c_select (q_clauses i))) as [s|], (iter (c_select (q_clauses i'))) as [s'|]; cbn [rel] in I; try contradiction; [|subst; reflexivity].
  cbn [bind]. rewrite (inner_names_eq s s' I (N s s' eq_refl eq_refl)). apply (check_all_eq _ _ _ _ _ F). intros x y E. unfold peq in E.
  destruct x, y; try discriminate E; try reflexivity. apply column_eq_parts in E as (-> & _). reflexivity.
Qed.
Lemma query_eq_parts q q' : query_eq q q' -> base_eq q q' /\ clauses_eq (q_clauses q) (q_clauses q').
Proof. destruct q, q'; cbn; try contradiction; intros [? ?]; auto. Qed.
Lemma match_valid q q' : query_eq q q' -> names_agree q q' -> validate_match q = validate_match q'.
Proof.
  intros E N. apply query_eq_parts in E as E'. destruct E' as [B C]. pose proof (search_eq q q' B C) as S. unfold validate_match.
  destruct (search TColumn q) as [l|], (search TColumn q') as [m|]; cbn [rel] in S; try contradiction; [|subst; reflexivity]. cbn [bind].
  destruct q as [b c|i c], q' as [b' c'|i' c']; cbn [base_eq] in B; try contradiction.
  - destruct b, b'; try discriminate B; cbn [obj_of_base peq py_eq] in B; unfold peq in B; cbn [py_eq] in B.
    + apply entity_parts in B as (_ & _ & D). apply dm_valid; assumption.
    + unfold storage_eqb in B. ands. apply dm_valid; assumption.
    + ands. rewrite (rels_mappings rels rels0) by assumption. apply join_valid, S.
  - destruct E as [E _], N as [N _]. apply query_eq_parts in E as [_ E]. apply sub_valid; assumption.
Qed.
Lemma Forall2_len {A B} (R : A -> B -> Prop) l m : Forall2 R l m -> List.length l = List.length m.
Proof. induction 1; cbn; congruence. Qed.
Lemma combine_valid q q' : query_eq q q' -> names_agree q q' -> validate_combine q = validate_combine q'.
Proof.
  intros E N. unfold validate_combine. rewrite (match_valid q q' E N). apply query_eq_parts in E as [_ C].
  pose proof (C CSelect) as S. pose proof (C CTotals) as T. pose proof (C CGroupby) as G. cbn [get] in S, T, G.
  destruct (peq_kind _ _ S) as (_ & _ & ->). rewrite (truthy_eq _ _ T), (truthy_eq _ _ G).
  pose proof (iter_eq _ _ S) as I. destruct (validate_match q') as [[]|]; [cbn [bind]|reflexivity].
  assert (K : forall (A : Type) (r r' : result unit) (k k' : unit -> result A), r = r' -> k tt = k' tt -> bind r k = bind r' k')
    by (intros A r r' k k' -> H; destruct r' as [[]|]; [exact H|reflexivity]).
  apply K.
  - destruct (is_none _); [reflexivity|]. destruct (iter (c_select (q_clauses q))) as [l|], (iter (c_select (q_clauses q'))) as [m|]; cbn [rel] in I; try contradiction; [|subst; reflexivity].
    cbn [bind]. rewrite (Forall2_len _ _ _ I). reflexivity.
  - destruct (truthy (c_totals (q_clauses q'))); [|reflexivity]. destruct (c_totals (q_clauses q)), (c_totals (q_clauses q')); try discriminate T; try reflexivity.
    cbn in T. apply Bool.eqb_prop in T. subst. reflexivity.
Qed.
Lemma valid_eq q : forall q', wf_query q -> wf_query q' -> query_eq q q' -> names_agree q q' -> validate q = validate q'.
Proof.
  assert (K : forall (A : Type) (r r' : result unit) (k k' : unit -> result A), r = r' -> k tt = k' tt -> bind r k = bind r' k')
    by (intros A r r' k k' -> H; destruct r' as [[]|]; [exact H|reflexivity]).
  induction q as [b c|i IH c]; intros [b' c'|i' c'] W V E N; cbn [query_eq wf_query] in *; try contradiction; cbn [validate].
  - apply K; [apply revalidate_eq; [apply W|apply V|apply E]|]. apply K; [apply clauses_valid; [apply W|apply V|apply E]|].
    apply combine_valid; assumption.
  - apply K; [apply IH; [apply W|apply V|apply E|apply N]|]. apply K; [apply clauses_valid; [apply W|apply V|apply E]|].
    apply combine_valid; assumption.
Qed.

(** * Required columns *)
Lemma flatten_eq a : forall b, peq a b -> Forall2 peq (flatten1 a) (flatten1 b).
Proof.
  induction a using obj_ind'; intros y E; pose proof E as E0; unfold peq in E; destruct y; try discriminate E; try (constructor; [exact E0|constructor]).
  cbn [py_eq] in E. fold eq_list in E. ands.
  match goal with X : bcls_eqb ?a ?b = true |- _ => assert (a = b) as <- by (destruct a, b; cbn in *; congruence); destruct a; try (constructor; [exact E0|constructor]) end.
  match goal with X : eq_list _ _ = true |- _ => apply eq_list_Forall2 in X; rename X into F end. clear E0.
  match goal with |- Forall2 peq (flatten1 (OBoolC _ _ _ ?l)) (flatten1 (OBoolC _ _ _ ?m)) => change (Forall2 peq (flat_map flatten1 l) (flat_map flatten1 m)) end.
  induction F as [|x y l m X F IH]; [constructor|]. inversion_clear H. cbn [flat_map]. apply peq_app; auto.
Qed.
Lemma matching_eq ops n al x y : peq x y -> matching_cond ops n al x = matching_cond ops n al y.
Proof.
  unfold peq. intros E. destruct x as [| | | | | | | | | | | | | | | | | | | | | | | | |x1 o x2| | | | | | | |]; try (destruct y; try discriminate E; reflexivity).
  destruct y; try discriminate E. cbn [py_eq] in E. ands. match goal with X : op_eqb o ?o' = true |- _ => assert (o = o') as <- by (destruct o, o'; cbn in *; congruence) end.
  match goal with X : py_eq x1 _ = true |- _ => rename X into K end.
  destruct x1; match type of K with py_eq _ ?y = true => destruct y; try discriminate K; try reflexivity end. cbn [matching_cond].
  apply column_eq_parts in K as (-> & _ & Y). apply option_rel in Y.
  destruct (c_entity c) as [e|], (c_entity c0) as [e'|]; try contradiction; [|reflexivity]. apply entity_parts in Y as (_ & -> & _). reflexivity.
Qed.
Lemma existsb_eq {A} (f : A -> bool) (R : A -> A -> Prop) l m : Forall2 R l m -> (forall x y, R x y -> f x = f y) -> existsb f l = existsb f m.
Proof. intros F H. induction F as [|x y l m X F IH]; [reflexivity|]. cbn. rewrite (H x y X), IH. reflexivity. Qed.
Lemma required_incl d d' (f : str -> bool) : sc_incl (dm_columns d) (dm_columns d') = true ->
  forallb (fun r => f (sc_name r)) (dm_required d') = true -> forallb (fun r => f (sc_name r)) (dm_required d) = true.
Proof.
  unfold sc_incl, dm_required. rewrite !forallb_forall. intros H K x I. apply filter_In in I as [I R]. specialize (H x I).
  apply existsb_exists in H as (y & J & E). unfold sc_eqb in E. ands.
  match goal with X : str_eqb _ _ = true, Y : Bool.eqb _ _ = true |- _ => apply str_eqb_eq in X; apply Bool.eqb_prop in Y; rewrite X; apply K, filter_In; split; [exact J|congruence] end.
Qed.
Lemma check_required_eq e e' a b : entity_eqb e e' = true -> peq a b -> check_entity_required e a = check_entity_required e' b.
Proof.
  intros E P. apply entity_parts in E as (_ & A & D). unfold check_entity_required. apply option_rel in D.
  destruct (e_dm e) as [d|], (e_dm e') as [d'|]; try contradiction; [|reflexivity].
  unfold dm_eqb in D. ands. unfold check_required_with. rewrite A, (truthy_eq a b P). destruct (negb (truthy b)); [reflexivity|].
  pose proof (iter_eq a b P) as I. destruct (iter a) as [l|], (iter b) as [m|]; cbn [rel] in I; try contradiction; [|subst; reflexivity]. cbn [bind].
  assert (T : Forall2 loose (get_first_level_and_conditions l) (get_first_level_and_conditions m)).
  { unfold get_first_level_and_conditions. clear - I. induction I as [|x y l m X F IH]; [constructor|]. cbn [flat_map]. apply Forall2_app; [|exact IH].
    destruct X as [X|(s & t & -> & ->)]; [apply loose_all, flatten_eq, X|constructor; [right; eauto|constructor]]. }
  assert (X : forall ops n, existsb (matching_cond ops n (e_alias e')) (get_first_level_and_conditions l)
                          = existsb (matching_cond ops n (e_alias e')) (get_first_level_and_conditions m)).
  { intros ops n. apply (existsb_eq _ _ _ _ T). intros x y [Y|(s & t & -> & ->)]; [apply matching_eq, Y|reflexivity]. }
  cbn [forallb]. rewrite !X. match goal with Y : sc_eqb _ _ = true |- _ => unfold sc_eqb in Y end. ands.
  match goal with Y : str_eqb (sc_name (dm_time d)) _ = true |- _ => apply str_eqb_eq in Y; rewrite Y end.
  replace (forallb (fun r => existsb (matching_cond [EQ; IN] (sc_name r) (e_alias e')) (get_first_level_and_conditions l)) (dm_required d))
    with (forallb (fun r => existsb (matching_cond [EQ; IN] (sc_name r) (e_alias e')) (get_first_level_and_conditions m)) (dm_required d')); [reflexivity|].
  apply Bool.eq_iff_eq_true. set (f := fun n => existsb (matching_cond [EQ; IN] n (e_alias e')) (get_first_level_and_conditions m)).
  transitivity (forallb (fun r => f (sc_name r)) (dm_required d) = true).
  - split; intros K; eapply (required_incl _ _ f); eassumption.
  - rewrite !forallb_forall. split; intros K x J; specialize (K x J); unfold f in *; rewrite X in *; exact K.
Qed.
Lemma required_eq q : forall q', query_eq q q' -> validate_required_columns q = validate_required_columns q'.
Proof.
  induction q as [b c|i IH c]; intros [b' c'|i' c'] E; cbn [query_eq] in E; try contradiction; destruct E as [E C]; cbn [validate_required_columns]; [|apply IH, E].
  pose proof (C CWhere) as W. cbn [get] in W. destruct b, b'; try discriminate E; [apply check_required_eq; assumption|reflexivity|].
  cbn [obj_of_base py_eq] in E. ands. apply (check_all_eq _ _ (fun e e' => entity_eqb e e' = true)); [|intros; apply check_required_eq; assumption].
  match goal with X : list_eqb rel_eqb _ _ = true |- _ => revert X end. clear. unfold join_entities. revert rels0.
  induction rels as [|r l IH]; intros [|r' l'] X; cbn [list_eqb] in X; try discriminate X; [constructor|]. ands. cbn [flat_map app].
  match goal with Y : rel_eqb _ _ = true |- _ => unfold rel_eqb in Y end. ands. constructor; [assumption|]. constructor; [assumption|apply IH; assumption].
Qed.

(** * Whole results *)
Lemma inner_agree q : forall q', query_eq q q' -> same_inner_aliases q q' -> names_agree q q'.
Proof.
  induction q as [b c|i IH c]; intros [b' c'|i' c'] E N; cbn [query_eq names_agree] in *; try contradiction; [exact I|]. split.
  - assert (K : forall (i : query) c l x, iter (c_select (q_clauses i)) = Ok l -> In x l -> is_func x = true -> selected_inside x (QSub i c)).
    { clear. intros i c l x L I F. destruct (c_select (q_clauses i)) eqn:S; try discriminate L; cbn in L; injection L as <-.
      1, 2, 5: apply in_map_iff in I as (? & <- & _); discriminate F.
      1, 2: eapply sel_list; [|exact I]; cbn [get]; rewrite S; auto. }
    intros l m L M x y X Y P. destruct x; try exact Logic.I. destruct y; try exact Logic.I.
    exact (N _ _ (K i c l _ L X eq_refl) (K i' c' m _ M Y eq_refl) P).
  - apply IH; [apply E|]. intros x y X Y. apply N; apply sel_deeper; assumption.
Qed.
Lemma looks_agree q : forall q', no_lookalikes q q' -> same_inner_aliases q q'.
Proof.
  intros q' N. assert (K : forall x q, selected_inside x q -> exists o, part_of o q /\ occurs x o).
  { clear. induction 1 as [i c l S I|i c H (o & P & O)].
    - exists (get CSelect (q_clauses i)). split; [apply po_inner; destruct i; constructor|].
      destruct S as [-> | ->]; econstructor; [exact I|constructor|exact I|constructor].
    - exists o. split; [apply po_inner; exact P|exact O]. }
  intros x y X Y E. apply K in X as (o & P & O), Y as (o' & P' & O'). specialize (N o o' x y P P' O O' E).
  destruct x; destruct y; try discriminate E; try reflexivity. apply N.
Qed.
Lemma optimize_same q q' : wf_query q -> wf_query q' -> twq q q' -> validate q = Ok tt -> validate q' = Ok tt ->
  (let! o := optimize_query q in print_query ($" ") o) = (let! o := optimize_query q' in print_query ($" ") o).
Proof.
  intros W V T X X'. destruct (clauses_of q q' W V T) as (W1 & V1 & T1). unfold optimize_query. rewrite (none_tw _ _ T1).
  destruct (is_none (c_where (q_clauses q'))); [apply print_tw; assumption|].
  pose proof (iter_tw _ _ T1) as I. pose proof (iter_eq _ _ (proj1 T1)) as R.
  destruct (iter (c_where (q_clauses q))) as [l|] eqn:L, (iter (c_where (q_clauses q'))) as [l'|] eqn:L'; cbn [rel] in R; try contradiction; [|subst; reflexivity].
  apply (iter_wf _ _ W1) in L. apply (iter_wf _ _ V1) in L'. cbn [bind].
  rewrite (optimize_items l L), (optimize_items l' L'). cbn [bind].
  assert (Y : existsb (fun c => match merge c with Some _ => true | None => false end) l = existsb (fun c => match merge c with Some _ => true | None => false end) l').
  { clear - L L' I. induction I as [|a b l l' T F IH]; [reflexivity|]. inversion_clear L. inversion_clear L'. cbn [existsb].
    rewrite (merge_kind a b), IH; auto. }
  rewrite Y. destruct (existsb _ l'); [|apply print_tw; assumption].
  assert (P : forall q v, validate q = Ok tt -> replace_clause q CWhere v = Ok (q_with q (upd CWhere v (q_clauses q)))).
  { clear. intros q v X. unfold replace_clause, post_init. destruct q as [b c|i c]; [reflexivity|]. cbn [q_with q_clauses].
    cbn [validate] in X. destruct (validate i); [reflexivity|discriminate]. }
  rewrite !P by assumption. cbn [bind]. apply print_where; try assumption. intros al. apply opt_where; assumption.
Qed.
Lemma serialize_same q q' : wf_query q -> wf_query q' -> query_eq q q' -> no_lookalikes q q' -> serialize q = serialize q'.
Proof.
  intros W V E N. unfold serialize. pose proof (valid_eq q q' W V E (inner_agree q q' E (looks_agree q q' N))) as X.
  destruct (validate q') as [[]|e] eqn:Y; rewrite X; [|reflexivity]. cbn [bind]. apply optimize_same; try assumption. apply query_twq; assumption.
Qed.
Lemma print_same q q' : wf_query q -> wf_query q' -> query_eq q q' -> no_lookalikes q q' -> print q = print q'.
Proof.
  intros W V E N. unfold print. rewrite (valid_eq q q' W V E (inner_agree q q' E (looks_agree q q' N))).
  rewrite (print_tw q q' [NL] W V (query_twq q q' E N)). reflexivity.
Qed.
End E.
