(** Structural invariants of API-built objects: everything the constructors guarantee,
    at every depth. [api_wf]: what the API builds is well-formed. *)
From Verif Require Import PyBase PyFacts Regex DateTime Objects Exprs SpecExpr ExprFacts ExprProps.

Section Wf.
Context {RT : PyRT}.

Definition wf_sample (s : option flt) : Prop := forall f, s = Some f -> not_le_zero f.
Definition wf_entity (e : entity) : Prop :=
  entity_name (e_name e) /\ e_alias e <> Some [] /\ wf_sample (e_sample e).
Definition wf_storage (s : storage) : Prop := entity_name (st_name s) /\ wf_sample (st_sample s).
Definition wf_column (c : column) : Prop :=
  column_name (c_name c) /\ column_parts (c_name c) = (c_sub c, c_key c)
  /\ forall e, c_entity c = Some e -> wf_entity e /\ e_alias e <> None
       /\ forall d, e_dm e = Some d -> In (c_name c) (map sc_name (dm_columns d)).
Definition wf_alias (a : option str) : Prop := forall s, a = Some s -> alias_name s.
Definition wf_rel (r : relationship) : Prop :=
  wf_entity (r_lhs r) /\ wf_entity (r_rhs r) /\ e_alias (r_lhs r) <> None
  /\ e_alias (r_rhs r) <> None /\ r_name r <> [].
Definition wf_join (rels : list relationship) : Prop :=
  rels <> [] /\ Forall wf_rel rels /\ join_check [] (alias_mappings rels) = Ok tt.

Inductive wf : obj -> Prop :=
| wf_none : wf ONone
| wf_bool b : wf (OBool b)
| wf_int z : wf (OInt z)
| wf_float f : wf (OFloat f)
| wf_str s : wf (OStr s)
| wf_bytes b : wf (OBytes b)
| wf_date d : valid_date d -> wf (ODate d)
| wf_datetime t : valid_datetime t -> wf (ODateTime t)
| wf_list l : Forall wf l -> wf (OList l)
| wf_tuple l : Forall wf l -> wf (OTuple l)
| wf_dict ks vs : Forall wf vs -> wf (ODict ks vs)
| wf_op o : wf (OOp o)
| wf_boolop o : wf (OBoolOp o)
| wf_dir d : wf (ODir d)
| wf_dm d : wf (ODataModel d)
| wf_other i : wf (OOther i)
| wf_col c : wf_column c -> wf (OColumn c)
| wf_aliased c a : wf_column c -> wf_alias a -> wf (OAliased c a)
| wf_func f n ik il pk pl a : function_name n -> wf_alias a ->
    (ik = KNone -> il = []) -> (pk = KNone -> pl = []) ->
    Forall (fun x => init_ok x = true) il -> Forall param_ok pl ->
    Forall wf il -> Forall wf pl -> wf (OFunc f n ik il pk pl a)
| wf_ident n : identifier_name n -> wf (OIdent n)
| wf_lambda k ids b : Forall identifier_name ids -> is_func b = true -> wf b -> wf (OLambda k ids b)
| wf_ent e : wf_entity e -> wf (OEntity e)
| wf_sto s : wf_storage s -> wf (OStorage s)
| wf_relation r : wf_rel r -> wf (ORel r)
| wf_jn k rels : wf_join rels -> wf (OJoin k rels)
| wf_cond l o r : check_condition l o r = Ok tt -> wf l -> wf r -> wf (OCond l o r)
| wf_boolc c o k l : (2 <= List.length l)%nat -> Forall (fun x => is_condition_obj x = true) l ->
    Forall wf l -> wf (OBoolC c o k l)
| wf_orderby e d : is_col_or_func e = true -> wf e -> wf (OOrderBy e d)
| wf_limitby k l n : l <> [] -> Forall wf_column l -> (0 < pyint_Z n <= 10000)%Z -> wf (OLimitBy k l n)
| wf_limit n : (1 <= pyint_Z n <= 10000)%Z -> wf (OLimit n)
| wf_offset n : (0 <= pyint_Z n)%Z -> wf (OOffset n)
| wf_granularity n : (1 <= pyint_Z n)%Z -> wf (OGranularity n)
| wf_totals b : wf (OTotals b)
| wf_extrapolate b : wf (OExtrapolate b).

Lemma check_alias_wf a e r : check_alias a e = Ok r -> wf_alias r.
Proof.
  unfold check_alias. destruct a as [| | | |s| | | | | | | | | | | | | | | | | | | | | | | | | | | | |];
    try discriminate.
  - intros H. injection H as <-. intros s H. discriminate.
  - destruct s as [|c s]; [discriminate|]. destruct (re_matches alias_re (c :: s)) eqn:E; [|discriminate].
    intros H. injection H as <-. intros s' H. injection H as <-.
    apply alias_re_iff in E. split; [discriminate|exact E].
Qed.
Lemma as_seq_wf o k l : wf o -> as_seq o = Some (k, l) -> Forall wf l.
Proof.
  intros W E. destruct W; try discriminate; injection E as <- <-; try assumption;
    apply Forall_forall; intros x Hx; apply in_map_iff in Hx as (y & <- & _); constructor.
Qed.
Lemma as_lt_wf o k l : wf o -> as_list_or_tuple o = Some (k, l) -> Forall wf l.
Proof. intros W E. destruct W; try discriminate; injection E as <- <-; assumption. Qed.

Lemma int_clause_wf o mn mx k r : int_clause o mn mx k = Ok r ->
  exists i, r = k i /\ match mn with Some m => (m <= pyint_Z i)%Z | None => True end
    /\ match mx with Some m => (pyint_Z i <= m)%Z | None => True end.
Proof.
  unfold int_clause. destruct (as_int o) as [i|]; [|discriminate]. unfold validate_int_literal.
  intros H. exists i.
  destruct mn as [m|]; [destruct (Z.ltb_spec (pyint_Z i) m); [discriminate|]|];
    (destruct mx as [m'|]; [rewrite Z.gtb_ltb in H; destruct (Z.ltb_spec m' (pyint_Z i)); [discriminate|]|]);
    cbn in H; injection H as <-; auto.
Qed.
Lemma check_sample_wf s e r : check_sample s e = Ok r -> wf_sample r.
Proof.
  unfold check_sample. destruct s; try discriminate.
  - intros H; injection H as <-. intros f H. discriminate.
  - destruct (flt_le0 f) eqn:E; [discriminate|]. intros H; injection H as <-.
    intros f' H; injection H as <-. destruct f as [|neg|neg m ex]; cbn in *; [exact I|exact E|].
    apply orb_false_iff in E as [-> E]. apply N.eqb_neq in E. auto.
Qed.
Lemma check_word_wf n e r : check_word n e = Ok r -> entity_name r.
Proof.
  unfold check_word. destruct n; try discriminate. destruct (re_matches word_name_re s) eqn:E; [|discriminate].
  intros H; injection H as <-. apply word_name_re_iff, E.
Qed.
Lemma all_columns_wf l : forall r, all_columns l = Some r -> Forall wf l -> Forall wf_column r.
Proof.
  induction l as [|x l IH]; cbn; intros r E W; [injection E as <-; constructor|].
  destruct x; try discriminate. destruct (all_columns l); [|discriminate]. injection E as <-.
  inversion W as [|? ? W1 W2]; subst. inversion W1; subst. constructor; auto.
Qed.
Lemma all_rels_wf l : forall r, all_rels l = Some r -> Forall wf l -> Forall wf_rel r.
Proof.
  induction l as [|x l IH]; cbn; intros r E W; [injection E as <-; constructor|].
  destruct x; try discriminate. destruct (all_rels l); [|discriminate]. injection E as <-.
  inversion W as [|? ? W1 W2]; subst. inversion W1; subst. constructor; auto.
Qed.
Lemma check_param_items_ok l : check_param_items l = Ok tt -> Forall param_ok l.
Proof.
  induction l as [|p l IH]; cbn; intros H; [constructor|].
  destruct (is_param_expr p) eqn:E.
  - constructor; [left; apply is_param_expr_iff, E|auto].
  - apply bind_Ok in H as ([] & E1 & H); [|discriminate].
    constructor; [right; apply is_scalar_true, E1|auto].
Qed.
Lemma check_params_wf p k l : check_params p = Ok (k, l) -> wf p ->
  Forall param_ok l /\ Forall wf l /\ (k = KNone -> l = []).
Proof.
  intros E W. unfold check_params in E.
  assert (D : p = ONone \/ match as_seq p with
         | None => Raise InvalidFunctionError
         | Some (k, l) => check_param_items l ;! Ok (k, l)
         end = Ok (k, l)) by (destruct p; auto).
  destruct D as [->|D].
  - injection E as <- <-. repeat split; constructor.
  - destruct (as_seq p) as [[k' l']|] eqn:S; [|discriminate].
    apply bind_Ok in D as ([] & C & D). injection D as <- <-.
    split; [apply check_param_items_ok, C|]. split; [eapply as_seq_wf; eauto|].
    intros ->. destruct p; discriminate.
Qed.
Lemma check_inits_wf p k l : check_inits p = Ok (k, l) -> wf p ->
  Forall (fun x => init_ok x = true) l /\ Forall wf l /\ (k = KNone -> l = []).
Proof.
  intros E W. unfold check_inits in E.
  assert (D : p = ONone \/ match as_seq p with
         | None => Raise InvalidFunctionError
         | Some (k, l) => if forallb init_ok l then Ok (k, l) else Raise InvalidFunctionError
         end = Ok (k, l)) by (destruct p; auto).
  destruct D as [->|D].
  - injection E as <- <-. repeat split; constructor.
  - destruct (as_seq p) as [[k' l']|] eqn:S; [|discriminate].
    destruct (forallb init_ok l') eqn:F; [|discriminate]. injection D as <- <-.
    split; [apply Forall_forall, forallb_forall, F|]. split; [eapply as_seq_wf; eauto|].
    intros ->. destruct p; discriminate.
Qed.
Lemma mk_func_wf isf f i p a o : mk_func isf f i p a = Ok o -> wf i -> wf p -> wf o.
Proof.
  intros E Wi Wp. unfold mk_func in E.
  apply bind_Ok in E as (n & En & E). apply bind_Ok in E as ((ik & il) & Ei & E).
  apply bind_Ok in E as (al & Ea & E). apply bind_Ok in E as ((pk & pl) & Ep & E). injection E as <-.
  destruct (check_inits_wf _ _ _ Ei Wi) as (I1 & I2 & I3).
  destruct (check_params_wf _ _ _ Ep Wp) as (P1 & P2 & P3).
  constructor; auto.
  - unfold check_function_name in En. destruct f; try discriminate. destruct s; [discriminate|].
    destruct (re_matches function_name_re (n0 :: s)) eqn:R; [|discriminate]. injection En as <-.
    apply function_name_re_iff, R.
  - eapply check_alias_wf; eauto.
Qed.
Lemma check_idents_wf l : forall r, check_idents l = Ok r -> Forall identifier_name r.
Proof.
  induction l as [|x l IH]; cbn; intros r E; [injection E as <-; constructor|].
  destruct x; try discriminate. destruct (re_matches identifier_re s) eqn:R; [|discriminate].
  apply bind_Ok in E as (r' & E & E'). injection E' as <-. constructor; [apply identifier_re_iff, R|auto].
Qed.
Lemma mk_boolean_wf c p l o : mk_boolean c p l = Ok o -> wf l -> wf o.
Proof.
  intros E W. unfold mk_boolean in E. destruct p; try discriminate.
  destruct (as_list_or_tuple l) as [[k l']|] eqn:S; [|discriminate].
  apply bind_Ok in E as ([] & C & E). injection E as <-. unfold check_bool_items in C.
  destruct (Nat.ltb_spec (List.length l') 2) as [L|L]; [discriminate|]. apply assert_Ok in C.
  constructor; [exact L|apply Forall_forall, forallb_forall, C|eapply as_lt_wf; eauto].
Qed.

Lemma api_wf o : api o -> wf o.
Proof.
  revert o. fix IH 2. intros o A. destruct A.
  - constructor.
  - constructor.
  - constructor.
  - constructor.
  - constructor.
  - constructor.
  - constructor; assumption.
  - constructor; assumption.
  - constructor. induction H; constructor; auto.
  - constructor. induction H; constructor; auto.
  - constructor. induction H; constructor; auto.
  - constructor.
  - constructor.
  - constructor.
  - constructor.
  - constructor.
  - apply int_clause_wf in H as (i & -> & H1 & H2). constructor; lia.
  - apply int_clause_wf in H as (i & -> & H1 & H2). constructor; lia.
  - apply int_clause_wf in H as (i & -> & H1 & H2). constructor; lia.
  - destruct a; try discriminate. injection H as <-. constructor.
  - destruct a; try discriminate. injection H as <-. constructor.
  - unfold mk_entity in H. apply bind_Ok in H as (n' & En & H). apply bind_Ok in H as (s' & Es & H).
    apply bind_Ok in H as (a' & Ea & H). apply bind_Ok in H as (d' & Ed & H). injection H as <-.
    constructor. split; [eapply check_word_wf; eauto|]. split; [|eapply check_sample_wf; eauto].
    cbn. destruct a; try discriminate; [injection Ea as <-; discriminate|].
    destruct s0; [discriminate|]. injection Ea as <-. discriminate.
  - unfold mk_storage in H. apply bind_Ok in H as (n' & En & H). apply bind_Ok in H as (s' & Es & H).
    apply bind_Ok in H as (d' & Ed & H). injection H as <-.
    constructor. split; [eapply check_word_wf; eauto|eapply check_sample_wf; eauto].
  - apply IH in A2. apply mk_column_Ok in H. destruct H as (n' & H).
    destruct H as (ent & -> & CN & CE & EE & ->). constructor. split; [exact CN|].
    split; [cbn; destruct (column_parts n'); reflexivity|]. cbn.
    intros e0 ->. destruct EE as [[_ ?]|(e' & -> & Ee)]; [discriminate|]. injection Ee as <-.
    inversion A2; subst. split; [assumption|].
    destruct CE as [?|(e1 & a & Ee & Ha & Hne & Hd)]; [discriminate|]. injection Ee as <-.
    split; [congruence|exact Hd].
  - apply IH in A1. unfold mk_aliased in H. destruct e; try discriminate.
    apply bind_Ok in H as (a' & Ea & H). injection H as <-. inversion A1; subst.
    constructor; [assumption|eapply check_alias_wf; eauto].
  - eapply mk_func_wf; [exact H|..]; try (apply IH; assumption).
  - eapply mk_func_wf; [exact H|..]; try (apply IH; assumption). constructor.
  - unfold mk_identifier in H. destruct n; try discriminate.
    destruct (re_matches identifier_re s) eqn:R; [|discriminate]. injection H as <-.
    constructor. apply identifier_re_iff, R.
  - apply IH in A2. unfold mk_lambda in H. destruct (as_list_or_tuple i) as [[k l]|]; [|discriminate].
    apply bind_Ok in H as (r & C & H). destruct (is_func b) eqn:F; [|discriminate]. injection H as <-.
    constructor; [eapply check_idents_wf; eauto|exact F|exact A2].
  - apply IH in A1. apply IH in A3. unfold mk_condition in H. destruct (negb _) eqn:N in H; [discriminate|].
    destruct p; try discriminate. apply bind_Ok in H as ([] & C & H). injection H as <-.
    constructor; assumption.
  - eapply mk_boolean_wf; [exact H|apply IH; assumption].
  - eapply mk_boolean_wf; [exact H|apply IH; assumption].
  - eapply mk_boolean_wf; [exact H|apply IH; assumption].
  - apply IH in A1. unfold mk_orderby in H. destruct (is_col_or_func e) eqn:E; [|discriminate].
    destruct d; try discriminate. injection H as <-. constructor; assumption.
  - apply IH in A1. unfold mk_limitby in H. destruct (as_seq l) as [[k l']|] eqn:S; [|discriminate].
    destruct (Nat.ltb_spec (List.length l') 1) as [L|L]; [discriminate|].
    destruct (all_columns l') as [cs|] eqn:C; [|discriminate].
    destruct (as_int n) as [i|]; [|discriminate]. destruct (_ || _) eqn:B in H; [discriminate|]. injection H as <-.
    apply orb_false_iff in B as [B1 B2]. apply Z.leb_gt in B1. rewrite Z.gtb_ltb in B2. apply Z.ltb_ge in B2.
    constructor; [|eapply all_columns_wf; eauto; eapply as_seq_wf; eauto|lia].
    intros ->. destruct l' as [|x l']; [cbn in L; lia|]. cbn in C. destruct x; try discriminate.
    destruct (all_columns l'); discriminate.
  - apply IH in A1. apply IH in A3. unfold mk_relationship in H. cbv zeta in H.
    apply bind_Ok in H as (e1 & E1 & H). apply bind_Ok in H as (e2 & E2 & H).
    destruct l; try discriminate. destruct r; try discriminate.
    destruct (e_alias e) eqn:N1; [|discriminate]. destruct (e_alias e0) eqn:N2; [|discriminate].
    injection E1 as <-. injection E2 as <-. destruct n; try discriminate. destruct s1; [discriminate|].
    injection H as <-. inversion A1; subst. inversion A3; subst. constructor.
    repeat split; cbn; try congruence; try (apply H0); try (apply H1).
  - apply IH in A. unfold mk_join in H. destruct (as_list_or_tuple l) as [[k l']|] eqn:S; [|discriminate].
    destruct l' as [|x l']; [discriminate|]. destruct (all_rels (x :: l')) as [rs|] eqn:R; [|discriminate].
    apply bind_Ok in H as ([] & C & H). injection H as <-. constructor.
    split; [|split; [eapply all_rels_wf; eauto; eapply as_lt_wf; eauto|exact C]].
    intros ->. cbn in R. destruct x; try discriminate. destruct (all_rels l'); discriminate.
Qed.
End Wf.
