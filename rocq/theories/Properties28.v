(** C81: invalid legacy bodies are reported with the SDK's exceptions. *)
From Verif Require Import PyBase PyFacts DateTime Objects Exprs SpecExpr Query SpecSetters SpecMetricsQuery Json SpecJson Request SpecRequest Strptime Legacy SpecLegacy LegacyFacts
  LegacyProps SpecBody BodyFacts SpecErrors ErrorFacts SpecFromJson SpecShape ShapeFacts Properties6 Properties27 Concrete ConcreteLegacy.

Section P.
Context {RT : PyRT} {CV : PyConv}.

(** ** C81 For an invalid legacy body json_to_snql raises one of the exceptions its documentation names.
    False: see the refutations below. What holds: bodies of the expected shape, whatever names,
    operands, aliases and numbers they hold, are converted or refused with one of those exceptions,
    or with InvalidEntityError. For bodies of another shape: C81_every_partial, and the refutations *)
Theorem C81_shape_partial : forall body entity, body_shape body ->
  (exists r, snd (json_to_snql body entity) = Ok r)
  \/ (exists e, snd (json_to_snql body entity) = Raise e /\ In e (InvalidEntityError :: documented)).
Proof.
  intros body entity S. pose proof (proj1 (shaped_errors body entity S)) as H.
  destruct (snd (json_to_snql body entity)) as [r|e]; [left; eauto|right]. exists e. split; [reflexivity|]. apply H. reflexivity.
Qed.
(** InvalidEntityError is raised only if the name of the entity or the sampling rate is refused *)
Theorem C81_entity_partial : forall body entity, body_shape body -> entity_fine body entity ->
  (exists r, snd (json_to_snql body entity) = Ok r)
  \/ (exists e, snd (json_to_snql body entity) = Raise e /\ In e documented).
Proof.
  intros body entity S F. pose proof (proj2 (shaped_errors body entity S) F) as H.
  destruct (snd (json_to_snql body entity)) as [r|e]; [left; eauto|right]. exists e. split; [reflexivity|]. apply H. reflexivity.
Qed.


(** *** Every body: the exceptions that can be raised at all. InvalidRequestError, which the
    documentation names, is not among them. [any] is what is raised for any body *)
Notation any r := (raises_only legacy_errors r).
Ltac any_step :=
  match goal with
  | |- raises_only _ (Ok _) => apply ro_ok
  | |- raises_only _ (Raise (no_method ?a)) => apply ro_raise; destruct a; cbn; tauto
  | |- raises_only _ (Raise _) => apply ro_raise; cbn; tauto
  | |- raises_only _ (bind _ _) => apply ro_bind; [|intros ? _]
  | |- raises_only _ (mk_column _ _) => eapply ro_sub; [apply ro_column|cbn; tauto]
  | |- raises_only _ (mk_function _ _ _) => eapply ro_sub; [apply ro_func|cbn; tauto]
  | |- raises_only _ (mk_condition _ _ _) => eapply ro_sub; [apply ro_condition|cbn; tauto]
  | |- raises_only _ (mk_or _) => eapply ro_sub; [apply ro_boolean|cbn; tauto]
  | |- raises_only _ (mk_orderby _ _) => eapply ro_sub; [apply ro_orderby|cbn; tauto]
  | |- raises_only _ (mk_limitby _ _) => eapply ro_sub; [apply ro_limitby|cbn; tauto]
  | |- raises_only _ (mk_entity _ _ _ _) => eapply ro_sub; [apply ro_entity|cbn; tauto]
  | |- raises_only _ (mk_query _ _) => eapply ro_sub; [apply ro_query|cbn; tauto]
  | |- raises_only _ (set_clause _ _ _) => eapply ro_sub; [apply ro_set|cbn; tauto]
  | |- raises_only _ (if ?b then _ else _) => destruct b
  | |- raises_only _ (match ?x with _ => _ end) => destruct x
  end.
Lemma any_mapM {A B} (f : A -> result B) l : (forall x, In x l -> any (f x)) -> any (mapM f l).
Proof.
  induction l as [|x l IH]; intros H; [apply ro_ok|]. cbn [mapM]. apply ro_bind; [apply H; left; reflexivity|]. intros y _.
  apply ro_bind; [apply IH; intros; apply H; right; assumption|]. intros. apply ro_ok.
Qed.
Lemma any_iter o : any (iter o).
Proof. unfold iter. any_step; any_step. Qed.
Lemma any_index o i : any (index o i).
Proof. unfold index. cbv zeta. repeat any_step. Qed.
Lemma any_is_condition o : any (is_condition o).
Proof. unfold is_condition, py_len. repeat first [apply any_index|any_step]. Qed.
Lemma any_rest l b c : any c -> any (condition_rest l b c).
Proof. intros H. unfold condition_rest, op_of. repeat first [exact H|any_step]. Qed.
Lemma any_function l p : any (condition_function l p).
Proof. unfold condition_function. repeat any_step. Qed.
Lemma any_exp v : any (parse_exp v) /\ (forall l, v = OList l -> any (mapM parse_exp l)).
Proof.
  induction v using obj_ind'; (split; [|first [discriminate|intros l0 E; injection E as <-]]); try (apply ro_ok).
  - unfold parse_exp, parse_string_exp. repeat any_step.
  - cbn [parse_exp]. apply ro_bind; [apply any_is_condition|]. intros b _. destruct b.
    + destruct l as [|a [|b r]]; [any_step|any_step|]. inversion H as [|? ? (Ha & _) _]; subst.
      apply ro_bind; [exact Ha|]. intros lhs _. apply ro_bind; [apply any_rest, any_index|]. intros p _. apply any_function.
    + destruct l as [|a [|b r]]; [any_step|destruct a; any_step|]. inversion H as [|? ? _ H']; subst. inversion H' as [|? ? (Hb & Hb') _]; subst.
      apply ro_bind; [unfold legacy_alias; destruct r as [|x r]; [any_step|]; destruct (truthy x); [destruct x; any_step|any_step]|]. intros al _.
      destruct a; try (any_step; fail). any_step; [any_step|]. any_step; [any_step|]. apply ro_bind; [|intros; any_step].
      destruct b; try (any_step; [apply ro_bind; [exact Hb|intros; apply ro_ok]|apply ro_ok]).
      apply ro_bind; [rewrite exps_mapM; apply Hb'; reflexivity|intros; apply ro_ok].
  - apply any_mapM. intros x I. rewrite Forall_forall in H. apply H, I.
Qed.
Lemma any_exp1 v : any (parse_exp v). Proof. apply any_exp. Qed.
Lemma any_condition c : any (parse_condition c).
Proof. unfold parse_condition. repeat first [apply any_index|apply any_exp1|apply any_rest, any_index|any_step]. Qed.
Lemma any_extension b k c a : any (extension b k c a).
Proof. unfold extension, parse_extension. cbv zeta. repeat any_step. Qed.
Lemma any_time b c k o : any (time_bound b c k o).
Proof. unfold time_bound, date_value. cbv zeta. repeat any_step. Qed.
Lemma any_extensions b e : any (extensions b e).
Proof. unfold extensions. repeat first [apply any_extension|apply any_time|any_step]. Qed.
Lemma any_where c : any (convert_where c).
Proof. unfold convert_where. repeat first [apply any_is_condition|apply any_condition|apply any_iter|apply any_mapM; intros ? _|any_step]. Qed.
Lemma any_having c : any (convert_having c).
Proof. unfold convert_having. repeat first [apply any_is_condition|apply any_condition|apply any_iter|apply any_mapM; intros ? _|any_step]. Qed.
Lemma any_orders l : forall part, any (snd (convert_orderby l part)).
Proof.
  induction l as [|o l IH]; intros part; [apply ro_ok|]. cbn [convert_orderby].
  assert (X : any (snd (orderby_item o part))).
  { unfold orderby_item. destruct o as [| | | | |s| | |l0| | | | | | | | | | | | | | | | | | | | | | | | |]; cbn [snd]; try (repeat any_step; fail).
    all: try (destruct (startswith _ _); cbn [snd]; apply any_exp1).
    destruct l0 as [|x l0]; [cbn [snd]; any_step|]. destruct x; cbn [snd]; try apply any_exp1. cbv zeta. destruct (startswith _ _); cbn [snd]; apply any_exp1. }
  destruct (orderby_item o part) as ((o' & d) & r). cbn [snd] in X. destruct r as [p|x]; [|cbn [snd]; intros y E; injection E as <-; apply X; reflexivity].
  destruct (mk_orderby p (ODir d)) as [ob|x] eqn:E.
  - specialize (IH (Some p)). destruct (convert_orderby l (Some p)) as (rest & rs). cbn [snd] in *. apply ro_bind; [exact IH|intros; apply ro_ok].
  - cbn [snd]. intros y Ey. injection Ey as <-. pose proof (ro_orderby p (ODir d) x E) as I. cbn in *. tauto.
Qed.
Lemma any_float : conversions_raise -> forall o, any (as_python_float o).
Proof. intros C o. unfold as_python_float. destruct o; try apply ro_ok; (eapply ro_sub; [apply C|cbn; tauto]). Qed.
Lemma any_int : conversions_raise -> forall o, any (as_python_int o).
Proof. intros C o. unfold as_python_int. destruct o; try apply ro_ok; (eapply ro_sub; [apply C|cbn; tauto]). Qed.
Theorem C81_every_partial : conversions_raise -> forall body entity,
  (exists r, snd (json_to_snql body entity) = Ok r)
  \/ (exists e, snd (json_to_snql body entity) = Raise e /\ In e legacy_errors).
Proof.
  intros CR body entity. enough (H : any (snd (json_to_snql body entity))).
  { destruct (snd (json_to_snql body entity)) as [r|e]; [left; eauto|right]. exists e. split; [reflexivity|]. apply H. reflexivity. }
  unfold json_to_snql. destruct body; try (cbn [snd]; any_step; fail).
  match goal with |- context [legacy_query ?b entity] => set (body := b) end.
  assert (Q : any (legacy_query body entity)).
  { unfold legacy_query, convert_aggregations, convert_selected, convert_groupby. cbv zeta.
    repeat first [apply any_float, CR|apply any_iter|apply any_exp1|apply any_extensions|apply any_where|apply any_having|apply any_mapM; intros ? _
      |lazymatch goal with |- raises_only _ (bind (iter _) _) => apply ro_bind; [apply any_iter|intros ? _] end|any_step]. }
  destruct (legacy_query body entity) as [q|x]; [|cbn [snd]; intros y E; injection E as <-; apply Q; reflexivity].
  assert (O : any (snd (legacy_orderby body q))).
  { unfold legacy_orderby. cbv zeta. destruct (truthy _); [|apply ro_ok].
    assert (K : forall l, any (let! obs := snd (convert_orderby l None) in set_clause COrderby q (OList obs))).
    { intros l. apply ro_bind; [apply any_orders|intros; any_step]. }
    subst body. destruct (body_get _ _ _); try apply K. match goal with |- context [convert_orderby ?l None] => specialize (K l); destruct (convert_orderby l None); exact K end. }
  destruct (legacy_orderby body q) as (body' & r). cbn [snd] in *. apply ro_bind; [exact O|]. intros q' _.
  unfold legacy_request, set_legacy_limitby, set_extra. cbv zeta.
  repeat first [apply any_int, CR|apply any_iter|lazymatch goal with |- raises_only _ (bind (iter _) _) => apply ro_bind; [apply any_iter|intros ? _] end|any_step].
Qed.

(** *** What fails: bodies of other shapes raise Python's own exceptions *)
Theorem C81_shape_refuted :
  Forall (fun kve => decoded (c80_body (fst (fst kve)) (snd (fst kve)))
      /\ snd (json_to_snql (c80_body (fst (fst kve)) (snd (fst kve))) (OStr ($"events"))) = Raise (snd kve)
      /\ ~ In (snd kve) documented)
    [(* an operator in lower case *)
     ($"conditions", OList [OList [OList [OStr ($"a"); OStr ($"in"); OList [OInt 1]]]], ValueError);
     (* a function without arguments *)
     ($"conditions", OList [OList [OList [OStr ($"ff")]; OStr ($"="); OInt 1]], IndexError);
     (* a condition without its operand *)
     ($"conditions", OList [OList [OList [OStr ($"a"); OStr ($"=")]]], IndexError);
     (* a number for a condition *)
     ($"conditions", OList [OInt 1], TypeError);
     (* an object for a condition *)
     ($"conditions", OList [ODict [$"a"; $"b"; $"c"] [OInt 1; OInt 2; OInt 3]], KeyError);
     (* the operator of NOT inside an expression *)
     ($"groupby", OList [OList [OStr ($"a"); OStr ($"!"); OInt 1]], KeyError);
     (* an alias that is not a text *)
     ($"groupby", OList [OList [OStr ($"ff"); OList []; OInt 1]], AttributeError);
     (* a date that is not one *)
     ($"from_date", OStr ($"today"), ValueError);
     (* a limit without a column *)
     ($"limitby", OList [OInt 1], ValueError);
     (* a number to order by *)
     ($"orderby", OInt 1, UnboundLocalError)].
Proof.
  repeat apply Forall_cons; try apply Forall_nil;
    (split; [decoded_tac|]; split; [vm_compute; reflexivity|cbn [In documented]; intuition discriminate]).
Qed.
(** and the list of C81_every_partial is not too long: some decoded body leads to each exception,
    OverflowError if int() of a float raises it, as Python's does for infinity *)
Theorem C81_reached_partial :
  Forall (fun ve => decoded (c80_body (fst (fst ve)) (snd (fst ve)))
      /\ snd (json_to_snql (c80_body (fst (fst ve)) (snd (fst ve))) (OStr ($"events"))) = Raise (snd ve))
    [($"limit", OInt (-1), InvalidExpressionError);
     ($"groupby", OList [OStr ($"a b")], InvalidColumnError);
     ($"groupby", OList [OList [OStr ($"1 f"); OList []]], InvalidFunctionError);
     ($"conditions", OList [OList [OStr ($"a"); OStr ($"="); ODict [] []]], InvalidConditionError);
     ($"groupby", OList [OInt 3], InvalidQueryError);
     ($"from_date", OStr ($"today"), ValueError);
     ($"conditions", OList [OInt 1], TypeError);
     ($"conditions", OList [OList [OList [OStr ($"ff")]; OStr ($"="); OInt 1]], IndexError);
     ($"conditions", OList [ODict [$"a"; $"b"; $"c"] [OInt 1; OInt 2; OInt 3]], KeyError);
     ($"groupby", OList [OList [OStr ($"ff"); OList []; OInt 1]], AttributeError);
     ($"orderby", OInt 1, UnboundLocalError)]
  /\ snd (json_to_snql (ODict [] []) (OStr ($"my table"))) = Raise InvalidEntityError
  /\ (forall f, to_int (OFloat f) = Raise OverflowError -> decoded (c80_body ($"limitby") (OList [OFloat f; OStr ($"a")]))
       /\ snd (json_to_snql (c80_body ($"limitby") (OList [OFloat f; OStr ($"a")])) (OStr ($"events"))) = Raise OverflowError).
Proof.
  split; [|split].
  - repeat apply Forall_cons; try apply Forall_nil; cbn [fst snd]; (split; [once decoded_tac|vm_compute; reflexivity]).
  - vm_compute. reflexivity.
  - intros f E. split; [decoded_tac|]. vm_compute in E. vm_compute. rewrite E. reflexivity.
Qed.
(** and a refused entity is reported with InvalidEntityError, which the documentation does not name *)
Theorem C81_entity_refuted : exists body, decoded body /\ body_shape body
  /\ snd (json_to_snql body (OStr ($"my table"))) = Raise InvalidEntityError /\ ~ In InvalidEntityError documented.
Proof.
  exists (ODict [] []). split; [decoded_tac|].
  assert (forall k v, ~ dict_entry (ODict [] []) k v) as N.
  { intros k v (ks & vs & E & X). injection E as <- <-. exact X. }
  split; [|split; [vm_compute; reflexivity|cbn [In documented]; intuition discriminate]].
  constructor; try (intros v K; elim (N _ _ K)); try (intros v (K & _); elim (N _ _ K)). eauto.
Qed.
End P.

#[local] Existing Instance demoRT.
#[local] Existing Instance demoCV.
#[local] Existing Instance demoST.
Definition c81_body (limit : obj) : obj := ODict
  [$"sample"; $"selected_columns"; $"aggregations"; $"groupby"; $"from_date"; $"conditions"; $"orderby"; $"limitby"; $"limit"]
  [OFloat (FFin false 1 (-1)); OList [OStr ($"a"); OList [OStr ($"f2"); OList [OStr ($"b"); OList [OStr ($"x"); OStr ($"="); OInt 1]]; OStr ($"al")]];
   OList [OList [OStr ($"count()"); OStr []; OStr ($"n")]]; OStr ($"g"); OStr ($"2020-01-01T00:00:00");
   OList [OList [OStr ($"ts"); OStr ($"<"); OStr ($"2020-01-02T03:04:05")];
          OList [OList [OStr ($"a"); OStr ($"IN"); OList [OInt 1; OInt 2]]; OList [OStr ($"b"); OStr ($"IS NULL")]]];
   OList [OStr ($"-n"); OList [OStr ($"-ff"); OList [OStr ($"x")]]]; OList [OInt 3; OStr ($"a")]; limit].
Ltac op_tac b := let r := eval vm_compute in (op_of b) in lazymatch r with Ok ?o => exists o end.
Ltac shape_tac :=
  lazymatch goal with
  | |- exp_shape (OStr _) => apply es_text
  | |- exp_shape (OList [?a; OStr ?s; ?c]) =>
      first [ apply es_condition; [apply is_condition_yes; vm_compute; reflexivity|shape_tac|op_tac (OStr s); split; [left; vm_compute; reflexivity|discriminate]]
            | apply es_arg; [intros T; apply is_condition_yes in T; vm_compute in T; discriminate T|discriminate|shape_tac] ]
  | |- exp_shape (OList (OStr _ :: OList _ :: _)) => apply es_args; [intros T; apply is_condition_yes in T; vm_compute in T; discriminate T|shape_tac|shape_tac]
  | |- exp_shape _ => apply es_value; discriminate
  | |- exps_shape [] => apply ess_nil
  | |- exps_shape (_ :: _) => apply ess_cons; shape_tac
  | |- alias_shape [] => intros a r' E; discriminate E
  | |- alias_shape _ => intros a r' E; injection E as <- _; left; eexists; reflexivity
  | |- Forall _ [] => apply Forall_nil
  | |- Forall _ (_ :: _) => apply Forall_cons; shape_tac
  | |- row_shape _ => cbn [row_shape]; shape_tac
  | |- aggregation_shape _ => eexists; split; [constructor; constructor|shape_tac]
  | |- item_shape (OList ?l) =>
      first [ apply is_cond; [apply is_condition_yes; vm_compute; reflexivity|shape_tac]
            | apply (is_or _ l); [intros T; apply is_condition_yes in T; vm_compute in T; discriminate T|constructor; constructor|shape_tac] ]
  | |- cond_shape (OList (?a :: ?b :: ?r)) => exists a, b, r; split; [constructor; constructor|]; split; [shape_tac|];
      split; [op_tac b; left; vm_compute; reflexivity|first [left; discriminate|right; left; reflexivity]]
  end.
(** the conversions of the examples raise what int() and float() raise *)
Example C81_every_case : conversions_raise.
Proof.
  intros o. split; intros x E; cbn in E; destruct o as [| | |f| | | | | | | | | | | | | | | | | | | | | | | | | | | | | |]; try discriminate E; try (injection E as <-; cbn; tauto).
  destruct f; try (destruct (_ =? 0)%Z; [discriminate E|]); injection E as <-; cbn; tauto.
Qed.
Example C81_case : (forall limit, body_shape (c81_body limit))
  /\ (exists r, snd (json_to_snql (c81_body (OInt 10)) (OStr ($"events"))) = Ok r)
  /\ snd (json_to_snql (c81_body (OInt (-1))) (OStr ($"events"))) = Raise InvalidExpressionError.
Proof.
  split; [|split; [eexists; vm_compute; reflexivity|vm_compute; reflexivity]].
  intros limit.
  assert (forall k v, dict_entry (c81_body limit) k v -> body_get (c81_body limit) k ONone = v) as G.
  { intros k v K. apply body_get_iff. left. exact K. }
  constructor.
  - eexists _, _. reflexivity.
  - intros v K. apply G in K. subst v. right. left. eexists. reflexivity.
  - intros v K. apply G in K. subst v. eexists. split; [constructor; constructor|]. shape_tac.
  - intros v K. apply G in K. subst v. eexists. split; [constructor; constructor|]. shape_tac.
  - intros v K. apply G in K. subst v. apply es_text.
  - intros v (K & _). apply G in K. subst v. eexists _, _. split; [reflexivity|vm_compute; reflexivity].
  - intros v (K & T). apply G in K. subst v. discriminate T.
  - intros v K. apply G in K. subst v. eexists. split; [constructor; constructor|]. shape_tac.
  - intros v K. exfalso. destruct K as (ks & vs & E & X). injection E as <- <-. cbn [entry] in X.
    repeat (destruct X as [(X & _)|(_ & X)]; [discriminate X|]). exact X.
  - intros v (K & _). apply G in K. subst v. apply Forall_cons; [apply os_text|]. apply Forall_cons; [|apply Forall_nil].
    apply (os_minus _ ($"ff")); [exists 0; split; [reflexivity|intros t E; discriminate E]|shape_tac].
  - intros v (K & _). apply G in K. subst v. eexists _, _, _. split; [constructor; constructor|constructor].
Qed.

Print Assumptions C81_shape_partial.
Print Assumptions C81_entity_partial.
Print Assumptions C81_every_partial.
Print Assumptions C81_shape_refuted.
Print Assumptions C81_reached_partial.
Print Assumptions C81_entity_refuted.
