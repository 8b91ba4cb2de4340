(** Proofs for C22-C24. *)
From Verif Require Import PyBase PyFacts Objects Exprs SpecExpr ExprFacts Query SpecSetters.

Section S.
Context {RT : PyRT}.

Lemma get_upd_same k v c : get k (upd k v c) = v.
Proof. destruct c, k; reflexivity. Qed.
Lemma get_upd_other k k' v c : k <> k' -> get k' (upd k v c) = get k' c.
Proof. destruct c, k, k'; intros H; try reflexivity; elim H; reflexivity. Qed.
Lemma upd_upd k v v' c : upd k v' (upd k v c) = upd k v' c.
Proof. destruct c, k; reflexivity. Qed.
Lemma upd_comm k k' v v' c : k <> k' -> upd k' v' (upd k v c) = upd k v (upd k' v' c).
Proof. destruct c, k, k'; intros H; try reflexivity; elim H; reflexivity. Qed.
Lemma clause_dec (a b : clause) : {a = b} + {a <> b}.
Proof. decide equality. Qed.

(** * setter values *)
Lemma list_type_iff v f P : (forall o, f o = true <-> P o) ->
  list_type v f = true <-> exists l, v = OList l /\ Forall P l.
Proof.
  intros H. split.
  - destruct v; try discriminate. cbn. intros E. exists l. split; [reflexivity|].
    apply Forall_forall. intros x Hx. apply H. rewrite forallb_forall in E. auto.
  - intros (l & -> & F). cbn. apply forallb_forall. intros x Hx. apply H. rewrite Forall_forall in F. auto.
Qed.
Lemma selectable_iff o : is_selectable o = true <-> selectable o.
Proof. split; [destruct o; try discriminate; constructor|intros []; reflexivity]. Qed.
Lemma column_iff o : is_column_obj o = true <-> a_column o.
Proof. split; [destruct o; try discriminate; constructor|intros []; reflexivity]. Qed.
Lemma condition_iff o : is_condition_obj o = true <-> a_condition o.
Proof. split; [destruct o; try discriminate; constructor|intros []; reflexivity]. Qed.
Lemma orderby_iff o : is_orderby_obj o = true <-> an_orderby o.
Proof. split; [destruct o; try discriminate; constructor|intros []; reflexivity]. Qed.
Lemma truthy_list l : truthy (OList l) = true <-> l <> [].
Proof. destruct l; cbn; split; congruence. Qed.

Lemma list_setter v f P (b : bool) : (forall o, f o = true <-> P o) -> forall x,
  (assert_ (list_type v f && (if b then truthy v else true)) InvalidQueryError ;! Ok v) = Ok x <->
  exists l, v = OList l /\ x = OList l /\ Forall P l /\ (b = true -> l <> []).
Proof.
  intros H x. split.
  - destruct (list_type v f) eqn:E; [|discriminate]. apply (list_type_iff v f P H) in E as (l & -> & F).
    cbn [andb]. destruct b.
    + destruct (truthy (OList l)) eqn:T; [|discriminate]. intros G. injection G as <-.
      exists l. repeat split; try assumption. intros _. apply truthy_list, T.
    + intros G. injection G as <-. exists l. repeat split; try assumption. discriminate.
  - intros (l & -> & -> & F & N).
    assert (T : list_type (OList l) f = true) by (apply (list_type_iff _ f P H); eauto).
    rewrite T. destruct b; [|reflexivity]. rewrite (proj2 (truthy_list l) (N eq_refl)). reflexivity.
Qed.
Lemma list_setter0 v f P : (forall o, f o = true <-> P o) -> forall x,
  (assert_ (list_type v f) InvalidQueryError ;! Ok v) = Ok x <->
  exists l, v = OList l /\ x = OList l /\ Forall P l.
Proof.
  intros H x. pose proof (list_setter v f P false H x) as E. cbn in E. rewrite andb_true_r in E. rewrite E.
  split; intros (l & A & B & C); exists l; [tauto|]. repeat split; try assumption. discriminate.
Qed.
Lemma int_setter v mn mx k x : int_clause v mn mx k = Ok x <->
  exists i, as_int v = Some i /\ x = k i /\ (forall m, mn = Some m -> (m <= pyint_Z i)%Z)
    /\ (forall m, mx = Some m -> (pyint_Z i <= m)%Z).
Proof.
  unfold int_clause. destruct (as_int v) as [i|]; [|split; [discriminate|intros (i & E & _); discriminate]].
  unfold validate_int_literal. split.
  - destruct mn as [m|]; [destruct (Z.ltb_spec (pyint_Z i) m); [discriminate|]|];
      (destruct mx as [m'|]; [rewrite Z.gtb_ltb; destruct (Z.ltb_spec m' (pyint_Z i)); [discriminate|]|]);
      intros E; injection E as <-; exists i; repeat split; intros ? G; try discriminate G; injection G as <-; lia.
  - intros (i' & E & -> & A & B). injection E as <-.
    destruct mn as [m|]; [destruct (Z.ltb_spec (pyint_Z i) m); [specialize (A m eq_refl); lia|]|];
      (destruct mx as [m'|]; [rewrite Z.gtb_ltb; destruct (Z.ltb_spec m' (pyint_Z i)); [specialize (B m' eq_refl); lia|]|]);
      reflexivity.
Qed.
Lemma setter_value_iff k v x : setter_value k v = Ok x <-> stores k v x.
Proof.
  destruct k; cbn [setter_value].
  - rewrite (list_setter v _ _ true selectable_iff). split.
    + intros (l & -> & -> & F & N). constructor; auto.
    + intros H; inversion H; subst. eexists; repeat split; auto.
  - rewrite (list_setter0 v _ _ selectable_iff). split.
    + intros (l & -> & -> & F). constructor; auto.
    + intros H; inversion H; subst. eauto.
  - rewrite (list_setter v _ _ true column_iff). split.
    + intros (l & -> & -> & F & N). constructor; auto.
    + intros H; inversion H; subst. eexists; repeat split; auto.
  - rewrite (list_setter0 v _ _ condition_iff). split.
    + intros (l & -> & -> & F). constructor; auto.
    + intros H; inversion H; subst. eauto.
  - rewrite (list_setter0 v _ _ condition_iff). split.
    + intros (l & -> & -> & F). constructor; auto.
    + intros H; inversion H; subst. eauto.
  - rewrite (list_setter0 v _ _ orderby_iff). split.
    + intros (l & -> & -> & F). constructor; auto.
    + intros H; inversion H; subst. eauto.
  - split.
    + destruct v; try discriminate. intros H; injection H as <-. constructor.
    + intros H; inversion H; reflexivity.
  - unfold mk_limit. rewrite int_setter. split.
    + intros (i & E & -> & A & B). specialize (A _ eq_refl). specialize (B _ eq_refl).
      destruct v; try discriminate; injection E as <-; cbn in *; [|constructor; lia].
      destruct b; [constructor|lia].
    + intros H; inversion H; subst; (eexists; split; [reflexivity|]; split; [reflexivity|]; split); intros m G; injection G as <-; cbn; lia.
  - unfold mk_offset. rewrite int_setter. split.
    + intros (i & E & -> & A & B). specialize (A _ eq_refl).
      destruct v; try discriminate; injection E as <-; cbn in *; constructor; lia.
    + intros H; inversion H; subst; (eexists; split; [reflexivity|]; split; [reflexivity|]; split); intros m G; try discriminate G;
        injection G as <-; cbn; [|destruct b]; lia.
  - unfold mk_granularity. rewrite int_setter. split.
    + intros (i & E & -> & A & B). specialize (A _ eq_refl).
      destruct v; try discriminate; injection E as <-; cbn in *; [|constructor; lia].
      destruct b; [constructor|lia].
    + intros H; inversion H; subst; (eexists; split; [reflexivity|]; split; [reflexivity|]; split); intros m G; try discriminate G; injection G as <-; cbn; lia.
  - split; [destruct v; try discriminate; intros H; injection H as <-; constructor|intros H; inversion H; reflexivity].
Qed.
Lemma setter_refusal k v e : setter_value k v = Raise e -> e = InvalidQueryError \/ e = InvalidExpressionError.
Proof.
  destruct k; cbn [setter_value];
    try (unfold assert_; match goal with |- context [if ?b then _ else _] => destruct b end; intros H; inversion H; auto; fail).
  - unfold mk_limit, int_clause, validate_int_literal. destruct (as_int v) as [i|]; [|intros H; inversion H; auto].
    destruct (_ <? _)%Z; [intros H; inversion H; auto|]. destruct (_ >? _)%Z; intros H; inversion H; auto.
  - unfold mk_offset, int_clause, validate_int_literal. destruct (as_int v) as [i|]; [|intros H; inversion H; auto].
    destruct (_ <? _)%Z; intros H; inversion H; auto.
  - unfold mk_granularity, int_clause, validate_int_literal. destruct (as_int v) as [i|]; [|intros H; inversion H; auto].
    destruct (_ <? _)%Z; intros H; inversion H; auto.
  - destruct v; intros H; inversion H; auto.
Qed.
Lemma stores_det k v x y : stores k v x -> stores k v y -> x = y.
Proof. intros A B. apply setter_value_iff in A, B. congruence. Qed.

(** * queries *)
Lemma q_clauses_with q c : q_clauses (q_with q c) = c.
Proof. destruct q; reflexivity. Qed.
Lemma q_match_with q c : q_match (q_with q c) = q_match q.
Proof. destruct q; reflexivity. Qed.
Lemma query_ext q q' : q_match q = q_match q' -> q_clauses q = q_clauses q' -> q = q'.
Proof.
  destruct q as [b c|i c], q' as [b' c'|i' c']; cbn; try discriminate; intros E <-.
  - injection E as E. destruct b, b'; cbn in E; congruence.
  - congruence.
Qed.
Definition inner_valid (q : query) : Prop := forall i, q_match q = MQuery i -> validate i = Ok tt.
Lemma is_ok_unit (r : result unit) : is_ok r = true <-> r = Ok tt.
Proof. destruct r as [[]|]; cbn; split; congruence. Qed.
Lemma post_init_iff q q' : post_init q = Ok q' <-> q' = q /\ inner_valid q.
Proof.
  unfold inner_valid. destruct q as [b c|i c]; cbn.
  - split; [intros H; injection H as <-; split; [reflexivity|discriminate]|intros [-> _]; reflexivity].
  - destruct (is_ok (validate i)) eqn:E.
    + apply is_ok_unit in E. split; [intros H; injection H as <-; split; [reflexivity|]|intros [-> _]; reflexivity].
      intros i' H; injection H as <-. exact E.
    + split; [discriminate|]. intros [_ H]. rewrite (H i eq_refl) in E. discriminate.
Qed.
Lemma set_clause_iff k q v q' : set_clause k q v = Ok q' <->
  exists x, stores k v x /\ q' = q_with q (upd k x (q_clauses q)) /\ inner_valid q.
Proof.
  unfold set_clause, replace_clause. split.
  - intros E. apply bind_Ok in E as (x & E & H). apply setter_value_iff in E. apply post_init_iff in H as [-> H].
    exists x. repeat split; [exact E|]. unfold inner_valid in *. rewrite q_match_with in H. exact H.
  - intros (x & E & -> & H). apply setter_value_iff in E. rewrite E. cbn. apply post_init_iff. split; [reflexivity|].
    unfold inner_valid in *. rewrite q_match_with. exact H.
Qed.
Lemma mk_query_inner m c q : mk_query m c = Ok q -> q_clauses q = c /\ q_match q = m /\ inner_valid q.
Proof.
  unfold mk_query. destruct m as [i|o].
  - intros E. apply post_init_iff in E as [-> H]. auto.
  - destruct (base_of o) as [b|] eqn:B; [|discriminate]. intros E. apply post_init_iff in E as [-> H].
    repeat split; [|exact H]. cbn. f_equal. destruct o; try discriminate; injection B as <-; reflexivity.
Qed.
Lemma set_match_iff q m q' : set_match q m = Ok q' <->
  matchable m /\ q_clauses q' = q_clauses q /\ q_match q' = m.
Proof.
  unfold set_match. split.
  - destruct m as [i|o].
    + destruct (is_ok (validate i)) eqn:E; [|discriminate]. apply is_ok_unit in E.
      intros H. apply mk_query_inner in H as (A & B & _). split; [constructor; exact E|auto].
    + destruct o; try discriminate; intros H; apply mk_query_inner in H as (A & B & _); (split; [constructor|auto]).
  - intros ([e|k rels|i V] & C & M).
    + cbn. f_equal. apply query_ext; [symmetry; exact M|symmetry; exact C].
    + cbn. f_equal. apply query_ext; [symmetry; exact M|symmetry; exact C].
    + rewrite V. cbn. rewrite V. cbn. f_equal. apply query_ext; [symmetry; exact M|symmetry; exact C].
Qed.
Lemma set_match_inner q m q' : set_match q m = Ok q' -> inner_valid q'.
Proof.
  intros H. apply set_match_iff in H as (A & _ & B). intros i E. rewrite B in E. destruct A; try discriminate.
  injection E as <-. assumption.
Qed.
Lemma made_inner q : made q -> inner_valid q.
Proof.
  induction 1 as [m c q E|q c q' _ IH E].
  - apply mk_query_inner in E as (_ & _ & H). exact H.
  - destruct c as [k v|m]; cbn in E; [|eapply set_match_inner, E].
    apply set_clause_iff in E as (x & _ & -> & H). unfold inner_valid in *. rewrite q_match_with. exact H.
Qed.

(** C22 *)
Lemma setter_accepts k q v : made q -> (exists q', set_clause k q v = Ok q') <-> exists x, stores k v x.
Proof.
  intros M. apply made_inner in M. split.
  - intros [q' E]. apply set_clause_iff in E as (x & E & _). eauto.
  - intros [x E]. eexists. apply set_clause_iff. eauto.
Qed.
Lemma setter_error k q v e : made q -> set_clause k q v = Raise e -> e = InvalidQueryError \/ e = InvalidExpressionError.
Proof.
  intros M. apply made_inner in M. unfold set_clause. destruct (setter_value k v) as [x|e'] eqn:E; cbn [bind].
  - unfold replace_clause. intros H.
    assert (P : post_init (q_with q (upd k x (q_clauses q))) = Ok (q_with q (upd k x (q_clauses q)))).
    { apply post_init_iff. split; [reflexivity|]. unfold inner_valid in *. rewrite q_match_with. exact M. }
    congruence.
  - intros H; injection H as <-. eapply setter_refusal, E.
Qed.
Lemma setter_frame k q v q' : set_clause k q v = Ok q' ->
  stores k v (get k (q_clauses q')) /\ q_match q' = q_match q
  /\ forall k', k' <> k -> get k' (q_clauses q') = get k' (q_clauses q).
Proof.
  intros E. apply set_clause_iff in E as (x & S & -> & _). rewrite q_clauses_with, q_match_with, get_upd_same.
  repeat split; [exact S|]. intros k' N. apply get_upd_other. congruence.
Qed.
Lemma setter_last k q v w q1 : set_clause k q v = Ok q1 -> set_clause k q1 w = set_clause k q w.
Proof.
  intros E. apply set_clause_iff in E as (x & S & -> & I). unfold set_clause. destruct (setter_value k w) as [y|]; [|reflexivity].
  cbn. unfold replace_clause. rewrite q_clauses_with, upd_upd. destruct q; reflexivity.
Qed.
Lemma setters_commute k k' q v v' q2 : k <> k' ->
  (let! q1 := set_clause k q v in set_clause k' q1 v') = Ok q2 <->
  (let! q1 := set_clause k' q v' in set_clause k q1 v) = Ok q2.
Proof.
  assert (H : forall k k' v v', k <> k' -> (let! q1 := set_clause k q v in set_clause k' q1 v') = Ok q2 ->
    (let! q1 := set_clause k' q v' in set_clause k q1 v) = Ok q2).
  { clear. intros k k' v v' N E. apply bind_Ok in E as (q1 & E1 & E2).
    apply set_clause_iff in E1 as (x & S & -> & I). apply set_clause_iff in E2 as (x' & S' & -> & _).
    assert (E : set_clause k' q v' = Ok (q_with q (upd k' x' (q_clauses q)))) by (apply set_clause_iff; eauto).
    rewrite E. cbn [bind]. apply set_clause_iff. exists x. rewrite !q_clauses_with. repeat split; [exact S| |].
    - rewrite (upd_comm k k') by exact N. destruct q; reflexivity.
    - unfold inner_valid in *. rewrite q_match_with. exact I. }
  intros N. split; apply H; congruence.
Qed.
Lemma calls_spec cs : forall q, inner_valid q ->
  (forall q', do_calls q cs = Ok q' -> Forall acceptable cs
    /\ (forall k, clause_after k cs (get k (q_clauses q)) (get k (q_clauses q')))
    /\ match_after cs (q_match q) (q_match q'))
  /\ (Forall acceptable cs -> exists q', do_calls q cs = Ok q').
Proof.
  induction cs as [|c cs IH]; intros q I.
  - split.
    + intros q' E. injection E as <-. repeat split; constructor.
    + intros _. exists q. reflexivity.
  - cbn [do_calls]. split.
    + intros q' E. apply bind_Ok in E as (q1 & E1 & E2). destruct c as [k v|m]; cbn in E1.
      * apply set_clause_iff in E1 as (x & S & -> & _).
        assert (I' : inner_valid (q_with q (upd k x (q_clauses q)))) by (unfold inner_valid in *; rewrite q_match_with; exact I).
        apply (IH _ I') in E2 as (A & B & C). rewrite q_match_with in C. repeat split.
        -- constructor; [econstructor; exact S|exact A].
        -- intros k'. specialize (B k'). rewrite q_clauses_with in B. destruct (clause_dec k k') as [<-|N].
           ++ rewrite get_upd_same in B. econstructor; eassumption.
           ++ rewrite get_upd_other in B by exact N. constructor; assumption.
        -- constructor. exact C.
      * pose proof (set_match_inner _ _ _ E1) as I'. apply set_match_iff in E1 as (M & C & Q).
        apply (IH _ I') in E2 as (A & B & D). rewrite C in B. rewrite Q in D. repeat split.
        -- constructor; [constructor; exact M|exact A].
        -- intros k'. constructor. apply B.
        -- constructor. exact D.
    + intros F. inversion F as [|c' cs' A B]; subst. destruct A as [k v x S|m M]; cbn [do_call].
      * assert (E : set_clause k q v = Ok (q_with q (upd k x (q_clauses q)))) by (apply set_clause_iff; eauto).
        rewrite E. cbn [bind]. apply IH; [|exact B]. unfold inner_valid in *. rewrite q_match_with. exact I.
      * assert (exists q', set_match q m = Ok q') as [q1 E].
        { destruct M as [e|k rels|i V]; [eexists; reflexivity..|]. cbn [set_match]. rewrite V. cbn. rewrite V. eexists; reflexivity. }
        rewrite E. cbn [bind]. apply IH; [eapply set_match_inner, E|exact B].
Qed.
Lemma clause_after_det k cs x y z : clause_after k cs x y -> clause_after k cs x z -> y = z.
Proof.
  intros H. revert z. induction H; intros z H'; inversion H'; subst; try congruence; auto.
  assert (x' = x'0) as -> by (eapply stores_det; eassumption). auto.
Qed.

(** C23 *)
Lemma no_clauses_get k : get k no_clauses = ONone.
Proof. destruct k; reflexivity. Qed.
Lemma built_made q : built q -> made q.
Proof. induction 1; econstructor; eassumption. Qed.
Lemma typed_of_match q : clause_typed (q_clauses q) -> (forall i, q_match q = MQuery i -> typed_query i) -> typed_query q.
Proof. destruct q; cbn; auto. Qed.
Lemma typed_parts q : typed_query q -> clause_typed (q_clauses q) /\ (forall i, q_match q = MQuery i -> typed_query i).
Proof.
  destruct q; cbn; [intros H; split; [exact H|discriminate]|]. intros [A B]. split; [exact B|].
  intros i H. injection H as <-. exact A.
Qed.
Lemma built_typed q : built q -> typed_query q.
Proof.
  induction 1 as [m q E _ IH|q c q' _ IH E _ IHm].
  - apply mk_query_inner in E as (C & M & _). apply typed_of_match.
    + rewrite C. intros k. left. apply no_clauses_get.
    + rewrite M. exact IH.
  - apply typed_parts in IH as [T1 T2]. destruct c as [k v|m]; cbn in E.
    + apply set_clause_iff in E as (x & S & -> & _). apply typed_of_match; [|rewrite q_match_with; exact T2].
      rewrite q_clauses_with. intros k'. destruct (clause_dec k k') as [<-|N].
      * right. rewrite get_upd_same. eauto.
      * rewrite get_upd_other by exact N. apply T1.
    + apply set_match_iff in E as (M & C & Q). apply typed_of_match; [rewrite C; exact T1|].
      intros i H. apply IHm. rewrite <- H, Q. reflexivity.
Qed.

(** C24 *)
Lemma set_match_agrees q m : (forall s, m <> MObj (OStorage s)) ->
  (exists q', mk_query m (q_clauses q) = Ok q') <-> (exists q', set_match q m = Ok q').
Proof.
  intros N. split.
  - intros [q' E]. destruct m as [i|o].
    + pose proof E as E'. apply mk_query_inner in E' as (_ & M & I). cbn. rewrite (I i M). cbn. eauto.
    + unfold mk_query in E. destruct (base_of o) eqn:B; [|discriminate].
      destruct o; try discriminate; try (cbn; eauto; fail). elim (N s). reflexivity.
  - intros [q' E]. exists q'. unfold set_match in E. destruct m as [i|o].
    + destruct (is_ok (validate i)); [exact E|discriminate].
    + destruct o; try discriminate; exact E.
Qed.
Lemma set_match_same q m q' : set_match q m = Ok q' -> mk_query m (q_clauses q) = Ok q'.
Proof.
  unfold set_match. destruct m as [i|o].
  - destruct (is_ok (validate i)); [auto|discriminate].
  - destruct o; try discriminate; auto.
Qed.
End S.
