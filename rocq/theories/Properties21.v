(** Property C74: setters of metrics queries. *)
From Verif Require Import PyBase PyFacts Objects PyEqFacts Exprs ExprFacts ErrorFacts Metrics Mql MetricsQuery SpecExpr SpecMetrics SpecMSetters
  Concrete Properties6.

Section P.
Context {RT : PyRT} {ST : PyStr}.

(** ** C74 Setters of a MetricsQuery change exactly one field of a new copy *)
Lemma setter_stores f v x : mq_setter_value f v = Ok x <-> mstores f v x.
Proof.
  split.
  - destruct f; cbn [mq_setter_value]; intros E; try (injection E as <-; constructor);
      try (apply bind_Ok in E as (u & A & E); injection E as <-; destruct v as [[]| | | | |]; try discriminate A; constructor).
    + destruct v as [o| | | | |]; try discriminate E. apply bind_Ok in E as (y & A & E). injection E as <-.
      unfold mk_limit, int_clause, validate_int_literal in A. destruct o; try discriminate A; cbn [as_int pyint_Z] in A.
      * destruct b; [|discriminate A]. injection A as <-. constructor.
      * destruct (z <? 1)%Z eqn:L; [discriminate A|]. rewrite Z.gtb_ltb in A. destruct (10000 <? z)%Z eqn:H; [discriminate A|].
        injection A as <-. constructor. lia.
    + destruct v as [o| | | | |]; try discriminate E. apply bind_Ok in E as (y & A & E). injection E as <-.
      unfold mk_offset, int_clause, validate_int_literal in A. destruct o; try discriminate A; cbn [as_int pyint_Z] in A.
      * destruct b; injection A as <-; constructor.
      * destruct (z <? 0)%Z eqn:L; [discriminate A|]. injection A as <-. constructor. lia.
    + destruct v as [o| | | | |]; try discriminate E. apply bind_Ok in E as (y & A & E). injection E as <-.
      destruct o; try discriminate A. injection A as <-. constructor.
  - intros [t|n k ps a g h|s|d|d|r|s|z L| |z L|b|b|w]; try reflexivity.
    + cbn [mq_setter_value]. unfold mk_limit, int_clause, validate_int_literal. cbn [as_int pyint_Z]. rewrite Z.gtb_ltb.
      destruct (z <? 1)%Z eqn:A; [lia|]. destruct (10000 <? z)%Z eqn:B; [lia|]. reflexivity.
    + cbn [mq_setter_value]. unfold mk_offset, int_clause, validate_int_literal. cbn [as_int pyint_Z].
      destruct (z <? 0)%Z eqn:A; [lia|]. reflexivity.
    + destruct b; reflexivity.
Qed.
Lemma mfield_dec (f g : mfield) : {f = g} + {f <> g}.
Proof. decide equality. Qed.
Lemma put_get f v q : mq_get f (mq_put f v q) = v.
Proof. destruct q, f; reflexivity. Qed.
Lemma put_other f g v q : g <> f -> mq_get g (mq_put f v q) = mq_get g q.
Proof. destruct q, f, g; cbn; congruence. Qed.
Lemma mq_ext q q' : (forall f, mq_get f q = mq_get f q') -> q = q'.
Proof.
  intros H. pose proof (H FQuery). pose proof (H FStart). pose proof (H FEnd). pose proof (H FRollup). pose proof (H FScope).
  pose proof (H FLimit). pose proof (H FOffset). pose proof (H FExtrapolate). pose proof (H FIndexer).
  destruct q, q'. cbn in *. congruence.
Qed.
(** a setter accepts exactly the documented values, and returns the receiver with that one
    field replaced *)
Theorem C74_sets : forall f q v q', mq_set f q v = Ok q' <->
  mstores f v (mq_get f q') /\ forall g, g <> f -> mq_get g q' = mq_get g q.
Proof.
  intros f q v q'. unfold mq_set. split.
  - intros E. apply bind_Ok in E as (x & S & E). injection E as <-. rewrite put_get. split; [apply setter_stores, S|].
    intros g N. apply put_other, N.
  - intros (S & F). apply setter_stores in S. rewrite S. cbn [bind]. f_equal. apply mq_ext. intros g.
    destruct (mfield_dec g f) as [->|N]; [apply put_get|]. rewrite put_other, F by exact N. reflexivity.
Qed.
Theorem C74_refuses : forall f q v, (forall x, ~ mstores f v x) ->
  mq_set f q v = Raise InvalidQueryError \/ mq_set f q v = Raise InvalidExpressionError.
Proof.
  intros f q v N. unfold mq_set. destruct (mq_setter_value f v) as [x|e] eqn:E.
  { exfalso. eapply N, setter_stores, E. }
  cbn [bind]. clear N. destruct f; cbn [mq_setter_value] in E; try discriminate E;
    try (destruct v as [[]| | | | |]; cbn in E; try discriminate E; injection E as <-; auto; fail);
    (destruct v as [o| | | | |]; [|injection E as <-; auto..]);
    [pose proof (ro_int o (Some 1%Z) (Some 10000%Z) OLimit) as R; change (mk_limit o) with (int_clause o (Some 1%Z) (Some 10000%Z) OLimit) in E
    |pose proof (ro_int o (Some 0%Z) None OOffset) as R; change (mk_offset o) with (int_clause o (Some 0%Z) None OOffset) in E];
    (destruct (int_clause _ _ _ _) as [y|e'] eqn:I; cbn in E; [discriminate E|]; injection E as <-;
     destruct (R _ eq_refl) as [<-|[]]; auto).
Qed.
(** any sequence of calls: it succeeds iff every value is accepted, and then every field holds
    the last value given to it, or what it held before *)
Theorem C74_history : forall cs q,
  (forall q', mcalls q cs = Ok q' <->
     Forall (fun c => exists x, mstores (fst c) (snd c) x) cs /\ forall f, mafter f cs (mq_get f q) (mq_get f q')).
Proof.
  induction cs as [|(f, v) cs IH]; intros q q'; cbn [mcalls].
  - split.
    + intros E. injection E as <-. split; [constructor|]. intros f. constructor.
    + intros (_ & A). f_equal. apply mq_ext. intros f. specialize (A f). inversion A; congruence.
  - split.
    + intros E. apply bind_Ok in E as (q1 & S & E). apply C74_sets in S as (S & F). apply IH in E as (G & A).
      split; [constructor; [eauto|exact G]|]. intros g. destruct (mfield_dec f g) as [<-|N].
      * eapply ma_set; [exact S|apply A].
      * apply ma_other; [exact N|]. rewrite <- (F g) by congruence. apply A.
    + intros (G & A). inversion G as [|? ? (x & S) G']; subst. cbn in S.
      assert (mq_set f q v = Ok (mq_put f x q)) as E by (unfold mq_set; rewrite (proj2 (setter_stores f v x) S); reflexivity).
      rewrite E. cbn [bind]. apply IH. split; [exact G'|]. intros g. specialize (A g).
      destruct (mfield_dec g f) as [->|N].
      * rewrite put_get. inversion A; subst; [|congruence].
        assert (x' = x) as <- by (apply setter_stores in S; match goal with H : mstores _ _ _ |- _ => apply setter_stores in H end; congruence).
        assumption.
      * rewrite put_other by exact N. inversion A; subst; [congruence|assumption].
Qed.
(** so the order of the calls and values overwritten later do not matter *)
Lemma after_last f cs : forall x y x2 y2 ds, mafter f cs x y -> mafter f ds x2 y2 ->
  last_given f cs = last_given f ds -> x = x2 -> y = y2.
Proof.
  assert (forall cs x y, mafter f cs x y -> match last_given f cs with Some v => mstores f v y | None => y = x end) as L.
  { clear. induction 1 as [x|v cs x x' y S A IH|g v cs x y N A IH]; cbn [last_given]; [reflexivity| |].
    - destruct (last_given f cs); [exact IH|]. destruct f; cbn; subst; exact S.
    - destruct (last_given f cs); [exact IH|]. destruct f, g; cbn; congruence. }
  intros x y x2 y2 ds A B E <-. apply L in A, B. rewrite E in A. destruct (last_given f ds); [|congruence].
  apply setter_stores in A, B. congruence.
Qed.
Theorem C74_order : forall cs ds q q1 q2, mcalls q cs = Ok q1 -> mcalls q ds = Ok q2 ->
  (forall f, last_given f cs = last_given f ds) -> q1 = q2.
Proof.
  intros cs ds q q1 q2 E1 E2 L. apply C74_history in E1 as (_ & A1). apply C74_history in E2 as (_ & A2).
  apply mq_ext. intros f. eapply after_last; [apply A1|apply A2|apply L|reflexivity].
Qed.
End P.

(** Non-vacuity *)
#[local] Existing Instance demoRT.
#[local] Existing Instance demoST.
Example C74_case : exists q, mcalls mq_default [(FLimit, VObj (OInt 5)); (FQuery, VTS demo_count); (FLimit, VObj (OInt 7))] = Ok q
  /\ mcalls mq_default [(FLimit, VObj (OInt 7)); (FQuery, VObj (OStr ($"x"))); (FQuery, VTS demo_count)] = Ok q
  /\ mq_limit q = VObj (OLimit (PInt 7))
  /\ mq_set FLimit q (VObj (OInt 10001)) = Raise InvalidExpressionError
  /\ mq_set FStart q (VObj (OInt 1)) = Raise InvalidQueryError.
Proof. eexists. repeat split; reflexivity. Qed.

Print Assumptions C74_sets.
Print Assumptions C74_refuses.
Print Assumptions C74_history.
Print Assumptions C74_order.
