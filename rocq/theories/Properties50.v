(** C111: str() of a metrics query. *)
From Verif Require Import PyBase PyFacts DateTime Objects Exprs Metrics Mql MetricsQuery Json Request SpecStr Concrete Properties6 Properties7.

Ltac absurd_in := exfalso; cbn [In] in *; intuition congruence.

Section P.
Context {RT : PyRT} {ST : PyStr}.

(** ** C111 str() of a metrics query, which validates nothing, raises what the first field that cannot
    be written leads to, whatever the fields after it hold *)
Lemma c111_time f v : In f [FStart; FEnd] -> writable f v -> exists o, print_time v = Ok o.
Proof. intros I W. inversion W; subst; cbn in *; eauto; absurd_in. Qed.
Lemma c111_bad_time f v e : In f [FStart; FEnd] -> unwritable f v e -> print_time v = Raise e.
Proof.
  intros I U. inversion U as [g J|w N1 N2 N3 N4 N5|g w J N1 N2]; subst; cbn in *; [reflexivity|absurd_in|].
  destruct v as [o| | | | |]; try reflexivity. destruct o; try reflexivity;
    first [elim N1; reflexivity|elim N2; constructor; exact I].
Qed.
Theorem C111_first : forall q before f after e,
  written_fields = before ++ f :: after ->
  (forall g, In g before -> writable g (mq_get g q)) ->
  unwritable f (mq_get f q) e -> mq_str_text q = Raise e.
Proof.
  intros q before f after e E W U. unfold mq_str_text.
  enough (H : mq_payload q = Raise e) by (rewrite H; reflexivity). unfold mq_payload.
  assert (Wq : In FQuery before -> exists o, print_mq_query (mq_query q) = Ok o).
  { intros I. specialize (W _ I). cbn [mq_get] in W. inversion W; subst; eauto; cbn in *; absurd_in. }
  assert (Ws : In FStart before -> exists o, print_time (mq_start q) = Ok o).
  { intros I. apply (c111_time FStart); [cbn; auto|exact (W _ I)]. }
  assert (We : In FEnd before -> exists o, print_time (mq_end q) = Ok o).
  { intros I. apply (c111_time FEnd); [cbn; auto|exact (W _ I)]. }
  assert (Wr : In FRollup before -> exists o, print_rollup (mq_rollup q) = Ok o).
  { intros I. specialize (W _ I). cbn [mq_get] in W. inversion W; subst; cbn in *; eauto; absurd_in. }
  assert (Wc : In FScope before -> exists o, print_scope (mq_scope q) = Ok o).
  { intros I. specialize (W _ I). cbn [mq_get] in W. inversion W; subst; cbn in *; eauto; absurd_in. }
  assert (Wl : In FLimit before -> exists o, print_limit (mq_limit q) = Ok o).
  { intros I. specialize (W _ I). cbn [mq_get] in W. inversion W; subst; cbn in *; eauto; absurd_in. }
  assert (Wo : In FOffset before -> exists o, print_offset (mq_offset q) = Ok o).
  { intros I. specialize (W _ I). cbn [mq_get] in W. inversion W; subst; cbn in *; eauto; absurd_in. }
  assert (Wx : In FExtrapolate before -> exists o, print_extrapolate (mq_extrapolate q) = Ok o).
  { intros I. specialize (W _ I). cbn [mq_get] in W. inversion W; subst; cbn in *; eauto; absurd_in. }
  Ltac known H := let o := fresh in let E := fresh in destruct H as (o & E); [cbn; tauto|]; rewrite E; cbn [bind].
  unfold written_fields in E.
  repeat (destruct before as [|? before]; [injection E as <- <-|injection E as <- E]);
    try (destruct before; discriminate E); cbn [mq_get] in U.
  all: try known Wq; try known Ws; try known We; try known Wr; try known Wc; try known Wl; try known Wo; try known Wx.
  all: match goal with
       | |- bind ?r _ = Raise ?x => let HR := fresh in enough (HR : r = Raise x) by (rewrite HR; reflexivity)
       end.
  all: try (apply (c111_bad_time FStart); [cbn; auto|exact U]); try (apply (c111_bad_time FEnd); [cbn; auto|exact U]).
  all: clear - U; revert U; match goal with |- unwritable _ ?x _ -> _ => generalize x end; intros v U.
  all: inversion U as [g J EG|w N1 N2 N3 N4 N5|g w J N1 N2]; subst; cbn [In] in *; try (absurd_in); try reflexivity.
  all: destruct v as [o| | | | |]; try reflexivity; try (destruct o; try reflexivity).
  all: exfalso; first [apply N1; reflexivity|eapply N2; reflexivity|eapply N3; reflexivity|eapply N4; reflexivity|eapply N5; reflexivity|apply N2; constructor; cbn; tauto].
Qed.
(** if every field can be written, str() is what the JSON encoder makes of the MQL and the settings,
    and only the encoder can refuse *)
Theorem C111_written : forall q, (forall g, In g written_fields -> writable g (mq_get g q)) ->
  exists p, mq_payload q = Ok p /\ mq_str_text q = mql_text p.
Proof.
  intros q W. unfold mq_str_text. enough (H : exists p, mq_payload q = Ok p).
  { destruct H as (p & H). exists p. split; [exact H|]. rewrite H. reflexivity. }
  assert (T : forall f, In f [FStart; FEnd] -> exists o, print_time (mq_get f q) = Ok o).
  { intros f I. apply (c111_time f _ I), W. cbn [In written_fields] in *. unfold written_fields. cbn [In]. intuition. }
  destruct (T FStart) as (st & Es); [cbn; auto|]. destruct (T FEnd) as (en & Ee); [cbn; auto|]. cbn [mq_get] in Es, Ee.
  unfold mq_payload.
  pose proof (W FQuery) as Wq. pose proof (W FRollup) as Wr. pose proof (W FScope) as Wc. pose proof (W FLimit) as Wl.
  pose proof (W FOffset) as Wo. pose proof (W FExtrapolate) as Wx. pose proof (W FIndexer) as Wi. cbn [mq_get] in *.
  assert (exists o, print_mq_query (mq_query q) = Ok o) as (? & ->).
  { specialize (Wq ltac:(cbn; tauto)). inversion Wq; subst; eauto; cbn in *; absurd_in. }
  cbn [bind]. rewrite Es. cbn [bind]. rewrite Ee. cbn [bind].
  assert (exists o, print_rollup (mq_rollup q) = Ok o) as (? & ->).
  { specialize (Wr ltac:(cbn; tauto)). inversion Wr; subst; cbn in *; eauto; absurd_in. }
  cbn [bind]. assert (exists o, print_scope (mq_scope q) = Ok o) as (? & ->).
  { specialize (Wc ltac:(cbn; tauto)). inversion Wc; subst; cbn in *; eauto; absurd_in. }
  cbn [bind]. assert (exists o, print_limit (mq_limit q) = Ok o) as (? & ->).
  { specialize (Wl ltac:(cbn; tauto)). inversion Wl; subst; cbn in *; eauto; absurd_in. }
  cbn [bind]. assert (exists o, print_offset (mq_offset q) = Ok o) as (? & ->).
  { specialize (Wo ltac:(cbn; tauto)). inversion Wo; subst; cbn in *; eauto; absurd_in. }
  cbn [bind]. assert (exists o, print_extrapolate (mq_extrapolate q) = Ok o) as (? & ->).
  { specialize (Wx ltac:(cbn; tauto)). inversion Wx; subst; cbn in *; eauto; absurd_in. }
  cbn [bind]. assert (exists o, print_indexer (mq_indexer q) = Ok o) as (? & ->).
  { specialize (Wi ltac:(cbn; tauto)). inversion Wi; subst; cbn in *; eauto; absurd_in. }
  cbn [bind]. eauto.
Qed.
(** for a query that validates, str() and print() agree *)
Theorem C111_print : forall q, mq_validate q = Ok tt -> mq_str_text q = mq_print_text q.
Proof. intros q V. unfold mq_print_text, mq_print, mq_str_text. rewrite V. reflexivity. Qed.
End P.

#[local] Existing Instance demoRT.
#[local] Existing Instance demoST.
(** a limit given as a number is reported before the missing mappings; a query that validation refuses is written *)
Example C111_case :
  (let q := mkMQ (demo_sum []) (demo_time 1 None) (demo_time 2 None) (VRollup demo_rollup) (VScope demo_scope)
     (VObj (OInt 5)) VNone VNone VNone in
   (forall g, In g [FQuery; FStart; FEnd; FRollup; FScope] -> writable g (mq_get g q))
   /\ unwritable FLimit (mq_get FLimit q) AttributeError /\ mq_str_text q = Raise AttributeError)
  /\ (let q := mkMQ (demo_sum []) (demo_time 1 None) (demo_time 2 None) (VRollup (mkRollup None None None ONone)) (VScope demo_scope)
     VNone VNone VNone (VObj demo_ix) in
   (forall g, In g written_fields -> writable g (mq_get g q))
   /\ mq_validate q = Raise InvalidMetricsQueryError /\ exists s, mq_str_text q = Ok s).
Proof.
  split; [split; [|split]|split; [|split]].
  - intros g I. cbn [In] in I. repeat (destruct I as [<-|I]); [| | | | |elim I]; cbn [mq_get];
      first [eapply wr_query; vm_compute; reflexivity|constructor; cbn; tauto].
  - apply un_class; [cbn; tauto|discriminate|]. intros W. inversion W; subst; cbn in *; absurd_in.
  - vm_compute. reflexivity.
  - intros g I. unfold written_fields in I. cbn [In] in I. repeat (destruct I as [<-|I]); try (elim I; fail); cbn [mq_get];
      first [eapply wr_query; vm_compute; reflexivity|constructor; cbn; tauto].
  - vm_compute. reflexivity.
  - eexists. vm_compute. reflexivity.
Qed.

Print Assumptions C111_first.
Print Assumptions C111_written.
Print Assumptions C111_print.
