(** Parsed queries without the exceptions of SpecSent are in the fragment of SpecMql (C65). *)
From Verif Require Import PyBase PyFacts Objects Metrics SpecExpr SpecMetrics MetricsFacts SpecMql SpecParsed SpecSent.

Section Sent.
Context {RT : PyRT}.

Lemma map_str_inj a b : map OStr a = map OStr b -> a = b.
Proof.
  revert b. induction a as [|x a IH]; intros [|y b] H; try discriminate; [reflexivity|].
  cbn in H. injection H as -> H. f_equal. apply IH, H.
Qed.
Lemma test_clear k o r : mql_key k -> parsed_test o r -> clear_filter (OCond (tag k) o r) -> mql_filter (OCond (tag k) o r).
Proof.
  intros K T C. constructor; [exact K|].
  inversion C as [? ? s S E|? ? l S E|]; subst; inversion T; subst; try (constructor; assumption);
    match goal with E : map OStr _ = map OStr _ |- _ => apply map_str_inj in E; subst end; constructor; assumption.
Qed.
Lemma filter_clear : forall c, parsed_filter c -> clear_filter c -> mql_filter c.
Proof.
  fix IH 2. intros c H. destruct H as [k o r K T|l L F|l L F].
  - apply test_clear; assumption.
  - intros C. constructor; [exact L|]. inversion C as [| |? ? ? ? G]; subst. clear - IH F G. revert G.
    induction F as [|x l P _ IHl]; intros G; [constructor|]. inversion G; subst. constructor; auto.
  - intros C. constructor; [exact L|]. inversion C as [| |? ? ? ? G]; subst. clear - IH F G. revert G.
    induction F as [|x l P _ IHl]; intros G; [constructor|]. inversion G; subst. constructor; auto.
Qed.
Lemma filters_clear l : Forall parsed_filter l -> Forall clear_filter l -> Forall mql_filter l.
Proof.
  intros F. induction F as [|x l P _ IHl]; intros G; [constructor|]. inversion G; subst. constructor; auto using filter_clear.
Qed.
Lemma metric_clear m : parsed_metric m -> clear_metric m -> mql_metric m.
Proof.
  intros P C. destruct P as [s (a & b & c & d & -> & (A1 & A2) & (B1 & B2) & (C1 & C2) & (D1 & D2))|s P].
  - destruct (C _ eq_refl) as (F & x & t & E & X1 & X2). constructor. exists a, b, c, d. split; [reflexivity|].
    assert (forall z, In z (a ++ $":" ++ b ++ $"/" ++ c ++ $"@" ++ d) -> ~ In z ($"(){}[],") /\ z <> 34%N) as K
      by (rewrite Forall_forall in F; exact F).
    rewrite Forall_forall in A2, B2, C2, D2.
    assert (forall p (stop stop' : string), (forall z, In z p -> ~ In z (lit stop)) -> p <> [] ->
       (forall z, In z p -> In z (a ++ $":" ++ b ++ $"/" ++ c ++ $"@" ++ d)) ->
       (forall z, In z (lit stop') -> In z (lit stop) \/ In z ($"(){}[],")) -> mri_part stop' p) as Part.
    { intros p stop stop' H N I S. split; [exact N|]. apply Forall_forall. intros z Iz J.
      destruct (S z J) as [S1|S1]; [exact (H z Iz S1)|]. apply I, K in Iz. tauto. }
    repeat split.
    + exact A1.
    + apply (Part a ":`"%string ":(){}[]`,"%string); auto; intros z I; [apply in_or_app; auto|cbn in I |- *; tauto].
    + exact B1.
    + apply (Part b "/`"%string "/(){}[]`,"%string); auto; intros z I; [rewrite !in_app_iff; auto|cbn in I |- *; tauto].
    + exact C1.
    + apply (Part c "@,`"%string "@(){}[]`,"%string); auto; intros z I; [rewrite !in_app_iff; auto 7|cbn in I |- *; tauto].
    + exact D1.
    + apply (Part d "`"%string "(){}[]`,"%string); auto; intros z I; [rewrite !in_app_iff; auto 8|cbn in I |- *; tauto].
    + intros I. apply K in I. tauto.
    + destruct a as [|y a]; [congruence|]. cbn in E. injection E as -> _. exists x, a. auto.
  - constructor. exact P.
Qed.
Lemma opt_clear f : opt_nonempty_obj parsed_filter f -> in_list clear_filter f -> opt_nonempty_obj mql_filter f.
Proof.
  intros [->|(l & -> & N & F)] [E|(l' & E & G)]; try discriminate; [left; reflexivity|].
  injection E as ->. right. exists l'. split; [reflexivity|]. split; [exact N|]. apply filters_clear; assumption.
Qed.
Lemma ts_clear t : parsed_ts t -> clear_query (VTS t) -> mql_timeseries t.
Proof.
  intros P C. inversion C as [|? M A N L F| | |]; subst. destruct P as [m a p f g Pm Pa Pp Pf Pg].
  cbn in M, A, N, L, F. split; [apply metric_clear; assumption|]. split; [exact Pa|]. split; [exact A|]. cbn. repeat split.
  - destruct p as [p|]; [|left; reflexivity]. right. exists p. split; [reflexivity|]. split; [congruence|apply L; reflexivity].
  - destruct Pf as [->|(l & -> & Nl & Fl)]; [left; reflexivity|]. right. exists l. split; [reflexivity|].
    split; [exact Nl|]. apply filters_clear; [exact Fl|apply F; reflexivity].
  - exact Pg.
Qed.
Theorem value_clear v : parsed_value v -> clear_query v -> mql_value v.
Proof.
  induction v as [o|m|t|r|sc|n pk ps a f g IH] using mval_ind'; intros P C; try (inversion P; fail).
  - inversion C as [? t [N|N]| | | |]; subst; [eapply mv_number|eapply mv_negative]; exact N.
  - constructor. inversion P; subst. apply ts_clear; assumption.
  - inversion P as [| | |n' ps' a' f' g' Pn Np Pps Pa Pf Pg]; subst. clear P.
    inversion C as [| |name v w f' g' I V W F|v V Q|name ps' a' f' g' NI NN Vs A F]; subst.
    + inversion IH as [|? ? H1 IH1]; subst. inversion IH1 as [|? ? H2 _]; subst.
      inversion Pps as [|? ? P1 Pps1]; subst. inversion Pps1 as [|? ? P2 _]; subst.
      constructor; auto. apply opt_clear; assumption.
    + inversion IH as [|? ? H1 _]; subst. inversion Pps as [|? ? P1 _]; subst. constructor; auto.
    + constructor; auto; [|apply opt_clear; assumption]. clear - IH Pps Vs.
      induction IH as [|x l H _ IHl]; [constructor|]. inversion Pps; inversion Vs; subst. constructor; auto.
Qed.
End Sent.
