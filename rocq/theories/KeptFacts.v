(** Queries with other strings arrive with the same structure (C72). *)
From Verif Require Import PyBase PyFacts Regex Objects PyEqFacts Exprs Translate Query Metrics SpecExpr
  SpecText SpecMetrics SpecMql SpecArrive SpecKept Mql MqlTokens MqlExpr MqlText MqlPrint.

Section Kept.
Context {RT : PyRT} {ST : PyStr}.

Lemma reread_seen s : text_of (OStr s) (reread s).
Proof. apply tx_str. Qed.
Lemma reread_injective s : forall s', reread s = reread s' -> s = s'.
Proof.
  assert (forall c s, reread (c :: s) = (if N.eqb c 92 then [92; 92]%N else if N.eqb c 10 then [92; 110]%N else [c]) ++ reread s) as U by reflexivity.
  induction s as [|c s IH]; intros [|c' s'] E; [reflexivity| | |].
  - rewrite U in E. destruct (N.eqb c' 92), (N.eqb c' 10); discriminate E.
  - rewrite U in E. destruct (N.eqb c 92), (N.eqb c 10); discriminate E.
  - rewrite !U in E. destruct (N.eqb_spec c 92) as [->|H1], (N.eqb_spec c' 92) as [->|H2].
    + injection E as E. f_equal. auto.
    + destruct (N.eqb_spec c' 10) as [->|H3]; cbn [app] in E; [discriminate|]. injection E as E _. congruence.
    + destruct (N.eqb_spec c 10) as [->|H3]; cbn [app] in E; [discriminate|]. injection E as E _. congruence.
    + destruct (N.eqb_spec c 10) as [->|H3], (N.eqb_spec c' 10) as [->|H4]; cbn [app] in E.
      * injection E as E. f_equal. auto.
      * injection E as E _. congruence.
      * injection E as E _. congruence.
      * injection E as <- E. f_equal. auto.
Qed.
Lemma word_dec p : word p \/ ~ word p.
Proof.
  destruct p as [|c p]; [right; intros (N & _); congruence|].
  destruct (forallb unquoted_char (c :: p)) eqn:F.
  - left. split; [discriminate|]. apply Forall_forall. intros x I. apply pattern_unquoted. rewrite forallb_forall in F. auto.
  - right. intros (_ & W). assert (forallb unquoted_char (c :: p) = true); [|congruence].
    apply forallb_forall. intros x I. apply pattern_unquoted. rewrite Forall_forall in W. auto.
Qed.
Lemma wildcard_dec s : wildcard s \/ ~ wildcard s.
Proof.
  destruct s as [|c s _] using rev_ind.
  - right. intros (p & E & _). destruct p; discriminate E.
  - destruct (N.eqb_spec c 42) as [->|N].
    + destruct (word_dec s) as [(W1 & W2)|W]; [left; exists s; auto|].
      right. intros (p & E & P). apply app_inj_tail in E. destruct E as (-> & _). apply W, P.
    + right. intros (p & E & P). apply app_inj_tail in E. destruct E as (_ & E). apply N. rewrite E. reflexivity.
Qed.
Lemma test_neg o o' : same_test o o' -> exists n : bool, denies o n
  /\ same_test o (if n then NEQ else EQ) /\ same_test o (if n then NOT_LIKE else LIKE).
Proof.
  intros [(H & _)|(H & _)]; [exists false|exists true]; cbn in H; destruct H as [<-|[<-|[]]];
    (split; [cbn; auto 10|split; unfold same_test; cbn; auto 10]).
Qed.
Lemma list_texts l l' : Forall2 any_strings l l' -> Forall2 (fun x s => text_of x s \/ word_of x s) (map OStr l) (map reread l).
Proof. intros _. induction l as [|s l IH]; [constructor|]. constructor; [left; apply reread_seen|exact IH]. Qed.
Lemma list_rereads l : Forall2 rereads l (map reread l).
Proof. induction l; constructor; [reflexivity|assumption]. Qed.
Lemma test_kept c c0 : kept_test any_strings c c0 -> mql_filter c0 -> exists c', arrives c c' /\ kept_test rereads c c'.
Proof.
  intros [k o o0 s s0 S _|k o l l0 O F] M.
  - assert (exists j, mql_key j /\ k = tag j) as (j & K & ->) by (inversion M; subst; eauto).
    destruct (test_neg _ _ S) as (n & D & E & P).
    destruct (wildcard_dec (reread s)) as [W|W].
    + eexists. split; [eapply ar_test; [exact K|exact D|apply cd_pattern; [apply reread_seen|exact W]]|].
      apply kt_string; [exact P|reflexivity].
    + eexists. split; [eapply ar_test; [exact K|exact D|apply cd_text; [apply reread_seen|exact W]]|].
      apply kt_string; [exact E|reflexivity].
  - assert (exists j, mql_key j /\ k = tag j) as (j & K & ->) by (inversion M; subst; eauto).
    assert (l <> []) as N.
    { intros ->. inversion F; subst. inversion M; subst.
      match goal with T : mql_test _ _ |- _ => inversion T; subst end;
        match goal with E : map OStr ?x = _, H : ?x <> [] |- _ => destruct x; [apply H; reflexivity|discriminate E] end. }
    assert (exists n : bool, denies o n /\ o = if n then NOT_IN else IN) as (n & D & E).
    { cbn in O. destruct O as [<-|[<-|[]]]; [exists false|exists true]; cbn; auto 10. }
    exists (OCond (tag j) o (OList (map OStr (map reread l)))). split.
    + rewrite E at 2. eapply ar_test; [exact K|exact D|]. eapply cd_list; [left; reflexivity| |eapply list_texts, F].
      destruct l; [congruence|discriminate].
    + apply kt_list; [exact O|apply list_rereads].
Qed.
Lemma filter_kept c : forall c0, kept_filter any_strings c c0 -> mql_filter c0 ->
  exists c', arrives c c' /\ kept_filter rereads c c'.
Proof.
  assert (forall l l0, Forall (fun c => forall c0, kept_filter any_strings c c0 -> mql_filter c0 ->
      exists c', arrives c c' /\ kept_filter rereads c c') l ->
    Forall2 (kept_filter any_strings) l l0 -> Forall mql_filter l0 ->
    exists l', Forall2 arrives l l' /\ Forall2 (kept_filter rereads) l l') as A.
  { clear c. intros l l0 IH F. revert IH. induction F as [|c c0 l l0 H F J]; intros IH M; [exists []; split; constructor|].
    inversion IH; inversion M; subst. destruct J as (l' & P & Q); [assumption..|].
    match goal with I : forall c0, kept_filter _ c c0 -> _ |- _ => destruct (I c0) as (c' & P' & Q'); [assumption..|] end.
    exists (c' :: l'). split; constructor; assumption. }
  induction c using obj_ind'; intros c0 K M;
    try (inversion K as [x x' T|]; subst; destruct (test_kept _ _ T M) as (c' & P & Q); exists c'; split; [exact P|apply kf_test, Q]; fail).
  inversion K as [x x' T|cls1 o1 k1 l1 l1' F]; subst.
  - destruct (test_kept _ _ T M) as (c' & P & Q). exists c'. split; [exact P|apply kf_test, Q].
  - inversion M; subst;
      match goal with Hl : Forall mql_filter _ |- _ => destruct (A _ _ H F Hl) as (m & P & Q) end; eexists;
      (split; [|apply kf_bool, Q]); [apply ar_and|apply ar_or]; try exact P;
      rewrite (Forall2_len _ _ _ F); assumption.
Qed.
Lemma filters_kept l l0 : Forall2 (kept_filter any_strings) l l0 -> Forall mql_filter l0 ->
  exists l', Forall2 arrives l l' /\ Forall2 (kept_filter rereads) l l'.
Proof.
  induction 1 as [|c c0 l l0 H F J]; intros M; [exists []; split; constructor|].
  inversion M; subst. destruct J as (l' & P & Q); [assumption..|].
  destruct (filter_kept _ _ H) as (c' & P' & Q'); [assumption|]. exists (c' :: l'). split; constructor; assumption.
Qed.
Lemma param_kept p p0 : kept_param any_strings p p0 -> mql_param p0 -> exists p', param_arrives p p' /\ kept_param rereads p p'.
Proof.
  intros [s s0 _|q N] M.
  - eexists. split; [apply pa_text, reread_seen|]. apply kp_string. reflexivity.
  - destruct M as [n t E|s E]; [|exfalso; eapply N; reflexivity].
    eexists. split; [eapply pa_number, E|apply kp_other, N].
Qed.
Lemma params_kept l l0 : Forall2 (kept_param any_strings) l l0 -> Forall mql_param l0 ->
  exists l', Forall2 param_arrives l l' /\ Forall2 (kept_param rereads) l l'.
Proof.
  induction 1 as [|c c0 l l0 H F J]; intros M; [exists []; split; constructor|].
  inversion M; subst. destruct J as (l' & P & Q); [assumption..|].
  destruct (param_kept _ _ H) as (c' & P' & Q'); [assumption|]. exists (c' :: l'). split; constructor; assumption.
Qed.
Lemma opt_kept (K K' A : obj -> obj -> Prop) (M : obj -> Prop) x x0 :
  (forall l l0, Forall2 K l l0 -> Forall M l0 -> exists l', Forall2 A l l' /\ Forall2 K' l l') ->
  kept_opt K x x0 -> opt_nonempty M x0 -> exists x', lists_arrive A x x' /\ kept_opt K' x x'.
Proof.
  intros H [(-> & ->)|(l & l0 & -> & -> & F)] N.
  - exists None. split; [left; auto|left; auto].
  - destruct N as [N|(m & E & N & G)]; [discriminate N|]. injection E as <-.
    destruct (H _ _ F G) as (l' & P & Q). exists (Some l'). split; [|right; exists l, l'; auto].
    right. exists l, l'. repeat split; auto. intros ->. inversion F; subst. congruence.
Qed.
Lemma ts_kept t t0 : kept_ts any_strings t t0 -> mql_timeseries t0 -> exists t', ts_arrives t t' /\ kept_ts rereads t t'.
Proof.
  intros (E1 & E2 & P & F & E3) (M & A & B & MP & MF & G).
  destruct (opt_kept _ _ _ _ _ _ params_kept P MP) as (p & P1 & P2).
  destruct (opt_kept _ _ _ _ _ _ filters_kept F MF) as (f & F1 & F2).
  exists (mkTS (ts_metric t) (ts_agg t) p f (ts_groupby t)). split.
  - unfold ts_arrives. rewrite E1, E2, E3. do 3 (split; [assumption|]). exists (ts_metric t0), p, f. auto using metric_arrives_same.
  - unfold kept_ts. cbn. auto.
Qed.
Lemma list_kept f f0 : kept_list any_strings f f0 -> opt_nonempty_obj mql_filter f0 ->
  exists f', filters_arrive f f' /\ kept_list rereads f f'.
Proof.
  intros [(-> & ->)|(l & l0 & -> & -> & F)] N.
  - exists ONone. split; left; auto.
  - destruct N as [N|(m & E & N & G)]; [discriminate N|]. injection E as <-.
    destruct (filters_kept _ _ F G) as (l' & P & Q). exists (OList l'). split; [|right; exists l, l'; auto].
    right. exists l, l'. repeat split; auto; [left; reflexivity|]. intros ->. inversion F; subst. congruence.
Qed.
Lemma query_kept R v v0 : kept_value R v v0 -> mql_query v0 -> mql_query v.
Proof. intros K M. destruct K; [constructor|inversion M|constructor]. Qed.
Lemma value_kept v0 : mql_value v0 -> forall v, kept_value any_strings v v0 ->
  exists v', value_arrives v v' /\ kept_value rereads v v'.
Proof.
  induction v0 as [o|m|t0|r|sc|n pk ps0 a f0 g IH] using mval_ind'; intros M v K.
  - inversion K; subst. inversion M; subst; (eexists; split; [|apply kv_obj]); [eapply va_number|eapply va_negative]; eassumption.
  - inversion K.
  - inversion K as [t t1 T| |]; subst. inversion M; subst. destruct (ts_kept _ _ T) as (t' & P & Q); [assumption|].
    exists (VTS t'). split; [apply va_ts, P|apply kv_ts, Q].
  - inversion K.
  - inversion K.
  - inversion K as [| |n' k' ps ps1 a' f f1 g' F L]; subst.
    assert (Forall mql_value ps0 -> exists ps', Forall2 value_arrives ps ps' /\ Forall2 (kept_value rereads) ps ps') as A.
    { clear -IH F. revert IH. induction F as [|c c0 l l0 H F J]; intros IH M; [exists []; split; constructor|].
      inversion IH; inversion M; subst. destruct J as (l' & P & Q); [assumption..|].
      match goal with I : mql_value c0 -> _ |- _ => destruct (I ltac:(assumption) c H) as (c' & P' & Q') end.
      exists (c' :: l'). split; constructor; assumption. }
    inversion M; subst.
    + destruct A as (ps' & P & Q); [repeat (constructor; [assumption|]); constructor|].
      inversion P as [|x x' l1 l1' P1 P']; subst; [inversion F|]. inversion F as [|? ? ? ? _ F']; subst.
      inversion P' as [|y y' l2 l2' P2 P'']; subst; [inversion F'|]. inversion F' as [|? ? ? ? _ F'']; subst.
      inversion F''; subst. inversion P''; subst.
      destruct (list_kept _ _ L) as (f' & L1 & L2); [assumption|].
      eexists. split; [apply (va_infix name KList x [] y ONone f g x' [] y' f' g); auto using opt_tags; left; reflexivity|].
      apply kv_formula; assumption.
    + destruct A as (ps' & P & Q); [repeat (constructor; [assumption|]); constructor|].
      inversion P as [|x x' l1 l1' P1 P']; subst; [inversion F|]. inversion F as [|? ? ? ? X F']; subst.
      inversion F'; subst. inversion P'; subst.
      destruct L as [(-> & _)|(? & ? & _ & E & _)]; [|discriminate E].
      eexists. split; [apply va_negate; [left; reflexivity|exact P1|eapply query_kept; eassumption]|].
      apply kv_formula; [exact Q|left; auto].
    + destruct A as (ps' & P & Q); [assumption|]. destruct (list_kept _ _ L) as (f' & L1 & L2); [assumption|].
      eexists. split; [apply va_function; try eassumption; [left; reflexivity| |apply fparams_same; assumption|apply opt_tags; assumption]|].
      * intros ->. inversion F; subst. congruence.
      * apply kv_formula; assumption.
Qed.
End Kept.
