(** Property C71: what the filters and formulas of a metrics query arrive as. *)
From Verif Require Import PyBase PyFacts Regex Utf8 DateTime Objects PyEqFacts Exprs Translate Query Metrics SpecExpr TextFacts
  SpecText LiteralFacts SpecMetrics MetricsFacts SpecMql MqlTokens MqlFilter SpecArrive Mql Concrete MqlText MqlRead MqlPrint Properties6.

Section P.
Context {RT : PyRT} {ST : PyStr}.

(** ** C71 A metrics query is read back with the filters and values it was written with *)
(** every Timeseries whose filters are tests of plain tags joined by And and Or: a reader of
    its text gets what SpecArrive says *)
Theorem C71_timeseries_partial : forall t t', ts_arrives t t' -> exists s u,
  print_ts t = Ok s /\ parse_mql s = Ok (VTS u) /\ ts_eqb u (conj_timeseries t') = true.
Proof.
  intros t t' H. destruct (ts_arrival t t' H) as (s & u & E & C & Q). exists s, u.
  split; [exact E|]. split; [|exact Q].
  pose proof (parse_sum s (VTS u) [] []) as P. cbn [app] in P. rewrite app_nil_r in P.
  apply P; [apply sm_one, pr_one, ut_coef, C|constructor|apply blank_nil|apply blank_nil].
Qed.
Theorem C71_formula_partial : forall n pk ps a f g v', value_arrives (VFormula n pk ps a f g) v' -> exists s u,
  print_mval (VFormula n pk ps a f g) = Ok s /\ parse_mql s = Ok u /\ mv_eq u (conj_value v') = true.
Proof.
  intros n pk ps a f g v' H. destruct (value_arrival _ _ H) as (s & u & E & T & Q & K). exists s, u.
  split; [exact E|]. split; [|exact Q].
  pose proof (parse_sum s u [] []) as P. cbn [app] in P. rewrite app_nil_r in P.
  apply P; [apply sm_one, pr_one, T|apply K; constructor|apply blank_nil|apply blank_nil].
Qed.

(** what arrives is determined *)
Lemma text_of_fun x s s' : text_of x s -> text_of x s' -> s = s'.
Proof.
  intros H H'. inversion H; inversion H'; subst; try congruence.
  match goal with E : OBytes _ = OBytes _ |- _ => injection E as E end.
  match goal with E : utf8_encode ?a = utf8_encode ?b |- _ => apply (f_equal utf8_decode) in E; rewrite !utf8_decode_encode in E by assumption end.
  congruence.
Qed.
Lemma word_of_fun x s s' : word_of x s -> word_of x s' -> s = s'.
Proof. intros H H'. destruct H; inversion H'; reflexivity. Qed.
Lemma text_word x s s' : text_of x s -> word_of x s' -> False.
Proof. intros H H'. destruct H; inversion H'. Qed.
Lemma text_listed x s l : text_of x s -> listed x l -> False.
Proof. intros H [->| ->]; inversion H. Qed.
Lemma word_listed x s l : word_of x s -> listed x l -> False.
Proof. intros H [->| ->]; inversion H. Qed.
Lemma comparand_fun n r o a o' a' : comparand n r o a -> comparand n r o' a' -> o = o' /\ a = a'.
Proof.
  assert (forall k s, ~ text_of (tag k) s) as T by (intros k s H; inversion H).
  assert (forall k s, ~ word_of (tag k) s) as W by (intros k s H; inversion H).
  assert (forall k l, ~ listed (tag k) l) as L by (intros k l [H|H]; inversion H).
  intros H H'. destruct H as [r s X N|r s X N|r s X|k X|r l ss X N F];
    inversion H' as [? s' X' N'|? s' X' N'|? s' X'|k' X'|? l' ss' X' N' F']; subst;
    try (exfalso; eauto using text_word, text_listed, word_listed; fail);
    try (pose proof (text_of_fun _ _ _ X X'); subst); try (pose proof (word_of_fun _ _ _ X X'); subst);
    try contradiction; try (split; reflexivity);
    try (exfalso; first [eapply T; eassumption|eapply W; eassumption|eapply L; eassumption]).
  - split; [reflexivity|]. do 2 f_equal.
    assert (l = l') as <- by (destruct X as [->| ->], X' as [E|E]; try discriminate E; injection E as <-; reflexivity).
    clear -F F'. revert ss' F'. induction F as [|x s l ss H F IH]; intros ss' F'; inversion F'; subst; [reflexivity|].
    f_equal; [|apply IH; assumption].
    match goal with K : text_of x ?y \/ word_of x ?y |- _ => destruct H as [H|H], K as [K|K] end;
      eauto using text_of_fun, word_of_fun; exfalso; eauto using text_word.
Qed.
Theorem C71_determined_partial : forall c c1 c2, arrives c c1 -> arrives c c2 -> c1 = c2.
Proof.
  assert (forall l l1, Forall (fun c => forall c1 c2, arrives c c1 -> arrives c c2 -> c1 = c2) l ->
    Forall2 arrives l l1 -> forall l2, Forall2 arrives l l2 -> l1 = l2) as A.
  { intros l l1 IH F. revert IH. induction F as [|c c1 l l1 H _ J]; intros IH l2 F2; inversion F2; subst; [reflexivity|].
    inversion IH; subst. f_equal; auto. }
  induction c using obj_ind'; intros c1' c2' H1 H2; inversion H1; inversion H2; subst; try congruence.
  - match goal with E : tag _ = tag _ |- _ => injection E as <- end.
    match goal with D : denies _ ?x, D' : denies _ ?y |- _ => assert (x = y) as <- end.
    { match goal with D : denies _ ?x, D' : denies _ ?y |- _ => revert D D'; generalize x y end.
      intros x y D D'. apply denies_negated in D, D'. destruct D as (_ & <-), D' as (_ & <-). reflexivity. }
    match goal with C : comparand _ _ _ _, C' : comparand _ _ _ _ |- _ => destruct (comparand_fun _ _ _ _ _ _ C C') as (<- & <-) end.
    reflexivity.
  - f_equal. eauto.
  - f_equal. eauto.
Qed.
(** the filters that arrive as they are: exactly those of the fragment of C43 and C44 *)
Lemma seen_string s : mql_seen s = s -> mql_string s.
Proof.
  rewrite seen_unq, <- unquote_quoted. apply unquote_same.
Qed.
Lemma strings_same l m : Forall2 (fun x s => text_of x s \/ word_of x s) (map OStr l) m -> l = m -> Forall mql_string l.
Proof.
  revert m. induction l as [|s l IH]; intros m F E; [constructor|]. inversion F; subst.
  match goal with E : _ :: _ = _ :: _ |- _ => injection E as <- <- end. constructor; [|eapply IH; [eassumption|reflexivity]].
  match goal with H : text_of _ _ \/ _ |- _ => destruct H as [H|H]; inversion H; subst end. apply seen_string. congruence.
Qed.
Theorem C71_unchanged_partial : forall c, arrives c c <-> mql_filter c.
Proof.
  assert (forall l, Forall (fun c => arrives c c -> mql_filter c) l -> Forall2 arrives l l -> Forall mql_filter l) as A.
  { induction 1; intros F; inversion F; subst; constructor; auto. }
  intros c. split; [|apply filter_arrives].
  induction c using obj_ind'; intros H'; inversion H'; subst.
  - constructor; [assumption|].
    match goal with D : denies _ _ |- _ => clear D end.
    match goal with C : comparand _ _ _ _ |- _ => inversion C; subst; clear C end.
    + match goal with T : text_of _ _ |- _ => inversion T as [x E1 E2|x S E1 E2]; subst end.
      match goal with E : mql_seen _ = _ |- _ => rewrite ?E; apply seen_string in E end.
      destruct negated; constructor; assumption.
    + match goal with T : text_of _ _ |- _ => inversion T as [x E1 E2|x S E1 E2]; subst end.
      match goal with E : mql_seen _ = _ |- _ => rewrite ?E; apply seen_string in E end.
      destruct negated; constructor; assumption.
    + match goal with W : word_of (OStr _) _ |- _ => inversion W end.
    + match goal with L : listed _ _ |- _ => destruct L as [L|L]; inversion L; subst end.
      match goal with F : Forall2 _ (map OStr ?x) ?x |- _ => rename x into ss; assert (Forall mql_string ss) as M end.
      { eapply strings_same; eassumption || reflexivity. }
      destruct negated; constructor; try assumption; destruct ss; try discriminate; cbn in *; congruence.
  - apply mf_and; auto.
  - apply mf_or; auto.
Qed.

(** false in general: the reader gets another query *)
Definition c71_sum (l : list obj) : timeseries := mkTS (mkMetric (Some ($"a")) None None) ($"sum") None (Some l) None.
Definition reads_as (t u : timeseries) : Prop := exists s, print_ts t = Ok s /\ parse_mql s = Ok (VTS u).
Lemma c71_tag c : api (OStr [c]) -> mk_column (OStr [c]) ONone = Ok (tag [c]) -> api (tag [c]).
Proof. intros A E. exact (api_column _ _ _ A api_none E). Qed.
Lemma c71_str s : forallb (fun c => N.ltb c 1114112) s = true -> api (OStr s).
Proof.
  intros H. apply api_str. apply Forall_forall. intros c I. rewrite forallb_forall in H. apply N.ltb_lt, H, I.
Qed.
(** a number arrives as a string, a column as a string with its name, a comparison as equality *)
Theorem C71_value_refuted : exists k, api k /\
  (exists t, api (OCond k EQ (OInt 5)) /\ api (OCond k GT (OStr ($"5")))
    /\ reads_as (c71_sum [OCond k EQ (OInt 5)]) t /\ reads_as (c71_sum [OCond k GT (OStr ($"5"))]) t
    /\ t = c71_sum [OCond k EQ (OStr ($"5"))])
  /\ exists j t, a_column j /\ api (OCond k EQ j) /\ reads_as (c71_sum [OCond k EQ j]) t
    /\ t = c71_sum [OCond k EQ (OStr ($"j"))].
Proof.
  assert (api (tag ($"k"))) as K by (apply c71_tag; [apply c71_str; reflexivity|vm_compute; reflexivity]).
  assert (api (tag ($"j"))) as J by (apply c71_tag; [apply c71_str; reflexivity|vm_compute; reflexivity]).
  exists (tag ($"k")). split; [exact K|]. split.
  - eexists. split; [eapply (api_condition _ (OOp EQ) (OInt 5)); [exact K|apply api_op|apply api_int|vm_compute; reflexivity]|].
    split; [eapply (api_condition _ (OOp GT) (OStr ($"5"))); [exact K|apply api_op|apply c71_str; reflexivity|vm_compute; reflexivity]|].
    split; [eexists; split; vm_compute; reflexivity|]. split; [eexists; split; vm_compute; reflexivity|]. vm_compute. reflexivity.
  - exists (tag ($"j")). eexists. split; [constructor|].
    split; [eapply (api_condition _ (OOp EQ) (tag ($"j"))); [exact K|apply api_op|exact J|vm_compute; reflexivity]|].
    split; [eexists; split; vm_compute; reflexivity|]. vm_compute. reflexivity.
Qed.
(** (k IS NULL OR b = x) arrives as (k = OR AND b = x) *)
Theorem C71_null_refuted : exists k b x, api k /\ api b /\ api x
  /\ api (OBoolC BOr OR KList [OCond k IS_NULL ONone; OCond b EQ x])
  /\ reads_as (c71_sum [OBoolC BOr OR KList [OCond k IS_NULL ONone; OCond b EQ x]])
              (c71_sum [OBoolC BAnd AND KList [OCond k EQ (OStr ($"OR")); OCond b EQ x]]).
Proof.
  assert (api (tag ($"k"))) as K by (apply c71_tag; [apply c71_str; reflexivity|vm_compute; reflexivity]).
  assert (api (tag ($"b"))) as B by (apply c71_tag; [apply c71_str; reflexivity|vm_compute; reflexivity]).
  assert (api (OStr ($"x"))) as X by (apply c71_str; reflexivity).
  exists (tag ($"k")), (tag ($"b")), (OStr ($"x")). do 3 (split; [assumption|]). split.
  - eapply (api_or (OList [OCond (tag ($"k")) IS_NULL ONone; OCond (tag ($"b")) EQ (OStr ($"x"))])); [|vm_compute; reflexivity].
    apply api_list. constructor; [|constructor; [|constructor]].
    + eapply (api_condition _ (OOp IS_NULL) ONone); [exact K|apply api_op|apply api_none|vm_compute; reflexivity].
    + eapply (api_condition _ (OOp EQ) (OStr ($"x"))); [exact B|apply api_op|exact X|vm_compute; reflexivity].
  - eexists; split; vm_compute; reflexivity.
Qed.
(** or no query at all: a null test alone, an empty list, an Or of nothing, a date, a tag in
    brackets, a function on the left *)
Definition refused (f : obj) : Prop := exists s,
  print_ts (c71_sum [f]) = Ok s /\ parse_mql s = Raise InvalidMQLQueryError.
Theorem C71_unreadable_refuted : exists k s h d, Forall api [k; s; h; d]
  /\ Forall (fun f => api f /\ refused f)
  [OCond k IS_NULL ONone; OCond k IN (OList []); OCond k EQ d; OCond s EQ (OInt 5); OCond h EQ (OInt 5)].
Proof.
  assert (api (tag ($"k"))) as K by (apply c71_tag; [apply c71_str; reflexivity|vm_compute; reflexivity]).
  set (s := OColumn (mkColumn ($"tags[k]") None (Some ($"tags")) (Some ($"k")))).
  assert (api s) as S.
  { eapply (api_column (OStr ($"tags[k]")) ONone); [apply c71_str; reflexivity|apply api_none|vm_compute; reflexivity]. }
  set (h := OFunc true ($"lower") KNone [] KList [tag ($"k")] None).
  assert (api h) as H.
  { eapply (api_function (OStr ($"lower")) (OList [tag ($"k")]) ONone);
      [apply c71_str; reflexivity|exact (api_list _ (Forall_cons _ K (Forall_nil _)))|apply api_none|vm_compute; reflexivity]. }
  set (d := ODate (mkDate 2021 1 2)).
  assert (api d) as D by (apply api_date; vm_compute; intuition discriminate).
  exists (tag ($"k")), s, h, d. split; [repeat (constructor; [assumption|]); constructor|].
  repeat (apply Forall_cons; [split; [|eexists; split; vm_compute; reflexivity]|]); [..|constructor].
  - eapply (api_condition _ (OOp IS_NULL) ONone); [exact K|apply api_op|apply api_none|vm_compute; reflexivity].
  - eapply (api_condition _ (OOp IN) (OList [])); [exact K|apply api_op|apply api_list; constructor|vm_compute; reflexivity].
  - eapply (api_condition _ (OOp EQ) d); [exact K|apply api_op|exact D|vm_compute; reflexivity].
  - eapply (api_condition _ (OOp EQ) (OInt 5)); [exact S|apply api_op|apply api_int|vm_compute; reflexivity].
  - eapply (api_condition _ (OOp EQ) (OInt 5)); [exact H|apply api_op|apply api_int|vm_compute; reflexivity].
Qed.
End P.

(** Non-vacuity *)
#[local] Existing Instance demoRT.
#[local] Existing Instance demoST.
(** a query outside the fragment of C43: a number, a list with a number and None, a string
    with a backslash and a newline, a tuple of conditions *)
Definition c71_from : list obj :=
  [OCond (tag ($"k")) GTE (OInt (-5));
   OBoolC BOr OR KTuple [OCond (tag ($"b")) NOT_IN (OTuple [OStr ($"x y"); OInt 3; ONone]);
                         OCond (tag ($"c")) LIKE (OStr [97; 92; 10]%N)]].
Definition c71_to : list obj :=
  [OCond (tag ($"k")) EQ (OStr ($"-5"));
   OBoolC BOr OR KList [OCond (tag ($"b")) NOT_IN (OList [OStr ($"x y"); OStr ($"3"); OStr ($"NULL")]);
                        OCond (tag ($"c")) EQ (OStr [97; 92; 92; 92; 110]%N)]].
Lemma c71_arrives : Forall2 arrives c71_from c71_to.
Proof.
  constructor; [|constructor; [|constructor]].
  - apply (ar_test _ GTE false); [apply demo_key; reflexivity|cbn; auto 10|]. apply (cd_word false _ ($"-5")), (wd_int (-5)).
  - apply ar_or; [cbn; lia|]. constructor; [|constructor; [|constructor]].
    + apply (ar_test _ NOT_IN true); [apply demo_key; reflexivity|cbn; auto 10|].
      apply (cd_list true _ [OStr ($"x y"); OInt 3; ONone] [$"x y"; $"3"; $"NULL"]); [right; reflexivity|discriminate|].
      constructor; [left; apply (tx_str ($"x y"))|]. constructor; [right; apply (wd_int 3)|].
      constructor; [right; apply wd_none|constructor].
    + apply (ar_test _ LIKE false); [apply demo_key; reflexivity|cbn; auto 10|].
      apply (cd_text false); [apply (tx_str [97; 92; 10]%N)|]. intros (p & E & _).
      assert (last [97; 92; 92; 92; 110]%N 0%N = last (p ++ $"*") 0%N) as L by (rewrite <- E; reflexivity).
      change ($"*") with [42%N] in L. rewrite last_last in L. discriminate L.
Qed.
Example C71_case : exists s u, print_ts (c71_sum c71_from) = Ok s /\ parse_mql s = Ok (VTS u)
  /\ ts_eqb u (conj_timeseries (c71_sum c71_to)) = true /\ c71_from <> c71_to.
Proof.
  destruct (C71_timeseries_partial (c71_sum c71_from) (c71_sum c71_to)) as (s & u & E & P & Q).
  - split; [apply demo_name; reflexivity|]. split; [discriminate|]. split; [left; reflexivity|].
    exists (ts_metric (c71_sum c71_to)), None, (Some c71_to). split; [reflexivity|].
    split; [apply (mt_public ($"a") None); exists [$"a"]; split; [discriminate|]; split; [reflexivity|];
      constructor; [split; [discriminate|repeat constructor; cbv; intuition discriminate]|constructor]|].
    split; [left; auto|]. right. exists c71_from, c71_to. repeat (split; [reflexivity || discriminate|]).
    apply c71_arrives.
  - exists s, u. repeat (split; [assumption|]). discriminate.
Qed.
(** three operands and aggregate parameters of plus, in a tuple, with an empty list of filters *)
Example C71_chain : exists s u, print_mval (VFormula (OStr ($"plus")) (Some KTuple)
    [VTS demo_count; VTS demo_count; VTS demo_count] (OList [OInt 1]) (OList []) ONone) = Ok s
  /\ parse_mql s = Ok u
  /\ mv_eq u (conj_value (VFormula (OStr ($"plus")) (Some KList)
       [VFormula (OStr ($"plus")) (Some KList) [VTS demo_count; VTS demo_count] ONone ONone ONone; VTS demo_count] ONone ONone ONone)) = true.
Proof.
  assert (value_arrives (VTS demo_count) (VTS demo_count)) as C by (apply va_ts, ts_arrives_same, demo_count_ok).
  apply C71_formula_partial.
  apply (va_infix ($"plus") KTuple (VTS demo_count) [VTS demo_count] (VTS demo_count) (OList [OInt 1]) (OList []) ONone
    (VTS demo_count) [VTS demo_count] (VTS demo_count) ONone ONone); try exact C.
  - left; reflexivity.
  - right; reflexivity.
  - constructor; [exact C|constructor].
  - left. split; [right; left; reflexivity|reflexivity].
  - left. auto.
Qed.
(** a metric with a public name, an mri and an id arrives with its mri only *)
Example C71_metric : exists s u, print_ts (mkTS (mkMetric (Some ($"duration")) (ts_metric demo_series).(m_mri) (Some (PInt 7))) ($"sum") None None None) = Ok s
  /\ parse_mql s = Ok (VTS u)
  /\ ts_eqb u (mkTS (ts_metric demo_series) ($"sum") None None None) = true.
Proof.
  apply (C71_timeseries_partial _ (mkTS (ts_metric demo_series) ($"sum") None None None)).
  split; [apply demo_name; reflexivity|]. split; [discriminate|]. split; [left; reflexivity|].
  eexists _, None, None. split; [reflexivity|]. split; [|split; left; auto].
  pose proof (proj1 demo_series_ok) as M. inversion M as [s H E|]; subst. apply (mt_mri (Some ($"duration")) _ (Some (PInt 7)) H).
Qed.

Print Assumptions C71_timeseries_partial.
Print Assumptions C71_formula_partial.
Print Assumptions C71_determined_partial.
Print Assumptions C71_unchanged_partial.
Print Assumptions C71_value_refuted.
Print Assumptions C71_null_refuted.
Print Assumptions C71_unreadable_refuted.
