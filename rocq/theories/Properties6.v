(** Properties C43-C46: MQL text. *)
From Verif Require Import PyBase PyFacts Regex RegexFacts Objects PyEqFacts Exprs Translate Query Metrics Mql
  SpecExpr SpecMetrics SpecMql Concrete MqlText MqlRead MqlPrint.

Section P.
Context {RT : PyRT}.

(** ** C43 A serialized Timeseries parses back to itself *)
Theorem C43_timeseries : forall {ST : PyStr} t, mql_timeseries t -> exists s t',
  print_ts t = Ok s /\ parse_mql s = Ok (VTS t') /\ ts_eqb t' (conj_timeseries t) = true.
Proof.
  intros ST t H. destruct (ts_print t H) as (s & t' & E & C & Q). exists s, t'.
  split; [exact E|]. split; [|exact Q].
  pose proof (parse_sum s (VTS t') [] []) as P. cbn [app] in P. rewrite app_nil_r in P.
  apply P; [apply sm_one, pr_one, ut_coef, C|constructor|apply blank_nil|apply blank_nil].
Qed.
(** a Timeseries with at most one filter comes back equal as it is *)
Theorem C43_one_filter : forall {ST : PyStr} t, mql_timeseries t ->
  (forall l, ts_filters t = Some l -> List.length l <= 1) -> exists s t',
  print_ts t = Ok s /\ parse_mql s = Ok (VTS t') /\ ts_eqb t' t = true.
Proof.
  intros ST t H L. destruct (C43_timeseries t H) as (s & t' & E & P & Q). exists s, t'.
  split; [exact E|]. split; [exact P|]. replace t with (conj_timeseries t); [exact Q|].
  destruct t as [m a p [[|x [|y l]]|] g]; try reflexivity.
  specialize (L _ eq_refl). cbn in L. lia.
Qed.
(** two Timeseries of the fragment with the same text are equal up to joining filters *)
Theorem C43_injective : forall {ST : PyStr} t u s, mql_timeseries t -> mql_timeseries u ->
  print_ts t = Ok s -> print_ts u = Ok s ->
  exists v, ts_eqb v (conj_timeseries t) = true /\ ts_eqb v (conj_timeseries u) = true.
Proof.
  intros ST t u s Ht Hu Et Eu. destruct (C43_timeseries t Ht) as (s1 & t1 & E1 & P1 & Q1).
  destruct (C43_timeseries u Hu) as (s2 & t2 & E2 & P2 & Q2). exists t1. split; [exact Q1|]. congruence.
Qed.

(** ** C44 A serialized Formula parses back to itself *)
Theorem C44_formula : forall {ST : PyStr} n pk ps a f g, mql_value (VFormula n pk ps a f g) -> exists s v,
  print_mval (VFormula n pk ps a f g) = Ok s /\ parse_mql s = Ok v
  /\ mv_eq v (conj_value (VFormula n pk ps a f g)) = true.
Proof.
  intros ST n pk ps a f g H. destruct (value_prints _ H) as (s & v & E & T & Q & K). exists s, v.
  split; [exact E|]. split; [|exact Q].
  pose proof (parse_sum s v [] []) as P. cbn [app] in P. rewrite app_nil_r in P.
  apply P; [apply sm_one, pr_one, T|apply K; constructor|apply blank_nil|apply blank_nil].
Qed.

(** ** C45 MQL arithmetic is left associative with the usual precedence *)
(** every expression, white space around it *)
Theorem C45_expression : forall s v w w', sum_text s v -> mql_query v -> white w -> white w' ->
  parse_mql (w ++ s ++ w') = Ok v.
Proof. exact parse_sum. Qed.
(** a chain: operators and operands with the text between them *)
Definition link : Type := str * str * str * str * str * mval.
Definition link_text (x : link) : str := let '(w1, o, n, w2, u, v) := x in w1 ++ o ++ w2 ++ u.
Definition link_apply (acc : mval) (x : link) : mval :=
  let '(w1, o, n, w2, u, v) := x in function n [acc; v] ONone.
Definition link_ok (ops : list (str * str)) (operand : str -> mval -> Prop) (x : link) : Prop :=
  let '(w1, o, n, w2, u, v) := x in white w1 /\ In (o, n) ops /\ white w2 /\ operand u v.
Lemma sum_chain l : Forall (link_ok [($"+", $"plus"); ($"-", $"minus")] product_text) l -> forall s v,
  sum_text s v -> sum_text (s ++ flat_map link_text l) (fold_left link_apply l v).
Proof.
  induction 1 as [|[[[[[w1 o] n] w2] u] x] l (H1 & H2 & H3 & H4) _ IH]; intros s v S.
  - cbn. rewrite app_nil_r. exact S.
  - cbn [flat_map fold_left link_text link_apply]. rewrite app_assoc. apply IH. apply sm_op; assumption.
Qed.
Lemma product_chain l : Forall (link_ok [($"*", $"multiply"); ($"/", $"divide")] unary_text) l -> forall s v,
  product_text s v -> product_text (s ++ flat_map link_text l) (fold_left link_apply l v).
Proof.
  induction 1 as [|[[[[[w1 o] n] w2] u] x] l (H1 & H2 & H3 & H4) _ IH]; intros s v S.
  - cbn. rewrite app_nil_r. exact S.
  - cbn [flat_map fold_left link_text link_apply]. rewrite app_assoc. apply IH. apply pr_op; assumption.
Qed.
Lemma chain_query l : l <> [] -> forall v, mql_query (fold_left link_apply l v).
Proof.
  intros N. induction l as [|x l IH] using rev_ind; [congruence|]. intros v. rewrite fold_left_app. cbn.
  destruct x as [[[[[w1 o] n] w2] u] x]. constructor.
Qed.
(** t1 + t2 - ... tn: the operands are products *)
Theorem C45_sums : forall s v l, product_text s v -> l <> [] ->
  Forall (link_ok [($"+", $"plus"); ($"-", $"minus")] product_text) l ->
  parse_mql (s ++ flat_map link_text l) = Ok (fold_left link_apply l v).
Proof.
  intros s v l S N F. pose proof (parse_sum (s ++ flat_map link_text l) (fold_left link_apply l v) [] []) as P.
  cbn [app] in P. rewrite app_nil_r in P. apply P; [apply sum_chain; [exact F|apply sm_one, S]|apply chain_query, N|apply blank_nil|apply blank_nil].
Qed.
(** t1 * t2 / ... tn *)
Theorem C45_products : forall s v l, unary_text s v -> l <> [] ->
  Forall (link_ok [($"*", $"multiply"); ($"/", $"divide")] unary_text) l ->
  parse_mql (s ++ flat_map link_text l) = Ok (fold_left link_apply l v).
Proof.
  intros s v l S N F. pose proof (parse_sum (s ++ flat_map link_text l) (fold_left link_apply l v) [] []) as P.
  cbn [app] in P. rewrite app_nil_r in P. apply P; [apply sm_one, product_chain; [exact F|apply pr_one, S]|apply chain_query, N|apply blank_nil|apply blank_nil].
Qed.
(** operands of a sum are products of any length; products in turn contain parenthesised
    sums *)
Theorem C45_precedence : forall s v l, unary_text s v ->
  Forall (link_ok [($"*", $"multiply"); ($"/", $"divide")] unary_text) l ->
  product_text (s ++ flat_map link_text l) (fold_left link_apply l v).
Proof. intros s v l S F. apply product_chain; [exact F|apply pr_one, S]. Qed.
Theorem C45_parentheses : forall w1 e v w2, white w1 -> sum_text e v -> white w2 -> mql_query v ->
  unary_text ($"(" ++ w1 ++ e ++ w2 ++ $")") v.
Proof.
  intros w1 e v w2 B1 S B2 Q. apply ut_coef. pose proof (cf_paren w1 e v w2 [] None B1 S B2 Q og_none) as C.
  rewrite p_no_group, app_nil_r in C. exact C.
Qed.

(** ** C46 In MQL filters AND binds tighter than OR *)
(** a filter after the call, in the call after the metric, and after a parenthesis *)
Theorem C46_filter : forall n m x e l w1 w2, mql_name n -> n <> placeholder_name -> closed_metric_text m x ->
  white w1 -> expr_reads e l -> white w2 ->
  parse_mql (n ++ $"(" ++ m ++ $"){" ++ w1 ++ e ++ w2 ++ $"}") = Ok (VTS (mkTS x n None (Some [any_of l]) None))
  /\ parse_mql (n ++ $"(" ++ m ++ $"{" ++ w1 ++ e ++ w2 ++ $"})") = Ok (VTS (mkTS x n None (Some [any_of l]) None)).
Proof.
  intros n m x e l w1 w2 N Np M B1 R B2. pose proof (bt_filter w1 e l w2 B1 R B2) as B.
  assert (forall s v, coef_text s v -> mql_query v -> parse_mql s = Ok v) as K.
  { intros s v C Q. pose proof (parse_sum s v [] []) as P. cbn [app] in P. rewrite app_nil_r in P.
    apply P; [apply sm_one, pr_one, ut_coef, C|exact Q|apply blank_nil|apply blank_nil]. }
  split; apply K; try constructor.
  - pose proof (bx_metric m x [] None [] M og_none blank_nil) as D. cbn [app] in D. rewrite app_nil_r in D.
    pose proof (ct_aggregate n [] m x None None N Np blank_nil D) as C. cbn [app] in C.
    pose proof (cf_call_filter _ _ [] None _ _ [] None C og_none B og_none) as F.
    cbn [app] in F. rewrite app_nil_r, <- !app_assoc in F. exact F.
  - pose proof (bx_filter m x _ _ [] None [] (mx_closed m x M) B og_none blank_nil) as D. cbn [app] in D. rewrite app_nil_r in D.
    pose proof (ct_aggregate n [] _ x _ None N Np blank_nil D) as C. cbn [app filter_list option_map] in C.
    pose proof (cf_call _ _ [] None C og_none) as F. rewrite app_nil_r, <- !app_assoc in F. exact F.
Qed.
(** f11 AND .. f1k OR f21 AND .. : Or of Ands, factors in order *)
Lemma terms_text ts : ts <> [] -> Forall (fun t => t <> [] /\ Forall (fun f => factor_reads (fst f) (snd f)) t) ts ->
  expr_reads (join ($" OR ") (map (fun t => join ($" AND ") (map fst t)) ts))
             (map (fun t => all_of (map snd t)) ts).
Proof.
  intros N F. induction F as [|t ts (Nt & Ft) F IH]; [congruence|].
  assert (term_reads (join ($" AND ") (map fst t)) (map snd t)) as T.
  { apply ands_join; [|destruct t; [congruence|discriminate]]. clear Nt N. induction Ft as [|f t H _ IH2]; cbn [map]; [apply Forall2_nil|apply Forall2_cons; assumption]. }
  destruct ts as [|t' ts]; [apply er_one, T|]. cbn [map]. rewrite join_cons2.
  apply er_or; [exact T| |apply apart_space|apply IH; discriminate].
  exists [32%N], ($"OR"), [32%N]. repeat split; try apply blank_sp; [discriminate|left; reflexivity].
Qed.
Theorem C46_precedence : forall ts n m x, mql_name n -> n <> placeholder_name -> closed_metric_text m x ->
  ts <> [] -> Forall (fun t => t <> [] /\ Forall (fun f => factor_reads (fst f) (snd f)) t) ts ->
  parse_mql (n ++ $"(" ++ m ++ $"){" ++ join ($" OR ") (map (fun t => join ($" AND ") (map fst t)) ts) ++ $"}")
  = Ok (VTS (mkTS x n None (Some [any_of (map (fun t => all_of (map snd t)) ts)]) None)).
Proof.
  intros ts n m x N Np M Nt F. destruct (C46_filter n m x _ _ [] [] N Np M blank_nil (terms_text ts Nt F) blank_nil) as (P & _).
  cbn [app] in P. exact P.
Qed.
(** parentheses override: a parenthesised filter is a factor *)
Theorem C46_parentheses : forall e l, expr_reads e l -> factor_reads ($"(" ++ e ++ $")") (any_of l).
Proof. intros e l R. pose proof (fr_paren e l [] [] R blank_nil blank_nil) as F. exact F. Qed.
End P.

(** Non-vacuity *)
#[local] Existing Instance demoRT.
Lemma demo_name s : (match s with c :: t => (97 <=? c) && (c <=? 122)
    && forallb (fun c => (97 <=? c) && (c <=? 122)) t | [] => false end)%N = true -> mql_name s.
Proof.
  assert (forall d, ((97 <=? d) && (d <=? 122))%N = true -> ascii_letter d) as L.
  { intros d Hd. apply andb_true_iff in Hd. destruct Hd as (H1 & H2). apply N.leb_le in H1, H2. right. split; assumption. }
  destruct s as [|c t]; [discriminate|]. intros H. apply andb_true_iff in H. destruct H as (Hc & Ht).
  exists c, t. split; [reflexivity|]. split; [left; apply L, Hc|].
  rewrite forallb_forall in Ht. apply Forall_forall. intros d I. left. apply L, Ht, I.
Qed.
Lemma demo_key s : (match s with c :: t => (N.eqb c 95 || (97 <=? c) && (c <=? 122))
    && forallb (fun c => N.eqb c 46 || N.eqb c 95 || (97 <=? c) && (c <=? 122)) t | [] => false end)%N = true -> mql_key s.
Proof.
  destruct s as [|c t]; [discriminate|]. intros H. apply andb_true_iff in H. destruct H as (Hc & Ht).
  exists c, t. split; [reflexivity|].
  assert (forall d, ((97 <=? d) && (d <=? 122))%N = true -> ascii_letter d) as L.
  { intros d Hd. apply andb_true_iff in Hd. destruct Hd as (H1 & H2). apply N.leb_le in H1, H2. right. split; assumption. }
  split.
  - apply orb_true_iff in Hc. destruct Hc as [Hc|Hc]; [right; apply N.eqb_eq, Hc|left; apply L, Hc].
  - rewrite forallb_forall in Ht. apply Forall_forall. intros d I. specialize (Ht d I).
    apply orb_true_iff in Ht. destruct Ht as [Ht|Ht]; [apply orb_true_iff in Ht; destruct Ht as [Ht|Ht]|].
    + right. apply N.eqb_eq, Ht.
    + left. right. right. apply N.eqb_eq, Ht.
    + left. left. apply L, Ht.
Qed.
Lemma demo_string s : forallb (fun c => negb (N.eqb c 92 || N.eqb c 10)) s = true -> mql_string s.
Proof.
  rewrite forallb_forall. intros H. split; intros I; specialize (H _ I); discriminate.
Qed.
Definition demo_conds : list obj :=
  [OCond (tag ($"env")) EQ (OStr ($"a ""b"" }"));
   OBoolC BOr OR KList [OCond (tag ($"b")) IN (OList [OStr ($"x"); OStr ($"y, z")]);
                        OCond (tag ($"c.d")) NOT_LIKE (OStr ($"tx*"))]].
Lemma demo_conds_ok : Forall mql_filter demo_conds.
Proof.
  constructor; [|constructor; [|constructor]].
  - constructor; [apply demo_key; reflexivity|]. constructor; [apply demo_string; reflexivity|].
    intros (p & E & _). assert (last ($"a ""b"" }") 0%N = last (p ++ $"*") 0%N) as L by (rewrite <- E; reflexivity).
    change ($"*") with [42%N] in L. rewrite last_last in L. discriminate L.
  - apply mf_or; [cbn; lia|]. constructor; [|constructor; [|constructor]].
    + constructor; [apply demo_key; reflexivity|]. apply (mt_in [$"x"; $"y, z"]); [discriminate|].
      constructor; [apply demo_string; reflexivity|constructor; [apply demo_string; reflexivity|constructor]].
    + constructor; [apply demo_key; reflexivity|]. apply mt_not_like; [apply demo_string; reflexivity|].
      exists ($"tx"). split; [reflexivity|]. split; [discriminate|].
      repeat constructor; cbv; intuition congruence.
Qed.
Definition demo_series : timeseries :=
  mkTS (mkMetric None (Some ($"d:transactions/duration@millisecond")) None) ($"quantiles")
    (Some [OStr ($"p95")]) (Some demo_conds) (Some [tag ($"transaction"); tag ($"release")]).
Lemma demo_series_ok : mql_timeseries demo_series.
Proof.
  repeat split; cbn [ts_metric ts_agg ts_params ts_filters ts_groupby demo_series].
  - apply mm_mri. exists ($"d"), ($"transactions"), ($"duration"), ($"millisecond").
    split; [reflexivity|]. split; [|split; [|split; [|split; [|split]]]];
      try (split; [discriminate|]; repeat constructor; cbv; intuition congruence).
    + cbv. intuition congruence.
    + exists 100%N, []. split; [reflexivity|]. split; [|intros (_ & H); discriminate H]. lia.
  - apply demo_name. reflexivity.
  - discriminate.
  - right. eexists. split; [reflexivity|]. split; [discriminate|]. constructor; [|constructor].
    apply mp_string, demo_string. reflexivity.
  - right. eexists. split; [reflexivity|]. split; [discriminate|apply demo_conds_ok].
  - right. eexists. split; [reflexivity|]. split; [discriminate|].
    constructor; [|constructor; [|constructor]]; (eexists; split; [|reflexivity]; apply demo_key; reflexivity).
Qed.
Definition demoST : PyStr := {| str_other := fun _ => [] |}.
#[local] Existing Instance demoST.
Example C43_example : mql_timeseries demo_series /\ print_ts demo_series
  = Ok ($"quantiles(""p95"")(d:transactions/duration@millisecond){env:""a \""b\"" }"" AND (b:[""x"", ""y, z""] OR !c.d:""tx*"")} by (transaction, release)")
  /\ (let! s := print_ts demo_series in parse_mql s) = Ok (VTS (conj_timeseries demo_series)).
Proof. split; [apply demo_series_ok|]. split; vm_compute; reflexivity. Qed.
Definition demo_count : timeseries :=
  mkTS (mkMetric (Some ($"transaction.duration")) None None) ($"count") None None None.
Lemma demo_count_ok : mql_timeseries demo_count.
Proof.
  repeat split; cbn [ts_metric ts_agg ts_params ts_filters ts_groupby demo_count]; try (left; reflexivity).
  - apply mm_public. exists [$"transaction"; $"duration"]. split; [discriminate|]. split; [reflexivity|].
    constructor; [|constructor; [|constructor]]; (split; [discriminate|repeat (apply Forall_cons; [left; split; discriminate|]); apply Forall_nil]).
  - apply demo_name. reflexivity.
  - discriminate.
Qed.
Definition demo_value : mval :=
  VFormula (OStr ($"plus")) (Some KList)
    [VFormula (OStr ($"negate")) (Some KList) [VTS demo_series] ONone ONone ONone;
     VFormula (OStr ($"apdex")) (Some KList) [VTS demo_count] (OList [OStr ($"fast")]) ONone (OList [tag ($"k")])]
    ONone (OList demo_conds) ONone.
Lemma demo_value_ok : mql_value demo_value.
Proof.
  apply mv_infix; [cbn; auto| | |right; eexists; split; [reflexivity|split; [discriminate|apply demo_conds_ok]]|left; reflexivity].
  - apply mv_negate; constructor. apply demo_series_ok.
  - apply mv_function; [|cbv; intuition congruence|discriminate|discriminate| | |left; reflexivity|].
    + apply demo_name. reflexivity.
    + constructor; [constructor; apply demo_count_ok|constructor].
    + right. eexists. split; [reflexivity|]. split; [discriminate|]. constructor; [|constructor].
      change ($"fast") with (102%N :: $"ast"). constructor; [cbv; intuition congruence|cbv; intuition congruence|].
      repeat constructor; cbv; intuition congruence.
    + right. eexists. split; [reflexivity|]. split; [discriminate|]. constructor; [|constructor].
      eexists. split; [|reflexivity]. apply demo_key; reflexivity.
Qed.
Example C44_example : mql_value demo_value
  /\ (let! s := print_mval demo_value in parse_mql s) = Ok (conj_value demo_value).
Proof. split; [apply demo_value_ok|]. vm_compute. reflexivity. Qed.
Lemma count_text : unary_text ($"count(transaction.duration)") (VTS demo_count).
Proof.
  destruct demo_count_ok as (M & A & Np & _). inversion M as [|s PN]; subst.
  pose proof (bx_metric _ _ [] None [] (cm_public _ PN) og_none blank_nil) as B. cbn [app] in B. rewrite app_nil_r in B.
  pose proof (ct_aggregate _ [] _ _ None None A Np blank_nil B) as C.
  pose proof (cf_call _ _ [] None C og_none) as F. rewrite p_no_group, app_nil_r in F. apply ut_coef, F.
Qed.
Example C45_example : parse_mql ($"count(transaction.duration) - count(transaction.duration)*count(transaction.duration) + count(transaction.duration)")
  = Ok (function ($"plus") [function ($"minus") [VTS demo_count;
          function ($"multiply") [VTS demo_count; VTS demo_count] ONone] ONone; VTS demo_count] ONone).
Proof.
  pose proof (fun s v => C45_sums s v
    [($" ", $"-", $"minus", $" ", $"count(transaction.duration)*count(transaction.duration)",
       function ($"multiply") [VTS demo_count; VTS demo_count] ONone);
     ($" ", $"+", $"plus", $" ", $"count(transaction.duration)", VTS demo_count)]) as H.
  specialize (H ($"count(transaction.duration)") (VTS demo_count)).
  match type of H with _ -> _ -> _ -> parse_mql ?x = _ =>
    assert (x = $"count(transaction.duration) - count(transaction.duration)*count(transaction.duration) + count(transaction.duration)")
      as E by (vm_compute; reflexivity) end.
  rewrite E in H. apply H; [apply pr_one, count_text|discriminate|].
  constructor; [|constructor; [|constructor]]; (split; [apply blank_sp|]); (split; [cbn; auto|]); (split; [apply blank_sp|]).
  - apply (pr_op ($"count(transaction.duration)") _ [] ($"*") ($"multiply") []);
      [apply pr_one, count_text|apply blank_nil|cbn; auto|apply blank_nil|apply count_text].
  - apply pr_one, count_text.
Qed.
Example C46_example : exists f g, factor_reads ($"env:""a""") f /\ factor_reads ($"b:[x]") g /\
  parse_mql ($"count(transaction.duration){env:""a"" AND b:[x] OR env:""a""}")
  = Ok (VTS (mkTS (ts_metric demo_count) ($"count") None (Some [OBoolC BOr OR KList [OBoolC BAnd AND KList [f; g]; f]]) None)).
Proof.
  assert (factor_reads ($"env:""a""") (OCond (tag ($"env")) EQ (OStr ($"a")))) as F.
  { apply (fr_test false ($"env") EQ (OStr ($"a")) ($"""a""") [] []);
      [apply demo_key; reflexivity|apply blank_nil|apply blank_nil|apply (vs_quoted false)].
    - exists ($"a"). split; [reflexivity|]. apply qb_char; [discriminate|discriminate|constructor].
    - intros (p & E & _).
      assert (last ($"a") 0%N = last (p ++ $"*") 0%N) as L by (rewrite <- E; reflexivity).
      change ($"*") with [42%N] in L. rewrite last_last in L. discriminate L. }
  assert (factor_reads ($"b:[x]") (OCond (tag ($"b")) IN (OList [OStr ($"x")]))) as G.
  { apply (fr_test false ($"b") IN (OList (map OStr [$"x"])) ($"[x]") [] []);
      [apply demo_key; reflexivity|apply blank_nil|apply blank_nil|].
    apply (vs_list false [] ($"x") [$"x"] []); [constructor| |constructor]. apply ss_one. right. split; [|reflexivity].
    split; [discriminate|]. repeat constructor; cbv; intuition congruence. }
  exists (OCond (tag ($"env")) EQ (OStr ($"a"))), (OCond (tag ($"b")) IN (OList [OStr ($"x")])).
  split; [exact F|]. split; [exact G|].
  destruct demo_count_ok as (M & A & Np & _). inversion M as [|s PN]; subst.
  pose proof (C46_precedence [[($"env:""a""", OCond (tag ($"env")) EQ (OStr ($"a")));
       ($"b:[x]", OCond (tag ($"b")) IN (OList [OStr ($"x")]))];
      [($"env:""a""", OCond (tag ($"env")) EQ (OStr ($"a")))]] ($"count") ($"transaction.duration") _ A Np (cm_public _ PN)) as P.
  match type of P with _ -> _ -> parse_mql ?x = _ =>
    assert (x = $"count(transaction.duration){env:""a"" AND b:[x] OR env:""a""}") as E by (vm_compute; reflexivity) end.
  rewrite E in P. apply P; [discriminate|].
  constructor; [|constructor; [|constructor]]; (split; [discriminate|]);
    [constructor; [exact F|constructor; [exact G|constructor]]|constructor; [exact F|constructor]].
Qed.

Print Assumptions C43_timeseries.
Print Assumptions C43_one_filter.
Print Assumptions C43_injective.
Print Assumptions C44_formula.
Print Assumptions C45_expression.
Print Assumptions C45_sums.
Print Assumptions C45_products.
Print Assumptions C45_precedence.
Print Assumptions C45_parentheses.
Print Assumptions C46_filter.
Print Assumptions C46_precedence.
Print Assumptions C46_parentheses.
