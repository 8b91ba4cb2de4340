(** Property C105: what a server reads is what was written. *)
From Verif Require Import OptFacts PyBase PyFacts DateTime Objects Exprs SpecExpr Translate Optimizer Query SpecQuery SpecSetters SpecRefs SpecOccurs SpecOrder SpecLogic WfFacts PrintProps
  SpecSnql SnqlFacts SnqlDenote SnqlQuery SpecAlike Metrics SpecMetrics SpecMql MetricsFacts Mql MetricsQuery MetricsQueryFacts SpecMetricsQuery IsoFacts SpecTime
  Json Request SpecRequest RequestFacts SpecJson JsonFacts SpecSame SameFacts SpecServer ServerFacts ApiTac Concrete
  Properties4 Properties6 Properties7 Properties8 Properties10 Properties12 Properties18.
Require Import Permutation Lia.

Section P.
Context {RT : PyRT} {ST : PyStr}.

(** ** C105 What a server reads from a request is what was written *)
(** every entry of the payload arrives, once, as the JSON value it is *)
Theorem C105_members : forall r r' s k v, request_serialize r = (r', Ok s) -> plain_request r -> payload_entry r k v ->
  exists j, received s k j /\ is_json v j /\ forall j', received s k j' -> j' = j.
Proof.
  intros r r' s k v H P E.
  destruct (C61_request_partial r r' s H (plain_is_ordinary _ P)) as (d & j & T & J & D).
  pose proof (payload_plain _ _ _ T P) as PD.
  destruct (C51_payload _ _ _ T) as ((ks & vs & -> & N & L) & X).
  apply X in E. destruct E as (ks0 & vs0 & Q & E). injection Q as <- <-.
  inversion D as [| | | | | | |? ? js ms LE JS PM]; subst.
  inversion PD as [| | | | | | |? ? _ SK _]; subst.
  assert (A : exists j, In (utf16 k, j) (combine (map utf16 ks) js) /\ is_json v j).
  { clear - E JS LE. revert vs js LE JS E. induction ks as [|k' ks IH]; intros [|v' vs] js LE JS E; try discriminate LE; [destruct E|].
    inversion JS; subst. cbn [map combine]. destruct E as [(-> & ->)|(_ & E)].
    - eexists. split; [left; reflexivity|assumption].
    - destruct (IH vs l') as (j & I & JJ); auto. exists j. split; [right; exact I|exact JJ]. }
  destruct A as (j & I & JJ). exists j. split; [exists ms; split; [exact J|eapply Permutation_in; [apply Permutation_sym, PM|exact I]]|]. split; [exact JJ|].
  intros j' (ms' & J' & I'). pose proof (C61_unambiguous _ _ _ J J') as Q. injection Q as <-.
  assert (ND : NoDup (map fst ms)).
  { eapply Permutation_NoDup; [apply Permutation_sym, (Permutation_map fst), PM|].
    assert (map fst (combine (map utf16 ks) js) = map utf16 ks) as ->.
    { clear - LE JS. assert (LL : List.length ks = List.length js) by (rewrite LE; eapply F2_length; eassumption). clear LE JS vs.
      revert js LL. induction ks as [|k ks IH]; intros [|j js] L; try discriminate L; [reflexivity|]. cbn. f_equal. apply IH. injection L as L. exact L. }
    clear - N SK. induction N as [|k ks NI N IH]; [constructor|]. inversion SK; subst. cbn. constructor; [|auto].
    intros I. apply in_map_iff in I as (k' & E & I). apply utf16_inj in E; [congruence| |]; [|assumption].
    rewrite Forall_forall in H2. auto. }
  assert (I0 : In (utf16 k, j) ms) by (eapply Permutation_in; [apply Permutation_sym, PM|exact I]).
  clear - ND I0 I'. induction ms as [|[a b] ms IH]; [destruct I0|]. cbn in ND. inversion ND; subst.
  destruct I0 as [E|I0], I' as [E'|I']; try congruence; [| |auto].
  - injection E as -> ->. elim H1. apply (in_map fst) in I'. exact I'.
  - injection E' as -> ->. elim H1. apply (in_map fst) in I0. exact I0.
Qed.

(** a SnQL query, read from its text, is the query but for the conditions in WHERE, and these
    hold in the same rows; missing: left-hand sides of an OR that are equal in Python,
    but written differently, which are merged *)
Theorem C105_read_partial : forall q s l, api_query q -> class_typed_query q -> plain_names q -> filters q l -> Forall merges_exactly l ->
  serialize q = Ok s -> forall t, good_query t -> text_of_query t = s ->
  exists t0, denotes_query q t0 /\ same_but_conditions t t0
    /\ forall R, knows_in R -> passes R (part_of t CWhere) = passes R (part_of t0 CWhere).
Proof.
  intros q s l A T N F X E t G TT.
  destruct (serialize_shows q s (api_wf_query q A) T (fun o I x O => N o x I O) E) as (q' & l0 & l' & t' & _ & S & F0 & F' & O & D & G' & TT').
  assert (l0 = l) as -> by (eapply filters_one; eassumption).
  eapply read_tree; try eassumption; [apply api_wf_query, A|].
  eapply denotes_same; [exact D|]. apply query_unique; congruence.
Qed.
(** what a query stands for is determined, clause by clause *)
Theorem C105_one_meaning : forall q t t', api_query q -> denotes_query q t -> denotes_query q t' -> forall k, part_of t k = part_of t' k.
Proof. intros q t t' A. apply denotes_query_fun, api_wf_query, A. Qed.
(** from the request to the rows *)
Theorem C105_server_partial : forall r r' s q l, request_serialize r = (r', Ok s) -> plain_request r -> rq_query r = RQuery q ->
  api_query q -> class_typed_query q -> plain_names q -> filters q l -> Forall merges_exactly l ->
  exists x, received s ($"query") (JStr (utf16 x)) /\ Forall scalar_value x
    /\ (forall j, received s ($"query") j -> j = JStr (utf16 x))
    /\ (exists t, good_query t /\ text_of_query t = x)
    /\ forall t, good_query t -> text_of_query t = x ->
       exists t0, denotes_query q t0 /\ same_but_conditions t t0
         /\ forall R, knows_in R -> passes R (part_of t CWhere) = passes R (part_of t0 CWhere).
Proof.
  intros r r' s q l H P Q A T N F X.
  assert (E : exists x, serialize q = Ok x).
  { unfold request_serialize, request_to_dict in H. destruct (request_validate r) as [[]|]; [|discriminate].
    destruct (rflags_to_dict _); [|discriminate]. rewrite Q in H. destruct (serialize q) eqn:E; [|discriminate]. eauto. }
  destruct E as (x & E). pose proof (pe_snql r q x Q E) as PE.
  destruct (C105_members r r' s _ _ H P PE) as (j & RJ & J & U). inversion J; subst.
  exists x. split; [exact RJ|]. split; [pose proof (P _ _ PE) as PD; inversion PD; assumption|]. split; [exact U|].
  split; [destruct (C63_text q x A T N E) as (_ & _ & _ & t & _ & _ & _ & _ & _ & G & TT); eauto|].
  intros t G TT. eapply C105_read_partial; eassumption.
Qed.
(** without [merges_exactly] not: f(1) = 5 OR f(TRUE) = 6 arrives as f(1) IN array(5, 6) *)
Definition c105_f (w : str) : expr := EWord ($"fn") [[EWord w [] None]] None.
Definition c105_n (w : str) : expr := EWord w [] None.
Definition c105_parts (c : cond) (k : clause) : option part :=
  match k with CSelect => Some (PExprs [c105_n ($"a")]) | CWhere => Some (PConds [c]) | _ => None end.
Definition c105_row : row := fun e o r =>
  let eq v := if str_eqb (text_of e) ($"fn(TRUE)") && str_eqb (text_of v) ($"6") then TTrue else TFalse in
  match o, r with
  | IN, Some (EWord _ [vs] _) => any3 (map eq vs)
  | _, Some v => eq v
  | _, None => TFalse
  end.
Ltac good := repeat match goal with
  | |- Forall _ _ => constructor
  | |- good_expr (c105_f _) => unfold c105_f | |- good_expr (c105_n _) => unfold c105_n
  | |- good_expr (EWord _ _ _) => apply ge_word; [apply lit_word; [discriminate|reflexivity]| |intros; discriminate]
  end.
Theorem C105_read_refuted : exists q s l t t0 R, api_query q /\ class_typed_query q /\ plain_names q /\ filters q l /\ serialize q = Ok s
  /\ good_query t /\ text_of_query t = s /\ denotes_query q t0 /\ knows_in R
  /\ passes R (part_of t CWhere) = TFalse /\ passes R (part_of t0 CWhere) = TTrue.
Proof.
  pose (q := QBase (BEntity (mkEntity ($"e") None None None)) (upd CWhere (OList [c34_or]) (upd CSelect (OList [OColumn (mkColumn ($"a") None None None)]) no_clauses))).
  assert (A : api_query q).
  { split; [cbn [obj_of_base]; api_tac|]. intros []; cbn; try apply api_none; unfold c34_or, c34_func; api_tac. }
  exists q, ($"MATCH (e) SELECT a WHERE fn(1) IN array(5, 6)"), [c34_or],
    (QTree (MEntity ($"e") None) (c105_parts (CAtom (c105_f ($"1")) IN (Some (EWord ($"array") [[c105_n ($"5"); c105_n ($"6")]] None))))),
    (QTree (MEntity ($"e") None) (c105_parts (CNode OR [CAtom (c105_f ($"1")) EQ (Some (c105_n ($"5"))); CAtom (c105_f ($"TRUE")) EQ (Some (c105_n ($"6")))]))), c105_row.
  split; [exact A|]. split; [intros []; cbn; auto; right; eexists; split; constructor; constructor|].
  split; [unfold q, c34_or, c34_func; show_names|].
  split; [right; constructor|]. split; [vm_compute; reflexivity|].
  split.
  { constructor; [repeat split; try (intros; discriminate); repeat constructor; cbn; intuition discriminate|].
    intros [] p E; cbn in E; try discriminate; injection E as <-.
    - constructor; [cbn; auto|discriminate|]. good.
    - constructor; [cbn; auto|discriminate|]. constructor; [|constructor]. constructor; [good|split; [discriminate|intros []; discriminate]|].
      intros e E. injection E as <-. good. }
  split; [vm_compute; reflexivity|].
  split.
  { econstructor; [constructor; constructor|]. intros []; cbn; try (constructor; fail).
    - eapply dp_exprs; [cbn; auto|constructor|]. repeat constructor.
    - eapply dp_conds; [cbn; auto|constructor|]. constructor; [|constructor]. constructor.
      constructor; [|constructor; [|constructor]]; (constructor; [|discriminate|discriminate|]).
      + apply (d_func false true ($"fn") KNone [] KList [OInt 1] None [] [c105_n ($"1")]); [constructor|constructor; [apply (d_int false 1)|constructor]].
      + apply (d_int false 5).
      + apply (d_func false true ($"fn") KNone [] KList [OBool true] None [] [c105_n ($"TRUE")]); [constructor|constructor; [apply d_true|constructor]].
      + apply (d_int false 6). }
  split; [intros e vs; reflexivity|]. split; vm_compute; reflexivity.
Qed.

(** a metrics query: the text that arrives is read by parse_mql as the query, its context shows
    the settings; missing: the values of C71 that do not survive *)
Theorem C105_metrics_partial : forall r r' s q st, request_serialize r = (r', Ok s) -> plain_request r -> rq_query r = RMetrics q ->
  has_settings q st -> real_datetime (se_start st) -> real_datetime (se_end st) ->
  mql_query (mq_query (after_serialize q)) -> mql_value (mq_query (after_serialize q)) ->
  exists x d j v, received s ($"query") (JStr (utf16 x)) /\ received s ($"mql_context") j /\ is_json d j /\ shows_settings st d
    /\ parse_mql x = Ok v /\ mv_eq v (conj_value (mq_query (after_serialize q))) = true.
Proof.
  intros r r' s q st H P Q S R1 R2 M V.
  assert (E : exists x d, mq_serialize q = (after_serialize q, Ok (x, d))).
  { unfold after_serialize. unfold request_serialize, request_to_dict in H. destruct (request_validate r) as [[]|]; [|discriminate].
    destruct (rflags_to_dict _); [|discriminate]. rewrite Q in H. destruct (mq_serialize q) as [q' [[x d]|]] eqn:E; [|discriminate]. eauto. }
  destruct E as (x & d & E). assert (E2 : snd (mq_serialize q) = Ok (x, d)) by (rewrite E; reflexivity).
  destruct (C105_members r r' s _ _ H P (pe_mql r q x d Q E2)) as (j & RJ & J & _). inversion J; subst.
  destruct (C105_members r r' s _ _ H P (pe_mql_context r q x d Q E2)) as (jc & RC & JC & _).
  assert (K : exists v, parse_mql x = Ok v /\ mv_eq v (conj_value (mq_query (after_serialize q))) = true).
  { pose proof E as F. apply serialize_parts in F as (_ & _ & _ & _ & F). unfold mq_payload in F.
    apply bind_Ok in F as (t & T & F). assert (t = x) as ->.
    { repeat (apply bind_Ok in F as (? & _ & F)). congruence. }
    destruct M as [y|n pk ps a f g].
    - inversion V; subst. destruct (C43_timeseries y) as (t' & x' & P' & RR & Q'); [assumption|].
      change (print_ts y = Ok x) in T. rewrite T in P'. injection P' as <-. exists (VTS x'). auto.
    - destruct (C44_formula n pk ps a f g V) as (t' & w & P' & RR & Q').
      change (print_mval (VFormula n pk ps a f g) = Ok x) in T. rewrite T in P'. injection P' as <-. exists w. auto. }
  destruct K as (v & PV & EV). exists x, d, jc, v. repeat (split; [assumption|]). split; [|auto].
  exact (C50_context _ _ _ _ _ E S R1 R2).
Qed.
(** and the filters it reads hold in the same rows as the filters of the query *)
Theorem C105_metrics_filters_partial : forall r r' s q st I l, request_serialize r = (r', Ok s) -> plain_request r -> rq_query r = RMetrics q ->
  has_settings q st -> real_datetime (se_start st) -> real_datetime (se_end st) ->
  mql_query (mq_query (after_serialize q)) -> mql_value (mq_query (after_serialize q)) -> root_filters (mq_query q) l ->
  in_is_any I -> sees_python_equality I -> sees_equal_values I ->
  exists x v l', received s ($"query") (JStr (utf16 x)) /\ parse_mql x = Ok v /\ root_filters v l' /\ group_truth I l' = group_truth I l.
Proof.
  intros r r' s q st I l H P Q S R1 R2 M V F HI HL HR.
  destruct (C105_metrics_partial r r' s q st H P Q S R1 R2 M V) as (x & d & j & v & RX & _ & _ & _ & PV & EV).
  destruct (mq_serialize q) as [q1 p] eqn:E.
  destruct (C49_same_meaning_partial q q1 p I E HI HL l F) as (l1 & F1 & T1).
  assert (A : after_serialize q = q1) by (unfold after_serialize; rewrite E; reflexivity). rewrite A in *. clear A.
  assert (K : exists l2, root_filters v l2 /\ py_eq (OList l2) (OList (conj_filters l1)) = true).
  { inversion F1 as [m a pr l0 g X|n pk ps a l0 g X|n pk ps a l0 g X]; subst; rewrite <- X in *; cbn [conj_value conj_timeseries conj_obj option_map ts_filters ts_metric ts_agg ts_params ts_groupby] in EV.
    - destruct v as [| |t| | |]; try discriminate EV. destruct t as [m' a' p' f' g']. cbn [mv_eq] in EV. unfold ts_eqb in EV. cbn [ts_filters ts_metric ts_agg ts_params ts_groupby] in EV.
      apply andb_prop in EV as [EV _]. apply andb_prop in EV as [_ EV]. destruct f' as [f'|]; [|discriminate EV].
      exists f'. split; [constructor|exact EV].
    - destruct v as [| | | | |n' k' ps' a' f' g']; try discriminate EV. cbn [mv_eq] in EV.
      apply andb_prop in EV as [EV _]. apply andb_prop in EV as [_ EV]. destruct f'; try discriminate EV.
      eexists. split; [constructor|exact EV].
    - inversion V; subst; match goal with X : opt_nonempty_obj _ (OTuple _) |- _ => destruct X as [X|(? & X & _)]; discriminate X end. }
  destruct K as (l2 & F2 & E2). exists x, v, l2. split; [exact RX|]. split; [exact PV|]. split; [exact F2|].
  rewrite (group_truth_eq I HL HR _ _ E2), <- T1. destruct l1 as [|c [|c' l1]]; [reflexivity|reflexivity|].
  unfold conj_filters, group_truth. cbn [map]. unfold all3 at 1. cbn [fold_right truth]. apply and3_true_r.
Qed.
End P.

(** Non-vacuity: the merged OR of [demo_q1] (C63, C70) *)
#[local] Existing Instance demoRT.
#[local] Existing Instance demoST.
Definition c105_where : list obj := [OBoolC BOr OR KList [OCond (col ($"a")) EQ (OInt 1); OCond (col ($"a")) EQ (OInt 2)]].
Example C105_case : rq_query c70_snql_1 = RQuery demo_q1 /\ filters demo_q1 c105_where /\ Forall merges_exactly c105_where /\ Exists mergeable c105_where
  /\ (exists r' s, request_serialize c70_snql_1 = (r', Ok s)) /\ plain_request c70_snql_1
  /\ api_query demo_q1 /\ class_typed_query demo_q1 /\ plain_names demo_q1.
Proof.
  split; [reflexivity|]. split; [right; constructor|]. split; [apply exacts_merge; repeat constructor|].
  split; [left; constructor; constructor; [eexists _, _; split; [reflexivity|vm_compute; reflexivity]|constructor]|].
  destruct C70_snql_case as ((s & A & _) & B & _). split; [eauto|]. split; [exact B|].
  destruct C63_case as (C & _ & D & _ & E & _). auto.
Qed.
(** a row with a = 2: the merged test holds, as did the OR *)
Example C105_row_case : exists s t0 t R, serialize demo_q1 = Ok s /\ good_query t /\ text_of_query t = s /\ denotes_query demo_q1 t0 /\ knows_in R
  /\ passes R (part_of t CWhere) = TTrue /\ passes R (part_of t0 CWhere) = TTrue.
Proof.
  destruct C63_case as (A & _ & T & _ & N & _ & _ & _ & S & _). exists demo_text.
  destruct (C63_text demo_q1 demo_text A T N S) as (_ & _ & _ & t & _ & _ & _ & _ & _ & G & TT).
  set (R := (fun e o r => let eq v := if str_eqb (text_of e) ($"a") && str_eqb (text_of v) ($"2") then TTrue else TFalse in
    match o, r with IN, Some (EWord _ [vs] _) => any3 (map eq vs) | _, Some v => eq v | _, None => TFalse end) : row).
  assert (K : knows_in R) by (intros e vs; reflexivity).
  destruct (C105_read_partial demo_q1 demo_text c105_where A T N) with (t := t) as (t0 & D & _ & P); try assumption; try (apply exacts_merge; repeat constructor; fail); try (right; constructor); try (repeat constructor; fail).
  assert (X : passes R (part_of t0 CWhere) = TTrue).
  { inversion D; subst. cbn [part_of]. match goal with H : forall k, denotes_part _ _ _ _ |- _ => specialize (H CWhere); cbn in H; inversion H as [|? ? L|? ? x m es I L|? ? x m ts I L DS| | | | | |]; subst end.
    + inversion L.
    + cbn in I. intuition discriminate.
    + inversion L; subst. inversion DS as [|? ? ? ? D1 D2]; subst. inversion D2; subst. inversion D1 as [| |? ? ? ? ? D3]; subst.
      inversion D3 as [|? ? ? ? E1 E2]; subst. inversion E2 as [|? ? ? ? E3 E4]; subst. inversion E4; subst.
      inversion E1 as [? ? ? ? ? X|? ? ? ? ? L1 _ _ R1|]; subst; [destruct X; discriminate|].
      inversion E3 as [? ? ? ? ? X|? ? ? ? ? L2 _ _ R2|]; subst; [destruct X; discriminate|].
      inversion L1 as [| | | | | | | | | | |? ? W1| | | |]; subst. inversion L2 as [| | | | | | | | | | |? ? W2| | | |]; subst. cbn in W1, W2. subst.
      inversion R1; subst. inversion R2; subst. vm_compute. reflexivity. }
  exists t0, t, R. rewrite (P R K). auto 10.
Qed.
Example C105_metrics_case : rq_query c70_mql_1 = RMetrics (c70_query demo_series) /\ plain_request c70_mql_1
  /\ (exists r' s, request_serialize c70_mql_1 = (r', Ok s))
  /\ mql_query (mq_query (after_serialize (c70_query demo_series))) /\ mql_value (mq_query (after_serialize (c70_query demo_series)))
  /\ exists st, has_settings (c70_query demo_series) st /\ real_datetime (se_start st) /\ real_datetime (se_end st).
Proof.
  destruct C70_mql_case as ((r1 & r2 & s & A & _) & B & _ & _ & E & V & S). rewrite E.
  split; [reflexivity|]. split; [exact B|]. split; [eauto|]. split; [constructor|]. split; [exact V|exact S].
Qed.
(** a row in which env is a "b" } and b is "y, z": the filters of that series hold *)
Definition c105_mrow : interpretation := fun l o r =>
  let at_ v := match l, v with
    | OColumn c, OStr s => if str_eqb (c_name c) ($"env") && str_eqb s ($"a ""b"" }") || str_eqb (c_name c) ($"b") && str_eqb s ($"y, z") then TTrue else TFalse
    | _, _ => TFalse
    end in
  match o, r with
  | EQ, _ => at_ r
  | IN, OList vs => any3 (map at_ vs)
  | _, _ => TFalse
  end.
Example C105_metrics_row_case : in_is_any c105_mrow /\ sees_python_equality c105_mrow /\ sees_equal_values c105_mrow
  /\ root_filters (mq_query (c70_query demo_series)) demo_conds /\ group_truth c105_mrow demo_conds = TTrue.
Proof.
  split; [intros l vs; reflexivity|]. split; [|split; [|split; [constructor|vm_compute; reflexivity]]].
  - intros l l' E o r.
    assert (X : forall v, c105_mrow l EQ v = c105_mrow l' EQ v).
    { intros v. destruct l, l'; try discriminate E; try reflexivity. cbn [py_eq] in E. unfold column_eqb in E.
      repeat (apply andb_prop in E as [E _]). apply str_eqb_eq in E. cbn. rewrite E. reflexivity. }
    destruct o; try reflexivity; [apply X|]. destruct r; try reflexivity.
    change (any3 (map (fun v => c105_mrow l EQ v) l0) = any3 (map (fun v => c105_mrow l' EQ v) l0)). f_equal. apply map_ext. exact X.
  - intros l o r r' E.
    assert (X : forall v v', py_eq v v' = true -> c105_mrow l EQ v = c105_mrow l EQ v').
    { intros v v' V. destruct l; try reflexivity. destruct v, v'; try discriminate V; try reflexivity. cbn [py_eq] in V. apply str_eqb_eq in V. subst. reflexivity. }
    destruct o; try reflexivity; [exact (X _ _ E)|]. destruct r, r'; try discriminate E; try reflexivity.
    change (any3 (map (fun v => c105_mrow l EQ v) l0) = any3 (map (fun v => c105_mrow l EQ v) l1)). f_equal.
    revert l1 E. induction l0 as [|x m IH]; intros [|y m'] E; try discriminate E; [reflexivity|]. cbn [py_eq] in E. apply andb_prop in E as [A B].
    cbn [map]. rewrite (X _ _ A). f_equal. apply IH, B.
Qed.

Print Assumptions C105_members.
Print Assumptions C105_read_partial.
Print Assumptions C105_one_meaning.
Print Assumptions C105_server_partial.
Print Assumptions C105_read_refuted.
Print Assumptions C105_metrics_partial.
Print Assumptions C105_metrics_filters_partial.
