(** Properties C55-C60: legacy queries and aggregate detection. *)
From Verif Require Import PyBase PyFacts DateTime SpecTime Objects SpecOps Exprs SpecExpr SpecLogic Query SpecMetricsQuery Request
  Strptime StrptimeFacts Legacy SpecLegacy LegacyFacts LegacyProps Snuba SpecSnuba SnubaFacts Concrete ConcreteLegacy.
From Verif Require TimeProps.

Section P.
Context {RT : PyRT} {CV : PyConv}.

(** ** C55 Legacy conditions keep their conjunction-of-disjunctions meaning *)

(** WHERE is: the conditions of organization, project and dates, then those of each item of
    "conditions", in order; HAVING is one condition per item of "having", in order *)
Theorem C55_structure : forall body entity body' r, json_to_snql body entity = (body', Ok r) ->
  exists q n ext items css hitems hs, rq_query r = RQuery q /\ entity = OStr n
    /\ extension_conditions body n ext
    /\ listed body ($"conditions") items /\ Forall2 where_object items css
    /\ c_where (q_clauses q) = OList (ext ++ List.concat css)
    /\ listed body ($"having") hitems /\ Forall2 having_object hitems hs
    /\ c_having (q_clauses q) = OList hs.
Proof. exact snql_conditions. Qed.

(** the meaning of a list of legacy conditions is unique *)
Theorem C55_one_meaning : forall I items v v',
  conditions_truth I items v -> conditions_truth I items v' -> v = v'.
Proof. exact conditions_truth_det. Qed.

(** WHERE means: the conditions of the extensions AND the list, unless it has an empty OR *)
Theorem C55_where_partial : forall I body entity body' r items v, json_to_snql body entity = (body', Ok r) ->
  listed body ($"conditions") items -> Forall (fun t => ~ empty_or t) items -> conditions_truth I items v ->
  exists q n ext wh, rq_query r = RQuery q /\ entity = OStr n /\ extension_conditions body n ext
    /\ c_where (q_clauses q) = OList wh /\ group_truth I wh = and3 (group_truth I ext) v.
Proof.
  intros I body entity body' r items v H L N T. pose proof (snql_dict _ _ _ _ H) as (ks & vs & ->). apply snql_conditions in H.
  destruct H as (q & n & ext & items' & css & hitems & hs & Q & En & X & L' & W & C & _).
  exists q, n, ext, (ext ++ List.concat css). repeat split; auto. rewrite group_truth_app. f_equal.
  assert (items' = items) by (apply listed_iff in L, L'; congruence).
  subst items'. eapply conditions_truth_det; [ | exact T ]. now apply wheres_truth.
Qed.
(** and the list has a meaning whenever the conversion succeeds *)
Theorem C55_where_meaning_partial : forall I body entity body' r items, json_to_snql body entity = (body', Ok r) ->
  listed body ($"conditions") items -> Forall (fun t => ~ empty_or t) items -> exists v, conditions_truth I items v.
Proof.
  intros I body entity body' r items H L N. pose proof (snql_dict _ _ _ _ H) as (ks & vs & ->). apply snql_conditions in H.
  destruct H as (q & n & ext & items' & css & hitems & hs & Q & En & X & L' & W & C & _).
  assert (items' = items) by (apply listed_iff in L, L'; congruence).
  subst items'. eexists. apply wheres_truth; eauto.
Qed.
(** HAVING means the list *)
Theorem C55_having : forall I body entity body' r items, json_to_snql body entity = (body', Ok r) ->
  listed body ($"having") items ->
  exists q hs, rq_query r = RQuery q /\ c_having (q_clauses q) = OList hs /\ conditions_truth I items (group_truth I hs).
Proof.
  intros I body entity body' r items H L. pose proof (snql_dict _ _ _ _ H) as (ks & vs & ->). apply snql_conditions in H.
  destruct H as (q & n & ext & its & css & items' & hs & Q & En & X & _ & _ & _ & L' & W & C).
  assert (items' = items) by (apply listed_iff in L, L'; congruence).
  subst items'. exists q, hs. repeat split; auto. now apply havings_truth.
Qed.
(** items that are sequences are converted whenever they stand for something *)
Theorem C55_items_convert : forall t l, sequence t l ->
  (forall cs, convert_where t = Ok cs <-> where_object t cs) /\ (forall c, convert_having t = Ok c <-> having_object t c).
Proof.
  intros t l S. split; split.
  - apply convert_where_sound.
  - now apply (convert_where_complete t l).
  - apply convert_having_sound.
  - now apply (convert_having_complete t l).
Qed.

(** an empty OR (false) disappears from WHERE *)
Definition body_of (k : str) (v : obj) : obj :=
  ODict [$"selected_columns"; k] [OList [OStr ($"event_id")]; v].
Lemma empty_or_nil : empty_or (OList []).
Proof.
  split; [ | repeat constructor ]. intros (a & s & c & o & S & _). inversion S.
Qed.
Theorem C55_empty_or_refuted : exists body entity body' r, json_to_snql body entity = (body', Ok r)
  /\ exists items q wh, listed body ($"conditions") items /\ (forall I, conditions_truth I items TFalse)
       /\ rq_query r = RQuery q /\ c_where (q_clauses q) = OList wh /\ forall I, group_truth I wh = TTrue.
Proof.
  set (body := body_of ($"conditions") (OList [OList []])).
  destruct (json_to_snql body (OStr ($"events"))) as (b, x) eqn:E.
  assert (K : exists q, x = Ok q /\ exists s, rq_query q = RQuery s /\ c_where (q_clauses s) = OList []).
  { apply (f_equal snd) in E. vm_compute in E. subst x. eexists. split; [ reflexivity | ]. eexists. split; reflexivity. }
  destruct K as (r & -> & q & Q & W). exists body, (OStr ($"events")), b, r. split; [ exact E | ].
  exists [OList []], q, []. split; [ | split; [ | split; [ exact Q | split; [ exact W | reflexivity ] ] ] ].
  - left. exists (OList [OList []]). split; [ | repeat constructor ]. eexists _, _. split; [ reflexivity | ].
    right. split; [ discriminate | left; auto ].
  - intro I. exists [TFalse]. split; [ | reflexivity ]. constructor; [ | constructor ].
    apply (it_or I (OList []) [] []); [ apply empty_or_nil | apply empty_or_nil | constructor ].
Qed.
(** an OR of one condition is converted in "conditions" but refused in "having" *)
Theorem C55_having_single_or_refuted : exists item,
  (exists b r, json_to_snql (body_of ($"conditions") (OList [item])) (OStr ($"events")) = (b, Ok r))
  /\ json_to_snql (body_of ($"having") (OList [item])) (OStr ($"events"))
     = (body_of ($"having") (OList [item]), Raise InvalidConditionError)
  /\ forall I, exists v, item_truth I item v.
Proof.
  exists (OList [OList [OStr ($"a"); OStr ($"="); OInt 1]]). split; [ | split ].
  - destruct (json_to_snql _ _) as (b, x) eqn:E. exists b. apply (f_equal snd) in E. vm_compute in E. subst x. eexists. reflexivity.
  - vm_compute. reflexivity.
  - intro I. set (t := OList [OStr ($"a"); OStr ($"="); OInt 1]).
    assert (P : parse_condition t = Ok (OCond (OColumn (mkColumn ($"a") None None None)) EQ (OInt 1))) by (vm_compute; reflexivity).
    apply parse_condition_iff, (cond_object_truth I) in P. eexists. eapply it_or.
    + intros (a & s & c & o & S & _). inversion S.
    + apply io_sequence. constructor.
    + constructor; [ exact P | constructor ].
Qed.

(** ** C56 Every recognised legacy condition is converted *)

(** what is recognised *)
Theorem C56_recognised : forall t, is_condition t = Ok true <-> triple t.
Proof. exact is_condition_yes. Qed.
(** it is converted exactly when it stands for a condition that the SDK accepts *)
Theorem C56_converted_partial : forall t c, parse_condition t = Ok c <-> cond_object t c.
Proof. exact parse_condition_iff. Qed.
(** in particular: a column name, an operator as the SDK writes it, a value *)
Theorem C56_simple_partial : forall t n o v, sequence t [OStr n; OStr (op_text o); v] -> column_name n -> scalar v ->
  is_condition t = Ok true
  /\ exists col v', mk_column (OStr n) ONone = Ok col
       /\ ((o = IS_NULL \/ o = IS_NOT_NULL) /\ v' = ONone
           \/ o <> IS_NULL /\ o <> IS_NOT_NULL /\ legacy_value (text_side col) v v')
       /\ parse_condition t = Ok (OCond col o v').
Proof. exact simple_condition. Qed.
(** operators in another case are recognised but not converted *)
Theorem C56_lower_case_refuted : exists t, is_condition t = Ok true /\ parse_condition t = Raise ValueError.
Proof. exists (OList [OStr ($"a"); OStr ($"in"); OList [OInt 1]]). split; vm_compute; reflexivity. Qed.

(** ** C57 Converting a legacy body twice gives the same request *)

(** only the value of "orderby" can change *)
Theorem C57_other_keys : forall body entity body' r, json_to_snql body entity = (body', r) ->
  forall k v, k <> $"orderby" -> (dict_entry body' k v <-> dict_entry body k v).
Proof. exact other_keys. Qed.
(** without descending function orders the body is unchanged, whatever the outcome *)
Theorem C57_unchanged_partial : forall body entity body' r, json_to_snql body entity = (body', r) ->
  (forall l, orders body l -> Forall (fun o => ~ changed_item o) l) ->
  body' = body /\ json_to_snql body' entity = (body', r).
Proof. intros body entity body' r H O. pose proof (body_kept _ _ _ _ H O) as E. subst body'. auto. Qed.
(** with one, every successful conversion changes the body and the next result *)
Theorem C57_descending_refuted : forall body entity body' r l o, json_to_snql body entity = (body', Ok r) ->
  orders body l -> In o l -> changed_item o -> body' <> body /\ snd (json_to_snql body' entity) <> Ok r.
Proof. exact second_differs. Qed.
Theorem C57_refuted : exists body entity body' r, json_to_snql body entity = (body', Ok r)
  /\ body' <> body /\ snd (json_to_snql body' entity) <> Ok r.
Proof.
  set (o := OList [OStr ($"-count"); OList [OStr ($"event_id")]]). set (body := body_of ($"orderby") (OList [o])).
  destruct (json_to_snql body (OStr ($"events"))) as (b, x) eqn:E.
  assert (K : exists r, x = Ok r). { apply (f_equal snd) in E. vm_compute in E. subst x. eexists. reflexivity. }
  destruct K as (r & ->). exists body, (OStr ($"events")), b, r. split; [ exact E | ].
  apply (second_differs _ _ _ _ [o] o E); [ | now left | exists ($"count"), [OList [OStr ($"event_id")]]; reflexivity ].
  eexists _, _. split; [ reflexivity | ]. right. split; [ discriminate | left; auto ].
Qed.

(** ** C58 Legacy datetimes are recognised exactly *)
Theorem C58_reads_partial : forall t s, stamp_text t s -> parse_scalar false (OStr s) = ODateTime t.
Proof. intros t s H. cbn [parse_scalar]. now rewrite (stamp_read _ _ H). Qed.
Theorem C58_others_partial : forall s,
  parse_scalar false (OStr s) = OStr s
  \/ exists t, parse_scalar false (OStr s) = ODateTime t /\ lenient_text t s /\ (decimal_digits -> real_datetime t).
Proof.
  intro s. cbn [parse_scalar]. destruct (parse_datetime s) as [ t | ] eqn:E; [ right | now left ].
  exists t. split; [ reflexivity | ]. apply parse_sound in E. destruct E as (L & S). split; [ exact L | ].
  intro D. apply TimeProps.real_datetime_iff. now apply S.
Qed.
(** other texts can be read as datetimes *)
Theorem C58_others_refuted : exists s t, (forall t', ~ stamp_text t' s) /\ parse_scalar false (OStr s) = ODateTime t.
Proof.
  exists ($"2021-1-1T1:1:1"), (mkDT (mkDate 2021 1 1) 1 1 1 0 None). split; [ | vm_compute; reflexivity ].
  intros t' (_ & y & mo & d & h & mi & se & tail & E & (Ly & _) & (Lm & _) & (Ld & _) & (Lh & _) & (Li & _) & (Ls & _) & _).
  apply (f_equal (@List.length N)) in E. rewrite !app_length, Ly, Lm, Ld, Lh, Li, Ls in E. cbn in E. lia.
Qed.

(** ** C59 Organization, project and time bounds end up in WHERE *)
Definition where_has (r : request) (c : obj) : Prop :=
  exists q l, rq_query r = RQuery q /\ c_where (q_clauses q) = OList l /\ In c l.
Theorem C59_present_partial : forall body entity body' r, json_to_snql body entity = (body', Ok r) ->
  (forall v, dict_entry body ($"organization") v -> truthy v = true ->
     (exists z, int_value v z) \/ (exists l, list_or_tuple v l) ->
     exists c, id_condition ($"org_id") False v c /\ where_has r c)
  /\ (forall v, dict_entry body ($"project") v -> truthy v = true ->
     (exists z, int_value v z) \/ (exists l, list_or_tuple v l) ->
     exists c, id_condition ($"project_id") True v c /\ where_has r c)
  /\ (forall n col v, entity = OStr n -> time_column n col -> dict_entry body ($"from_date") v -> truthy v = true ->
     exists s t, v = OStr s /\ parse_datetime s = Some t /\ where_has r (OCond (plain_column col) GTE (ODateTime t)))
  /\ (forall n col v, entity = OStr n -> time_column n col -> dict_entry body ($"to_date") v -> truthy v = true ->
     exists s t, v = OStr s /\ parse_datetime s = Some t /\ where_has r (OCond (plain_column col) LT (ODateTime t))).
Proof. exact extensions_present. Qed.
(** nothing else precedes the conditions of the list (see C55_structure) *)
Theorem C59_exactly : forall ks vs n l,
  extensions (ODict ks vs) n = Ok l <-> extension_conditions (ODict ks vs) n l.
Proof. exact extensions_iff. Qed.
(** organization and project given in another form are silently ignored *)
Theorem C59_dropped_refuted : exists body body' r, json_to_snql body (OStr ($"events")) = (body', Ok r)
  /\ dict_entry body ($"organization") (OStr ($"1")) /\ dict_entry body ($"project") (OInt 0)
  /\ exists q, rq_query r = RQuery q /\ c_where (q_clauses q) = OList [].
Proof.
  set (body := ODict [$"selected_columns"; $"organization"; $"project"] [OList [OStr ($"event_id")]; OStr ($"1"); OInt 0]).
  exists body. destruct (json_to_snql body (OStr ($"events"))) as (b, x) eqn:E. exists b.
  apply (f_equal snd) in E. vm_compute in E. subst x. eexists. split; [ reflexivity | ]. split; [ | split ].
  - eexists _, _. split; [ reflexivity | ]. right. split; [ discriminate | left; auto ].
  - eexists _, _. split; [ reflexivity | ]. right. split; [ discriminate | right; split; [ discriminate | left; auto ] ].
  - eexists. split; reflexivity.
Qed.

(** ** C60 Aggregate detection is exact *)
Theorem C60_plain_names : forall n aliases, ~ In 40%N n -> (is_aggregation_function n aliases = true <-> plain_aggregate n).
Proof. exact plain_name_iff. Qed.
Theorem C60_names : forall n aliases, is_aggregation_function n aliases = true <->
  aggregate_name n \/ (In 40%N n /\ exists a, alias_in aliases a /\ exists u v, n = u ++ a ++ v).
Proof. exact aggregation_function_iff. Qed.
Theorem C60_nested_partial : forall f, is_aggregate None f = true <->
  exists g n, nested g f /\ function_named n g /\ aggregate_name n.
Proof. exact c60_nested. Qed.
Theorem C60_nested_aliases_partial : forall aliases f, is_aggregate aliases f = true <->
  (exists g n, nested g f /\ function_named n g /\ is_aggregation_function n aliases = true)
  \/ (exists g c, nested g f /\ parameter_of (OColumn c) g /\ alias_in aliases (c_name c)).
Proof. exact is_aggregate_iff. Qed.
(** functions inside an array or tuple parameter are not seen *)
Theorem C60_containers_refuted : exists f g l k, (k = OTuple l \/ k = OList l) /\ In g l /\ parameter_of k f
  /\ (exists o, mk_function (OStr ($"array")) (OList [k]) ONone = Ok o /\ o = f)
  /\ function_named ($"count") g /\ plain_aggregate ($"count") /\ is_aggregate None f = false.
Proof.
  set (g := OFunc true ($"count") KNone [] KList [] None).
  exists (OFunc true ($"array") KNone [] KList [OTuple [g]] None), g, [g], (OTuple [g]).
  split; [ now left | ]. split; [ now left | ]. split; [ repeat eexists; now left | ].
  split; [ eexists; split; [ vm_compute; reflexivity | reflexivity ] | ].
  split; [ repeat eexists | ]. split; [ | vm_compute; reflexivity ].
  exists ($"count"), []. split; [ | split; [ now left | reflexivity ] ]. unfold base_names. cbn [In]. tauto.
Qed.
Theorem C60_find_column : forall c f, find_column_in_function c f = true <->
  exists g p, nested g f /\ parameter_of p g /\ py_eq p (OColumn c) = true.
Proof. exact find_column_iff. Qed.
End P.

(** ** Concrete cases *)
#[local] Existing Instance demoRT.
#[local] Existing Instance demoCV.

(** a AND (b OR c) AND d, and what it becomes after organization, dates and project *)
Definition demo_triple (c : str) (o : str) (v : obj) : obj := OList [OStr c; OStr o; v].
Definition demo_body : obj :=
  ODict [$"selected_columns"; $"organization"; $"project"; $"from_date"; $"to_date"; $"conditions"; $"having"; $"orderby"]
    [OList [OStr ($"event_id")]; OInt 7; OList [OInt 1; OInt 2];
     OStr ($"2021-01-01T00:00:00"); OStr ($"2021-02-01T00:00:00+00:00");
     OList [demo_triple ($"a") ($"=") (OStr ($"x"));
            OList [demo_triple ($"b") ($">") (OInt 1); demo_triple ($"release") ($"=") (OStr ($"2021-01-01T00:00:00"))];
            OList [demo_triple ($"d") ($"IS NULL") ONone]];
     OList [OList [demo_triple ($"e") ($"<") (OInt 1); demo_triple ($"f") ($"IN") (OList [OInt 1])]];
     OList [OStr ($"-a"); OStr ($"b")]].
Definition demo_col (n : str) : obj := OColumn (mkColumn n None None None).
Definition demo_dt (m : Z) (tz : option Z) : obj := ODateTime (mkDT (mkDate 2021 m 1) 0 0 0 0 tz).
Example C55_case : exists r q, json_to_snql demo_body (OStr ($"events")) = (demo_body, Ok r) /\ rq_query r = RQuery q
  /\ c_where (q_clauses q) = OList
       [OCond (demo_col ($"org_id")) EQ (OInt 7);
        OCond (demo_col ($"timestamp")) GTE (demo_dt 1 None);
        OCond (demo_col ($"timestamp")) LT (demo_dt 2 (Some 0%Z));
        OCond (demo_col ($"project_id")) IN (OTuple [OInt 1; OInt 2]);
        OCond (demo_col ($"a")) EQ (OStr ($"x"));
        OBoolC BOr OR KList [OCond (demo_col ($"b")) GT (OInt 1); OCond (demo_col ($"release")) EQ (OStr ($"2021-01-01T00:00:00"))];
        OCond (demo_col ($"d")) IS_NULL ONone]
  /\ c_having (q_clauses q) = OList
       [OBoolC BOr OR KList [OCond (demo_col ($"e")) LT (OInt 1); OCond (demo_col ($"f")) IN (OTuple [OInt 1])]].
Proof. eexists _, _. split; [ vm_compute; reflexivity | ]. split; [ reflexivity | ]. split; reflexivity. Qed.
Example C55_no_empty_or : Forall (fun t => ~ empty_or t)
  [demo_triple ($"a") ($"=") (OStr ($"x")); OList [demo_triple ($"d") ($"IS NULL") ONone]].
Proof. repeat constructor; intros (_ & H); inversion H as [ ? ? S | ]; inversion S. Qed.
(** conditions nest in expressions; the operator must be spelled as in the SDK there too *)
Example C56_case :
  parse_condition (OList [OList [OStr ($"ifNull"); OList [OStr ($"release"); OStr ($"''")]]; OStr ($"="); OStr ($"2021-01-01T00:00:00")])
  = Ok (OCond (OFunc true ($"ifNull") KNone [] KList [demo_col ($"release"); OStr []] None) EQ (OStr ($"2021-01-01T00:00:00")))
  /\ is_condition (demo_triple ($"a") ($"Not Like") (OStr ($"x"))) = Ok true
  /\ parse_condition (demo_triple ($"a") ($"Not Like") (OStr ($"x"))) = Raise ValueError
  /\ parse_condition (demo_triple ($"a") ($"NOT LIKE") (OStr ($"x"))) = Ok (OCond (demo_col ($"a")) NOT_LIKE (OStr ($"x"))).
Proof. vm_compute. repeat split; reflexivity. Qed.
(** texts of three characters are triples as well *)
Example C56_text_case : is_condition (OStr ($"a=b")) = Ok true
  /\ parse_condition (OStr ($"a=b")) = Ok (OCond (demo_col ($"a")) EQ (OStr ($"b"))).
Proof. vm_compute. split; reflexivity. Qed.
(** string orders are not changed, function orders are *)
Example C57_case :
  fst (json_to_snql (body_of ($"orderby") (OList [OStr ($"-a")])) (OStr ($"events"))) = body_of ($"orderby") (OList [OStr ($"-a")])
  /\ fst (json_to_snql (body_of ($"orderby") (OList [OList [OStr ($"-f2"); OList []]])) (OStr ($"events")))
     = body_of ($"orderby") (OList [OList [OStr ($"f2"); OList []]]).
Proof. vm_compute. split; reflexivity. Qed.
(** an order that is neither a list nor a text repeats the previous one, or fails *)
Example C57_other_orders :
  snd (json_to_snql (body_of ($"orderby") (OList [ONone])) (OStr ($"events"))) = Raise UnboundLocalError
  /\ exists r q, snd (json_to_snql (body_of ($"orderby") (OList [OStr ($"a"); OInt 5])) (OStr ($"events"))) = Ok r
       /\ rq_query r = RQuery q
       /\ c_orderby (q_clauses q) = OList [OOrderBy (demo_col ($"a")) ASC; OOrderBy (demo_col ($"a")) ASC].
Proof. split; [ vm_compute; reflexivity | ]. eexists _, _. split; [ vm_compute; reflexivity | ]. split; reflexivity. Qed.
Example C58_case : stamp_text (mkDT (mkDate 2021 1 31) 23 59 58 120000 None) ($"2021-01-31T23:59:58.12")
  /\ parse_scalar false (OStr ($"2021-01-31T23:59:58.12")) = ODateTime (mkDT (mkDate 2021 1 31) 23 59 58 120000 None)
  /\ parse_scalar false (OStr ($"2021-01-31T23:59:58-05:30")) = ODateTime (mkDT (mkDate 2021 1 31) 23 59 58 0 (Some (-19800000000)%Z))
  /\ parse_scalar false (OStr ($"2021-02-30T00:00:00")) = OStr ($"2021-02-30T00:00:00")
  /\ parse_scalar false (OStr ($"2021-01-01T00:00:00.5+00:00")) = OStr ($"2021-01-01T00:00:00.5+00:00").
Proof.
  split; [ | vm_compute; repeat split; reflexivity ]. split.
  - apply TimeProps.real_datetime_iff. unfold valid_datetime, valid_date. cbn. lia.
  - exists ($"2021"), ($"01"), ($"31"), ($"23"), ($"59"), ($"58"), ($".12").
    assert (N : forall w z (s : str), (Nat.eqb (List.length s) w && forallb (fun c => (48 <=? c) && (c <=? 57))%N s
      && Z.eqb (fold_left (fun a c => 10 * a + (Z.of_N c - 48)) s 0) z)%Z = true -> numeral w z s).
    { clear. intros w z s H. apply andb_true_iff in H as (H & H3). apply andb_true_iff in H as (H1 & H2).
      split; [ now apply Nat.eqb_eq | ]. split; [ | now apply Z.eqb_eq ]. apply Forall_forall. intros c I.
      rewrite forallb_forall in H2. specialize (H2 c I). apply andb_true_iff in H2. rewrite !N.leb_le in H2. exact H2. }
    split; [ reflexivity | ]. do 6 (split; [ apply N; reflexivity | ]).
    apply (tail_fraction 2 12 ($"12")); [ lia | apply N; reflexivity ].
Qed.
Example C59_case : id_condition ($"org_id") False (OInt 7) (OCond (demo_col ($"org_id")) EQ (OInt 7))
  /\ time_column ($"spans") ($"finish_ts") /\ forall c, ~ time_column ($"generic_metrics") c.
Proof.
  split; [ eapply ic_eq; [ constructor | tauto ] | ]. split; [ apply tc_finish; cbn; auto | ].
  intros c H. apply time_column_iff in H. discriminate H.
Qed.
Example C60_case : is_aggregation_function ($"quantileTDigestIf") None = true
  /\ is_aggregation_function ($"If") None = false /\ is_aggregation_function ($"countX") None = false
  /\ is_aggregation_function ($"divide(count(), 2)") None = true
  /\ is_aggregation_function ($"divide(counter(), 2)") None = false
  /\ is_aggregation_function ($"uniqHLL12(x)") None = false
  /\ is_aggregate None (OFunc true ($"divide") KNone [] KList [OInt 1; OFunc true ($"sumIf") KNone [] KList [] None] None) = true.
Proof. vm_compute. repeat split; reflexivity. Qed.

Print Assumptions C55_structure.
Print Assumptions C55_one_meaning.
Print Assumptions C55_where_partial.
Print Assumptions C55_where_meaning_partial.
Print Assumptions C55_having.
Print Assumptions C55_items_convert.
Print Assumptions C55_empty_or_refuted.
Print Assumptions C55_having_single_or_refuted.
Print Assumptions C56_recognised.
Print Assumptions C56_converted_partial.
Print Assumptions C56_simple_partial.
Print Assumptions C56_lower_case_refuted.
Print Assumptions C57_other_keys.
Print Assumptions C57_unchanged_partial.
Print Assumptions C57_descending_refuted.
Print Assumptions C57_refuted.
Print Assumptions C58_reads_partial.
Print Assumptions C58_others_partial.
Print Assumptions C58_others_refuted.
Print Assumptions C59_present_partial.
Print Assumptions C59_exactly.
Print Assumptions C59_dropped_refuted.
Print Assumptions C60_plain_names.
Print Assumptions C60_names.
Print Assumptions C60_nested_partial.
Print Assumptions C60_nested_aliases_partial.
Print Assumptions C60_containers_refuted.
Print Assumptions C60_find_column.
