(** C92: datetimes written with isoformat() in legacy bodies. *)
From Verif Require TimeProps.
From Verif Require Import PyBase PyFacts DateTime SpecTime Objects SpecOps Exprs SpecExpr SpecMetricsQuery Query Strptime Request Legacy
  SpecLegacy SpecKeys SpecDated ExprFacts LegacyFacts LegacyProps BodyFacts KeyFacts DatedFacts Concrete ConcreteLegacy.
Local Open Scope Z_scope.

Ltac numb := split; [reflexivity|]; split; [cbn; repeat (apply Forall_cons; [lia|]); apply Forall_nil|reflexivity].
Section P.
Context {RT : PyRT} {CV : PyConv}.

(** ** C92 In a legacy body, the isoformat() text of a datetime is as good as the datetime *)

(** in conditions and having: for datetimes without UTC offset or without microseconds *)
Theorem C92_conditions_partial : forall b b' entity, is_dict b -> is_dict b' ->
  (forall k, In k known_keys -> k <> $"conditions" /\ k <> $"having" -> same_at b b' k) ->
  dated_at b b' ($"conditions") -> dated_at b b' ($"having") ->
  snd (json_to_snql b entity) = snd (json_to_snql b' entity).
Proof.
  intros b b' e D D' S C H. pose proof (parts_dated _ _ D D' S C H) as P. destruct D as (ks & vs & ->), D' as (ks' & vs' & ->).
  apply outcome_parts, P.
Qed.
(** as the bounds of the time range *)
Theorem C92_bounds_partial : forall body entity n body' r t s k o col,
  json_to_snql body entity = (body', Ok r) -> entity = OStr n -> plain_iso t s -> dict_entry body k (OStr s) ->
  k = $"from_date" /\ o = GTE \/ k = $"to_date" /\ o = LT -> time_column n col ->
  exists q l, rq_query r = RQuery q /\ c_where (q_clauses q) = OList l /\ In (OCond (plain_column col) o (ODateTime t)) l.
Proof.
  intros body entity n body' r t s k o col H -> I D K T. apply iso_read in I.
  apply snql_conditions in H as (q & m & ext & items & css & hitems & hs & Q & E & X & _ & _ & W & _).
  injection E as <-. exists q, (ext ++ List.concat css). split; [exact Q|]. split; [exact W|]. apply in_or_app. left.
  destruct X as [col' org fr to proj T' _ F1 F2 _|org proj T' _ _]; [|now elim (T' _ T)].
  assert (col' = col) as -> by (apply time_column_iff in T, T'; congruence).
  assert (G : forall l, time_conditions body k col o l -> In (OCond (plain_column col) o (ODateTime t)) l).
  { assert (U : forall v, dict_entry body k v -> v = OStr s).
    { destruct D as (ks & vs & -> & D). intros v (k1 & v1 & E & V). injection E as <- <-. apply lookup_iff in D, V. congruence. }
    intros l L. destruct L as [N|v V F|s' t' V NE PD].
    - now elim (N _ D).
    - apply U in V as ->. destruct s; [|discriminate F]. vm_compute in I. discriminate I.
    - apply U in V. injection V as ->. left. congruence. }
  destruct K as [(-> & ->)|(-> & ->)]; rewrite !in_app_iff; auto.
Qed.
(** false with a UTC offset and microseconds: no text at all is read as such a datetime *)
Theorem C92_never_refuted : forall t, dt_tz t <> None -> dt_us t <> 0 -> forall b v, parse_scalar b v = ODateTime t -> v = ODateTime t.
Proof.
  intros t T U b v H. destruct v; cbn [parse_scalar] in H; try discriminate H; try exact H.
  destruct b; [discriminate H|]. destruct (parse_datetime s) as [x|] eqn:E; [|discriminate H]. injection H as ->.
  apply never_read in E. tauto.
Qed.
(** ... so a condition compares with the text ... *)
Theorem C92_text_refuted : exists t s ks entity r r', real_datetime t /\ full_iso_text t s
  /\ snd (json_to_snql (ODict ks [OList [OStr ($"ab")]; OList [OList [OStr ($"ab"); OStr ($"="); OStr s]]]) entity) = Ok r
  /\ snd (json_to_snql (ODict ks [OList [OStr ($"ab")]; OList [OList [OStr ($"ab"); OStr ($"="); ODateTime t]]]) entity) = Ok r'
  /\ (exists q c, rq_query r = RQuery q /\ c_where (q_clauses q) = OList [OCond c EQ (OStr s)])
  /\ (exists q c, rq_query r' = RQuery q /\ c_where (q_clauses q) = OList [OCond c EQ (ODateTime t)]).
Proof.
  exists (mkDT (mkDate 2021 1 31) 23 59 58 120000 (Some 0)), ($"2021-01-31T23:59:58.120000+00:00"), [ $"selected_columns"; $"conditions" ],
    (OStr ($"e")).
  do 2 eexists. split; [apply TimeProps.real_datetime_iff; unfold valid_datetime, valid_date, US_PER_DAY; cbn; lia|]. split.
  { exists ($"2021-01-31T23:59:58.120000"), ($"+00:00"). split; [reflexivity|]. split.
    - exists ($"2021"), ($"01"), ($"31"), ($"23"), ($"59"), ($"58"), ($".120000"). split; [reflexivity|].
      do 6 (split; [numb|]).
      right. split; [discriminate|]. exists ($"120000"). split; [reflexivity|]. numb.
    - exists ($"00"), ($"00"), [], 0, 0, 0, 0. split; [reflexivity|].
      do 2 (split; [numb|]). repeat split; try lia. left. auto. }
  split; [vm_compute; reflexivity|]. split; [vm_compute; reflexivity|]. split; repeat eexists.
Qed.
(** ... and a bound of the time range is refused *)
Theorem C92_bound_refuted : exists t s entity, real_datetime t /\ full_iso_text t s
  /\ snd (json_to_snql (ODict [ $"selected_columns"; $"from_date" ] [OList [OStr ($"ab")]; OStr s]) entity) = Raise ValueError.
Proof.
  exists (mkDT (mkDate 2021 1 31) 23 59 58 120000 (Some 0)), ($"2021-01-31T23:59:58.120000+00:00"), (OStr ($"events")).
  split; [apply TimeProps.real_datetime_iff; unfold valid_datetime, valid_date, US_PER_DAY; cbn; lia|]. split.
  { exists ($"2021-01-31T23:59:58.120000"), ($"+00:00"). split; [reflexivity|]. split.
    - exists ($"2021"), ($"01"), ($"31"), ($"23"), ($"59"), ($"58"), ($".120000"). split; [reflexivity|].
      do 6 (split; [numb|]).
      right. split; [discriminate|]. exists ($"120000"). split; [reflexivity|]. numb.
    - exists ($"00"), ($"00"), [], 0, 0, 0, 0. split; [reflexivity|].
      do 2 (split; [numb|]). repeat split; try lia. left. auto. }
  vm_compute. reflexivity.
Qed.
End P.

#[local] Existing Instance demoRT.
#[local] Existing Instance demoCV.
(** an offset of minus 5 hours, 30 minutes, 12 seconds *)
Definition odd_time : datetime := mkDT (mkDate 2021 1 31) 23 59 58 0 (Some (-19812000000)).
Definition odd_text : str := $"2021-01-31T23:59:58-05:30:12".
Lemma odd_iso : plain_iso odd_time odd_text.
Proof.
  split; [apply TimeProps.real_datetime_iff; unfold valid_datetime, valid_date, US_PER_DAY; cbn; lia|]. split; [|right; reflexivity].
  exists ($"2021-01-31T23:59:58"), ($"-05:30:12"). split; [reflexivity|]. split.
  - exists ($"2021"), ($"01"), ($"31"), ($"23"), ($"59"), ($"58"), []. split; [reflexivity|].
    do 6 (split; [numb|]). left. auto.
  - exists ($"05"), ($"30"), ($":12"), 5, 30, 12, 0. split; [reflexivity|].
    do 2 (split; [numb|]). do 4 (split; [lia|]).
    right. left. split; [reflexivity|]. split; [discriminate|]. exists ($"12"). split; [reflexivity|].
    numb.
Qed.
Definition dated_body (v : obj) : obj := ODict [ $"selected_columns"; $"conditions" ]
  [OList [OStr ($"ab")]; OList [OList [OStr ($"ab"); OStr ($"IN"); OList [OStr ($"x"); v]]]].
Example C92_case : dated_at (dated_body (OStr odd_text)) (dated_body (ODateTime odd_time)) ($"conditions")
  /\ exists r, snd (json_to_snql (dated_body (OStr odd_text)) (OStr ($"events"))) = Ok r
       /\ snd (json_to_snql (dated_body (ODateTime odd_time)) (OStr ($"events"))) = Ok r.
Proof.
  split; [|eexists; split; vm_compute; reflexivity].
  right. do 2 eexists. split; [do 2 eexists; split; [reflexivity|]; apply lookup_iff; reflexivity|].
  split; [do 2 eexists; split; [reflexivity|]; apply lookup_iff; reflexivity|].
  do 2 eexists. split; [constructor|]. split; [constructor|]. apply Forall2_cons; [|constructor]. right. left. split.
  - exists (OStr ($"ab")), ($"IN"), (OList [OStr ($"x"); OStr odd_text]), IN. split; [constructor|]. split; [reflexivity|]. left. eexists. reflexivity.
  - do 4 eexists. split; [constructor|]. split; [constructor|]. split.
    + eapply dd_items; [constructor|constructor|]. apply Forall2_cons; [constructor|]. apply Forall2_cons; [|constructor].
      apply dd_text, odd_iso.
    + intros e E. apply parse_exp_iff in E. vm_compute in E. injection E as <-.
      intros [(c & X & [Y|Y])|(a1 & a2 & a3 & a4 & a5 & a6 & a7 & X & _)]; try discriminate X; injection X as <-; discriminate Y.
Qed.
Example C92_bounds_case : exists r, snd (json_to_snql (ODict [ $"selected_columns"; $"from_date" ] [OList [OStr ($"ab")]; OStr odd_text]) (OStr ($"events"))) = Ok r
  /\ exists q, rq_query r = RQuery q /\ c_where (q_clauses q) = OList [OCond (plain_column ($"timestamp")) GTE (ODateTime odd_time)].
Proof. eexists. split; [vm_compute; reflexivity|]. eexists. split; reflexivity. Qed.

Print Assumptions C92_conditions_partial.
Print Assumptions C92_bounds_partial.
Print Assumptions C92_never_refuted.
Print Assumptions C92_text_refuted.
Print Assumptions C92_bound_refuted.
