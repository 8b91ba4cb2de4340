(** C89-C91: the keys and values of a legacy body. *)
From Verif Require Import PyBase PyFacts Objects Exprs SpecExpr SpecMetricsQuery Query Strptime Request Legacy SpecLegacy SpecKeys
  ExprFacts LegacyFacts LegacyProps BodyFacts KeyFacts Concrete ConcreteLegacy.

Section P.
Context {RT : PyRT} {CV : PyConv}.

(** ** C89 Only the documented keys of a legacy body count, in any order *)
Theorem C89_keys : forall b b' entity, is_dict b -> is_dict b' -> Forall (same_at b b') known_keys ->
  snd (json_to_snql b entity) = snd (json_to_snql b' entity)
  /\ Forall (same_at (fst (json_to_snql b entity)) (fst (json_to_snql b' entity))) known_keys.
Proof.
  intros b b' e D D' F. pose proof F as F0. unfold known_keys in F0. apply Forall_app in F0 as (FL & FO).
  assert (P : parts_equal b b').
  { apply parts_none; [exact D|exact D'|exact FL|]. eapply Forall_impl; [|exact FO]. intros k S v _. apply S. }
  destruct D as (ks & vs & ->), D' as (ks' & vs' & ->). split; [apply outcome_parts, P|].
  rewrite Forall_forall in F |- *. intros k I. specialize (F k I).
  unfold json_to_snql. rewrite (query_parts _ _ e P). destruct (legacy_query (ODict ks' vs') e) as [q|]; [|exact F].
  assert (T : forall ks vs, fst (let '(b1, r) := legacy_orderby (ODict ks vs) q in (b1, let! q0 := r in legacy_request b1 e q0))
    = fst (legacy_orderby (ODict ks vs) q)) by (intros k1 v1; now destruct (legacy_orderby (ODict k1 v1) q)).
  rewrite !T. clear T. pose proof (pe_plain _ _ P ($"orderby") ltac:(cbn; auto 30)) as E. unfold legacy_orderby. rewrite E.
  destruct (truthy (body_get (ODict ks' vs') ($"orderby") ONone)) eqn:TR; [|exact F].
  destruct (body_get (ODict ks' vs') ($"orderby") ONone) eqn:G; try exact F.
  destruct (convert_orderby l None) as (l' & r). cbn [fst].
  apply not_none in E; [|discriminate]. apply not_none in G; [|discriminate].
  destruct E as (k1 & v1 & X & E), G as (k2 & v2 & Y & G). injection X as <- <-. injection Y as <- <-.
  intros v. split; intros (k3 & v3 & X & H); injection X as <- <-; eexists _, _; (split; [reflexivity|]).
  - apply (put_back_entry _ _ _ _ _ E) in H. apply (put_back_entry _ _ _ _ _ G). destruct H as [H|(N & H)]; [left; exact H|right].
    split; [exact N|]. destruct (proj1 (F v)) as (k4 & v4 & X & Z); [exists ks, vs; auto|]. injection X as <- <-. exact Z.
  - apply (put_back_entry _ _ _ _ _ G) in H. apply (put_back_entry _ _ _ _ _ E). destruct H as [H|(N & H)]; [left; exact H|right].
    split; [exact N|]. destruct (proj2 (F v)) as (k4 & v4 & X & Z); [exists ks', vs'; auto|]. injection X as <- <-. exact Z.
Qed.
(** other keys are left alone *)
Theorem C89_unknown : forall b entity k v, ~ In k known_keys ->
  (dict_entry (fst (json_to_snql b entity)) k v <-> dict_entry b k v).
Proof.
  intros b e k v N. destruct (json_to_snql b e) as (b' & r) eqn:E. cbn [fst]. apply (other_keys _ _ _ _ E).
  intros ->. apply N. cbn. auto 30.
Qed.

(** ** C90 A key of a legacy body that is None counts as left out *)
Theorem C90_none_partial : forall b b' entity, is_dict b -> is_dict b' ->
  Forall (same_at b b') list_keys -> Forall (same_but_none_at b b') optional_keys ->
  snd (json_to_snql b entity) = snd (json_to_snql b' entity).
Proof.
  intros b b' e D D' L O. pose proof (parts_none _ _ D D' L O) as P. destruct D as (ks & vs & ->), D' as (ks' & vs' & ->).
  apply outcome_parts, P.
Qed.
(** false: None under any of the keys that hold lists is refused *)
Theorem C90_none_refuted : forall k, In k list_keys -> exists ks vs entity r,
  ~ In k ks /\ snd (json_to_snql (ODict ks vs) entity) = Ok r
  /\ snd (json_to_snql (ODict (ks ++ [k]) (vs ++ [ONone])) entity) = Raise TypeError.
Proof.
  intros k I. cbn in I.
  repeat (destruct I as [<-|I]; [
    first
    [ exists [ $"selected_columns" ], [OList [OStr ($"a")]], (OStr ($"e")); eexists; split; [intros J; cbn in J; intuition discriminate|];
      split; vm_compute; reflexivity
    | exists [ $"aggregations" ], [OList [OList [OStr ($"count()"); OStr []; OStr ($"n")]]], (OStr ($"e")); eexists; split; [intros J; cbn in J; intuition discriminate|];
      split; vm_compute; reflexivity ] |]).
  destruct I.
Qed.

(** ** C91 Lists and tuples can be exchanged in a legacy body *)
Theorem C91_exchange_partial : forall b b' entity, is_dict b -> is_dict b' -> Forall (exchangeable_at b b') known_keys ->
  snd (json_to_snql b entity) = snd (json_to_snql b' entity).
Proof.
  intros b b' e D D' F. pose proof (parts_exchange _ _ D D' F) as P. destruct D as (ks & vs & ->), D' as (ks' & vs' & ->).
  apply outcome_parts, P.
Qed.
(** false: groupby as a tuple is one expression, so that a tuple of two columns silently
    becomes a function *)
Theorem C91_groupby_refuted : exists ks vs vs' entity r r',
  Forall2 alike vs vs' /\ snd (json_to_snql (ODict ks vs) entity) = Ok r
  /\ snd (json_to_snql (ODict ks vs') entity) = Ok r'
  /\ (exists q a b, rq_query r = RQuery q /\ c_groupby (q_clauses q) = OList [OColumn a; OColumn b])
  /\ (exists q k a n, rq_query r' = RQuery q /\ c_groupby (q_clauses q) = OList [OFunc true n KNone [] k [OColumn a] None]).
Proof.
  exists [ $"selected_columns"; $"groupby" ], [OList [OStr ($"ab")]; OList [OStr ($"ab"); OStr ($"cd")]],
    [OList [OStr ($"ab")]; OTuple [OStr ($"ab"); OStr ($"cd")]], (OStr ($"e")).
  do 2 eexists. split; [repeat constructor|]. split; [vm_compute; reflexivity|]. split; [vm_compute; reflexivity|].
  split; repeat eexists.
Qed.
(** ... a tuple in orderby raises UnboundLocalError ... *)
Theorem C91_orderby_refuted : exists ks vs vs' entity r,
  Forall2 alike vs vs' /\ snd (json_to_snql (ODict ks vs) entity) = Ok r
  /\ snd (json_to_snql (ODict ks vs') entity) = Raise UnboundLocalError.
Proof.
  exists [ $"selected_columns"; $"orderby" ], [OList [OStr ($"ab")]; OList [OStr ($"-ab")]],
    [OList [OStr ($"ab")]; OTuple [OStr ($"-ab")]], (OStr ($"e")).
  eexists. split; [repeat constructor|]. split; vm_compute; reflexivity.
Qed.
(** ... and a tuple on the left-hand side of a condition is refused *)
Theorem C91_condition_refuted : exists ks vs vs' entity r,
  Forall2 alike vs vs' /\ snd (json_to_snql (ODict ks vs) entity) = Ok r
  /\ snd (json_to_snql (ODict ks vs') entity) = Raise InvalidConditionError.
Proof.
  exists [ $"selected_columns"; $"conditions" ],
    [OList [OStr ($"ab")]; OList [OList [OList [OStr ($"fn"); OList [OStr ($"ab")]]; OStr ($"="); OInt 1]]],
    [OList [OStr ($"ab")]; OList [OList [OTuple [OStr ($"fn"); OList [OStr ($"ab")]]; OStr ($"="); OInt 1]]], (OStr ($"e")).
  eexists. split; [repeat constructor|]. split; vm_compute; reflexivity.
Qed.
End P.

#[local] Existing Instance demoRT.
#[local] Existing Instance demoCV.
(** every one of the known keys counts *)
Definition key_samples : list (str * obj) :=
  [ ($"aggregations", OList [OList [OStr ($"count()"); OStr []; OStr ($"n")]]); ($"selected_columns", OList [OStr ($"cd")]);
    ($"groupby", OStr ($"ab")); ($"conditions", OList [OList [OStr ($"ab"); OStr ($"="); OInt 1]]);
    ($"having", OList [OList [OStr ($"ab"); OStr ($"="); OInt 1]]); ($"sample", OInt 1); ($"arrayjoin", OStr ($"ab"));
    ($"organization", OInt 1); ($"from_date", OStr ($"2020-01-01T00:00:00")); ($"to_date", OStr ($"2020-01-01T00:00:00"));
    ($"project", OInt 1); ($"orderby", OStr ($"-ab")); ($"limitby", OList [OInt 1; OStr ($"ab")]); ($"limit", OInt 1);
    ($"offset", OInt 1); ($"granularity", OInt 1); ($"totals", OBool true); ($"consistent", OBool true); ($"turbo", OBool true);
    ($"debug", OBool true); ($"dry_run", OBool true); ($"dataset", OStr ($"dd")); ($"app_id", OStr ($"aa"));
    ($"tenant_ids", ODict [$"organization_id"] [OInt 1]) ].
Definition plain_body : obj := ODict [ $"selected_columns" ] [OList [OStr ($"ab")]].
Definition sample_body (kv : str * obj) : obj :=
  if str_eqb (fst kv) ($"selected_columns") then ODict [fst kv] [snd kv]
  else ODict [ $"selected_columns"; fst kv ] [OList [OStr ($"ab")]; snd kv].
Example C89_matters : map fst key_samples = known_keys /\ Forall (fun kv =>
  snd (json_to_snql (sample_body kv) (OStr ($"events"))) <> snd (json_to_snql plain_body (OStr ($"events")))) key_samples.
Proof. split; [reflexivity|]. unfold key_samples. repeat (apply Forall_cons; [intros H; vm_compute in H; discriminate H|]). apply Forall_nil. Qed.
(** an unknown key in front, and the other keys in another order *)
Definition key_body : obj := ODict [ $"selected_columns"; $"orderby"; $"limit" ] [OList [OStr ($"ab")]; OList [OStr ($"-ab")]; OInt 5].
Definition key_body' : obj :=
  ODict [ $"referrer"; $"limit"; $"orderby"; $"selected_columns" ] [OStr ($"r"); OInt 5; OList [OStr ($"-ab")]; OList [OStr ($"ab")]].
Lemma same_at_lookup ks vs ks' vs' k : lookup k ks vs = lookup k ks' vs' -> same_at (ODict ks vs) (ODict ks' vs') k.
Proof.
  intros E v. split; intros (k1 & v1 & X & H); injection X as <- <-; eexists _, _; (split; [reflexivity|]); apply lookup_iff in H; apply lookup_iff; congruence.
Qed.
Example C89_case : Forall (same_at key_body key_body') known_keys /\ is_dict key_body /\ is_dict key_body'
  /\ exists r, snd (json_to_snql key_body (OStr ($"events"))) = Ok r /\ snd (json_to_snql key_body' (OStr ($"events"))) = Ok r.
Proof.
  split; [repeat constructor; apply same_at_lookup; reflexivity|]. split; [do 2 eexists; reflexivity|]. split; [do 2 eexists; reflexivity|].
  eexists. split; vm_compute; reflexivity.
Qed.
Lemma none_lookup ks vs ks' vs' k : body_get (ODict ks vs) k ONone = body_get (ODict ks' vs') k ONone ->
  same_but_none_at (ODict ks vs) (ODict ks' vs') k.
Proof.
  intros E v N. split; intros H.
  - apply not_none; [rewrite <- E; apply body_get_iff; left; exact H|exact N].
  - apply not_none; [rewrite E; apply body_get_iff; left; exact H|exact N].
Qed.
Definition none_body : obj := ODict [ $"selected_columns"; $"sample"; $"limit"; $"dataset" ] [OList [OStr ($"ab")]; ONone; OInt 5; ONone].
Definition none_body' : obj := ODict [ $"limit"; $"selected_columns"; $"turbo" ] [OInt 5; OList [OStr ($"ab")]; ONone].
Example C90_case : Forall (same_at none_body none_body') list_keys /\ Forall (same_but_none_at none_body none_body') optional_keys
  /\ exists r, snd (json_to_snql none_body (OStr ($"events"))) = Ok r /\ snd (json_to_snql none_body' (OStr ($"events"))) = Ok r.
Proof.
  split; [repeat constructor; apply same_at_lookup; reflexivity|]. split.
  - unfold optional_keys. repeat (apply Forall_cons; [apply none_lookup; reflexivity|]). apply Forall_nil.
  - eexists. split; vm_compute; reflexivity.
Qed.
(** tuples for lists in the places where they can stand *)
Definition lists_body : obj := ODict [ $"selected_columns"; $"conditions"; $"groupby"; $"project" ]
  [OList [OStr ($"ab"); OList [OStr ($"fn"); OList [OStr ($"ab")]; OStr ($"n")]];
   OList [OList [OStr ($"ab"); OStr ($"IN"); OList [OInt 1; OInt 2]];
          OList [OList [OStr ($"ab"); OStr ($"="); OInt 1]; OList [OStr ($"cd"); OStr ($"="); OInt 1]]];
   OList [OStr ($"ab"); OList [OStr ($"fn"); OList [OStr ($"ab")]]]; OList [OInt 1; OInt 2]].
Definition tuples_body : obj := ODict [ $"selected_columns"; $"conditions"; $"groupby"; $"project" ]
  [OTuple [OStr ($"ab"); OTuple [OStr ($"fn"); OList [OStr ($"ab")]; OStr ($"n")]];
   OTuple [OTuple [OStr ($"ab"); OStr ($"IN"); OTuple [OInt 1; OInt 2]];
          OTuple [OTuple [OStr ($"ab"); OStr ($"="); OInt 1]; OList [OStr ($"cd"); OStr ($"="); OInt 1]]];
   OList [OStr ($"ab"); OTuple [OStr ($"fn"); OList [OStr ($"ab")]]]; OTuple [OInt 1; OInt 2]].
Lemma exchange_lookup ks vs ks' vs' k :
  match lookup k ks vs, lookup k ks' vs' with Some v, Some v' => exchangeable k v v' | None, None => True | _, _ => False end ->
  exchangeable_at (ODict ks vs) (ODict ks' vs') k.
Proof.
  destruct (lookup k ks vs) as [v|] eqn:A, (lookup k ks' vs') as [v'|] eqn:B; intros H; try (destruct H; fail).
  - left. exists v, v'. apply lookup_iff in A, B. split; [eexists _, _; eauto|]. split; [eexists _, _; eauto|exact H].
  - right. split; intros v (k1 & v1 & X & Y); injection X as <- <-; apply lookup_iff in Y; congruence.
Qed.
Example C91_case : Forall (exchangeable_at lists_body tuples_body) known_keys
  /\ exists r, snd (json_to_snql lists_body (OStr ($"events"))) = Ok r /\ snd (json_to_snql tuples_body (OStr ($"events"))) = Ok r.
Proof.
  split; [|eexists; split; vm_compute; reflexivity].
  assert (S : forall l, same_items (OList l) (OTuple l)) by (intros l; right; exists l; split; constructor).
  assert (Z : forall x, same_items x x) by (intros x; left; reflexivity).
  unfold known_keys, list_keys, optional_keys. cbn [app].
  repeat (apply Forall_cons; [apply exchange_lookup; cbn [lookup lists_body tuples_body];
    repeat match goal with |- context [str_eqb ?a ?b] => let y := eval vm_compute in (str_eqb a b) in change (str_eqb a b) with y; cbn iota end |]);
  [exact I|..|apply Forall_nil]; try exact I.
  - apply ex_expressions; [cbn; auto|]. do 2 eexists. split; [constructor|]. split; [constructor|]. repeat (apply Forall2_cons; [auto|]). constructor.
  - apply ex_groupby. repeat (apply Forall2_cons; [auto|]). constructor.
  - apply ex_filters; [cbn; auto|]. do 2 eexists. split; [constructor|]. split; [constructor|].
    apply Forall2_cons; [|apply Forall2_cons; [|constructor]].
    + right. left. split.
      * exists (OStr ($"ab")), ($"IN"), (OList [OInt 1; OInt 2]), IN. split; [constructor|]. split; [reflexivity|]. left. eexists. reflexivity.
      * do 4 eexists. split; [constructor|]. split; [constructor|reflexivity].
    + right. right. do 2 eexists. split; [constructor|]. split; [constructor|].
      repeat (apply Forall2_cons; [do 4 eexists; split; [constructor|]; split; [constructor|reflexivity]|]). constructor.
  - apply ex_ids; [cbn; auto|reflexivity].
Qed.

Print Assumptions C89_keys.
Print Assumptions C89_unknown.
Print Assumptions C90_none_partial.
Print Assumptions C90_none_refuted.
Print Assumptions C91_exchange_partial.
Print Assumptions C91_groupby_refuted.
Print Assumptions C91_orderby_refuted.
Print Assumptions C91_condition_refuted.
