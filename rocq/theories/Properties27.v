(** C80: a request converted from a legacy body can be sent. *)
From Verif Require Import PyBase DateTime SpecTime Objects Exprs SpecExpr Query SpecSetters SpecQuery SpecRefs SpecOccurs SpecHazard Metrics MetricsQuery
  SpecMetricsQuery Json SpecJson Request SpecRequest RequestFacts PyFacts Strptime Legacy SpecLegacy LegacyProps SpecBody BodyFacts SpecFromJson FromJsonFacts
  Properties4 Properties6 Properties8 Properties10 Concrete ConcreteLegacy.

Ltac decoded_tac :=
  lazymatch goal with
  | |- decoded ?v => let v' := eval hnf in v in change (decoded v'); constructor; decoded_tac
  | |- Forall _ [] => apply Forall_nil
  | |- Forall _ (_ :: _) => apply Forall_cons; decoded_tac
  | |- SpecJson.code_points _ => apply code_points_b; reflexivity
  end.

Section P.
Context {RT : PyRT} {ST : PyStr} {CV : PyConv}.

(** ** C80 A request converted from a legacy body can be sent.
    False: see the refutations below. What holds: conversion delivers a query made with the SDK,
    with clauses of the right types; validate() accepts it unless the body asks for totals
    without grouping, and then raises InvalidQueryError *)
Theorem C80_query : decimal_digits -> forall body entity body' r, decoded body -> decoded entity ->
  json_to_snql body entity = (body', Ok r) ->
  exists q, rq_query r = RQuery q /\ api_query q /\ class_typed_query q
    /\ (validate q = Ok tt <-> ~ totals_alone body)
    /\ (totals_alone body -> validate q = Raise InvalidQueryError).
Proof.
  intros D body entity body' r DB DE H. apply converted_sound in H.
  assert (forall n, entity = OStr n -> SpecJson.code_points n) as CE by (intros n ->; inversion DE; assumption).
  destruct (converted_query _ (part_code body) (part_inside body) D _ _ _ (decoded_pieces _ DB) CE H)
    as (e & c & Q & Ge & M & G & T & S & TR).
  exists (QBase (BEntity e) c). split; [exact Q|].
  assert (api_query (QBase (BEntity e) c)) as A by (split; [apply Ge|intros k; apply G]).
  assert (forall x e', query_refers (QBase (BEntity e) c) x -> c_entity x = Some e' -> e_dm e' = None) as N.
  { intros x e' (k & o & I & R) E. pose proof (proj2 (G k) _ (item_occurs _ _ _ _ I R)) as K. cbn in K. congruence. }
  pose proof (C27_no_model e c A T M N) as V. split; [exact A|]. split; [exact T|]. split; [rewrite V; tauto|].
  intros TA. destruct c as [? gb ? ? ? ? ? ? ? ? to]. apply totals_refused.
  - cbn in *. destruct (T CTotals) as [E|(b & E)]; cbn in E; subst to.
    + elim TR. intros K _. elim K; [|exact TA]. intros X. discriminate.
    + destruct b; [reflexivity|]. elim TR. intros K _. elim K; [|exact TA]. intros X. discriminate.
  - cbn [c_groupby]. destruct (truthy gb) eqn:TG; [|reflexivity]. elim TR. intros K _. elim K; [|exact TA]. intros _.
    destruct (T CGroupby) as [E|(l & L & _)]; cbn [get c_groupby] in *; [rewrite E in TG; discriminate|].
    cbn [c_groupby] in *. destruct L as [l|l]; destruct l as [|y l]; try discriminate; exists y, l; constructor.
  - apply C27_no_model.
    + split; [apply Ge|]. intros k. pose proof (proj1 (G k)) as X. destruct k; first [exact api_none|exact X].
    + intros k. destruct (T k) as [E|E]; destruct k; auto.
    + exact M.
    + intros x e' (k & o & I & R) E. apply (N x e'); [|exact E]. exists k, o. split; [|exact R].
      destruct k; auto. cbn in I. subst o. inversion R.
    + split; [exact S|]. intros X. discriminate.
Qed.

Definition in_query (q : query) (x : obj) : Prop := exists o, part_of o q /\ occurs x o.
(** then serialize() and print() work, or the body says a datetime with a UTC offset that no datetime
    in UTC equals. Missing: such datetimes *)
Theorem C80_text_partial : decimal_digits -> forall body entity body' r q, decoded body -> decoded entity ->
  json_to_snql body entity = (body', Ok r) -> rq_query r = RQuery q -> ~ totals_alone body ->
  ((exists s, serialize q = Ok s)
   \/ (serialize q = Raise OverflowError /\ exists t, in_query q (ODateTime t) /\ written body t /\ out_of_range t))
  /\ ((exists s, print q = Ok s)
   \/ (print q = Raise OverflowError /\ exists t, in_query q (ODateTime t) /\ written body t /\ out_of_range t)).
Proof.
  intros D body entity body' r q DB DE H Rq TA. pose proof (C80_query D _ _ _ _ DB DE H) as (q' & Q & A & T & V & _).
  assert (q' = q) as -> by congruence. clear Q. apply V in TA. clear V.
  apply converted_sound in H.
  assert (forall n, entity = OStr n -> SpecJson.code_points n) as CE by (intros n ->; inversion DE; assumption).
  destruct (converted_query _ (part_code body) (part_inside body) D _ _ _ (decoded_pieces _ DB) CE H)
    as (e & c & Q & Ge & _ & G & _).
  assert (q = QBase (BEntity e) c) as -> by congruence.
  assert (forall x er, (exists o, part_of o (QBase (BEntity e) c) /\ occurs x o) -> hazard er x ->
    er = OverflowError /\ exists t, x = ODateTime t /\ written body t /\ out_of_range t) as Z.
  { intros x er (o & Po & O) Hz.
    assert (okx (part body) x) as K.
    { inversion Po; subst; [apply Ge; exact O|]. eapply G; exact O. }
    destruct Hz as [b _|t RT1 OR|b]; cbn in K; try contradiction. destruct K as (s & Ps & E).
    split; [reflexivity|]. exists t. split; [reflexivity|]. split; [eapply part_written; eassumption|]. split; assumption. }
  split.
  - destruct (C33_serialize _ A T TA) as [?|(er & o & x & E & Po & O & Hz)]; [auto|right].
    destruct (Z x er (ex_intro _ o (conj Po O)) Hz) as (-> & t & -> & W & OR). split; [exact E|]. exists t. repeat split; try apply OR; auto. exists o. auto.
  - destruct (C33_print _ A T TA) as [?|(er & o & x & E & Po & O & Hz)]; [auto|right].
    destruct (Z x er (ex_intro _ o (conj Po O)) Hz) as (-> & t & -> & W & OR). split; [exact E|]. exists t. repeat split; try apply OR; auto. exists o. auto.
Qed.

(** the whole request is valid exactly if its settings are fine and there are no totals without grouping *)
Theorem C80_valid : decimal_digits -> forall body entity body' r, decoded body -> decoded entity ->
  json_to_snql body entity = (body', Ok r) ->
  (valid_request r <-> request_settings body entity /\ ~ totals_alone body).
Proof.
  intros D body entity body' r DB DE H. pose proof (C80_query D _ _ _ _ DB DE H) as (q & Q & _ & _ & V & _).
  apply converted_sound in H. unfold valid_request. rewrite Q. cbn [query_valid]. rewrite V. clear V.
  destruct H as [n sample e aggs aes sels ses aj gs ges ext items css hitems hs ob lb li off gr to dataset app tenants consistent turbo debug dry
    Bd En Sa Me La Fa Ls Fs Ne Se Aj Gr Fg Sg Ex Lc Fw Lh Fh Or Lb Li Of Gn To Da Ap Te Co Tu De Dr].
  cbn [rq_dataset rq_app rq_parent rq_tenants rq_flags flags_valid]. unfold request_settings.
  assert (forall k d v w, value_or body k d v -> value_or body k d w -> v = w) as U.
  { intros k d v w A B.
    assert (forall x, given body k x -> not_given body k -> False) as GN.
    { intros x (E & T) [N|(y & E' & T')]; [elim (N _ E)|]. rewrite (entry_unique _ _ _ _ E E') in T. congruence. }
    destruct A as [v A|A], B as [w B|B]; try reflexivity; try (elim (GN _ A B)); try (elim (GN _ B A)).
    exact (entry_unique _ _ _ _ (proj1 A) (proj1 B)). }
  assert (forall k d v x, value_or body k d v -> given body k x -> v = x) as UG by (intros; eapply U; [eassumption|now constructor]).
  split.
  - intros (Sd & Sa' & _ & (ks & vs & Et) & TA & FF). split; [|exact TA]. split; [|split; [|split]].
    + intros v K. rewrite (U _ _ _ _ K Da). exact Sd.
    + intros v K. rewrite (U _ _ _ _ K Ap). exact Sa'.
    + intros v K. rewrite <- (UG _ _ _ _ Te K). eauto.
    + intros k v I K.
      assert (none_or_bool v) as NB.
      { destruct I as [<-|[<-|[<-|[<-|[]]]]].
        - rewrite <- (UG _ _ _ _ Co K). apply (FF ($"consistent")), fo_consistent.
        - rewrite <- (UG _ _ _ _ Tu K). apply (FF ($"turbo")), fo_turbo.
        - rewrite <- (UG _ _ _ _ De K). apply (FF ($"debug")), fo_debug.
        - rewrite <- (UG _ _ _ _ Dr K). apply (FF ($"dry_run")), fo_dry_run. }
      destruct K as (_ & T). destruct NB as [->|([] & ->)]; try discriminate. reflexivity.
  - intros ((Sd & Sa' & St & Sf) & TA). split; [apply Sd, Da|]. split; [apply Sa', Ap|].
    split; [exists ($"<unknown>"); split; [reflexivity|discriminate]|]. split; [|split; [exact TA|]].
    + destruct Te as [v K|_]; [exact (St v K)|eauto].
    + assert (forall k v, In k [$"consistent"; $"turbo"; $"debug"; $"dry_run"] -> value_or body k ONone v -> none_or_bool v) as NB.
      { intros k v I K. destruct K as [v K|_]; [right; exists true; exact (Sf k v I K)|left; reflexivity]. }
      intros k v F. destruct F; cbn [fl_totals fl_consistent fl_turbo fl_debug fl_dry_run fl_legacy].
      * left. reflexivity.
      * eapply NB; [|exact Co]. cbn. auto.
      * eapply NB; [|exact Tu]. cbn. auto.
      * eapply NB; [|exact De]. cbn. auto.
      * eapply NB; [|exact Dr]. cbn. auto.
      * right. eauto.
Qed.
(** and it is sent, or a datetime of the body cannot be converted to UTC. Missing: such datetimes *)
Theorem C80_sent_partial : decimal_digits -> forall body entity body' r, decoded body -> decoded entity ->
  json_to_snql body entity = (body', Ok r) -> request_settings body entity -> ~ totals_alone body ->
  (exists text, snd (request_serialize r) = Ok text)
  \/ (snd (request_serialize r) = Raise OverflowError /\ exists t, written body t /\ out_of_range t).
Proof.
  intros D body entity body' r DB DE H RS TA.
  assert (valid_request r) as V by (apply (C80_valid D _ _ _ _ DB DE H); auto).
  destruct (C80_query D _ _ _ _ DB DE H) as (q & Q & _).
  destruct (C80_text_partial D _ _ _ _ q DB DE H Q TA) as ([(s & E)|(E & t & _ & W & O)] & _).
  - left. assert (exists d, snd (request_to_dict r) = Ok d) as (d & Ed).
    { apply C52_serialized_iff. split; [exact V|]. rewrite Q. cbn. eauto. }
    assert (request_to_dict r = (fst (request_to_dict r), Ok d)) as Ed' by (rewrite <- Ed; destruct (request_to_dict r); reflexivity).
    apply (C61_sent _ _ _ Ed'). pose proof (C51_payload _ _ _ Ed') as ((ks & vs & -> & ND & L) & PE).
    constructor.
    assert (forall v, (exists k, dict_entry (ODict ks vs) k v) -> sendable v) as K.
    { intros v (k & KE). apply PE in KE. destruct V as ((b1 & n1 & V1 & _) & (b2 & n2 & V2 & _) & (p & V3 & _) & _).
      destruct KE as [| | | | | | | |]; try (constructor; fail); try congruence.
      - rewrite V1. constructor.
      - rewrite V2. constructor.
      - apply converted_sound in H. destruct H. cbn [rq_tenants].
        match goal with X : value_or body ($"tenant_ids") _ ?x |- sendable ?x => destruct X as [v0 X0|_] end.
        + apply decoded_sendable. eapply decoded_entry; [exact DB|apply X0].
        + repeat constructor.
      - rewrite V3. constructor. }
    clear -K ND L. apply Forall_forall. intros v I. apply K. clear K. revert vs L I.
    induction ND as [|k ks NI ND IH]; intros [|w vs] L I; try discriminate; [contradiction|]. destruct I as [->|I].
    + exists k, (k :: ks), (v :: vs). split; [reflexivity|]. cbn. auto.
    + injection L as L. destruct (IH vs L I) as (k' & ks' & vs' & X & Y). injection X as <- <-. exists k', (k :: ks), (w :: vs).
      split; [reflexivity|]. cbn. right. split; [|exact Y]. intros <-. apply NI. clear -Y.
      revert vs Y. induction ks as [|a ks IH]; intros [|b vs] Y; try contradiction. destruct Y as [(-> & _)|(_ & Y)]; [left; reflexivity|right; eauto].
  - right. split; [|eauto]. unfold request_serialize, request_to_dict.
    apply C52_validate in V. rewrite V.
    assert (exists fl, rflags_to_dict (rq_flags r) = Ok fl) as (fl & ->).
    { unfold request_validate in V. repeat (apply bind_Ok in V as ([] & ? & V)).
      unfold rflags_to_dict. destruct (rq_flags r); cbn [rflags_validate] in V; [eauto| |discriminate]. unfold flags_to_dict. rewrite V. cbn [bind]. eauto. }
    rewrite Q. cbn [snd bind]. rewrite E. reflexivity.
Qed.

(** *** What fails *)
Definition c80_body (k : str) (v : obj) : obj := ODict [$"selected_columns"; k] [OList [OStr ($"a")]; v].
(** totals without grouping: converted, but the request cannot be sent *)
Theorem C80_totals_refuted : exists body r, decoded body /\ json_to_snql body (OStr ($"events")) = (body, Ok r)
  /\ request_settings body (OStr ($"events")) /\ snd (request_serialize r) = Raise InvalidQueryError.
Proof.
  exists (c80_body ($"totals") (OBool true)). eexists. split; [decoded_tac|]. split; [vm_compute; reflexivity|].
  split; [|vm_compute; reflexivity].
  assert (forall k v, k <> $"selected_columns" -> k <> $"totals" -> ~ dict_entry (c80_body ($"totals") (OBool true)) k v) as N.
  { intros k v A B (ks & vs & E & X). injection E as <- <-. cbn [entry] in X. destruct X as [(X & _)|(_ & [(X & _)|(_ & [])])]; congruence. }
  assert (forall d k v, k <> $"selected_columns" -> k <> $"totals" -> value_or (c80_body ($"totals") (OBool true)) k d v -> v = d) as VO.
  { intros d k v A B K. destruct K as [v (K & _)|_]; [elim (N k v A B K)|reflexivity]. }
  split; [|split; [|split]].
  - intros v K. rewrite (VO _ ($"dataset") _ ltac:(discriminate) ltac:(discriminate) K). exists ($"events"), [].
    split; [reflexivity|]. split; [discriminate|]. split; [|left; reflexivity]. apply Forall_forall. intros c I. left. vm_compute in I. cbv [ascii_word ascii_letter ascii_digit]. lia.
  - intros v K. rewrite (VO _ ($"app_id") _ ltac:(discriminate) ltac:(discriminate) K). exists ($"legacy"), [].
    split; [reflexivity|]. split; [discriminate|]. split; [|left; reflexivity]. apply Forall_forall. intros c I. left. vm_compute in I. cbv [ascii_word ascii_letter ascii_digit]. lia.
  - intros v (K & _). elim (N ($"tenant_ids") _ ltac:(discriminate) ltac:(discriminate) K).
  - intros k v I (K & _). elim (N k v); [| |exact K]; destruct I as [<-|[<-|[<-|[<-|[]]]]]; discriminate.
Qed.
(** a text that is read as a datetime out of range in UTC: converted, valid, but not sent *)
Theorem C80_datetime_refuted : exists body r, decoded body /\ json_to_snql body (OStr ($"events")) = (body, Ok r)
  /\ valid_request r /\ snd (request_serialize r) = Raise OverflowError.
Proof.
  exists (c80_body ($"conditions") (OList [OList [OStr ($"ts"); OStr ($">"); OStr ($"0001-01-01T00:00:00+01:00")]])). eexists.
  split; [decoded_tac|]. split; [vm_compute; reflexivity|]. split; [apply C52_validate; vm_compute; reflexivity|vm_compute; reflexivity].
Qed.
(** settings of the request are not looked at before it is sent *)
Theorem C80_settings_refuted : 
  Forall (fun kve => exists r, decoded (c80_body (fst (fst kve)) (snd (fst kve)))
      /\ snd (json_to_snql (c80_body (fst (fst kve)) (snd (fst kve))) (OStr ($"events"))) = Ok r
      /\ snd (request_serialize r) = Raise (snd kve))
    [($"dataset", OStr ($"my data"), InvalidRequestError); ($"app_id", OInt 1, InvalidRequestError);
     ($"tenant_ids", OList [OInt 1], InvalidRequestError); ($"turbo", OInt 1, InvalidFlagError)].
Proof.
  repeat apply Forall_cons; try apply Forall_nil; (eexists; split; [decoded_tac|]; split; [vm_compute; reflexivity|vm_compute; reflexivity]).
Qed.
End P.

#[local] Existing Instance demoRT.
#[local] Existing Instance demoCV.
#[local] Existing Instance demoST.
Definition c80_demo : obj := ODict
  [$"selected_columns"; $"aggregations"; $"groupby"; $"conditions"; $"orderby"; $"totals"; $"from_date"; $"project"; $"turbo"; $"dataset"; $"tenant_ids"]
  [OList [OStr ($"a"); OList [OStr ($"f2"); OList [OStr ($"b")]; OStr ($"x")]]; OList [OList [OStr ($"count()"); OStr []; OStr ($"n")]];
   OList [OStr ($"g")]; OList [OList [OStr ($"ts"); OStr ($"<"); OStr ($"2020-01-02T03:04:05+01:00")]]; OStr ($"-n"); OBool true;
   OStr ($"2020-01-01T00:00:00"); OInt 7; OBool true; OStr ($"d"); ODict [$"t"] [OInt 1]].
Example C80_case : decimal_digits /\ decoded c80_demo /\ decoded (OStr ($"events"))
  /\ exists r text, snd (json_to_snql c80_demo (OStr ($"events"))) = Ok r /\ request_settings c80_demo (OStr ($"events")) /\ ~ totals_alone c80_demo
    /\ snd (request_serialize r) = Ok text.
Proof.
  assert (decimal_digits) as D by (intros c H; discriminate H).
  assert (decoded c80_demo) as DB by decoded_tac. assert (decoded (OStr ($"events"))) as DE by decoded_tac.
  split; [exact D|]. split; [exact DB|]. split; [exact DE|].
  assert (json_to_snql c80_demo (OStr ($"events")) = (c80_demo, snd (json_to_snql c80_demo (OStr ($"events"))))) as E by (vm_compute; reflexivity).
  remember (snd (json_to_snql c80_demo (OStr ($"events")))) as res eqn:R. vm_compute in R. subst res.
  match type of E with _ = (_, Ok ?r) => exists r end. eexists. split; [reflexivity|].
  match type of E with _ = (_, Ok ?r) => assert (valid_request r) as V by (apply C52_validate; vm_compute; reflexivity) end.
  apply (C80_valid D _ _ _ _ DB DE E) in V as (V1 & V2). split; [exact V1|]. split; [exact V2|]. vm_compute. reflexivity.
Qed.

Print Assumptions C80_query.
Print Assumptions C80_text_partial.
Print Assumptions C80_valid.
Print Assumptions C80_sent_partial.
Print Assumptions C80_totals_refuted.
Print Assumptions C80_datetime_refuted.
Print Assumptions C80_settings_refuted.
