(** Properties C51-C54: requests, flags and delete queries. *)
From Verif Require Import PyBase PyFacts DateTime Objects Exprs SpecExpr Query Translate Optimizer Metrics Mql MetricsQuery SpecMetricsQuery
  MetricsFacts Json Request SpecRequest RequestFacts Concrete Properties6 Properties7.

Section P.
Context {RT : PyRT} {ST : PyStr}.

(** ** C51 The request payload carries the request unchanged *)
Theorem C51_payload : forall r r' d, request_to_dict r = (r', Ok d) ->
  (exists ks vs, d = ODict ks vs /\ NoDup ks /\ List.length vs = List.length ks)
  /\ forall k v, dict_entry d k v <-> payload_entry r k v.
Proof. exact to_dict_entries. Qed.

(** mql_context exactly for metrics queries, dataset exactly for the others than delete queries *)
Theorem C51_context_and_dataset : forall r r' d, request_to_dict r = (r', Ok d) ->
  ((exists c, dict_entry d ($"mql_context") c) <-> exists q, rq_query r = RMetrics q)
  /\ ((exists c, dict_entry d ($"dataset") c) <-> ~ is_delete r)
  /\ exists o, dict_entry d ($"query") o.
Proof.
  intros r r' d H. pose proof H as H0. apply to_dict_entries in H0 as (_ & E).
  assert (forall f n v, flag_of f n v -> n <> $"mql_context" /\ n <> $"dataset" /\ n <> $"query") as NF
    by (intros f n v []; repeat split; discriminate).
  revert H. unfold request_to_dict. destruct (request_validate r) as [[]|]; [|discriminate].
  destruct (rflags_to_dict (rq_flags r)) as [fl|]; [|discriminate].
  split; [|split].
  - split.
    + intros (c & D). apply E in D. inversion D; subst; eauto; try discriminate.
      apply NF in H1. tauto.
    + intros (q & Q). rewrite Q in H. destruct (mq_serialize q) as [q' [[s c]|e]] eqn:S; [|discriminate].
      exists c. apply E. apply (pe_mql_context r q s c Q). rewrite S. reflexivity.
  - split.
    + intros (c & D). apply E in D. inversion D; subst; auto; try discriminate. apply NF in H1. tauto.
    + intros N. exists (rq_dataset r). apply E, pe_dataset, N.
  - destruct (rq_query r) as [q|q|q|o] eqn:Q; [| | |discriminate].
    + destruct (serialize q) as [s|e] eqn:S; [|discriminate]. exists (OStr s). apply E. eapply pe_snql; eassumption.
    + destruct (mq_serialize q) as [q' [[s c]|e]] eqn:S; [|discriminate].
      exists (OStr s). apply E. apply (pe_mql r q s c Q). rewrite S. reflexivity.
    + exists (ODict [$"columns"] [dq_columns q]). apply E. apply pe_delete, Q.
Qed.

(** to_dict changes nothing of the request but the metrics query, as its serialize() does *)
Theorem C51_request_after : forall r, fst (request_to_dict r) = r
  \/ exists q, rq_query r = RMetrics q
     /\ fst (request_to_dict r) = mkRequest (rq_dataset r) (rq_app r) (RMetrics (fst (mq_serialize q))) (rq_flags r) (rq_parent r) (rq_tenants r).
Proof.
  intros r. unfold request_to_dict. destruct (request_validate r); [|auto]. destruct (rflags_to_dict _); [|auto].
  destruct (rq_query r) as [q|q|q|o] eqn:Q; auto. right. exists q. split; [reflexivity|]. destruct (mq_serialize q). reflexivity.
Qed.

(** ** C52 No invalid request is serialized *)
Theorem C52_validate : forall r, request_validate r = Ok tt <-> valid_request r.
Proof. exact request_validate_iff. Qed.

Definition query_serializes (q : rquery) : Prop :=
  match q with
  | RQuery q => exists s, serialize q = Ok s
  | RMetrics q => exists p, snd (mq_serialize q) = Ok p
  | RDelete q => True
  | ROther _ => False
  end.
Theorem C52_serialized_iff : forall r,
  (exists d, snd (request_to_dict r) = Ok d) <-> valid_request r /\ query_serializes (rq_query r).
Proof.
  intros r. rewrite <- request_validate_iff. unfold request_to_dict, query_serializes. split.
  - intros (d & H). destruct (request_validate r) as [[]|]; [|discriminate]. split; [reflexivity|].
    destruct (rflags_to_dict _); [|discriminate]. destruct (rq_query r) as [q|q|q|o]; cbn in *; auto; try discriminate.
    + apply bind_Ok in H as (s & S & _). eauto.
    + destruct (mq_serialize q) as [q' res]. cbn in *. apply bind_Ok in H as (s & S & _). eauto.
  - intros (V & Q). pose proof V as V0. rewrite V. unfold request_validate in V0. rewrite !seq_ok in V0.
    assert (exists fl, rflags_to_dict (rq_flags r) = Ok fl) as (fl & ->).
    { destruct V0 as (_ & _ & _ & _ & _ & F). revert F. destruct (rq_flags r) as [|f|o]; cbn [rflags_validate rflags_to_dict]; [eauto| |discriminate].
      unfold flags_to_dict. intros ->. cbn. eauto. }
    destruct V0 as (_ & _ & _ & _ & D & _). revert Q D. destruct (rq_query r) as [q|q|q|o]; cbn [rquery_validate].
    + intros (s & ->) _. cbn. eauto.
    + intros (p & S) _. destruct (mq_serialize q) as [q' res]. cbn in *. subst res. cbn. eauto.
    + intros _ D. unfold delete_serialize. rewrite D. cbn. eauto.
    + tauto.
Qed.
(** serialize(), str() and print() *)
Theorem C52_all_outputs : forall r,
  (forall s, snd (request_serialize r) = Ok s -> valid_request r)
  /\ (forall o, snd (request_print r) = Ok o -> valid_request r).
Proof.
  assert (forall r o, snd (request_to_dict r) = Ok o -> valid_request r) as T.
  { intros r o H. apply (C52_serialized_iff r). eauto. }
  intros r. split.
  - unfold request_serialize. intros s H. destruct (request_to_dict r) as [r' d] eqn:E. cbn in H. apply bind_Ok in H as (o & -> & _).
    apply (T r o). rewrite E. reflexivity.
  - unfold request_print. intros o H. destruct (request_validate r) as [[]|]; [|discriminate].
    destruct (request_to_dict r) as [r' d] eqn:E. cbn in H. apply bind_Ok in H as (p & -> & _). apply (T r p). rewrite E. reflexivity.
Qed.
(** the errors for the parts that the request itself checks *)
Theorem C52_errors : forall r,
  ~ safe_name (rq_dataset r) \/ ~ safe_name (rq_app r) \/ (forall s, rq_parent r = OStr s -> s = [])
  \/ (forall ks vs, rq_tenants r <> ODict ks vs) ->
  snd (request_to_dict r) = Raise InvalidRequestError.
Proof.
  intros r H. unfold request_to_dict. assert (request_validate r = Raise InvalidRequestError) as ->; [|reflexivity].
  unfold request_validate.
  destruct (check_safe_raise (rq_dataset r)) as [D|D]; rewrite D; [|reflexivity]. apply check_safe_iff in D.
  destruct (check_safe_raise (rq_app r)) as [A|A]; rewrite A; [|reflexivity]. apply check_safe_iff in A.
  cbn. destruct (check_parent (rq_parent r)) as [[]|e] eqn:P.
  - apply check_parent_iff in P as (s & P & N). cbn. destruct (rq_tenants r) eqn:T; try reflexivity. exfalso.
    destruct H as [H|[H|[H|H]]]; try tauto; [apply N, H, P|eapply H; reflexivity].
  - revert P. unfold check_parent. destruct (rq_parent r); cbn; try (intros P; injection P as <-; reflexivity).
    destruct s; cbn; [|discriminate]. intros P; injection P as <-; reflexivity.
Qed.

(** ** C53 Flags are exactly the booleans that were set *)
Theorem C53_flags : forall f l, flags_to_dict f = Ok l -> NoDup (map fst l)
  /\ (forall n v, In (n, v) l <-> flag_of f n v /\ v <> ONone)
  /\ forall n v, In (n, v) l -> exists b, v = OBool b.
Proof.
  intros f l H. apply flags_dict_iff in H as (F & N & _ & I). split; [exact N|]. split; [exact I|].
  intros n v A. apply I in A as (A & B). destruct (F n v A) as [->|?]; [congruence|assumption].
Qed.
Theorem C53_errors : forall f, 
  ((exists l, flags_to_dict f = Ok l) <-> flags_fine f)
  /\ (flags_to_dict f = Raise InvalidFlagError <-> exists n v, flag_of f n v /\ ~ none_or_bool v).
Proof.
  intros f. unfold flags_to_dict. destruct (flags_validate_raise f) as [V|V]; rewrite V; cbn.
  - apply flags_validate_iff in V. split; [split; eauto|]. split; [discriminate|]. intros (n & v & A & B). elim B. eapply V, A.
  - split.
    + split; [intros (l & E); discriminate|]. intros F. apply flags_validate_iff in F. congruence.
    + split; [intros _|reflexivity]. revert V. unfold flags_validate.
      assert (forall m : list (str * obj), check_all (fun kv => assert_ (flag_ok (snd kv)) InvalidFlagError) m = Raise InvalidFlagError ->
        exists n v, In (n, v) m /\ ~ none_or_bool v) as X.
      { induction m as [|[n v] m IH]; [discriminate|]. cbn [check_all snd]. destruct (flag_ok v) eqn:E; cbn.
        - intros H. apply IH in H as (n' & v' & A & B). eauto.
        - intros _. exists n, v. split; [auto|]. rewrite <- flag_ok_iff. congruence. }
      intros V. apply X in V as (n & v & A & B). exists n, v. split; [apply flag_fields_iff, A|exact B].
Qed.

(** ** C54 A delete query never deletes without a condition *)
Theorem C54_delete : forall q d, delete_serialize q = Ok d <->
  deletes_something_bounded (dq_columns q) /\ d = ODict [$"columns"] [dq_columns q].
Proof.
  intros q d. unfold delete_serialize. rewrite seq_ok, delete_validate_iff. split; intros (A & B); split; congruence.
Qed.
(** an empty mapping or an empty collection is reported as such *)
Theorem C54_errors : forall s ks vs, (ks = [] \/ exists v, In v vs /\ sized v 0) ->
  Forall (fun v => exists n, sized v n) vs ->
  delete_serialize (mkDelete s (ODict ks vs)) = Raise InvalidDeleteQueryError.
Proof.
  intros s ks vs H F. unfold delete_serialize, delete_validate. cbn [dq_columns].
  destruct ks as [|k ks]; [reflexivity|]. destruct H as [H|(v & I & Z)]; [discriminate|].
  assert (check_all (fun v => let! n := py_len v in if Nat.eqb n 0 then Raise InvalidDeleteQueryError else Ok tt) vs = Raise InvalidDeleteQueryError) as ->; [|reflexivity].
  induction vs as [|w vs IH]; [elim I|]. cbn [check_all]. inversion_clear F as [|? ? (n & S) F'].
  pose proof S as S'. apply sized_iff in S. rewrite S. cbn. destruct n as [|n]; [reflexivity|]. cbn.
  apply IH; [|exact F']. destruct I as [->|I]; [|exact I]. apply sized_iff in Z. congruence.
Qed.
End P.

(** ** Concrete cases *)
#[local] Existing Instance demoRT.
#[local] Existing Instance demoST.

Definition demo_flags : flags := mkFlags ONone (OBool true) ONone (OBool false) ONone ONone.
Definition demo_request (q : rquery) : request :=
  mkRequest (OStr ($"generic_metrics")) (OStr ($"my-app:1")) q (RFlags demo_flags) (OStr ($"<unknown>")) (ODict [$"referrer"] [OStr ($"x")]).
Definition demo_delete : delete_query := mkDelete (OStr ($"search_issues")) (ODict [$"project_id"; $"group_id"] [OList [OInt 1]; OList [OInt 4; OInt 5]]).
Definition demo_snql : query :=
  QBase (BEntity (mkEntity ($"events") None None None)) (upd CSelect (OList [demo_col ($"event_id")]) no_clauses).
Definition demo_metrics : mquery := demo_query demo_ix (demo_sum [demo_or]).

Example C51_case :
  match snd (request_to_dict (demo_request (RMetrics demo_metrics))) with
  | Ok (ODict ks vs) => ks = [$"consistent"; $"debug"; $"query"; $"dataset"; $"app_id"; $"tenant_ids"; $"parent_api"; $"mql_context"]
  | _ => False
  end
  /\ snd (request_serialize (demo_request (RDelete demo_delete)))
     = Ok ($"{""consistent"": true, ""debug"": false, ""query"": {""columns"": {""project_id"": [1], ""group_id"": [4, 5]}}, ""app_id"": ""my-app:1"", ""tenant_ids"": {""referrer"": ""x""}, ""parent_api"": ""<unknown>""}")
  /\ snd (request_serialize (demo_request (RQuery demo_snql)))
     = Ok ($"{""consistent"": true, ""debug"": false, ""query"": ""MATCH (events) SELECT event_id"", ""dataset"": ""generic_metrics"", ""app_id"": ""my-app:1"", ""tenant_ids"": {""referrer"": ""x""}, ""parent_api"": ""<unknown>""}").
Proof. vm_compute. repeat split; reflexivity. Qed.
Example C52_case : valid_request (demo_request (RMetrics demo_metrics))
  /\ ~ safe_name (OStr ($"generic metrics")) /\ safe_name (OStr ([97; 10]%N)) /\ ~ safe_name (OStr []).
Proof.
  rewrite <- request_validate_iff. split; [vm_compute; reflexivity|]. rewrite <- !check_safe_iff. vm_compute.
  repeat split; discriminate.
Qed.
Example C53_case : flags_fine demo_flags /\ flags_to_dict demo_flags = Ok [($"consistent", OBool true); ($"debug", OBool false)]
  /\ flags_to_dict (mkFlags (OInt 1) ONone ONone ONone ONone ONone) = Raise InvalidFlagError.
Proof. rewrite <- flags_validate_iff. vm_compute. repeat split; reflexivity. Qed.
Example C54_case : deletes_something_bounded (dq_columns demo_delete)
  /\ delete_serialize (mkDelete (OStr ($"s")) (ODict [$"a"; $"b"] [OList [OInt 1]; OList []])) = Raise InvalidDeleteQueryError.
Proof. rewrite <- delete_validate_iff. vm_compute. split; reflexivity. Qed.

Print Assumptions C51_payload.
Print Assumptions C51_context_and_dataset.
Print Assumptions C51_request_after.
Print Assumptions C52_validate.
Print Assumptions C52_serialized_iff.
Print Assumptions C52_all_outputs.
Print Assumptions C52_errors.
Print Assumptions C53_flags.
Print Assumptions C53_errors.
Print Assumptions C54_delete.
Print Assumptions C54_errors.
