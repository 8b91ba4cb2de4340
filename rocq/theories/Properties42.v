(** Property C103: equal requests. *)
From Verif Require Import PyBase PyFacts DateTime Objects Exprs Query SpecExpr SpecOccurs SpecQuery Metrics Mql MetricsQuery SpecMetricsQuery
  Json Request SpecEqual SpecMEqual SpecReqEqual PyEqFacts ReqEqualFacts ApiTac Concrete Properties6 Properties12 Properties22 Properties23 Properties24.
From Coq Require Import Permutation.

Section P.
Context {RT : PyRT} {ST : PyStr}.

(** ** C103 Equal requests are equally valid and send equal payloads *)
(** full statement: request_eq r r' -> request_validate r = request_validate r' and
    snd (request_serialize r) = snd (request_serialize r'). False, see below; true in these parts *)

(** what it takes for equal queries to be equally valid, see C77 *)
Definition checked_alike (q q' : rquery) : Prop :=
  match q, q' with
  | RQuery q, RQuery q' => api_query q /\ api_query q' /\ same_inner_aliases q q'
  | RMetrics q, RMetrics q' => query_value (mq_query q) /\ query_value (mq_query q')
  | RDelete q, RDelete q' => real_dict (dq_columns q) /\ real_dict (dq_columns q')
  | _, _ => True
  end.
Theorem C103_valid_partial : forall r r', request_eq r r' -> flags_alike (rq_flags r) (rq_flags r') ->
  checked_alike (rq_query r) (rq_query r') ->
  (request_validate r = Ok tt <-> request_validate r' = Ok tt)
  /\ ((forall q, rq_query r <> RDelete q) -> request_validate r = request_validate r').
Proof.
  intros r r' E F C.
  assert (K : (forall q, rq_query r <> RDelete q) -> rquery_validate (rq_query r) = rquery_validate (rq_query r')).
  { intros N. pose proof (proj1 (proj2 (proj2 E))) as Q.
    destruct (rq_query r) as [q|q|q|o], (rq_query r') as [q'|q'|q'|o']; cbn [rquery_eq checked_alike rquery_validate] in *; try contradiction.
    - destruct C as (A & A' & I). apply C77_query_partial; assumption.
    - destruct C as (A & A'). apply C77_metrics; assumption.
    - elim (N q). reflexivity.
    - reflexivity. }
  split.
  - apply valid_iff; [exact E|exact F|]. pose proof (proj1 (proj2 (proj2 E))) as Q.
    destruct (rq_query r) as [q|q|q|o] eqn:RQ; try (rewrite K by (intros ?; discriminate); reflexivity).
    destruct (rq_query r') as [q'|q'|q'|o']; cbn [rquery_eq checked_alike rquery_validate] in *; try contradiction. destruct C as (R & R').
    split; apply delete_valid_one; auto using delete_eq_sym.
  - intros N. apply validate_same; auto.
Qed.

(** what it takes for equal queries to be sent as the same text, see C75 and C76; the columns of
    delete queries are related by [R] *)
Definition sent_alike (R : obj -> obj -> Prop) (q q' : rquery) : Prop :=
  match q, q' with
  | RQuery q, RQuery q' => api_query q /\ api_query q' /\ no_lookalikes q q'
  | RMetrics q, RMetrics q' => query_value (mq_query q) /\ query_value (mq_query q')
      /\ no_mql_lookalikes (mq_query q) (mq_query q') /\ bare_params (mq_query q) /\ same_settings q q'
  | RDelete q, RDelete q' => real_dict (dq_columns q) /\ real_dict (dq_columns q') /\ R (dq_columns q) (dq_columns q')
      /\ delete_validate q = Ok tt
  | _, _ => True
  end.
Lemma sent_query (R S : obj -> obj -> Prop) q q' : rquery_eq q q' -> sent_alike R q q' ->
  (forall v w, R v w -> S (ODict [$"columns"] [v]) (ODict [$"columns"] [w])) ->
  query_sent S q q' /\ rquery_validate q = rquery_validate q'.
Proof.
  intros Q C H. destruct q as [q|q|q|o], q' as [q'|q'|q'|o']; cbn [rquery_eq sent_alike query_sent rquery_validate] in *; try contradiction.
  - destruct C as (A & A' & N). split; [apply C75_same_text_partial; assumption|]. apply C77_query_partial; try assumption. apply EqValid.looks_agree, N.
  - destruct C as (A & A' & N & B & T). split; [apply C76_same_result_partial; assumption|]. apply C77_metrics; assumption.
  - destruct C as (A & A' & X & V). pose proof (delete_valid_one q q' A' Q V) as V'. rewrite V, V'. split; [split; [apply H, X|]|]; reflexivity.
  - split; [exact I|reflexivity].
Qed.
(** both are sent or neither is; the payloads have the same keys in the same order and the same
    values, but for tenant_ids and the columns of a delete query, which are equal *)
Theorem C103_payload_partial : forall r r', request_eq r r' -> flags_alike (rq_flags r) (rq_flags r') ->
  sent_alike (fun _ _ => True) (rq_query r) (rq_query r') ->
  (forall e, snd (request_to_dict r) = Raise e <-> snd (request_to_dict r') = Raise e)
  /\ (forall d d', snd (request_to_dict r) = Ok d -> snd (request_to_dict r') = Ok d' ->
      exists ks vs vs', d = ODict ks vs /\ d' = ODict ks vs'
      /\ forall k, match payload_at k d, payload_at k d' with
         | Some v, Some v' => v = v' \/ py_eq v v' = true
             /\ (k = $"tenant_ids" \/ k = $"query" /\ exists q, rq_query r = RDelete q)
         | None, None => True
         | _, _ => False
         end).
Proof.
  intros r r' E F S. pose proof E as (_ & _ & Q & _ & _ & T).
  destruct (sent_query (fun _ _ => True) (fun _ _ => True) _ _ Q S (fun _ _ _ => I)) as (_ & V).
  assert (X : query_sent (fun v w => py_eq v w = true) (rq_query r) (rq_query r')).
  { destruct (sent_query (fun _ _ => True) (fun _ _ => True) _ _ Q S (fun _ _ _ => I)) as (X & _).
    destruct (rq_query r) as [q|q|q|o], (rq_query r') as [q'|q'|q'|o']; cbn [query_sent] in *; try contradiction; try assumption.
    split; [|apply X]. apply dict_iff. split; [reflexivity|]. intros k. cbn [dict_item]. destruct (str_eqb _ k); [|exact I]. apply Q. }
  pose proof (to_dict_rel (fun v w => py_eq v w = true) r r' E F (validate_same r r' E F V) T X) as P.
  destruct (snd (request_to_dict r)) as [d|e], (snd (request_to_dict r')) as [d'|e']; try contradiction; (split; [try (subst e'; intros; reflexivity)|]); try discriminate.
  - intros e. split; discriminate.
  - intros x x' X1 X2. injection X1 as <-. injection X2 as <-. destruct P as (p & p' & -> & -> & P).
    exists (map fst p), (map snd p), (map snd p'). split; [reflexivity|]. split; [unfold dict_obj; rewrite (rel_keys _ _ _ _ P); reflexivity|].
    intros k. pose proof (rel_item _ _ k _ _ P) as I0. unfold same_items in I0.
    destruct (payload_at k (dict_obj p)), (payload_at k (dict_obj p')); try exact I0. destruct I0 as [->|(M & I0)]; [left; reflexivity|right].
    split; [exact I0|]. destruct M as [->|(-> & M)]; [left; reflexivity|right; split; [reflexivity|]]. destruct (rq_query r); try contradiction. eauto.
Qed.
(** if the tenants, and the columns of a delete query, are the very same, so are the texts *)
Theorem C103_serialize_partial : forall r r', request_eq r r' -> flags_alike (rq_flags r) (rq_flags r') ->
  sent_alike eq (rq_query r) (rq_query r') -> rq_tenants r = rq_tenants r' ->
  snd (request_to_dict r) = snd (request_to_dict r') /\ snd (request_serialize r) = snd (request_serialize r')
  /\ snd (request_print r) = snd (request_print r').
Proof.
  intros r r' E F S T. pose proof E as (_ & _ & Q & _).
  destruct (sent_query eq eq _ _ Q S) as (X & V); [intros v w ->; reflexivity|].
  pose proof (validate_same r r' E F V) as W. pose proof (to_dict_rel eq r r' E F W T X) as P.
  assert (D : snd (request_to_dict r) = snd (request_to_dict r')).
  { destruct (snd (request_to_dict r)) as [d|e], (snd (request_to_dict r')) as [d'|e']; try contradiction; [|congruence].
    destruct P as (p & p' & -> & -> & P). apply rel_eq_same in P. congruence. }
  split; [exact D|]. unfold request_serialize, request_print. rewrite <- W.
  destruct (request_to_dict r) as [a d], (request_to_dict r') as [a' d']. cbn [snd] in D. subst d'.
  split; [reflexivity|]. destruct (request_validate r); reflexivity.
Qed.
(** print() sorts the keys: it does not depend on the order of the entries of tenant_ids, nor of
    the columns of a delete query, at any depth *)
Theorem C103_print_partial : forall r r', request_eq r r' -> flags_alike (rq_flags r) (rq_flags r') ->
  sent_alike reordered (rq_query r) (rq_query r') -> reordered (rq_tenants r) (rq_tenants r') ->
  snd (request_print r) = snd (request_print r').
Proof.
  intros r r' E F S T. pose proof E as (_ & _ & Q & _).
  set (R := fun v w => forall n, json_pretty true n v = json_pretty true n w).
  assert (HR : forall v w, reordered v w -> R v w) by (intros v w H n; apply pretty_reordered, H).
  destruct (sent_query reordered R _ _ Q S) as (X & V).
  { intros v w H n. rewrite !JsonFacts.json_pretty_dict. cbn [mapM]. rewrite (HR v w H). reflexivity. }
  pose proof (validate_same r r' E F V) as W. pose proof (to_dict_rel R r r' E F W (HR _ _ T) X) as P.
  unfold request_print. rewrite <- W. destruct (request_validate r); [|reflexivity].
  destruct (request_to_dict r) as [ra d], (request_to_dict r') as [ra' d']. cbn [snd] in P |- *.
  destruct d as [d|e], d' as [d'|e']; try contradiction; [|congruence]. destruct P as (p & p' & -> & -> & P). cbn [bind].
  eapply (rel_pretty _ R); [|exact P]. intros v w H. exact H.
Qed.

(** Python's equality is coarser: 1 == True, and dictionaries ignore the order *)
Definition c103_query : rquery := RDelete (mkDelete (OStr ($"events")) (ODict [$"id"] [OList [OInt 1]])).
Definition c103_req (t : obj) (tenants : obj) (q : rquery) : request :=
  mkRequest (OStr ($"events")) (OStr ($"app")) q (RFlags (mkFlags t ONone ONone ONone ONone ONone)) (OStr ($"<unknown>")) tenants.
Theorem C103_flags_refuted : let r := c103_req (OBool true) (ODict [] []) c103_query in let r' := c103_req (OInt 1) (ODict [] []) c103_query in
  request_eq r r' /\ request_validate r = Ok tt /\ request_validate r' = Raise InvalidFlagError.
Proof.
  cbn zeta. split; [|split; vm_compute; reflexivity]. repeat split. cbn. unfold flags_eq. cbn. repeat constructor.
Qed.
Definition sent_text (r : request) : option str := match snd (request_serialize r) with Ok s => Some s | Raise _ => None end.
Definition printed_text (r : request) : option str := match snd (request_print r) with Ok s => Some s | Raise _ => None end.
Theorem C103_tenants_refuted : let r := c103_req ONone (ODict [$"org"] [OInt 1]) c103_query in let r' := c103_req ONone (ODict [$"org"] [OBool true]) c103_query in
  request_eq r r'
  /\ sent_text r = Some ($"{""query"": {""columns"": {""id"": [1]}}, ""app_id"": ""app"", ""tenant_ids"": {""org"": 1}, ""parent_api"": ""<unknown>""}")
  /\ sent_text r' = Some ($"{""query"": {""columns"": {""id"": [1]}}, ""app_id"": ""app"", ""tenant_ids"": {""org"": true}, ""parent_api"": ""<unknown>""}").
Proof.
  cbn zeta. split; [|split; vm_compute; reflexivity]. repeat split. cbn. unfold flags_eq. cbn. repeat constructor.
Qed.
Definition c103_tenants (b : bool) : obj :=
  if b then ODict [$"org"; $"ref"] [OInt 1; OStr ($"x")] else ODict [$"ref"; $"org"] [OStr ($"x"); OInt 1].
Theorem C103_order_refuted : let r := c103_req ONone (c103_tenants true) c103_query in let r' := c103_req ONone (c103_tenants false) c103_query in
  request_eq r r' /\ reordered (rq_tenants r) (rq_tenants r') /\ snd (request_print r) = snd (request_print r') /\ printed_text r <> None
  /\ sent_text r = Some ($"{""query"": {""columns"": {""id"": [1]}}, ""app_id"": ""app"", ""tenant_ids"": {""org"": 1, ""ref"": ""x""}, ""parent_api"": ""<unknown>""}")
  /\ sent_text r' = Some ($"{""query"": {""columns"": {""id"": [1]}}, ""app_id"": ""app"", ""tenant_ids"": {""ref"": ""x"", ""org"": 1}, ""parent_api"": ""<unknown>""}").
Proof.
  cbn zeta. split; [repeat split; cbn; unfold flags_eq; cbn; repeat constructor|]. split.
  - apply (RO_dict _ _ _ _ [OInt 1; OStr ($"x")]); [repeat constructor; cbn; intuition discriminate|reflexivity|reflexivity|repeat constructor|apply perm_swap].
  - split; [vm_compute; reflexivity|]. split; [vm_compute; discriminate|]. split; vm_compute; reflexivity.
Qed.
(** equal delete queries are refused with different errors: the first bad column decides *)
Theorem C103_delete_refuted :
  let r := c103_req ONone (ODict [] []) (RDelete (mkDelete (OStr ($"events")) (ODict [$"a"; $"b"] [OList []; OInt 1]))) in
  let r' := c103_req ONone (ODict [] []) (RDelete (mkDelete (OStr ($"events")) (ODict [$"b"; $"a"] [OInt 1; OList []]))) in
  request_eq r r' /\ checked_alike (rq_query r) (rq_query r')
  /\ request_validate r = Raise InvalidDeleteQueryError /\ request_validate r' = Raise TypeError.
Proof.
  cbn zeta. split; [repeat split; cbn; unfold flags_eq; cbn; repeat constructor|].
  split; [repeat split; cbn; repeat constructor; cbn; intuition discriminate|]. split; vm_compute; reflexivity.
Qed.
End P.

(** Non-vacuity: requests with the equal queries of C75, with the equal metrics queries of C76, and
    delete queries; the tenants and columns in two orders *)
#[local] Existing Instance demoRT.
#[local] Existing Instance demoST.
Definition c103_case (q : rquery) (b : bool) : request := c103_req (OBool true) (c103_tenants b) q.
Definition c103_delete (b : bool) : rquery := RDelete (mkDelete (OStr ($"events"))
  (if b then ODict [$"id"; $"day"] [OList [OInt 1]; OList [OStr ($"x")]] else ODict [$"day"; $"id"] [OList [OStr ($"x")]; OList [OInt 1]])).
Lemma c103_tenants_alike b b' : py_eq (c103_tenants b) (c103_tenants b') = true /\ reordered (c103_tenants b) (c103_tenants b').
Proof.
  split; [destruct b, b'; vm_compute; reflexivity|]. destruct b, b'; try constructor;
    (eapply RO_dict; [repeat constructor; cbn; intuition discriminate|reflexivity|reflexivity|repeat constructor|apply perm_swap]).
Qed.
Lemma c103_alike q q' b b' : rquery_eq q q' ->
  request_eq (c103_case q b) (c103_case q' b') /\ flags_alike (rq_flags (c103_case q b)) (rq_flags (c103_case q' b')).
Proof.
  intros E. split; [|cbn; repeat constructor; intros _; reflexivity]. split; [reflexivity|]. split; [reflexivity|]. split; [exact E|].
  split; [cbn; unfold flags_eq; repeat constructor|]. split; [reflexivity|apply c103_tenants_alike].
Qed.
Example C103_case_query : let r := c103_case (RQuery c75_a) true in let r' := c103_case (RQuery c75_b) false in
  request_eq r r' /\ flags_alike (rq_flags r) (rq_flags r') /\ checked_alike (rq_query r) (rq_query r')
  /\ (forall R, sent_alike R (rq_query r) (rq_query r')) /\ reordered (rq_tenants r) (rq_tenants r') /\ r <> r'
  /\ request_validate r = Ok tt /\ printed_text r = printed_text r' /\ printed_text r <> None /\ sent_text r <> sent_text r'.
Proof.
  cbn zeta. destruct C75_case as (A & B & E & N & _). destruct (c103_alike (RQuery c75_a) (RQuery c75_b) true false E) as (X & Y).
  split; [exact X|]. split; [exact Y|]. split; [split; [exact A|split; [exact B|apply EqValid.looks_agree, N]]|].
  split; [intros R; exact (conj A (conj B N))|]. split; [apply c103_tenants_alike|]. split; [discriminate|].
  split; [vm_compute; reflexivity|]. split; [vm_compute; reflexivity|]. split; vm_compute; discriminate.
Qed.
Example C103_case_metrics : let r := c103_case (RMetrics c76_a) true in let r' := c103_case (RMetrics c76_b) true in
  request_eq r r' /\ flags_alike (rq_flags r) (rq_flags r') /\ checked_alike (rq_query r) (rq_query r')
  /\ (forall R, sent_alike R (rq_query r) (rq_query r')) /\ rq_tenants r = rq_tenants r' /\ r <> r'
  /\ request_validate r = Ok tt /\ sent_text r = sent_text r' /\ sent_text r <> None.
Proof.
  cbn zeta. destruct C76_case as (A & B & E & D & N & P & T & _). destruct (c103_alike (RMetrics c76_a) (RMetrics c76_b) true true E) as (X & Y).
  split; [exact X|]. split; [exact Y|]. split; [split; assumption|]. split; [intros R; exact (conj A (conj B (conj N (conj P T))))|].
  split; [reflexivity|]. split; [intros H; injection H as H; apply D; unfold c76_a, c76_b, c76_demo, c76_formula; congruence|].
  split; [vm_compute; reflexivity|]. split; [vm_compute; reflexivity|vm_compute; discriminate].
Qed.
Example C103_case_delete : let r := c103_case (c103_delete true) true in let r' := c103_case (c103_delete false) false in
  request_eq r r' /\ flags_alike (rq_flags r) (rq_flags r') /\ checked_alike (rq_query r) (rq_query r')
  /\ sent_alike reordered (rq_query r) (rq_query r') /\ reordered (rq_tenants r) (rq_tenants r')
  /\ request_validate r = Ok tt /\ printed_text r = printed_text r' /\ sent_text r <> sent_text r'
  /\ sent_text r' = Some ($"{""totals"": true, ""query"": {""columns"": {""day"": [""x""], ""id"": [1]}}, ""app_id"": ""app"", ""tenant_ids"": {""ref"": ""x"", ""org"": 1}, ""parent_api"": ""<unknown>""}").
Proof.
  cbn zeta. destruct (c103_alike (c103_delete true) (c103_delete false) true false) as (X & Y); [split; vm_compute; reflexivity|].
  split; [exact X|]. split; [exact Y|].
  assert (D : forall b, real_dict (dq_columns match c103_delete b with RDelete d => d | _ => mkDelete ONone ONone end)).
  { intros []; split; try reflexivity; repeat constructor; cbn; intuition discriminate. }
  split; [exact (conj (D true) (D false))|]. split.
  { split; [exact (D true)|]. split; [exact (D false)|]. split; [|vm_compute; reflexivity]. unfold c103_delete. cbn [dq_columns].
    apply (RO_dict _ _ _ _ [OList [OInt 1]; OList [OStr ($"x")]]); [repeat constructor; cbn; intuition discriminate|reflexivity|reflexivity| |apply perm_swap]. repeat constructor. }
  split; [apply c103_tenants_alike|]. split; [vm_compute; reflexivity|]. split; [vm_compute; reflexivity|].
  split; [vm_compute; discriminate|vm_compute; reflexivity].
Qed.

Print Assumptions C103_valid_partial.
Print Assumptions C103_payload_partial.
Print Assumptions C103_serialize_partial.
Print Assumptions C103_print_partial.
Print Assumptions C103_flags_refuted.
Print Assumptions C103_tenants_refuted.
Print Assumptions C103_order_refuted.
Print Assumptions C103_delete_refuted.
