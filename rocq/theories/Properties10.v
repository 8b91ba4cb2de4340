(** Property C61: the JSON texts of requests and metrics queries. *)
From Verif Require Import PyBase PyFacts DateTime Objects Exprs SpecExpr Query Translate Metrics Mql MetricsQuery SpecMetricsQuery
  Json Request SpecRequest RequestFacts SpecJson JsonFacts Concrete Properties6 Properties7 Properties8.
Require Import Permutation.

Section P.
Context {RT : PyRT} {ST : PyStr}.

(** ** C61 The request text is JSON that denotes the payload *)
(** a JSON text denotes only one value *)
Theorem C61_unambiguous : forall s v v', json_text s v -> json_text s v' -> v = v'.
Proof. exact json_text_fun. Qed.

(** the payload of a request and its text; what is missing: values that are not ordinary,
    i.e. NaN and the infinities (see below) *)
Definition ordinary_request (r : request) : Prop := forall k v, payload_entry r k v -> ordinary v.
Lemma code_points_b s : forallb (fun c => c <? 1114112)%N s = true -> code_points s.
Proof. rewrite forallb_forall. intros H. apply Forall_forall. intros c I. apply N.ltb_lt, H, I. Qed.
Lemma payload_ordinary r r' d : request_to_dict r = (r', Ok d) -> ordinary_request r -> ordinary d.
Proof.
  intros H O. apply to_dict_entries in H as ((ks & vs & -> & N & L) & E).
  assert (forall k v, payload_entry r k v -> code_points k) as CK.
  { intros k v P. apply code_points_b. destruct P; try reflexivity. destruct H0; reflexivity. }
  assert (forall ks vs, List.length vs = List.length ks -> NoDup ks -> forall k v, In (k, v) (combine ks vs) -> dict_entry (ODict ks vs) k v) as D.
  { clear. intros ks vs L N k v I. exists ks, vs. split; [reflexivity|]. revert vs L I.
    induction N as [|k' ks X N IH]; intros [|w vs] L I; cbn in *; try tauto; try discriminate.
    destruct I as [I|I].
    - injection I as -> ->. auto.
    - right. split; [|apply IH; auto]. intros ->. apply X. apply in_combine_l in I. exact I. }
  assert (forall k v, In (k, v) (combine ks vs) -> code_points k /\ ordinary v) as A.
  { intros k v I. apply (D ks vs L N), E in I. split; [eapply CK, I|apply (O k v I)]. }
  clear -A L. constructor; [auto| |]; revert vs L A; induction ks as [|k ks IH]; intros [|v vs] L A; cbn in *; try discriminate; constructor.
  - eapply A. left. reflexivity.
  - apply (IH vs); auto.
  - eapply A. left. reflexivity.
  - apply (IH vs); auto.
Qed.
Theorem C61_request_partial : forall r r' s, request_serialize r = (r', Ok s) -> ordinary_request r ->
  exists d v, request_to_dict r = (r', Ok d) /\ json_text s v /\ is_json d v.
Proof.
  intros r r' s H O. unfold request_serialize in H. destruct (request_to_dict r) as [r1 res] eqn:E.
  apply pair_equal_spec in H as (-> & H). apply bind_Ok in H as (d & -> & H).
  destruct (dumps_ok d (payload_ordinary _ _ _ E O) s H) as (v & V & J). exists d, v. repeat split; auto.
  exists [], s, []. rewrite app_nil_r. repeat split; auto; constructor.
Qed.
(** print() shows the same payload, with the entries of objects in another order *)
Theorem C61_print_partial : forall r r' s, request_print r = (r', Ok s) -> ordinary_request r ->
  exists d v, request_to_dict r = (r', Ok d) /\ json_text s v /\ is_json d v.
Proof.
  intros r r' s H O. unfold request_print in H. destruct (request_validate r); [|discriminate].
  destruct (request_to_dict r) as [r1 res] eqn:E.
  apply pair_equal_spec in H as (-> & H). apply bind_Ok in H as (d & -> & H).
  destruct (pretty_ok true d (payload_ordinary _ _ _ E O) 0 s H) as (v & V & J). exists d, v. repeat split; auto.
  exists [], s, []. rewrite app_nil_r. repeat split; auto; constructor.
Qed.
(** str() and print() of a metrics query *)
Theorem C61_metrics_print_partial : forall q s, mq_print_text q = Ok s ->
  exists p, mq_print q = Ok p /\ (code_points (fst p) -> ordinary (snd p) ->
    exists v, json_text s v /\ is_json (ODict [$"mql"; $"mql_context"] [OStr (fst p); snd p]) v).
Proof.
  intros q s H. unfold mq_print_text in H. apply bind_Ok in H as (p & P & H). exists p. split; [exact P|]. intros A B.
  assert (ordinary (ODict [$"mql"; $"mql_context"] [OStr (fst p); snd p])) as O.
  { constructor; [reflexivity|repeat constructor; apply code_points_b; reflexivity|]. constructor; [constructor; exact A|]. constructor; [exact B|constructor]. }
  destruct (pretty_ok false _ O 0 s H) as (v & V & J). exists v. split; [|exact J].
  exists [], s, []. rewrite app_nil_r. repeat split; auto; constructor.
Qed.
(** the text is one line of printable ASCII characters *)
Theorem C61_printable_partial : forall r r' s, request_serialize r = (r', Ok s) -> ordinary_request r ->
  Forall (fun c => 32 <= c <= 126)%N s.
Proof.
  intros r r' s H O. unfold request_serialize in H. destruct (request_to_dict r) as [r1 res] eqn:E.
  apply pair_equal_spec in H as (-> & H). apply bind_Ok in H as (d & -> & H).
  exact (dumps_printable d (payload_ordinary _ _ _ E O) s H).
Qed.
(** requests with the same text have the same payload, as JSON values; strings that are the
    same JSON value are the same text *)
Theorem C61_same_text_partial : forall r1 r2 r1' r2' s, request_serialize r1 = (r1', Ok s) -> request_serialize r2 = (r2', Ok s) ->
  ordinary_request r1 -> ordinary_request r2 ->
  exists d1 d2 v, request_to_dict r1 = (r1', Ok d1) /\ request_to_dict r2 = (r2', Ok d2) /\ is_json d1 v /\ is_json d2 v.
Proof.
  intros r1 r2 r1' r2' s H1 H2 O1 O2. destruct (C61_request_partial _ _ _ H1 O1) as (d1 & v1 & E1 & J1 & I1).
  destruct (C61_request_partial _ _ _ H2 O2) as (d2 & v2 & E2 & J2 & I2). exists d1, d2, v1.
  rewrite (json_text_fun _ _ _ J1 J2) at 2. auto.
Qed.
Theorem C61_strings_partial : forall s s' v, is_json (OStr s) v -> is_json (OStr s') v ->
  Forall scalar_value s -> Forall scalar_value s' -> s = s'.
Proof. intros s s' v A B F F'. inversion A; subst. inversion B. apply utf16_inj; auto. Qed.
(** false for strings with surrogates: two different delete requests with the same text *)
Definition demo_delete (v : obj) (tenants : obj) : request :=
  mkRequest (OStr ($"events")) (OStr ($"app")) (RDelete (mkDelete ONone (ODict [$"id"] [v]))) RFNone (OStr ($"api")) tenants.
Theorem C61_surrogates_refuted : exists r1 r2 s, r1 <> r2 /\ snd (request_serialize r1) = Ok s /\ snd (request_serialize r2) = Ok s.
Proof.
  exists (demo_delete (OStr [55357; 56832]%N) (ODict [] [])), (demo_delete (OStr [128512]%N) (ODict [] [])). eexists.
  split; [discriminate|]. split; vm_compute; reflexivity.
Qed.
(** false for NaN: the text is not JSON at all *)
Theorem C61_nan_refuted : exists r s, valid_request r /\ snd (request_serialize r) = Ok s /\ forall v, ~ json_text s v.
Proof.
  exists (demo_delete (OList [OFloat FNan]) (ODict [] [])). eexists. split; [apply C52_validate; vm_compute; reflexivity|].
  split; [vm_compute; reflexivity|]. intros v H. apply json_text_scan in H. vm_compute in H. discriminate.
Qed.
(** a payload is sent exactly when JSON can express its values, otherwise TypeError *)
Theorem C61_sent : forall r r' d, request_to_dict r = (r', Ok d) ->
  ((exists s, snd (request_serialize r) = Ok s) <-> sendable d)
  /\ (~ sendable d -> snd (request_serialize r) = Raise TypeError /\ snd (request_print r) = Raise TypeError).
Proof.
  intros r r' d H. unfold request_serialize, request_print. rewrite H. cbn [snd bind].
  assert (request_validate r = Ok tt) as ->.
  { unfold request_to_dict in H. destruct (request_validate r) as [[]|]; [reflexivity|discriminate]. }
  cbn [snd bind]. split; [split|].
  - intros (s & E). destruct (dumps_sendable d) as (A & B).
    assert (~ ~ sendable d) as NN by (intros X; apply B in X; rewrite X in E; discriminate). clear -NN.
    assert (forall o, sendable o \/ ~ sendable o) as D.
    { assert (forall l, Forall (fun o => sendable o \/ ~ sendable o) l -> Forall sendable l \/ ~ Forall sendable l) as DL.
      { intros l H. induction H as [|x l [X|X] H IH]; [left; constructor| |right; intros F; inversion F; auto].
        destruct IH; [left; constructor; assumption|right; intros F; inversion F; auto]. }
      induction o using obj_ind'; try (left; constructor; fail); try (right; intros X; inversion X; fail);
        (destruct (DL _ H) as [Y|Y]; [left; constructor; exact Y|right; intros X; inversion X; auto]). }
    destruct (D d); tauto.
  - intros S. apply (dumps_sendable d) in S. exact S.
  - intros S. split; [apply dumps_sendable, S|apply (pretty_sendable true d), S].
Qed.
(** false: a valid request whose payload was built may still not be sent *)
Theorem C61_sent_refuted : exists r d, valid_request r /\ snd (request_to_dict r) = Ok d
  /\ snd (request_serialize r) = Raise TypeError.
Proof.
  exists (demo_delete (OList [OInt 1]) (ODict [$"organization_id"] [OBytes ($"1")])). eexists.
  split; [apply C52_validate; vm_compute; reflexivity|]. split; vm_compute; reflexivity.
Qed.
End P.

#[local] Existing Instance demoRT.
#[local] Existing Instance demoST.
Example C61_case : let r := demo_delete (OTuple [OInt (-5); OFloat (FFin false 3 (-1)); ONone; OBool true; OStr ($"a""b" ++ [10; 233]%N)]) (ODict [$"t"] [OInt 0]) in
  snd (request_serialize r) = Ok ($"{""query"": {""columns"": {""id"": [-5, 1.5, null, true, ""a\""b\n\u00e9""]}}, ""app_id"": ""app"", ""tenant_ids"": {""t"": 0}, ""parent_api"": ""api""}")
  /\ ordinary_request r
  /\ exists n, snd (request_print r) = Ok ($"{" ++ [n] ++ $"    ""app_id"": ""app""," ++ [n] ++ $"    ""parent_api"": ""api""," ++ [n]
     ++ $"    ""query"": {" ++ [n] ++ $"        ""columns"": {" ++ [n] ++ $"            ""id"": [" ++ [n] ++ $"                -5," ++ [n]
     ++ $"                1.5," ++ [n] ++ $"                null," ++ [n] ++ $"                true," ++ [n] ++ $"                ""a\""b\n\u00e9""" ++ [n]
     ++ $"            ]" ++ [n] ++ $"        }" ++ [n] ++ $"    }," ++ [n] ++ $"    ""tenant_ids"": {" ++ [n] ++ $"        ""t"": 0" ++ [n] ++ $"    }" ++ [n] ++ $"}").
Proof.
  split; [vm_compute; reflexivity|]. split.
  - intros k v P. inversion P; subst; try discriminate.
    + injection H as <-. cbn [dq_columns].
      assert (number (float_repr (FFin false 3 (-1))) 15 (-1)) as F.
      { change (float_repr (FFin false 3 (-1))) with (minus_sign false ++ $"1" ++ ($"." ++ $"5") ++ []).
        apply (a_number false ($"1") ($"." ++ $"5") ($"5") [] 0); [right|constructor|constructor].
        - exists 49%N, []. repeat split; try constructor; vm_compute; congruence.
        - discriminate.
        - repeat constructor; vm_compute; congruence. }
      constructor; [reflexivity|constructor; [apply code_points_b; reflexivity|constructor]|]. constructor; [|constructor].
      constructor; [reflexivity|constructor; [apply code_points_b; reflexivity|constructor]|]. constructor; [|constructor]. constructor.
      constructor; [constructor|]. constructor; [econstructor; exact F|]. constructor; [constructor|]. constructor; [constructor|].
      constructor; [constructor; apply code_points_b; reflexivity|constructor].
    + constructor. apply code_points_b; reflexivity.
    + constructor. apply code_points_b; reflexivity.
    + constructor; [reflexivity|constructor; [apply code_points_b; reflexivity|constructor]|repeat constructor].
    + constructor. apply code_points_b; reflexivity.
  - exists 10%N. vm_compute. reflexivity.
Qed.

Print Assumptions C61_unambiguous.
Print Assumptions C61_request_partial.
Print Assumptions C61_print_partial.
Print Assumptions C61_metrics_print_partial.
Print Assumptions C61_printable_partial.
Print Assumptions C61_same_text_partial.
Print Assumptions C61_strings_partial.
Print Assumptions C61_surrogates_refuted.
Print Assumptions C61_nan_refuted.
Print Assumptions C61_sent.
Print Assumptions C61_sent_refuted.
