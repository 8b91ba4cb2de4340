(** Property C62: every part of a legacy body is carried over. *)
From Verif Require Import PyBase PyFacts DateTime Objects Exprs SpecExpr SpecLogic Query SpecSetters SpecMetricsQuery Request
  Strptime StrptimeFacts Legacy SpecLegacy LegacyFacts LegacyProps SpecBody BodyFacts Concrete ConcreteLegacy.

Section P.
Context {RT : PyRT} {CV : PyConv}.

(** ** C62 Every clause of a legacy body is carried over *)
(** what a request made from a body looks like: entity and sample, SELECT, ARRAY JOIN,
    GROUP BY, WHERE, HAVING, ORDER BY, LIMIT BY, LIMIT, OFFSET, GRANULARITY, TOTALS, dataset,
    app_id, tenant_ids and flags (SpecBody.converted) *)
Theorem C62_converted : forall body entity body' r, json_to_snql body entity = (body', Ok r) -> converted body entity r.
Proof. exact converted_sound. Qed.
(** and every body of that form is converted (conditions must be sequences) *)
Theorem C62_accepted : forall body entity r, sequences body ($"conditions") -> sequences body ($"having") ->
  converted body entity r -> exists body', json_to_snql body entity = (body', Ok r).
Proof. exact converted_complete. Qed.
(** so the body determines the request *)
Theorem C62_one_request : forall body entity r r', sequences body ($"conditions") -> sequences body ($"having") ->
  converted body entity r -> converted body entity r' -> r = r'.
Proof.
  intros body entity r r' A B C D. destruct (converted_complete _ _ _ A B C) as (b & E).
  destruct (converted_complete _ _ _ A B D) as (b' & E'). congruence.
Qed.
(** each item of orderby is one entry of ORDER BY; missing: items that are neither a text
    nor a list *)
Lemma orders_readable l : forall p obs, orders_from p l obs -> Forall readable_order l ->
  Forall2 (fun o ob => exists e d, order_exp o e d /\ ob = OOrderBy e d) l obs.
Proof.
  induction l as [|o l IH]; intros p obs H F; inversion H; subst; constructor; inversion F; subst; eauto. contradiction.
Qed.
Theorem C62_orderby_partial : forall body entity body' r q l, json_to_snql body entity = (body', Ok r) ->
  rq_query r = RQuery q -> orders body l -> l <> [] -> Forall readable_order l ->
  exists obs, c_orderby (q_clauses q) = OList obs
    /\ Forall2 (fun o ob => exists e d, order_exp o e d /\ ob = OOrderBy e d) l obs.
Proof.
  intros body entity body' r q l H Q O N F. apply converted_sound in H. destruct H as [n sample e aggs aes sels ses aj gs ges ext items css
    hitems hs ob lb li off gr to dataset app tenants consistent turbo debug dry D _ _ _ _ _ _ _ _ _ _ _ _ _ _ _ _ _ _ OB].
  injection Q as <-. cbn [q_clauses c_orderby]. destruct OB as [X|l' obs (E & T) X|v obs (E & T) NL X].
  - exfalso. destruct X as [X|(v & E & T)].
    + exact (X _ O).
    + pose proof (entry_unique _ _ _ _ O E) as <-. destruct l; [congruence|discriminate T].
  - pose proof (entry_unique _ _ _ _ O E) as W. injection W as <-. exists obs. split; [reflexivity|]. eapply orders_readable; eauto.
  - pose proof (entry_unique _ _ _ _ O E) as W. symmetry in W. elim (NL _ W).
Qed.
(** false in general: such an item silently repeats the order before it *)
Theorem C62_orderby_refuted : exists body r q e, snd (json_to_snql body (OStr ($"events"))) = Ok r /\ rq_query r = RQuery q
  /\ orders body [OStr ($"a"); OTuple [OStr ($"-f"); OList []]]
  /\ c_orderby (q_clauses q) = OList [OOrderBy e ASC; OOrderBy e ASC].
Proof.
  exists (ODict [$"selected_columns"; $"orderby"] [OList [OStr ($"a")]; OList [OStr ($"a"); OTuple [OStr ($"-f"); OList []]]]).
  eexists _, _, _. split; [vm_compute; reflexivity|]. split; [reflexivity|]. split; [|reflexivity].
  eexists _, _. split; [reflexivity|]. right. split; [discriminate|]. left. auto.
Qed.
End P.

#[local] Existing Instance demoRT.
#[local] Existing Instance demoCV.
Definition demo_body : obj := ODict
  [$"selected_columns"; $"aggregations"; $"groupby"; $"arrayjoin"; $"orderby"; $"limitby"; $"limit"; $"offset"; $"granularity"; $"totals";
   $"sample"; $"conditions"; $"having"; $"project"; $"turbo"; $"debug"; $"dataset"; $"tenant_ids"]
  [OList [OStr ($"a"); OTuple [OStr ($"f2"); OList [OStr ($"b")]; OStr ($"x")]];
   OList [OList [OStr ($"count()"); OStr []; OStr ($"n")]]; OStr ($"g"); OStr ($"arr");
   OList [OStr ($"--a"); OList [OStr ($"f2"); OList [OStr ($"b")]]]; OList [OInt 3; OStr ($"c")]; OInt 10; OInt 0; OInt 60; OBool true;
   OInt 1; OList [OList [OStr ($"a"); OStr ($"="); OInt 1]]; OList [OList [OStr ($"n"); OStr ($">"); OInt 1]]; OInt 7;
   OBool true; OBool false; OStr ($"d"); ODict [$"t"] [OInt 1]].
Example C62_case : let col n := plain_column n in
  let f n ps a := OFunc true n KNone [] KList ps a in
  snd (json_to_snql demo_body (OStr ($"events"))) = Ok
    (mkRequest (OStr ($"d")) (OStr ($"legacy"))
      (RQuery (QBase (BEntity (mkEntity ($"events") None (Some (flt_of_Z 1)) None))
        (mkClauses
          (OList [f ($"count") [] (Some ($"n")); col ($"a"); f ($"f2") [col ($"b")] (Some ($"x"))])
          (OList [col ($"g")]) (OList [col ($"arr")])
          (OList [OCond (col ($"project_id")) IN (OTuple [OInt 7]); OCond (col ($"a")) EQ (OInt 1)])
          (OList [OCond (col ($"n")) GT (OInt 1)])
          (OList [OOrderBy (col ($"a")) DESC; OOrderBy (f ($"f2") [col ($"b")] None) ASC])
          (OLimitBy KList [mkColumn ($"c") None None None] (PInt 3))
          (OLimit (PInt 10)) (OOffset (PInt 0)) (OGranularity (PInt 60)) (OTotals true))))
      (RFlags (mkFlags ONone ONone (OBool true) ONone ONone (OBool true))) (OStr ($"<unknown>")) (ODict [$"t"] [OInt 1]))
  /\ sequences demo_body ($"conditions") /\ sequences demo_body ($"having").
Proof.
  split; [vm_compute; reflexivity|]. split; intros items t L I.
  - apply listed_iff in L. vm_compute in L. injection L as <-. destruct I as [<-|[]]. eexists. constructor.
  - apply listed_iff in L. vm_compute in L. injection L as <-. destruct I as [<-|[]]. eexists. constructor.
Qed.

Print Assumptions C62_converted.
Print Assumptions C62_accepted.
Print Assumptions C62_one_request.
Print Assumptions C62_orderby_partial.
Print Assumptions C62_orderby_refuted.
