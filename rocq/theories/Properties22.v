(** Property C75: equal queries send the same text. *)
From Verif Require Import PyBase PyFacts DateTime Objects Exprs Translate Optimizer Query SpecExpr SpecOccurs SpecQuery
  PrintProps SpecEqual EqText EqValid ApiTac Concrete Properties12.

Section P.
Context {RT : PyRT}.

(** ** C75 Equal queries send the same text *)
(** full statement: api_query q -> api_query q' -> query_eq q q' -> serialize q = serialize q'.
    False, see below; true when equal values in the two queries look the same *)
Theorem C75_same_text_partial : forall q q', api_query q -> api_query q' -> query_eq q q' -> no_lookalikes q q' ->
  serialize q = serialize q'.
Proof. intros q q' A A' Q N. apply serialize_same; try assumption; apply api_wf_query; assumption. Qed.
Theorem C75_same_print_partial : forall q q', api_query q -> api_query q' -> query_eq q q' -> no_lookalikes q q' ->
  print q = print q'.
Proof. intros q q' A A' Q N. apply print_same; try assumption; apply api_wf_query; assumption. Qed.
(** for instance in queries without booleans, floats, samples and curried functions *)
Theorem C75_plain_partial : forall q q', api_query q -> api_query q' -> query_eq q q' ->
  (forall o x, part_of o q -> occurs x o -> one_look x) -> (forall o x, part_of o q' -> occurs x o -> one_look x) ->
  serialize q = serialize q' /\ print q = print q'.
Proof.
  intros q q' A A' Q N N'.
  assert (L : no_lookalikes q q') by (intros o o' x y P P' X Y; apply one_look_same; [eapply N|eapply N']; eassumption).
  split; [apply C75_same_text_partial|apply C75_same_print_partial]; assumption.
Qed.
(** Python's equality is coarser: True == 1, and aliases of curried functions are not
    compared *)
Definition c75_query (v : obj) (a : option str) : query :=
  QBase (BEntity (mkEntity ($"events") None None None))
    (upd CSelect (OList [OFunc false ($"quantile") KList [OStr ($"x")] KList [OColumn (mkColumn ($"a") None None None)] a])
    (upd CWhere (OList [OCond (OColumn (mkColumn ($"a") None None None)) EQ v]) no_clauses)).
Definition c75_text (v a : str) : str := $"MATCH (events) SELECT quantile('x')(a)" ++ a ++ $" WHERE a = " ++ v.
Theorem C75_bool_refuted : let q := c75_query (OInt 1) None in let q' := c75_query (OBool true) None in
  api_query q /\ api_query q' /\ query_eq q q'
  /\ serialize q = Ok (c75_text ($"1") []) /\ serialize q' = Ok (c75_text ($"TRUE") []).
Proof.
  cbn zeta. split; [unfold c75_query; api_query_tac|]. split; [unfold c75_query; api_query_tac|].
  split; [split; [vm_compute; reflexivity|intros []; vm_compute; reflexivity]|]. split; vm_compute; reflexivity.
Qed.
Theorem C75_alias_refuted : let q := c75_query (OInt 1) None in let q' := c75_query (OInt 1) (Some ($"p50")) in
  api_query q /\ api_query q' /\ query_eq q q'
  /\ serialize q = Ok (c75_text ($"1") []) /\ serialize q' = Ok (c75_text ($"1") ($" AS `p50`")).
Proof.
  cbn zeta. split; [unfold c75_query; api_query_tac|]. split; [unfold c75_query; api_query_tac|].
  split; [split; [vm_compute; reflexivity|intros []; vm_compute; reflexivity]|]. split; vm_compute; reflexivity.
Qed.
End P.

(** Non-vacuity: queries that are equal and not the same, one with a time in UTC and one with
    the same time two hours east of it, columns of an entity with a data model in two orders *)
#[local] Existing Instance demoRT.
Definition c75_time (h o : Z) : datetime := mkDT (mkDate 2021 1 2) h 4 5 0 (Some (o * 3600000000)%Z).
Definition c75_demo (h o : Z) (dm : list schema_col) : query :=
  QBase (BEntity (mkEntity ($"events") None (Some (flt_of_Z 1)) (Some (mkDM dm (mkSC ($"timestamp") false)))))
    (upd CSelect (OList [col ($"a"); col ($"b")])
    (upd CWhere (OList [OCond (col ($"timestamp")) GTE (ODateTime (c75_time h o));
                        OBoolC BOr OR KList [OCond (col ($"a")) EQ (OInt 1); OCond (col ($"a")) EQ (OInt 2)]])
    (upd CLimit (OLimit (PInt 7)) no_clauses))).

Definition c75_a := c75_demo 10 0 [mkSC ($"a") false; mkSC ($"b") true; mkSC ($"timestamp") false].
Definition c75_b := c75_demo 12 2 [mkSC ($"timestamp") false; mkSC ($"b") true; mkSC ($"a") false].
Example C75_case : api_query c75_a /\ api_query c75_b /\ query_eq c75_a c75_b /\ no_lookalikes c75_a c75_b
  /\ serialize c75_a = serialize c75_b
  /\ serialize c75_a = Ok ($"MATCH (events SAMPLE 1.0) SELECT a, b WHERE timestamp >= toDateTime('2021-01-02T10:04:05') AND a IN array(1, 2) LIMIT 7").
Proof.
  split; [unfold c75_a, c75_demo; api_query_tac|]. split; [unfold c75_b, c75_demo; api_query_tac|].
  split; [split; [vm_compute; reflexivity|intros []; vm_compute; reflexivity]|].
  split; [|split; vm_compute; reflexivity].
  intros o o' x y P P' X Y E.
  inversion P as [b c|b c k| |]; subst; [|destruct k; cbn in X]; walk;
    try exact I; (inversion P' as [b c|b c k| |]; subst; [|destruct k; cbn in Y]; walk); try exact I; try discriminate E; try reflexivity.
Qed.

Print Assumptions C75_same_text_partial.
Print Assumptions C75_same_print_partial.
Print Assumptions C75_plain_partial.
Print Assumptions C75_bool_refuted.
Print Assumptions C75_alias_refuted.
