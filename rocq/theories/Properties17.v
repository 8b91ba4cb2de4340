(** Properties C68-C69: histories of calls. *)
From Verif Require Import PyBase PyFacts DateTime Objects Exprs Query Metrics MetricsQuery Request History SpecHistory HistoryFacts
  Concrete Properties6 Properties7.
From Coq Require Import Lia.

(** a program used in refutations and cases: a list, a query selecting it, a metrics query
    and two requests sharing it *)
Definition demo_entity : hmatch := HMObj (OEntity (mkEntity ($"events") None None None)).
Definition no_args : clause -> hval := fun _ => HObj ONone.
Definition demo_hreq (a : nat) : hrequest := mkHR (OStr ($"metrics")) (OStr ($"app")) (HRef a) RFNone (OStr ($"api")) (ODict [] []).
Definition demo_calls : list call :=
  [NewList [demo_col ($"a")];                                     (* 0 *)
   NewQuery demo_entity no_args;                                  (* 1 *)
   SetClause 1 CSelect (HList 0);                                 (* 2 *)
   NewMetrics (demo_query demo_ix (demo_sum [demo_or]));          (* 3 *)
   NewRequest (demo_hreq 3);                                      (* 4 *)
   NewRequest (demo_hreq 3);                                      (* 5 *)
   NewRequest (demo_hreq 2)].                                     (* 6 *)

Section P.
Context {RT : PyRT} {ST : PyStr}.

(** ** C68 SDK calls never change what an existing object sends *)
(** the questions asked before make no difference *)
Theorem C68_asking : forall cs a m, about_sending (run [] cs) a m ->
  answer_after cs (Ask a m) = answer_after (filter (fun c => negb (asks c)) cs) (Ask a m).
Proof.
  intros cs a m S. unfold answer_after. pose proof (run_grows cs [] [] (grows_refl [])) as G.
  cbn [step]. apply ask_same; [intros b _; apply G|]. unfold about_sending in *.
  destruct m; try exact I; intros q E; specialize (G a); rewrite E in G;
    destruct (nth_error (run [] cs) a) as [[]|] eqn:E'; cbn in G; try contradiction; exact (S _ eq_refl).
Qed.
(** nor to what later constructor and setter calls return or raise *)
Theorem C68_building : forall cs c, asks c = false ->
  answer_after cs c = answer_after (filter (fun c => negb (asks c)) cs) c.
Proof.
  intros cs c N. unfold answer_after. apply step_grows; [|exact N]. apply run_grows, grows_refl.
Qed.
(** and no constructor or setter call on any object, the receiver included, makes one *)
Theorem C68_sdk_calls : forall cs cs' a m, a < List.length (run [] cs) -> about_sending (run [] cs) a m ->
  (forall c, In c cs' -> changes c = None) -> answer_after (cs ++ cs') (Ask a m) = answer_after cs (Ask a m).
Proof.
  intros cs cs' a m L S N. unfold answer_after. cbn [step].
  assert (run [] (cs ++ cs') = run (run [] cs) cs') as ->.
  { clear. generalize (@nil cell). induction cs as [|c cs IH]; intros H; cbn; [reflexivity|apply IH]. }
  apply ask_same; [|exact S]. intros b Pb. apply run_other; [|intros c Ic; rewrite (N c Ic); discriminate].
  eapply part_exists; [apply run_sound, nil_sound|exact L|exact Pb].
Qed.

(** a request with a query of its own is built after any calls, and answers as that request *)
Theorem C68_own_query : forall cs r q, hr_query r = HOwn q ->
  let a := List.length (run [] cs) in
  let x := mkRequest (hr_dataset r) (hr_app r) q (hr_flags r) (hr_parent r) (hr_tenants r) in
  answer_after cs (NewRequest r) = ANew a
  /\ answer_after (cs ++ [NewRequest r]) (Ask a Validate) = of_unit (request_validate x)
  /\ answer_after (cs ++ [NewRequest r]) (Ask a Serialize) = of_text (snd (request_serialize x))
  /\ answer_after (cs ++ [NewRequest r]) (Ask a Print) = of_text (snd (request_print x))
  /\ answer_after (cs ++ [NewRequest r]) (Ask a ToDict) = of_obj (snd (request_to_dict x)).
Proof.
  intros cs r q Q a x.
  assert (R : run [] (cs ++ [NewRequest r]) = run [] cs ++ [KRequest r]).
  { assert (run [] (cs ++ [NewRequest r]) = fst (step (run [] cs) (NewRequest r))) as ->.
    { clear. generalize (@nil cell). induction cs as [|c cs IH]; intros H; cbn [run app]; [reflexivity|apply IH]. }
    cbn [step]. unfold real_request. rewrite Q. reflexivity. }
  assert (E : nth_error (run [] cs ++ [KRequest r]) a = Some (KRequest r)).
  { unfold a. rewrite nth_error_app2, Nat.sub_diag; [reflexivity|apply le_n]. }
  unfold answer_after. rewrite R. cbn [step]. unfold real_request. rewrite Q. split; [reflexivity|].
  unfold ask. rewrite E. unfold see_request, see_rquery. rewrite Q. fold x. split; [reflexivity|].
  destruct (request_serialize x), (request_print x), (request_to_dict x). repeat split.
Qed.

(** ** C69 A query does not change when a list it was built from is changed *)
(** false: the list given to set_select is kept, and appending to it changes the query, even
    to one that the setter refuses *)
Theorem C69_shared_list_refuted :
  (exists s s', answer_after demo_calls (Ask 2 Serialize) = AText s
     /\ answer_after (demo_calls ++ [Append 0 (demo_col ($"b"))]) (Ask 2 Serialize) = AText s' /\ s <> s')
  /\ answer_after demo_calls (Ask 2 Validate) = ANone
  /\ answer_after (demo_calls ++ [Append 0 (OLimit (PInt 5))]) (Ask 2 Validate) = ANone
  /\ answer_after (demo_calls ++ [Append 0 (OLimit (PInt 5))]) (Ask 2 Serialize) = AText ($"MATCH (events) SELECT a, 5")
  /\ answer_after (demo_calls ++ [Append 0 (OLimit (PInt 5))]) (SetClause 1 CSelect (HList 0)) = ARaise InvalidQueryError.
Proof.
  split; [eexists _, _; split; [vm_compute; reflexivity|]; split; [vm_compute; reflexivity|]; vm_compute; discriminate|].
  repeat (split; [vm_compute; reflexivity|]). vm_compute. reflexivity.
Qed.
(** but nothing else changes it: an object changes only by an append to a list it is built
    from, or by an assignment to an attribute of it or of the query of a request *)
Theorem C69_isolated_partial : forall cs cs' a m, a < List.length (run [] cs) -> about_sending (run [] cs) a m ->
  (forall c b, In c cs' -> part_of (run [] cs) a b -> changes c <> Some b) ->
  answer_after (cs ++ cs') (Ask a m) = answer_after cs (Ask a m).
Proof.
  intros cs cs' a m L S N. unfold answer_after. cbn [step].
  assert (run [] (cs ++ cs') = run (run [] cs) cs') as ->.
  { clear. generalize (@nil cell). induction cs as [|c cs IH]; intros H; cbn; [reflexivity|apply IH]. }
  apply ask_same; [|exact S]. intros b Pb. apply run_other; [|intros c Ic; apply (N c b Ic Pb)].
  eapply part_exists; [apply run_sound, nil_sound|exact L|exact Pb].
Qed.
End P.

(** * Cases *)
#[local] Existing Instance demoRT.
#[local] Existing Instance demoST.
(** the metrics query shared by two requests is rewritten by the first serialize() *)
Example C68_case : about_sending (run [] (demo_calls ++ [Ask 4 Serialize; Ask 3 Print])) 5 Print
  /\ nth_error (run [] (demo_calls ++ [Ask 4 Serialize])) 3 <> nth_error (run [] demo_calls) 3
  /\ (exists p, answer_after (demo_calls ++ [Ask 4 Serialize]) (Ask 5 ToDict) = AObj p)
  /\ answer_after (demo_calls ++ [Ask 4 Serialize]) (Ask 3 Print) <> answer_after demo_calls (Ask 3 Print).
Proof.
  split; [intros q; vm_compute; discriminate|]. split; [vm_compute; discriminate|].
  split; [eexists; vm_compute; reflexivity|vm_compute; discriminate].
Qed.
Example C68_own_case : answer_after (demo_calls ++ [NewRequest (mkHR (OStr ($"d")) (OStr ($"app"))
     (HOwn (RDelete (mkDelete (OStr ($"events")) (ODict [$"id"] [OList [OInt 1]])))) RFNone (OStr ($"api")) (ODict [] []))]) (Ask 7 Serialize)
  = AText ($"{""query"": {""columns"": {""id"": [1]}}, ""app_id"": ""app"", ""tenant_ids"": {}, ""parent_api"": ""api""}").
Proof. vm_compute. reflexivity. Qed.
Example C69_case : forall c b, In c [Append 0 (OInt 5); AssignMetrics 3 FLimit (VObj (OLimit (PInt 9))); Ask 6 Serialize] ->
  part_of (run [] (demo_calls ++ [SetClause 1 CSelect (HObj (OList [demo_col ($"a")]))])) 7 b -> changes c <> Some b.
Proof.
  assert (forall a, ~ holds_list (HBase (BEntity (mkEntity ($"events") None None None)) (fun x => if clause_eqb x CSelect then HObj (OList [demo_col ($"a")]) else HObj ONone)) a) as N.
  { intros a H. inversion H as [? ? x ? E| |]; subst. destruct x; discriminate E. }
  intros c b Ic P. assert (b = 7) as ->.
  { inversion P as [|q d E Hl|r d E Q|r d q e E Q Ed Hl]; subst; [reflexivity|..]; try (vm_compute in E; discriminate E).
    vm_compute in E. injection E as <-. exfalso. eapply N, Hl. }
  destruct Ic as [<-|[<-|[<-|[]]]]; discriminate.
Qed.

Print Assumptions C68_asking.
Print Assumptions C68_building.
Print Assumptions C68_sdk_calls.
Print Assumptions C68_own_query.
Print Assumptions C69_shared_list_refuted.
Print Assumptions C69_isolated_partial.
