(** Properties C94-C96: metrics queries, Timeseries, scopes, delete queries and requests that share parts. *)
From Verif Require Import PyBase PyFacts DateTime Objects Exprs Query Optimizer Metrics MetricsQuery Request Sharing SpecSharing SharingFacts
  Concrete Properties6 Properties7.
From Verif Require History HistoryFacts.
From Coq Require Import Lia.

(** a program used in refutations and cases: two metrics queries with one Timeseries and one
    scope, one with a formula over it, a delete query, and requests with one tenant_ids *)
Definition none_s : slot := Imm (VObj ONone).
Definition str_s (s : str) : slot := Imm (VObj (OStr s)).
Definition demo_cond : slot := Imm (VObj (OCond (demo_col ($"team")) EQ (OStr ($"a")))).
Definition demo_fields (query scope : slot) : mfield -> slot := fun x =>
  match x with
  | FQuery => query | FScope => scope | FIndexer => Imm (VObj demo_ix)
  | FStart => Imm (demo_time 1 None) | FEnd => Imm (demo_time 2 None) | FRollup => Imm (VRollup demo_rollup)
  | _ => none_s
  end.
Definition demo_rfields (query : slot) : rfield -> slot := fun x =>
  match x with
  | RDataset => str_s ($"metrics") | RApp => str_s ($"app") | RParent => str_s ($"api")
  | RQueryF => query | RTenants => Ref 8
  end.
Definition demo_program : list call :=
  [NewList [Imm (VObj demo_or)];                                                          (* 0 filters *)
   NewTimeseries (Imm (VMetric (mkMetric (Some ($"transaction.duration")) None None))) (str_s ($"count"))
     none_s (Ref 0) none_s;                                                               (* 1 *)
   NewList [Imm (VObj (OInt 1))];                                                         (* 2 org_ids *)
   NewScope (Ref 2) (Ref 2) (str_s ($"transactions"));                                    (* 3 *)
   NewMetrics (demo_fields (Ref 1) (Ref 3));                                              (* 4 *)
   SetField 4 FLimit (Imm (VObj (OInt 10)));                                              (* 5 *)
   NewList [Ref 1; Imm (VObj (OInt 2))];                                                  (* 6 parameters *)
   NewFormula (str_s ($"plus")) (Ref 6) none_s none_s none_s;                             (* 7 *)
   NewDict [$"organization_id"] [Imm (VObj (OInt 1))];                                    (* 8 tenant_ids *)
   SetField 4 FQuery (Ref 7);                                                             (* 9 *)
   NewRequest (demo_rfields (Ref 4)) RFNone;                                              (* 10 *)
   NewRequest (demo_rfields (Ref 5)) RFNone;                                              (* 11 *)
   NewRequest (demo_rfields (Ref 9)) RFNone;                                              (* 12 *)
   NewList [Imm (VObj (OInt 7))];                                                         (* 13 *)
   NewDict [$"id"] [Ref 13];                                                              (* 14 column_conditions *)
   NewDelete (str_s ($"search_issues")) (Ref 14);                                         (* 15 *)
   NewRequest (demo_rfields (Ref 15)) RFNone].                                            (* 16 *)
Definition is_result (x : answer) : bool := match x with AText _ | AMql _ | ADict _ _ => true | _ => false end.

Section P.
Context {RT : PyRT} {ST : PyStr}.

(** ** C94 Metrics queries and requests that share parts do not disturb each other *)
(** an object changes only when the caller changes it or something it is made of *)
Theorem C94_isolated : forall N cs cs' a m, a < List.length (run N [] cs) -> about_sending (run N [] cs) a m ->
  (forall c b, In c cs' -> reaches (run N [] cs) (Ref a) b -> changes c <> Some b) ->
  answer_after N (cs ++ cs') (Ask a m) = answer_after N cs (Ask a m).
Proof.
  intros N cs cs' a m L S Nc. unfold answer_after. cbn [step]. rewrite run_app.
  pose proof (run_sound N cs [] nil_sound) as Sh.
  apply ask_same with (P := reaches (run N [] cs) (Ref a)); [|auto|exact S].
  apply run_agree; [apply reaches_closed| |exact Nc|exact Sh|apply agree_refl].
  intros b R. eapply reaches_exists; [exact Sh| |exact R]. intros c Ic. inversion Ic; subst. exact L.
Qed.
(** so no constructor, setter, validate(), print(), serialize() or to_dict() changes one *)
Theorem C94_sdk_calls : forall N cs cs' a m, a < List.length (run N [] cs) -> about_sending (run N [] cs) a m ->
  (forall c, In c cs' -> changes c = None) -> answer_after N (cs ++ cs') (Ask a m) = answer_after N cs (Ask a m).
Proof.
  intros N cs cs' a m L S Nc. apply C94_isolated; [exact L|exact S|]. intros c b Ic _. rewrite (Nc c Ic). discriminate.
Qed.

(** ** C95 A change to a part reaches the metrics queries that use it, sent before or not *)
(** false: serialize() gives the metrics query a copy of its Timeseries when it merges the
    filters, and later changes to the Timeseries or its filters are lost *)
Theorem C95_sent_before_refuted : forall n, let N := S (S (S (S n))) in
  exists c1 c2, changes c1 = Some 0 /\ changes c2 = Some 1
  /\ forall c, c = c1 \/ c = c2 ->
     (exists p p', answer_after N demo_program (Ask 4 History.Serialize) = AMql p
        /\ answer_after N (demo_program ++ [c]) (Ask 4 History.Serialize) = AMql p' /\ p' <> p)
     /\ answer_after N (demo_program ++ [Ask 4 History.Serialize; c]) (Ask 4 History.Serialize)
        = answer_after N demo_program (Ask 4 History.Serialize).
Proof.
  intros n N. exists (Append 0 demo_cond), (AssignTimeseries 1 TAggregate (str_s ($"sum"))).
  split; [reflexivity|]. split; [reflexivity|]. intros c [-> | ->].
  - split; [|vm_compute; reflexivity]. eexists _, _. split; [vm_compute; reflexivity|]. split; [vm_compute; reflexivity|]. discriminate.
  - split; [|vm_compute; reflexivity]. eexists _, _. split; [vm_compute; reflexivity|]. split; [vm_compute; reflexivity|]. discriminate.
Qed.
(** true as long as nobody changes a Timeseries that is the query of a MetricsQuery or the
    filters of its query: the questions asked before make no difference *)
Theorem C95_asking_partial : forall N cs a m, calm N [] cs -> about_sending (run N [] cs) a m ->
  answer_after N cs (Ask a m) = answer_after N (filter (fun c => negb (asks c)) cs) (Ask a m).
Proof.
  intros N cs a m Cm S. unfold answer_after. cbn [step].
  pose proof (run_same N cs [] [] (agree_refl N everywhere []) nil_plain Cm) as A.
  apply ask_same with (P := everywhere); [exact A|intros; exact I|]. unfold about_sending in *.
  destruct m; try exact I; intros f E; pose proof (agree_cell N _ _ a A) as K; rewrite E in K; destruct K as (f' & K & _); exact (S f' K).
Qed.
(** nor for what later constructor and setter calls return or raise *)
Theorem C95_building_partial : forall N cs c, calm N [] cs -> asks c = false ->
  answer_after N cs c = answer_after N (filter (fun c => negb (asks c)) cs) c.
Proof.
  intros N cs c Cm Nc. unfold answer_after.
  pose proof (run_same N cs [] [] (agree_refl N everywhere []) nil_plain Cm) as A.
  apply (step_both N _ _ c A); [|exact Nc]. clear - RT. assert (forall h, plain h -> plain (run N h (filter (fun c => negb (asks c)) cs))) as K.
  { induction cs as [|d cs IH]; intros h Ph; cbn; [exact Ph|]. destruct (asks d) eqn:E; cbn; [apply IH, Ph|]. apply IH, plain_step; assumption. }
  apply K, nil_plain.
Qed.

(** ** C96 What to_dict() and serialize() return belongs to the caller *)
(** false: the tenant_ids of the payload are the dictionary of the request, and the column
    conditions those of the delete query; changing them changes what other requests send *)
Theorem C96_payload_refuted : forall n, let N := S (S (S (S n))) in
  (exists o d b, answer_after N demo_program (Ask 10 History.ToDict) = ADict o d /\ In ($"tenant_ids", Ref b) d
     /\ answer_after N (demo_program ++ [PutItem b ($"referrer") (str_s ($"x"))]) (Ask 11 History.Serialize)
        <> answer_after N demo_program (Ask 11 History.Serialize))
  /\ (exists o d b, answer_after N demo_program (Ask 15 History.Serialize) = ADict o d /\ In ($"columns", Ref b) d
     /\ answer_after N (demo_program ++ [PutItem b ($"id") none_s]) (Ask 16 History.Serialize)
        <> answer_after N demo_program (Ask 16 History.Serialize))
  /\ exists o d b, answer_after N demo_program (Ask 16 History.ToDict) = ADict o d
     /\ In ($"query", Own (KDict [$"columns"] [Ref b])) d
     /\ answer_after N (demo_program ++ [PutItem b ($"id") none_s]) (Ask 15 History.Validate)
        <> answer_after N demo_program (Ask 15 History.Validate).
Proof.
  intros n N. repeat split; (eexists _, _, _; split; [vm_compute; reflexivity|]; split; [cbn; tauto|]; vm_compute; discriminate).
Qed.
(** true of everything else: all that can be reached through an answer are parts of these two *)
Theorem C96_entries_partial : forall N cs a m o d, answer_after N cs (Ask a m) = ADict o d ->
  (exists ks vs, o = ODict ks vs /\ map fst d = ks /\ Forall2 (shows N (run N [] cs)) (map snd d) vs)
  /\ forall k s b, In (k, s) d -> reaches (run N [] cs) s b ->
     exists t, handed_out (run N [] cs) a k t /\ reaches (run N [] cs) t b.
Proof.
  intros N cs a m o d. unfold answer_after. cbn [step]. pose proof (run_sound N cs [] nil_sound) as Sh. set (h := run N [] cs) in *. clearbody h. clear cs.
  unfold ask. destruct (nth_error h a) as [k|] eqn:E; [|discriminate].
  destruct k as [l|ks vs|mm x p fl g|mm x p fl g|oo p u|f|st c|r fl]; try discriminate.
  - destruct (get N h (Ref a)); [|discriminate]. destruct m; try discriminate. cbn. destruct (mval_validate _); discriminate.
  - destruct (get N h (Ref a)); [|discriminate]. destruct m; try discriminate. cbn. destruct (mval_validate _); discriminate.
  - destruct (get N h (Ref a)) as [[]|]; try discriminate. destruct m; try discriminate. cbn. destruct (scope_validate _); discriminate.
  - destruct (get_query N h f) as [q|]; [|discriminate]. destruct m; cbn [snd]; try discriminate.
    + destruct (mq_validate q); discriminate.
    + destruct (snd (mq_serialize q)); discriminate.
    + destruct (mq_print_text q); discriminate.
    + destruct (mq_str_text q); discriminate.
  - destruct (get_o N h st) as [x|]; [|discriminate]. destruct (get_o N h c) as [y|] eqn:Gc; [|discriminate].
    destruct m; cbn [snd]; try discriminate; [destruct (delete_validate _); discriminate|].
    unfold delete_serialize. destruct (delete_validate _); cbn; [|discriminate]. intros Ed. injection Ed as <- <-. split.
    + eexists _, _. split; [reflexivity|]. split; [reflexivity|]. constructor; [left; exact Gc|constructor].
    + intros k s b [I|[]] R. injection I as <- <-. exists c. split; [eapply ho_columns, E|exact R].
  - destruct (get_request N h r fl) as [x|] eqn:Gr; [|discriminate]. destruct m; cbn [snd].
    + destruct (request_validate x); discriminate.
    + destruct (snd (request_serialize x)); discriminate.
    + destruct (snd (request_print x)); discriminate.
    + destruct (snd (request_serialize x)); discriminate.
    + destruct (snd (request_to_dict x)) as [y|] eqn:D; [|discriminate]. cbn [of_dict]. intros Ed. injection Ed as <- <-.
      apply to_dict_entries in D as (l & -> & T & Q). unfold get_request in Gr.
      destruct (get_o N h (r RDataset)); [|discriminate]. destruct (get_o N h (r RApp)); [|discriminate].
      destruct (get_rquery N h (r RQueryF)) as [q|] eqn:Gq; [|discriminate]. destruct (get_o N h (r RParent)); [|discriminate].
      destruct (get_o N h (r RTenants)) as [t|] eqn:Gt; [|discriminate]. injection Gr as <-. cbn [rq_tenants rq_query] in *.
      assert (forall st c, cell_of h (r RQueryF) = Some (KDelete st c) -> exists z y, q = RDelete (mkDelete z y) /\ get_o N h c = Some y) as DQ.
      { intros st c C. destruct (r RQueryF) as [v|w|b|k0]; cbn [cell_of] in C; try discriminate C; cbn in Gq;
          [rewrite C in Gq|injection C as ->]; (destruct (get_o N h st) as [z|]; [|discriminate]; destruct (get_o N h c) as [y|]; [|discriminate]; injection Gq as <-; eauto). }
      cbn [entries dict_obj]. rewrite combine_split. split.
      * eexists _, _. split; [reflexivity|]. split.
        { rewrite map_map. reflexivity. }
        rewrite map_map. revert T Q. clear - DQ Gt. induction l as [|[k v] l IH]; intros T Q; cbn [map fst snd]; [constructor|].
        constructor; [|apply IH; [intros w I; apply T; right; exact I|intros q0 w E I; eapply Q; [exact E|right; exact I]]].
        destruct (str_eqb k _) eqn:K1; [apply str_eqb_eq in K1 as ->; left; rewrite Gt; f_equal; symmetry; apply T; left; reflexivity|].
        assert (shows N h (Imm (VObj v)) v) as SI by (left; unfold get_o, get; destruct N; reflexivity).
        destruct (str_eqb k ($"query")) eqn:K2; [|exact SI]. apply str_eqb_eq in K2 as ->.
        destruct (cell_of h (r RQueryF)) as [[]|] eqn:C; try exact SI.
        destruct (DQ _ _ eq_refl) as (z & y & -> & Gc). right. exists ($"columns"), columns, y. split; [reflexivity|]. split; [|exact Gc].
        rewrite (Q _ v eq_refl (or_introl eq_refl)). reflexivity.
      * intros k s b I R. apply in_map_iff in I as ([k1 v1] & Ek & I). cbn [fst snd] in Ek. injection Ek as <- <-.
        destruct (str_eqb k1 _) eqn:K1; [apply str_eqb_eq in K1 as ->; eexists; split; [eapply ho_tenants, E|exact R]|].
        destruct (str_eqb k1 ($"query")) eqn:K2; [|inversion R]. apply str_eqb_eq in K2 as ->.
        destruct (cell_of h (r RQueryF)) as [[]|] eqn:C; try (inversion R; fail).
        inversion R as [| |k s b' J Js]; subst. destruct J as [<-|[]]. exists columns. split; [|exact Js].
        eapply ho_query; eassumption.
Qed.
End P.

(** * Cases *)
(** what can be reached, by computation *)
Definition in_list (l : list nat) (s : slot) : bool :=
  match s with Ref b => existsb (Nat.eqb b) l | Own _ => false | _ => true end.
Definition closed_list (h : heap) (l : list nat) : bool :=
  forallb (fun a => match nth_error h a with Some k => forallb (in_list l) (parts k) | None => true end) l.
Lemma in_list_iff l b : existsb (Nat.eqb b) l = true <-> In b l.
Proof.
  rewrite existsb_exists. split; [intros (x & I & E); apply Nat.eqb_eq in E as ->; exact I|]. intros I. exists b. split; [exact I|apply Nat.eqb_refl].
Qed.
Lemma reaches_within h l s b : closed_list h l = true -> in_list l s = true -> reaches h s b -> In b l.
Proof.
  intros C I R. induction R as [a|a k s b E J R IH|k s b J R IH]; [apply in_list_iff, I| |discriminate I].
  apply IH. unfold closed_list in C. rewrite forallb_forall in C. specialize (C a (proj1 (in_list_iff l a) I)). rewrite E in C.
  rewrite forallb_forall in C. apply C, J.
Qed.
Definition queries_in (h : heap) (l : list nat) : bool :=
  forallb (fun k => match k with KMetrics f => in_list l (f FQuery) | _ => true end) h.
Lemma no_query_part h l b : closed_list h l = true -> queries_in h l = true -> ~ In b l -> ~ query_part h b.
Proof.
  intros C Q Nb H. unfold queries_in in Q. rewrite forallb_forall in Q.
  assert (forall a f x, nth_error h a = Some (KMetrics f) -> f FQuery = Ref x -> In x l) as K.
  { intros a f x E Ef. specialize (Q _ (nth_error_In _ _ E)). cbn in Q. rewrite Ef in Q. apply in_list_iff, Q. }
  destruct H as [a f E Ef|a f x m y p fl g E Ef Ex R|a f x m y p fl g E Ef Ex R]; apply Nb.
  - eapply K; eassumption.
  - eapply reaches_within with (s := Ref x); [exact C|apply in_list_iff; eapply K; eassumption|]. eapply re_part; [exact Ex| |exact R]. cbn; auto.
  - eapply reaches_within with (s := Ref x); [exact C|apply in_list_iff; eapply K; eassumption|]. eapply re_part; [exact Ex| |exact R]. cbn; auto.
Qed.
#[local] Existing Instance demoRT.
#[local] Existing Instance demoST.
Lemma calm_quiet N cs cs' : forall h, Forall (fun c => changes c = None /\ asks c = false) cs -> calm N (run N h cs) cs' -> calm N h (cs ++ cs').
Proof.
  induction cs as [|c cs IH]; intros h F Cm; cbn; [exact Cm|]. inversion F as [|? ? [Fc Fa] F']; subst. rewrite Fa. split.
  - rewrite Fc. discriminate.
  - apply IH; assumption.
Qed.
Lemma demo_quiet : Forall (fun c => changes c = None /\ asks c = false) demo_program.
Proof. repeat (apply Forall_cons; [split; reflexivity|]). apply Forall_nil. Qed.

(** all calls of the program succeed and every object sends something *)
Example C94_objects : List.length (run 9 [] demo_program) = 17
  /\ forallb (fun a => is_result (answer_after 9 demo_program (Ask a History.Serialize))) [4; 5; 9; 10; 11; 12; 15; 16] = true.
Proof. split; vm_compute; reflexivity. Qed.
(** sending one request, changing the formula's query and the delete query leaves another request alone *)
Example C94_case : forall c b,
  In c [Ask 10 History.ToDict; AssignMetrics 9 FLimit (Imm (VObj (OLimit (PInt 9)))); Append 13 (Imm (VObj (OInt 8)));
        SetGroupby 1 none_s; AssignRequest 12 RParent none_s] ->
  reaches (run 9 [] demo_program) (Ref 11) b -> changes c <> Some b.
Proof.
  intros c b Ic R. apply (reaches_within _ [11; 5; 1; 0; 3; 2; 8]) in R; [|vm_compute; reflexivity|reflexivity].
  destruct Ic as [<-|[<-|[<-|[<-|[<-|[]]]]]]; try discriminate; intros E; injection E as <-; cbn in R; intuition discriminate.
Qed.
(** and the Timeseries they share, changed through another object, does change both *)
Example C94_shared : answer_after 9 (demo_program ++ [AssignTimeseries 1 TAggregate (str_s ($"sum"))]) (Ask 11 History.Serialize)
    <> answer_after 9 demo_program (Ask 11 History.Serialize)
  /\ answer_after 9 (demo_program ++ [AssignTimeseries 1 TAggregate (str_s ($"sum"))]) (Ask 12 History.Serialize)
    <> answer_after 9 demo_program (Ask 12 History.Serialize).
Proof. split; vm_compute; discriminate. Qed.
(** a calm program that changes the scope's list, a limit and the tenants after sending *)
Example C95_case : calm 9 [] (demo_program ++ [Ask 10 History.ToDict; Append 2 (Imm (VObj (OInt 5)));
    AssignMetrics 4 FLimit (Imm (VObj (OLimit (PInt 9)))); Ask 11 History.Print; PutItem 8 ($"referrer") (str_s ($"x"))])
  /\ answer_after 9 (demo_program ++ [Ask 10 History.ToDict; Append 2 (Imm (VObj (OInt 5)))]) (Ask 10 History.Serialize)
     <> answer_after 9 demo_program (Ask 10 History.Serialize).
Proof.
  split; [|vm_compute; discriminate]. apply calm_quiet; [exact demo_quiet|].
  assert (forall h b, closed_list h [0; 1; 6; 7] = true -> queries_in h [0; 1; 6; 7] = true -> existsb (Nat.eqb b) [0; 1; 6; 7] = false -> ~ query_part h b) as K.
  { intros h b C Q Nb. eapply no_query_part; [exact C|exact Q|]. intros I. apply in_list_iff in I. congruence. }
  cbn [calm asks]. split; [discriminate|]. split.
  { intros b E. injection E as <-. apply K; vm_compute; reflexivity. }
  split. { intros b E. injection E as <-. apply K; vm_compute; reflexivity. }
  split; [discriminate|]. split; [|exact I].
  intros b E. injection E as <-. apply K; vm_compute; reflexivity.
Qed.
Example C96_case : exists o d, answer_after 9 demo_program (Ask 10 History.ToDict) = ADict o d
  /\ map fst d = [$"query"; $"dataset"; $"app_id"; $"tenant_ids"; $"parent_api"; $"mql_context"].
Proof. eexists _, _. split; vm_compute; reflexivity. Qed.

Print Assumptions C94_isolated.
Print Assumptions C94_sdk_calls.
Print Assumptions C95_sent_before_refuted.
Print Assumptions C95_asking_partial.
Print Assumptions C95_building_partial.
Print Assumptions C96_payload_refuted.
Print Assumptions C96_entries_partial.
