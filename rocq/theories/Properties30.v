(** C83, C84: threads that share MetricsQuery objects. *)
From Verif Require Import PyBase PyFacts Objects Exprs Query Optimizer Metrics Mql MetricsQuery MetricsQueryFacts Json Request History HistoryFacts
  Threads SpecThreads ThreadFacts Concrete Properties6 Properties7.

Section P.
Context {RT : PyRT} {ST : PyStr}.

(** ** C83 Sending a MetricsQuery from several threads *)
Lemma start_ok h : objects_ok (fun a q => nth_error h a = Some q) h.
Proof. split; [|split]; [eauto|eauto|]. intros a q q' E E'. congruence. Qed.
Lemma idle_ok o h ts : Forall idle ts -> Forall (thread_ok o h) ts.
Proof. apply Forall_impl. intros t [c ->]. exact I. Qed.
Lemma no_assigns es : no_assignments es -> ~ assigns es.
Proof. intros N (a & f & v & I). exact (N _ _ _ I). Qed.
Lemma run_ok h ts es h1 ts1 : Forall idle ts -> executes h ts es h1 ts1 -> no_assignments es ->
  objects_ok (origin h es) h1 /\ Forall (thread_ok (origin h es) h1) ts1 /\ Forall (answer_right (origin h es) h1) es.
Proof.
  intros T X N. destruct (executes_ok _ _ _ _ _ X _ (start_ok h) (idle_ok _ _ _ T) (no_assigns _ N)) as (O & T' & _ & R). auto.
Qed.
(** every answer is one the call gives when it is made alone *)
Theorem C83_answers : forall h ts es h1 ts1 c r, Forall idle ts -> executes h ts es h1 ts1 -> no_assignments es ->
  In (Answered c r) es -> right_answer (origin h es) c r.
Proof.
  intros h ts es h1 ts1 c r T X N I. destruct (run_ok _ _ _ _ _ T X N) as (_ & _ & R).
  rewrite Forall_forall in R. apply (R _ I).
Qed.
(** an object is made once *)
Theorem C83_made_once : forall h ts es h1 ts1 a q q', Forall idle ts -> executes h ts es h1 ts1 -> no_assignments es ->
  origin h es a q -> origin h es a q' -> q = q'.
Proof. intros h ts es h1 ts1 a q q' T X N. destruct (run_ok _ _ _ _ _ T X N) as ((_ & _ & U) & _). apply U. Qed.
(** so what is sent does not depend on the schedule *)
Theorem C83_serialize : forall h ts es h1 ts1 a q r, Forall idle ts -> executes h ts es h1 ts1 -> no_assignments es ->
  origin h es a q -> In (Answered (TSerialize a) r) es -> r = of_mql (snd (mq_serialize q)).
Proof.
  intros h ts es h1 ts1 a q r T X N Q I. destruct (C83_answers _ _ _ _ _ _ _ T X N I) as (q' & Q' & R).
  rewrite (C83_made_once _ _ _ _ _ _ _ _ T X N Q Q'). exact R.
Qed.
Theorem C83_requests : forall h ts es h1 ts1 d q, Forall idle ts -> executes h ts es h1 ts1 -> no_assignments es ->
  origin h es (sr_query d) q ->
  (forall r, In (Answered (RToDict d) r) es -> r = of_obj (snd (request_to_dict (request_on d q))))
  /\ (forall r, In (Answered (RSerialize d) r) es -> r = of_text (snd (request_serialize (request_on d q))))
  /\ (forall r, In (Answered (RPrint d) r) es -> r = of_text (snd (request_print (request_on d q)))).
Proof.
  intros h ts es h1 ts1 d q T X N Q. split; [|split]; intros r I;
    (destruct (C83_answers _ _ _ _ _ _ _ T X N I) as (q' & Q' & R); rewrite (C83_made_once _ _ _ _ _ _ _ _ T X N Q Q'); exact R).
Qed.
(** the objects: as they were made, or as serialize() leaves them, which they are after serialize() answered *)
Theorem C83_objects : forall h ts es h1 ts1 a q, Forall idle ts -> executes h ts es h1 ts1 -> no_assignments es ->
  origin h es a q ->
  (nth_error h1 a = Some q \/ nth_error h1 a = Some (serialized q))
  /\ (forall r, In (Answered (TSerialize a) r) es -> nth_error h1 a = Some (serialized q)).
Proof.
  intros h ts es h1 ts1 a q T X N Q. destruct (run_ok _ _ _ _ _ T X N) as ((O & _ & _) & _ & R). split.
  - destruct (O _ _ Q) as (s & S & [-> | ->]); auto.
  - intros r I. rewrite Forall_forall in R. destruct (R _ I) as [_ S]. apply S; [reflexivity|exact Q].
Qed.
(** whichever of the two values a copy was made from, it sends the same *)
Theorem C83_copies : forall f q v q1 q2, mq_set f q v = Ok q1 -> mq_set f (serialized q) v = Ok q2 ->
  snd (mq_serialize q1) = snd (mq_serialize q2).
Proof.
  intros f q v q1 q2 E1 E2. unfold mq_set in *. apply bind_Ok in E1 as (x & Ex & E1). rewrite Ex in E2. cbn [PyBase.bind] in E2.
  injection E1 as <-. injection E2 as <-.
  assert ({f = FQuery} + {f <> FQuery}) as [->|Nf] by (destruct f; (left; reflexivity) || (right; discriminate)).
  { replace (mq_put FQuery x (serialized q)) with (mq_put FQuery x q); [reflexivity|].
    rewrite <- (serialized_put q), mq_put_query. reflexivity. }
  replace (mq_put f x (serialized q)) with (mq_put FQuery (mq_query (serialized q)) (mq_put f x q)).
  2:{ rewrite <- (serialized_put q) at 2. destruct q, f; try reflexivity. congruence. }
  unfold serialized, mq_serialize at 3. destruct (mq_validate q) as [[]|e] eqn:V.
  2:{ cbn [fst]. replace (mq_query q) with (mq_query (mq_put f x q)) by (destruct q, f; try reflexivity; congruence). rewrite mq_put_same. reflexivity. }
  destruct (optimize_mval (mq_query q)) as [w|e] eqn:O.
  2:{ cbn [fst]. replace (mq_query q) with (mq_query (mq_put f x q)) by (destruct q, f; try reflexivity; congruence). rewrite mq_put_same. reflexivity. }
  cbn [fst]. replace (mq_query (mq_put FQuery w q)) with w by (destruct q; reflexivity).
  assert (mq_query (mq_put f x q) = mq_query q) as Eq by (destruct q, f; try reflexivity; congruence).
  set (p := mq_put f x q) in *. apply mq_validate_query in V. pose proof (check_query_optimized _ _ O V) as V'.
  assert (mq_validate (mq_put FQuery w p) = mq_validate p) as Vp.
  { rewrite <- Eq in V. destruct p. unfold mq_validate in *. cbn in *. rewrite V, V'. reflexivity. }
  unfold mq_serialize. rewrite Vp. destruct (mq_validate p); [|reflexivity].
  rewrite Eq, O. replace (mq_query (mq_put FQuery w p)) with w by (destruct p; reflexivity).
  rewrite (optimize_mval_idem _ _ O), mq_put_query. reflexivity.
Qed.
(** no call waits for another thread, and each ends after at most 41 accesses of its own *)
Theorem C83_no_waiting : forall h ts es h1 ts1 c p k x, Forall idle ts -> executes h ts es h1 ts1 -> no_assignments es ->
  In (Busy c p k x) ts1 -> exists e h2 t, proceeds h1 (Busy c p k x) e h2 t.
Proof.
  intros h ts es h1 ts1 c p k x T X N I. destruct (run_ok _ _ _ _ _ T X N) as ((O & _ & _) & T' & _).
  rewrite Forall_forall in T'. specialize (T' _ I). destruct T' as (q & b & Q & _ & G).
  destruct (O _ _ Q) as (s & S & _). destruct p as [r|y|a f g|a f v g]; cbn [good] in G.
  - eexists _, _, _. split; [constructor|left; discriminate].
  - eexists _, _, _. split; [constructor|left; discriminate].
  - destruct G as (-> & _). eexists _, _, _. split; [constructor; exact S|right; eauto 10].
  - destruct G as (-> & _). eexists _, _, _. split; [constructor; exact S|right; eauto 10].
Qed.
Theorem C83_bounded : forall c, at_most 41 (code_of c).
Proof. exact call_most. Qed.

(** ** C84 An assignment to an attribute of a MetricsQuery is not undone by other threads *)
(** the property; it is false *)
Definition assignments_stay : Prop := forall h ts es h1 ts1 a f v, Forall idle ts -> executes h ts es h1 ts1 -> Forall idle ts1 ->
  only_assignment es a f v -> In (Answered (TAssign a f v) ANone) es ->
  exists s, nth_error h1 a = Some s /\ has_assigned s f v.
(** it holds for all attributes but the query (with the assigned value itself), even with calls under way *)
Theorem C84_other_attributes_partial : forall h ts es h1 ts1 a f v, Forall idle ts -> executes h ts es h1 ts1 ->
  f <> FQuery -> only_assignment es a f v -> In (Answered (TAssign a f v) ANone) es ->
  exists s, nth_error h1 a = Some s /\ mq_get f s = v.
Proof.
  intros h ts es h1 ts1 a f v T X Nf O I. apply (executes_assigned a f v Nf _ _ _ _ _ X); auto.
  eapply Forall_impl; [|exact T]. intros t [c ->]. exact Logic.I.
Qed.
(** nothing but an assignment changes those attributes *)
Theorem C84_other_attributes_kept_partial : forall h ts es h1 ts1 a f q, Forall idle ts -> executes h ts es h1 ts1 ->
  f <> FQuery -> (forall w, ~ In (Called (TAssign a f w)) es) -> nth_error h a = Some q ->
  exists s, nth_error h1 a = Some s /\ mq_get f s = mq_get f q.
Proof.
  intros h ts es h1 ts1 a f q T X Nf O I. apply (executes_assigned a f (mq_get f q) Nf _ _ _ _ _ X).
  - eapply Forall_impl; [|exact T]. intros t [c ->]. exact Logic.I.
  - intros w J. destruct (O _ J).
  - left. exists q. auto.
Qed.
(** it holds for the query too if no call is under way when it is assigned *)
Theorem C84_quiet_partial : forall h ts es h1 ts1 a q f v, Forall idle ts -> nth_error h a = Some q ->
  executes (put h a (mq_put f v q)) ts es h1 ts1 -> no_assignments es ->
  exists s, nth_error h1 a = Some s /\ has_assigned s f v.
Proof.
  intros h ts es h1 ts1 a q f v T Q X N.
  assert (nth_error (put h a (mq_put f v q)) a = Some (mq_put f v q)) as Q' by (apply nth_put_same, nth_error_Some; congruence).
  assert (mq_get f (mq_put f v q) = v) as G by (destruct q, f; reflexivity).
  destruct (C83_objects _ _ _ _ _ a (mq_put f v q) T X N) as [[S|S] _]; [left; exact Q'| |]; eexists; (split; [exact S|]).
  - left. exact G.
  - right. exists (mq_put f v q). auto.
Qed.
End P.

#[local] Existing Instance demoRT.
#[local] Existing Instance demoST.
Definition writer (v : mval) : thread := Idle (Then (TAssign 0 FQuery v) (fun _ => Stop) Stop).
Definition sender : thread := Idle (Then (TSerialize 0) (fun _ => Stop) Stop).
(** the query of the shared object, and the one assigned while serialize() runs in another thread *)
Definition c84_old : mquery := demo_query demo_ix (demo_sum [demo_or]).
Definition c84_new : mval := demo_sum [OCond (demo_col ($"env")) EQ (OStr ($"prod"))].
Lemma serialized_query q : mq_query (serialized q) = mq_query q \/ optimize_mval (mq_query q) = Ok (mq_query (serialized q)).
Proof.
  unfold serialized, mq_serialize. destruct (mq_validate q); [|auto]. destruct (optimize_mval (mq_query q)) as [w|e] eqn:O; [|auto].
  right. cbn [fst]. destruct q; reflexivity.
Qed.
Definition gone (s : mquery) (v : mval) : Prop := mq_query s <> v /\ optimize_mval v <> Ok (mq_query s).
Lemma gone_not s v : gone s v -> ~ has_assigned s FQuery v.
Proof.
  intros [A B] [E|(q & E & ->)]; [exact (A E)|]. change (mq_query q = v) in E.
  destruct (serialized_query q) as [K|K]; rewrite E in K; auto.
Qed.
(** the assignment happens after serialize() read the query for the last time and before it stores: it is lost,
    the object has the optimized old query *)
Theorem C84_lost_refuted : exists es h1 ts1, executes [c84_old] [sender; writer c84_new] es h1 ts1 /\ Forall idle ts1
  /\ only_assignment es 0 FQuery c84_new /\ In (Answered (TAssign 0 FQuery c84_new) ANone) es
  /\ h1 = [serialized c84_old].
Proof.
  destruct (drive (repeat (0, false) 14 ++ repeat (1, false) 3 ++ repeat (0, false) 11) [c84_old] [sender; writer c84_new]) as [[[es h1] ts1]|] eqn:D;
    [|vm_compute in D; discriminate D].
  exists es, h1, ts1. split; [exact (drive_executes _ _ _ _ _ _ D)|].
  vm_compute in D. injection D as <- <- <-. split; [repeat constructor; eexists; reflexivity|].
  split; [|split; [right; right; left; reflexivity|vm_compute; reflexivity]].
  intros w J. cbn [In] in J. repeat (destruct J as [J|J]; [try discriminate J; injection J as <-; vm_compute; reflexivity|]). destruct J.
Qed.
(** it happens after serialize() read the filters of the query: the object gets a query that is neither *)
Theorem C84_mixed_refuted : exists es h1 ts1 s, executes [c84_old] [sender; writer c84_new] es h1 ts1 /\ Forall idle ts1
  /\ only_assignment es 0 FQuery c84_new /\ In (Answered (TAssign 0 FQuery c84_new) ANone) es
  /\ h1 = [s] /\ gone s c84_new /\ gone s (mq_query c84_old).
Proof.
  destruct (drive (repeat (0, false) 13 ++ repeat (1, false) 3 ++ repeat (0, false) 12) [c84_old] [sender; writer c84_new]) as [[[es h1] ts1]|] eqn:D;
    [|vm_compute in D; discriminate D].
  pose proof (drive_executes _ _ _ _ _ _ D) as X. exists es, h1, ts1.
  vm_compute in D. injection D as <- <- <-. eexists. split; [exact X|]. split; [repeat constructor; eexists; reflexivity|].
  split; [|split; [right; right; left; reflexivity|split; [reflexivity|split; split; vm_compute; discriminate]]].
  intros w J. cbn [In] in J. repeat (destruct J as [J|J]; [try discriminate J; injection J as <-; vm_compute; reflexivity|]). destruct J.
Qed.
Lemma c84_start : Forall idle [sender; writer c84_new].
Proof. repeat constructor; eexists; reflexivity. Qed.
Theorem C84_refuted : ~ assignments_stay.
Proof.
  intros P. destruct C84_lost_refuted as (es & h1 & ts1 & X & T & O & I & E).
  destruct (P _ _ _ _ _ 0 FQuery c84_new c84_start X T O I) as (s & S & A).
  rewrite E in S. injection S as <-. revert A. apply gone_not. split; vm_compute; discriminate.
Qed.

(** Examples: two threads serialize the same object, their accesses mixed; the second is interrupted and tries again *)
Definition retry : thread := Idle (Then (TSerialize 0) (fun _ => Stop) (Then (TSerialize 0) (fun _ => Stop) Stop)).
Example C83_example : exists es h1 ts1, executes [c84_old] [sender; retry] es h1 ts1 /\ Forall idle ts1
  /\ no_assignments es /\ List.length es = 5
  /\ (forall r, In (Answered (TSerialize 0) r) es -> exists d, r = AMql d) /\ h1 = [serialized c84_old] /\ serialized c84_old <> c84_old.
Proof.
  destruct (drive (repeat (0, false) 10 ++ repeat (1, false) 20 ++ [(1, true)] ++ repeat (0, false) 13 ++ repeat (1, false) 23)
    [c84_old] [sender; retry]) as [[[es h1] ts1]|] eqn:D; [|vm_compute in D; discriminate D].
  exists es, h1, ts1. split; [exact (drive_executes _ _ _ _ _ _ D)|].
  vm_compute in D. injection D as <- <- <-. split; [repeat constructor; eexists; reflexivity|].
  split; [intros a f v J; cbn [In] in J; intuition discriminate|]. split; [reflexivity|].
  split; [|split; vm_compute; [reflexivity|discriminate]].
  intros r J. cbn [In] in J. repeat (destruct J as [J|J]; [try discriminate J; injection J as <-; eexists; reflexivity|]). destruct J.
Qed.

Print Assumptions C83_answers.
Print Assumptions C83_made_once.
Print Assumptions C83_serialize.
Print Assumptions C83_requests.
Print Assumptions C83_objects.
Print Assumptions C83_copies.
Print Assumptions C83_no_waiting.
Print Assumptions C83_bounded.
Print Assumptions C84_other_attributes_partial.
Print Assumptions C84_other_attributes_kept_partial.
Print Assumptions C84_quiet_partial.
Print Assumptions C84_lost_refuted.
Print Assumptions C84_mixed_refuted.
Print Assumptions C84_refuted.
