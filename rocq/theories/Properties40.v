(** Property C101: what an assignment to an attribute, an append and an item assignment do. *)
From Verif Require Import PyBase PyFacts DateTime Objects Exprs Query Optimizer Metrics MetricsQuery Request Sharing SpecSharing SharingFacts
  SpecAssign AssignFacts Concrete Properties6 Properties7 Properties36.
From Verif Require History HistoryFacts.
From Coq Require Import Lia.

Section P.
Context {RT : PyRT} {ST : PyStr}.

(** ** C101 A changed object is as good as one built that way *)
(** the hypotheses below: the call changes the object at [a], which was [k], and [k'] is the object
    with the new attribute or item. The object is not made a part of itself. *)
Definition change (N : nat) (cs : list call) (c : call) (a : nat) (k' : cell) : Prop :=
  exists k, changes c = Some a /\ nth_error (run N [] cs) a = Some k /\ turned c k k'
  /\ forallb (arg (run N [] cs)) (assigned c) = true /\ (forall s, In s (parts k') -> ~ reaches (run N [] cs) s a).

Lemma change_heaps N cs c a k' : change N cs c a k' ->
  let h := run N [] cs in
  exists k1, run N [] (cs ++ [c]) = History.put h a k1 /\ a < List.length h /\ same_cell k' k1
  /\ sound h /\ ksound h k' /\ (forall s, In s (parts k') -> exact_at h (History.put h a k1) s).
Proof.
  intros (k & C & E & T & A & Nr). cbn zeta. destruct (change_step N _ _ _ _ _ C E T A) as (k1 & Es & S).
  pose proof (run_sound N cs [] nil_sound) as Sh.
  exists k1. split; [rewrite run_app; cbn [run]; rewrite Es; reflexivity|].
  split; [apply nth_error_Some; congruence|]. split; [exact S|]. split; [exact Sh|]. split; [eapply turned_sound; eassumption|].
  intros s I. apply exact_put, Nr, I.
Qed.
Lemma nth_last {A} (l : list A) x : nth_error (l ++ [x]) (List.length l) = Some x.
Proof. rewrite nth_error_app2, Nat.sub_diag by lia. reflexivity. Qed.

(** every question is answered as by an object with the new attribute and the old other ones *)
Theorem C101_changed : forall N cs c a k', change N cs c a k' ->
  let h := run N [] cs in
  (forall m, answer_after N (cs ++ [c]) (Ask a m) = snd (step N (h ++ [k']) (Ask (List.length h) m)))
  /\ get N (run N [] (cs ++ [c])) (Ref a) = get N (h ++ [k']) (Ref (List.length h)).
Proof.
  intros N cs c a k' Ch. cbn zeta. destruct (change_heaps _ _ _ _ _ Ch) as (k1 & Er & L & S & Sh & Sk & X).
  unfold answer_after. rewrite Er. cbn [step].
  assert (forall s, In s (parts k') -> exact_at (run N [] cs) (run N [] cs ++ [k']) s) as X2.
  { intros s I. apply exact_app; [exact Sh|apply Sk, I]. }
  split; [intros m; eapply ask_same_cell|eapply get_same]; try exact S; try exact X; try exact X2;
    first [apply HistoryFacts.nth_put_same, L|apply nth_last].
Qed.
(** and so by one that its constructor makes with the new argument, if it accepts it *)
Theorem C101_anew : forall N cs c a k' b, change N cs c a k' -> answer_after N cs (builds k') = ANew b ->
  (forall m, answer_after N (cs ++ [c]) (Ask a m) = answer_after N (cs ++ [builds k']) (Ask b m))
  /\ get N (run N [] (cs ++ [c])) (Ref a) = get N (run N [] (cs ++ [builds k'])) (Ref b).
Proof.
  intros N cs c a k' b Ch B. apply builds_new in B as [B ->]. pose proof (C101_changed _ _ _ _ _ Ch) as [Q G].
  split; [intros m; rewrite Q; unfold answer_after|rewrite G]; rewrite run_app; cbn [run]; rewrite B; reflexivity.
Qed.
(** a metrics query that has the object among its attributes answers as one built with the new object *)
Theorem C101_seen : forall N cs c a k' b e f f' b', change N cs c a k' -> answer_after N cs (builds k') = ANew b ->
  e <> a -> nth_error (run N [] cs) e = Some (KMetrics f) ->
  (forall x, f x = Ref a /\ f' x = Ref b \/ ~ reaches (run N [] cs) (f x) a /\ f' x = f x) ->
  answer_after N (cs ++ [builds k']) (NewMetrics f') = ANew b' ->
  forall m, answer_after N (cs ++ [c]) (Ask e m) = answer_after N (cs ++ [builds k'; NewMetrics f']) (Ask b' m).
Proof.
  intros N cs c a k' b e f f' b' Ch B Ne E F B' m. pose proof (C101_anew _ _ _ _ _ _ Ch B) as [_ G].
  destruct (change_heaps _ _ _ _ _ Ch) as (k1 & Er & L & S & Sh & Sk & X).
  apply builds_new in B as [B ->].
  assert (run N [] (cs ++ [builds k']) = run N [] cs ++ [k']) as Rb by (rewrite run_app; cbn [run]; rewrite B; reflexivity).
  unfold answer_after in B'. rewrite Rb in B'. pose proof (builds_new N (run N [] cs ++ [k']) (KMetrics f') b' B') as [B2 ->].
  cbn [builds] in B2.
  assert (run N [] (cs ++ [builds k'; NewMetrics f']) = (run N [] cs ++ [k']) ++ [KMetrics f']) as Rb2.
  { change [builds k'; NewMetrics f'] with ([builds k'] ++ [NewMetrics f']). rewrite app_assoc, run_app, Rb. cbn [run]. rewrite B2. reflexivity. }
  rewrite Rb in G. unfold answer_after. rewrite Rb2. cbn [step].
  assert (nth_error (run N [] (cs ++ [c])) e = Some (KMetrics f)) as E1.
  { rewrite Er, HistoryFacts.nth_put_other by congruence. exact E. }
  rewrite (ask_metrics_snd _ _ _ _ _ E1), (ask_metrics_snd _ _ _ _ _ (nth_last _ _)).
  assert (sound (run N [] cs ++ [k'])) as Sh2 by (apply sound_new; assumption).
  rewrite (exact_query N ((run N [] cs ++ [k']) ++ [KMetrics f']) (run N [] (cs ++ [c])) f' f); [reflexivity|]. intros x.
  destruct (F x) as [[Fx ->]|[Nr ->]].
  - rewrite Fx, G. symmetry. apply exact_get, exact_app; [exact Sh2|]. intros i Hi. inversion Hi; subst. rewrite app_length. cbn. lia.
  - assert (ssound (run N [] cs) (f x)) as Sx by (eapply Sh; [exact E|exact (in_map f mfields x (mfields_all x))]).
    rewrite (exact_get N (run N [] cs) (run N [] (cs ++ [c]))) by (rewrite Er; apply exact_put, Nr).
    rewrite <- app_assoc. symmetry. apply exact_get, exact_app; assumption.
Qed.
End P.

(** ** Cases *)
#[local] Existing Instance demoRT.
#[local] Existing Instance demoST.
Definition demo_heap : heap := Eval vm_compute in run 9 [] demo_program.
Lemma demo_heap_is : run 9 [] demo_program = demo_heap.
Proof. vm_compute. reflexivity. Qed.
(** the request's tenant_ids get a key, the request another dataset *)
Example C101_item : change 9 demo_program (PutItem 8 ($"referrer") (str_s ($"x"))) 8
    (KDict [$"organization_id"; $"referrer"] [Imm (VObj (OInt 1)); str_s ($"x")])
  /\ answer_after 9 (demo_program ++ [PutItem 8 ($"referrer") (str_s ($"x"))]) (Ask 10 History.Serialize)
     <> answer_after 9 demo_program (Ask 10 History.Serialize).
Proof.
  split; [|vm_compute; discriminate]. eexists. rewrite demo_heap_is. split; [reflexivity|]. split; [reflexivity|].
  split; [apply (T_item_new 8 _ _ [$"organization_id"] [Imm (VObj (OInt 1))]); [reflexivity|intros [E|[]]; discriminate E]|].
  split; [reflexivity|]. intros s [<-|[<-|[]]] R; inversion R.
Qed.
Definition other_dataset : rfield -> slot := fun x => match x with RDataset => str_s ($"spans") | x => demo_rfields (Ref 5) x end.
Example C101_request : change 9 demo_program (AssignRequest 11 RDataset (str_s ($"spans"))) 11 (KRequest other_dataset RFNone)
  /\ (exists t t', answer_after 9 demo_program (Ask 11 History.Serialize) = AText t
      /\ answer_after 9 (demo_program ++ [AssignRequest 11 RDataset (str_s ($"spans"))]) (Ask 11 History.Serialize) = AText t' /\ t' <> t)
  /\ answer_after 9 demo_program (builds (KRequest other_dataset RFNone)) = ANew 17.
Proof.
  split; [|split; [eexists _, _; split; [vm_compute; reflexivity|split; [vm_compute; reflexivity|vm_compute; discriminate]]|vm_compute; reflexivity]].
  eexists. rewrite demo_heap_is. split; [reflexivity|]. split; [reflexivity|].
  split; [apply T_request; [reflexivity|intros [] Ne; try reflexivity; elim Ne; reflexivity]|]. split; [reflexivity|].
  intros s I R. apply (reaches_within _ [5; 1; 0; 3; 2; 8]) in R; [cbn in R; intuition discriminate|vm_compute; reflexivity|].
  cbn in I. repeat (destruct I as [<-|I]; [reflexivity|]). destruct I.
Qed.
(** the metrics query at 4 sees the new aggregate of its Timeseries *)
Example C101_timeseries :
  change 9 demo_program (AssignTimeseries 1 TAggregate (str_s ($"sum"))) 1
    (KTimeseries (Imm (VMetric (mkMetric (Some ($"transaction.duration")) None None))) (str_s ($"sum")) none_s (Ref 0) none_s)
  /\ answer_after 9 demo_program (builds (KTimeseries (Imm (VMetric (mkMetric (Some ($"transaction.duration")) None None)))
       (str_s ($"sum")) none_s (Ref 0) none_s)) = ANew 17
  /\ (forall x, demo_fields (Ref 1) (Ref 3) x = Ref 1 /\ demo_fields (Ref 17) (Ref 3) x = Ref 17
      \/ ~ reaches (run 9 [] demo_program) (demo_fields (Ref 1) (Ref 3) x) 1
         /\ demo_fields (Ref 17) (Ref 3) x = demo_fields (Ref 1) (Ref 3) x)
  /\ (exists p, answer_after 9 (demo_program ++ [AssignTimeseries 1 TAggregate (str_s ($"sum"))]) (Ask 4 History.Serialize) = AMql p).
Proof.
  rewrite demo_heap_is. split; [|split; [vm_compute; reflexivity|split]].
  - eexists. rewrite demo_heap_is. split; [reflexivity|]. split; [reflexivity|]. split; [apply T_aggregate|]. split; [reflexivity|].
    intros s I R. apply (reaches_within _ [0]) in R; [cbn in R; intuition discriminate|vm_compute; reflexivity|].
    cbn in I. repeat (destruct I as [<-|I]; [reflexivity|]). destruct I.
  - intros x.
    destruct x; try (left; split; reflexivity); right; (split; [|reflexivity]); cbn; intros R;
      (apply (reaches_within _ [3; 2]) in R; [cbn in R; intuition discriminate|vm_compute; reflexivity|reflexivity]).
  - eexists. vm_compute. reflexivity.
Qed.

Print Assumptions C101_changed.
Print Assumptions C101_anew.
Print Assumptions C101_seen.
