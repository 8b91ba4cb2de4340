(** Facts about histories of calls *)
From Verif Require Import PyBase PyFacts Objects Query Metrics MetricsQuery MetricsQueryFacts Request History SpecHistory.
From Coq Require Import Lia.

(** * put *)
Lemma put_length {A} (l : list A) n x : List.length (put l n x) = List.length l.
Proof.
  unfold put. revert n. induction l as [|y l IH]; intros [|n]; cbn; try reflexivity. f_equal. apply IH.
Qed.
Lemma nth_put_same {A} (l : list A) n x : n < List.length l -> nth_error (put l n x) n = Some x.
Proof.
  unfold put. revert n. induction l as [|y l IH]; intros [|n]; cbn; intros H; try lia; try reflexivity. apply IH. lia.
Qed.
Lemma nth_put_other {A} (l : list A) n m x : n <> m -> nth_error (put l n x) m = nth_error l m.
Proof.
  unfold put. revert n m. induction l as [|y l IH]; intros [|n] [|m] H; cbn; try reflexivity; try congruence.
  apply IH. congruence.
Qed.
Lemma nth_some_lt {A} (l : list A) n x : nth_error l n = Some x -> n < List.length l.
Proof. intros H. apply nth_error_Some. congruence. Qed.

Section S.
Context {RT : PyRT} {ST : PyStr}.

(** * A metrics query before and after serialize() *)
Definition later (q q' : mquery) : Prop :=
  exists v, q' = mq_put FQuery v q
    /\ (v = mq_query q \/ check_query (mq_query q) = Ok tt /\ optimize_mval (mq_query q) = Ok v).
Lemma mq_put_get v q : mq_query (mq_put FQuery v q) = v.
Proof. destruct q; reflexivity. Qed.
Lemma later_refl q : later q q.
Proof. exists (mq_query q). rewrite mq_put_same. auto. Qed.
Lemma later_put f v q q' : later q q' -> later (mq_put f v q) (mq_put f v q').
Proof.
  intros (w & -> & H). destruct f.
  1:{ exists v. rewrite mq_put_get. split; [destruct q; reflexivity|auto]. }
  all: exists w; split; [destruct q; reflexivity|destruct q; exact H].
Qed.
Lemma later_set f v q q' : later q q' ->
  match mq_set f q v, mq_set f q' v with
  | Ok x, Ok x' => later x x'
  | Raise e, Raise e' => e = e'
  | _, _ => False
  end.
Proof.
  intros H. unfold mq_set. destruct (mq_setter_value f v); cbn; [apply later_put, H|reflexivity].
Qed.
Lemma later_check q q' : later q q' -> check_query (mq_query q') = check_query (mq_query q).
Proof.
  intros (v & -> & H). rewrite mq_put_get. destruct H as [->|[C O]]; [reflexivity|].
  rewrite C. eapply check_query_optimized; eassumption.
Qed.
Lemma later_validate q q' : later q q' -> mq_validate q' = mq_validate q.
Proof.
  intros H. pose proof (later_check q q' H) as C. unfold mq_validate. rewrite C.
  destruct H as (v & -> & _). destruct q; reflexivity.
Qed.
Lemma later_serialize q q' : later q q' -> snd (mq_serialize q') = snd (mq_serialize q) /\ later q (fst (mq_serialize q')).
Proof.
  intros H. pose proof (later_validate q q' H) as V. unfold mq_serialize. rewrite V.
  destruct (mq_validate q) as [[]|e] eqn:E; [|auto].
  destruct H as (v & -> & H). rewrite mq_put_get. apply mq_validate_query in E. destruct H as [->|[C O]].
  - destruct (optimize_mval (mq_query q)) as [w|e] eqn:O; cbn [fst snd].
    + rewrite mq_put_query. split; [reflexivity|]. exists w. auto.
    + rewrite mq_put_same. split; [reflexivity|apply later_refl].
  - rewrite O, (optimize_mval_idem _ _ O). cbn [fst snd]. rewrite mq_put_query. split; [reflexivity|].
    exists v. auto.
Qed.

(** * Requests *)
Definition rlater (q q' : rquery) : Prop :=
  match q, q' with
  | RMetrics x, RMetrics y => later x y
  | RMetrics _, _ | _, RMetrics _ => False
  | _, _ => q = q'
  end.
Lemma rlater_refl q : rlater q q.
Proof. destruct q; cbn; auto using later_refl. Qed.
Definition req_later (r r' : request) : Prop := rlater (rq_query r) (rq_query r') /\ r' = with_query r (rq_query r').
Lemma rlater_validate q q' : rlater q q' -> rquery_validate q' = rquery_validate q.
Proof. destruct q, q'; cbn; intros H; try contradiction; try congruence. apply later_validate, H. Qed.
Lemma req_validate r r' : req_later r r' -> request_validate r' = request_validate r.
Proof.
  intros [H ->]. apply rlater_validate in H. destruct r; unfold request_validate, with_query in *; cbn in *. rewrite H. reflexivity.
Qed.
Lemma req_to_dict r r' : req_later r r' ->
  snd (request_to_dict r') = snd (request_to_dict r) /\ req_later r (fst (request_to_dict r')).
Proof.
  intros L. pose proof (req_validate r r' L) as V. pose proof L as [H E].
  assert (rq_flags r' = rq_flags r) as F by (rewrite E; reflexivity).
  unfold request_to_dict. rewrite V, F. destruct (request_validate r) as [u|e]; [|split; [reflexivity|exact L]].
  destruct (rflags_to_dict (rq_flags r)) as [fl|e]; [|split; [reflexivity|exact L]].
  destruct (rq_query r) as [q|q|q|o] eqn:Q, (rq_query r') as [q'|q'|q'|o'] eqn:Q'; cbn in H; try contradiction; try congruence.
  - injection H as <-. split; [cbn [snd]; rewrite E; reflexivity|exact L].
  - destruct (later_serialize q q' H) as [S1 S2]. destruct (mq_serialize q') as [x y] eqn:Sy, (mq_serialize q) as [x0 y0] eqn:Sx.
    cbn [fst snd] in *. subst y. split; [rewrite E; reflexivity|].
    split; [rewrite Q; exact S2|rewrite E; reflexivity].
  - injection H as <-. split; [cbn [snd]; rewrite E; reflexivity|exact L].
  - split; [reflexivity|exact L].
Qed.
Lemma req_serialize r r' : req_later r r' ->
  snd (request_serialize r') = snd (request_serialize r) /\ req_later r (fst (request_serialize r')).
Proof.
  intros L. destruct (req_to_dict r r' L) as [A B]. unfold request_serialize.
  destruct (request_to_dict r') as [x y], (request_to_dict r) as [x0 y0]. cbn in *. subst. auto.
Qed.
Lemma req_print r r' : req_later r r' ->
  snd (request_print r') = snd (request_print r) /\ req_later r (fst (request_print r')).
Proof.
  intros L. destruct (req_to_dict r r' L) as [A B]. unfold request_print. rewrite (req_validate r r' L).
  destruct (request_validate r); [|auto].
  destruct (request_to_dict r') as [x y], (request_to_dict r) as [x0 y0]. cbn in *. subst. auto.
Qed.

(** * Cells *)
Definition hrq_later (q q' : hrquery) : Prop :=
  match q, q' with
  | HRef a, HRef b => a = b
  | HOwn x, HOwn y => rlater x y
  | _, _ => False
  end.
Definition with_hrq (r : hrequest) (q : hrquery) : hrequest :=
  mkHR (hr_dataset r) (hr_app r) q (hr_flags r) (hr_parent r) (hr_tenants r).
Definition cell_later (k k' : cell) : Prop :=
  match k, k' with
  | KMetrics q, KMetrics q' => later q q'
  | KRequest r, KRequest r' => hrq_later (hr_query r) (hr_query r') /\ r' = with_hrq r (hr_query r')
  | KList l, KList l' => l = l'
  | KQuery q, KQuery q' => q = q'
  | _, _ => False
  end.
Definition opt_later (x y : option cell) : Prop :=
  match x, y with
  | Some k, Some k' => cell_later k k'
  | None, None => True
  | _, _ => False
  end.
Lemma cell_later_refl k : cell_later k k.
Proof.
  destruct k as [| |q|r]; cbn; auto using later_refl. split; [|destruct r; reflexivity].
  destruct (hr_query r); cbn; auto using rlater_refl.
Qed.
Lemma opt_later_refl k : opt_later k k.
Proof. destruct k; cbn; auto using cell_later_refl. Qed.

(** the cells of [H'] are later states of those of [H], on the addresses [P] *)
Definition agree (P : nat -> Prop) (H H' : heap) : Prop :=
  forall a, P a -> opt_later (nth_error H a) (nth_error H' a).
Lemma agree_list P H H' a l : agree P H H' -> P a -> nth_error H a = Some (KList l) -> nth_error H' a = Some (KList l).
Proof.
  intros A Pa E. specialize (A a Pa). rewrite E in A. destruct (nth_error H' a) as [[]|]; cbn in A; try contradiction. congruence.
Qed.
Lemma agree_val P H H' v : agree P H H' -> (forall a, v = HList a -> P a) -> see_val H' v = see_val H v.
Proof.
  intros A Pv. destruct v as [o|a]; [reflexivity|]. specialize (A a (Pv a eq_refl)). cbn.
  destruct (nth_error H a) as [[]|], (nth_error H' a) as [[]|]; cbn in A; try contradiction; try congruence; reflexivity.
Qed.
Lemma agree_clauses P H H' c : agree P H H' -> (forall x a, c x = HList a -> P a) -> see_clauses H' c = see_clauses H c.
Proof.
  intros A Pc. unfold see_clauses.
  f_equal; (eapply agree_val; [exact A|]; intros a Ea; eapply Pc; exact Ea).
Qed.
Lemma agree_see P H H' q : agree P H H' -> (forall a, holds_list q a -> P a) -> see H' q = see H q.
Proof.
  intros A. induction q as [b c|i IH c]; cbn [see]; intros Pq.
  - f_equal. eapply agree_clauses; [exact A|]. intros x a E. apply Pq. econstructor; exact E.
  - f_equal; [apply IH; intros a Ha; apply Pq, hl_inner, Ha|].
    eapply agree_clauses; [exact A|]. intros x a E. apply Pq. eapply hl_sub; exact E.
Qed.
(** ** the parts of a request *)
Definition req_parts (H : heap) (r : hrequest) (b : nat) : Prop :=
  hr_query r = HRef b \/ exists d q, hr_query r = HRef d /\ nth_error H d = Some (KQuery q) /\ holds_list q b.
Lemma agree_request P H H' r r' : agree P H H' -> (forall a, req_parts H r a -> P a) ->
  hrq_later (hr_query r) (hr_query r') -> r' = with_hrq r (hr_query r') ->
  match see_request H r, see_request H' r' with
  | Some x, Some x' => req_later x x'
  | None, None => True
  | _, _ => False
  end.
Proof.
  intros A Pr L E. unfold see_request.
  assert (match see_rquery H (hr_query r), see_rquery H' (hr_query r') with
          | Some x, Some x' => rlater x x' | None, None => True | _, _ => False end) as K.
  { destruct (hr_query r) as [a|q] eqn:Qr, (hr_query r') as [a'|q'] eqn:Qr'; cbn in L; try contradiction; [|exact L].
    subst a'. cbn. assert (P a) as Pa by (apply Pr; left; exact Qr). pose proof (A a Pa) as Aa.
    destruct (nth_error H a) as [k|] eqn:Ea, (nth_error H' a) as [k'|] eqn:Ea'; cbn in Aa; try contradiction; [|exact I].
    destruct k as [l|q|q|x], k' as [l'|q'|q'|x']; cbn in Aa; try contradiction; cbn; try exact I; [|exact Aa].
    subst q'. f_equal. symmetry. eapply agree_see; [exact A|]. intros b Hb. apply Pr. right. exists a, q. auto. }
  destruct (see_rquery H (hr_query r)) as [x|], (see_rquery H' (hr_query r')) as [x'|]; try contradiction; [|exact I].
  split; [exact K|]. rewrite E. reflexivity.
Qed.

(** ** the answer to a question *)
Lemma part_request H a r b : nth_error H a = Some (KRequest r) -> req_parts H r b -> part_of H a b.
Proof.
  intros E [Q|(d & q & Q & Ed & Hl)]; [eapply po_query; eassumption|eapply po_deep; eassumption].
Qed.
Lemma ask_same H H' a m : agree (part_of H a) H H' -> about_sending H a m -> snd (ask H' a m) = snd (ask H a m).
Proof.
  intros A S. pose proof (A a (po_self H a)) as Aa. unfold ask.
  destruct (nth_error H a) as [k|] eqn:Ea, (nth_error H' a) as [k'|] eqn:Ea'; cbn in Aa; try contradiction; [|reflexivity].
  destruct k as [l|q|q|r], k' as [l'|q'|q'|r']; cbn in Aa; try contradiction; [reflexivity|..].
  - subst q'. assert (see H' q = see H q) as E by (eapply agree_see; [exact A|]; intros b Hb; eapply po_list; eassumption).
    rewrite E. destruct m; reflexivity.
  - destruct m; cbn [snd]; try reflexivity.
    + rewrite (later_validate q q' Aa). reflexivity.
    + destruct (later_serialize q q' Aa) as [Sq _]. destruct (mq_serialize q'), (mq_serialize q). cbn in *. congruence.
    + exfalso. apply (S q Ea).
    + exfalso. apply (S q Ea).
  - destruct Aa as [L E]. assert (forall b, req_parts H r b -> part_of H a b) as Pr by (intros b; apply part_request, Ea).
    pose proof (agree_request _ H H' r r' A Pr L E) as K.
    destruct (see_request H r) as [x|], (see_request H' r') as [x'|]; try contradiction; [|reflexivity].
    destruct m; cbn [snd].
    + rewrite (req_validate x x' K). reflexivity.
    + destruct (req_serialize x x' K) as [Sq _]. destruct (request_serialize x'), (request_serialize x). cbn in *. congruence.
    + destruct (req_print x x' K) as [Sq _]. destruct (request_print x'), (request_print x). cbn in *. congruence.
    + destruct (req_serialize x x' K) as [Sq _]. destruct (request_serialize x'), (request_serialize x). cbn in *. congruence.
    + destruct (req_to_dict x x' K) as [Sq _]. destruct (request_to_dict x'), (request_to_dict x). cbn in *. congruence.
Qed.

(** ** asking changes nothing but to a later state *)
Lemma later_trans q1 q2 q3 : later q1 q2 -> later q2 q3 -> later q1 q3.
Proof.
  intros L12 (w & -> & Hw). pose proof (later_check q1 q2 L12) as C. destruct L12 as (v & -> & Hv).
  rewrite mq_put_get in *. rewrite mq_put_query. exists w. split; [reflexivity|].
  destruct Hw as [->|[Cw Ow]]; [exact Hv|]. destruct Hv as [->|[Cv Ov]]; [auto|].
  right. split; [exact Cv|]. rewrite Ov. f_equal. apply optimize_mval_idem in Ov. congruence.
Qed.
Lemma rlater_trans q1 q2 q3 : rlater q1 q2 -> rlater q2 q3 -> rlater q1 q3.
Proof. destruct q1, q2, q3; cbn; intros H1 H2; try contradiction; try congruence. eapply later_trans; eassumption. Qed.
Lemma cell_later_trans k1 k2 k3 : cell_later k1 k2 -> cell_later k2 k3 -> cell_later k1 k3.
Proof.
  destruct k1 as [| | |r1], k2 as [| | |r2], k3 as [| | |r3]; cbn; intros H1 H2; try contradiction; try congruence.
  - eapply later_trans; eassumption.
  - destruct H1 as [H1 E1], H2 as [H2 E2]. split; [|rewrite E2, E1; reflexivity].
    destruct (hr_query r1), (hr_query r2), (hr_query r3); cbn in *; try contradiction; try congruence. eapply rlater_trans; eassumption.
Qed.
Lemma opt_later_trans k1 k2 k3 : opt_later k1 k2 -> opt_later k2 k3 -> opt_later k1 k3.
Proof. destruct k1, k2, k3; cbn; intros H1 H2; try contradiction; try exact I. eapply cell_later_trans; eassumption. Qed.

Definition grows (H H' : heap) : Prop := forall a, opt_later (nth_error H a) (nth_error H' a).
Lemma grows_put H a k k' : nth_error H a = Some k -> cell_later k k' -> grows H (put H a k').
Proof.
  intros E L b. destruct (Nat.eq_dec a b) as [<-|N].
  - rewrite nth_put_same by (eapply nth_some_lt, E). rewrite E. exact L.
  - rewrite nth_put_other by exact N. apply opt_later_refl.
Qed.
Lemma grows_refl H : grows H H.
Proof. intros a. apply opt_later_refl. Qed.
Lemma grows_write H a r x x' : nth_error H a = Some (KRequest r) -> see_request H r = Some x -> req_later x x' ->
  grows H (write_back H a r x').
Proof.
  intros Ea Sx [L E]. unfold write_back. unfold see_request in Sx.
  destruct (hr_query r) as [b|q] eqn:Q; cbn in Sx.
  - destruct (nth_error H b) as [[l|q|q|y]|] eqn:Eb; try discriminate Sx; injection Sx as <-; cbn in L.
    + destruct (rq_query x'); try contradiction; apply grows_refl.
    + destruct (rq_query x'); try contradiction. eapply grows_put; [exact Eb|exact L].
  - injection Sx as <-. cbn in L. eapply grows_put; [exact Ea|]. cbn. rewrite Q. split; [exact L|reflexivity].
Qed.
Lemma req_later_refl r : req_later r r.
Proof. split; [apply rlater_refl|destruct r; reflexivity]. Qed.
Lemma ask_grows H a m : grows H (fst (ask H a m)).
Proof.
  unfold ask. destruct (nth_error H a) as [[l|q|q|r]|] eqn:Ea; try apply grows_refl.
  - destruct m; apply grows_refl.
  - destruct m; try apply grows_refl. destruct (later_serialize q q (later_refl q)) as [_ L].
    destruct (mq_serialize q) as [q' x]. eapply grows_put; [exact Ea|exact L].
  - destruct (see_request H r) as [x|] eqn:Sx; [|apply grows_refl].
    destruct m; try apply grows_refl.
    + destruct (req_serialize x x (req_later_refl x)) as [_ L]. destruct (request_serialize x). eapply grows_write; eassumption.
    + destruct (req_print x x (req_later_refl x)) as [_ L]. destruct (request_print x). eapply grows_write; eassumption.
    + destruct (req_serialize x x (req_later_refl x)) as [_ L]. destruct (request_serialize x). eapply grows_write; eassumption.
    + destruct (req_to_dict x x (req_later_refl x)) as [_ L]. destruct (request_to_dict x). eapply grows_write; eassumption.
Qed.
Lemma grows_trans H1 H2 H3 : grows H1 H2 -> grows H2 H3 -> grows H1 H3.
Proof. intros A B a. eapply opt_later_trans; [apply A|apply B]. Qed.
Lemma grows_length H H' : grows H H' -> List.length H = List.length H'.
Proof.
  intros G. destruct (Nat.lt_trichotomy (List.length H) (List.length H')) as [L|[L|L]]; [|exact L|].
  - exfalso. specialize (G (List.length H)). rewrite (proj2 (nth_error_None H _)) in G by lia.
    destruct (nth_error H' (List.length H)) eqn:E; [exact G|]. apply nth_error_None in E. lia.
  - exfalso. specialize (G (List.length H')). rewrite (proj2 (nth_error_None H' _)) in G by lia.
    destruct (nth_error H (List.length H')) eqn:E; [exact G|]. apply nth_error_None in E. lia.
Qed.

(** * The other calls *)
Lemma grows_agree H H' : grows H H' -> agree (fun _ => True) H H'.
Proof. intros G a _. apply G. Qed.
Lemma grows_see H H' q : grows H H' -> see H' q = see H q.
Proof. intros G. eapply agree_see; [apply grows_agree, G|intros; exact I]. Qed.
Lemma grows_val H H' q : grows H H' -> see_val H' q = see_val H q.
Proof. intros G. eapply agree_val; [apply grows_agree, G|intros; exact I]. Qed.
Lemma grows_clauses H H' q : grows H H' -> see_clauses H' q = see_clauses H q.
Proof. intros G. eapply agree_clauses; [apply grows_agree, G|intros; exact I]. Qed.
Lemma grows_match H H' m : grows H H' -> see_match H' m = see_match H m.
Proof.
  intros G. destruct m as [a|o]; [|reflexivity]. cbn. pose proof (G a) as Ga.
  destruct (nth_error H a) as [[]|], (nth_error H' a) as [[]|]; cbn in Ga; try contradiction; try reflexivity.
  subst. rewrite (grows_see H H') by exact G. reflexivity.
Qed.
Lemma grows_store H H' m c : grows H H' -> store_match H' m c = store_match H m c.
Proof.
  intros G. destruct m as [a|o]; [|reflexivity]. cbn. pose proof (G a) as Ga.
  destruct (nth_error H a) as [[]|], (nth_error H' a) as [[]|]; cbn in Ga; try contradiction; try reflexivity.
  subst. reflexivity.
Qed.
Lemma grows_real_val H H' v : grows H H' -> real_val H' v = real_val H v.
Proof.
  intros G. destruct v as [o|a]; [reflexivity|]. cbn. pose proof (G a) as Ga.
  destruct (nth_error H a) as [[]|], (nth_error H' a) as [[]|]; cbn in Ga; try contradiction; reflexivity.
Qed.
Lemma grows_real_clauses H H' c : grows H H' -> real_clauses H' c = real_clauses H c.
Proof.
  intros G. unfold real_clauses. induction every_clause as [|x l IH]; cbn; [reflexivity|].
  rewrite IH, (grows_real_val H H') by exact G. reflexivity.
Qed.
Lemma grows_real_request H H' r : grows H H' -> real_request H' r = real_request H r.
Proof.
  intros G. unfold real_request. destruct (hr_query r) as [a|q]; [|reflexivity]. pose proof (G a) as Ga.
  destruct (nth_error H a) as [[]|], (nth_error H' a) as [[]|]; cbn in Ga; try contradiction; reflexivity.
Qed.
Lemma grows_new H H' k k' : grows H H' -> cell_later k k' ->
  grows (fst (new H k)) (fst (new H' k')) /\ snd (new H k) = snd (new H' k').
Proof.
  intros G L. pose proof (grows_length H H' G) as E. cbn. rewrite E. split; [|reflexivity].
  intros a. destruct (Nat.lt_ge_cases a (List.length H)) as [La|La].
  - rewrite !nth_error_app1 by lia. apply G.
  - rewrite !nth_error_app2 by lia. rewrite E. destruct (a - List.length H') as [|n]; cbn; [exact L|]. destruct n; exact I.
Qed.
Lemma grows_puts H H' a k k' : grows H H' -> cell_later k k' -> grows (put H a k) (put H' a k').
Proof.
  intros G L b. destruct (Nat.eq_dec a b) as [<-|N].
  - destruct (Nat.lt_ge_cases a (List.length H)) as [La|La].
    + rewrite !nth_put_same; [exact L|rewrite <- (grows_length H H' G); exact La|exact La].
    + rewrite (proj2 (nth_error_None _ _)); [|rewrite put_length; exact La].
      rewrite (proj2 (nth_error_None _ _)); [exact I|]. rewrite put_length, <- (grows_length H H' G). exact La.
  - rewrite !nth_put_other by exact N. apply G.
Qed.
Lemma step_grows H H' c : grows H H' -> asks c = false ->
  grows (fst (step H c)) (fst (step H' c)) /\ snd (step H' c) = snd (step H c).
Proof.
  intros G N.
  assert (forall k k', cell_later k k' ->
    grows (fst (new H k)) (fst (new H' k')) /\ snd (new H' k') = snd (new H k)) as Nw.
  { intros k k' L. destruct (grows_new H H' k k' G L) as [A B]. auto. }
  destruct c as [l|a o|m c|a m|a c v|q|a f v|a f v|r|a r|a m]; try discriminate N; unfold step.
  - apply Nw, cell_later_refl.
  - pose proof (G a) as Ga. destruct (nth_error H a) as [[l|q|q|r]|], (nth_error H' a) as [[l'|q'|q'|r']|]; cbn in Ga; try contradiction; cbn; auto.
    subst l'. split; [|reflexivity]. apply grows_puts; [exact G|apply cell_later_refl].
  - rewrite (grows_real_clauses H H'), (grows_match H H'), (grows_clauses H H'), (grows_store H H') by exact G.
    destruct (real_clauses H c); cbn; [|auto]. destruct (see_match H m) as [x|]; cbn; [|auto].
    destruct (mk_query x (see_clauses H c)); cbn; [|auto]. destruct (store_match H m c); cbn; [|auto].
    apply Nw, cell_later_refl.
  - pose proof (G a) as Ga. rewrite (grows_match H H') by exact G.
    destruct (nth_error H a) as [[l|q|q|r]|], (nth_error H' a) as [[l'|q'|q'|r']|]; cbn in Ga; try contradiction; cbn; auto.
    subst q'. destruct (see_match H m) as [x|]; cbn; [|auto]. rewrite (grows_see H H'), (grows_store H H') by exact G.
    destruct (set_match (see H q) x); cbn; [|auto]. destruct (store_match H m (hq_clauses q)); cbn; [|auto].
    apply Nw, cell_later_refl.
  - pose proof (G a) as Ga. rewrite (grows_real_val H H') by exact G.
    destruct (nth_error H a) as [[l|q|q|r]|], (nth_error H' a) as [[l'|q'|q'|r']|]; cbn in Ga; try contradiction; cbn; auto.
    subst q'. destruct (real_val H v); cbn; [|auto]. rewrite (grows_see H H'), (grows_val H H') by exact G.
    destruct (set_clause c (see H q) (see_val H v)); cbn; [|auto]. apply Nw, cell_later_refl.
  - apply Nw, cell_later_refl.
  - pose proof (G a) as Ga.
    destruct (nth_error H a) as [[l|q|q|r]|], (nth_error H' a) as [[l'|q'|q'|r']|]; cbn in Ga; try contradiction; cbn; auto.
    pose proof (later_set f v q q' Ga) as K. destruct (mq_set f q v), (mq_set f q' v); try contradiction; [|subst; auto].
    apply Nw. exact K.
  - pose proof (G a) as Ga.
    destruct (nth_error H a) as [[l|q|q|r]|], (nth_error H' a) as [[l'|q'|q'|r']|]; cbn in Ga; try contradiction; cbn; auto.
    split; [|reflexivity]. apply grows_puts; [exact G|]. cbn. apply later_put, Ga.
  - rewrite (grows_real_request H H') by exact G. destruct (real_request H r); cbn; [|auto]. apply Nw, cell_later_refl.
  - pose proof (G a) as Ga. rewrite (grows_real_request H H') by exact G.
    destruct (nth_error H a) as [[l|q|q|r0]|], (nth_error H' a) as [[l'|q'|q'|r0']|]; cbn in Ga; try contradiction; cbn; auto.
    destruct (real_request H r); cbn; [|auto].
    split; [|reflexivity]. apply grows_puts; [exact G|apply cell_later_refl].
Qed.
Lemma run_grows cs : forall H H', grows H H' -> grows (run H (filter (fun c => negb (asks c)) cs)) (run H' cs).
Proof.
  induction cs as [|c cs IH]; cbn; intros H H' G; [exact G|]. destruct (asks c) eqn:E; cbn.
  - apply IH. destruct c; try discriminate E. cbn. eapply grows_trans; [exact G|apply ask_grows].
  - apply IH, step_grows; assumption.
Qed.

(** * Objects that are not touched *)
(** references point to objects of the right class *)
Definition sound_cell (H : heap) (k : cell) : Prop :=
  match k with
  | KQuery q => forall a, holds_list q a -> exists l, nth_error H a = Some (KList l)
  | KRequest r => forall a, hr_query r = HRef a ->
      exists k, nth_error H a = Some k /\ match k with KQuery _ | KMetrics _ => True | _ => False end
  | _ => True
  end.
Definition sound (H : heap) : Prop := forall a k, nth_error H a = Some k -> sound_cell H k.
(** every object keeps its class, and every Query its value *)
Definition keeps (H H' : heap) : Prop := forall a k, nth_error H a = Some k ->
  exists k', nth_error H' a = Some k' /\
  match k, k' with
  | KList _, KList _ | KMetrics _, KMetrics _ | KRequest _, KRequest _ => True
  | KQuery q, KQuery q' => q = q'
  | _, _ => False
  end.
Lemma keeps_refl H : keeps H H.
Proof. intros a k E. exists k. split; [exact E|]. destruct k; auto. Qed.
Lemma keeps_trans H1 H2 H3 : keeps H1 H2 -> keeps H2 H3 -> keeps H1 H3.
Proof.
  intros A B a k E. destruct (A a k E) as (k2 & E2 & M). destruct (B a k2 E2) as (k3 & E3 & M3). exists k3. split; [exact E3|].
  destruct k, k2, k3; try contradiction; auto. congruence.
Qed.
Lemma keeps_sound_cell H H' k : keeps H H' -> sound_cell H k -> sound_cell H' k.
Proof.
  intros K S. destruct k as [l|q|q|r]; cbn in *; auto.
  - intros a Ha. destruct (S a Ha) as (l & E). destruct (K a _ E) as (k' & E' & M). destruct k'; try contradiction. eauto.
  - intros a Ha. destruct (S a Ha) as (k & E & M). destruct (K a _ E) as (k' & E' & M'). exists k'. split; [exact E'|].
    destruct k, k'; try contradiction; auto.
Qed.
Lemma keeps_put H a k k' : nth_error H a = Some k ->
  match k, k' with
  | KList _, KList _ | KMetrics _, KMetrics _ | KRequest _, KRequest _ => True
  | KQuery q, KQuery q' => q = q'
  | _, _ => False
  end -> keeps H (put H a k').
Proof.
  intros E M b x Eb. destruct (Nat.eq_dec a b) as [<-|N].
  - exists k'. rewrite nth_put_same by (eapply nth_some_lt, E). split; [reflexivity|]. rewrite E in Eb. injection Eb as <-. exact M.
  - exists x. rewrite nth_put_other by exact N. split; [exact Eb|]. destruct x; auto.
Qed.
Lemma keeps_new H k : keeps H (fst (new H k)).
Proof.
  intros a x E. exists x. cbn. rewrite nth_error_app1 by (eapply nth_some_lt, E). split; [exact E|]. destruct x; auto.
Qed.
Lemma grows_keeps H H' : grows H H' -> keeps H H'.
Proof.
  intros G a k E. specialize (G a). rewrite E in G. destruct (nth_error H' a) as [k'|]; [|contradiction].
  exists k'. split; [reflexivity|]. destruct k, k'; cbn in G; auto.
Qed.
Lemma step_keeps H c : keeps H (fst (step H c)).
Proof.
  destruct c as [l|a o|m c|a m|a c v|q|a f v|a f v|r|a r|a m]; unfold step; try apply keeps_new.
  - destruct (nth_error H a) as [[]|] eqn:E; try apply keeps_refl. eapply keeps_put; [exact E|exact I].
  - destruct (real_clauses H c), (see_match H m) as [x|]; try apply keeps_refl.
    destruct (mk_query x _), (store_match H m c); try apply keeps_refl. apply keeps_new.
  - destruct (nth_error H a) as [[]|], (see_match H m) as [x|]; try apply keeps_refl.
    destruct (set_match (see H q) x), (store_match H m (hq_clauses q)); try apply keeps_refl. apply keeps_new.
  - destruct (nth_error H a) as [[]|], (real_val H v); try apply keeps_refl.
    destruct (set_clause c _ _); try apply keeps_refl. apply keeps_new.
  - destruct (nth_error H a) as [[]|]; try apply keeps_refl. destruct (mq_set f q v); [apply keeps_new|apply keeps_refl].
  - destruct (nth_error H a) as [[]|] eqn:E; try apply keeps_refl. eapply keeps_put; [exact E|exact I].
  - destruct (real_request H r); [apply keeps_new|apply keeps_refl].
  - destruct (nth_error H a) as [[]|] eqn:E; try apply keeps_refl. destruct (real_request H r); try apply keeps_refl.
    eapply keeps_put; [exact E|exact I].
  - apply grows_keeps, ask_grows.
Qed.
Lemma real_list H c x a : real_clauses H c = true -> c x = HList a -> exists l, nth_error H a = Some (KList l).
Proof.
  intros R E. unfold real_clauses in R. rewrite forallb_forall in R. specialize (R x).
  assert (In x every_clause) as I by (destruct x; cbn; auto 20). specialize (R I). rewrite E in R. cbn in R.
  destruct (nth_error H a) as [[]|]; try discriminate R. eauto.
Qed.
Lemma sound_put H a k k' : sound H -> keeps H (put H a k') -> nth_error H a = Some k -> sound_cell H k' -> sound (put H a k').
Proof.
  intros S K E C b x Eb. apply keeps_sound_cell with (1 := K). destruct (Nat.eq_dec a b) as [<-|N].
  - rewrite nth_put_same in Eb by (eapply nth_some_lt, E). injection Eb as <-. exact C.
  - rewrite nth_put_other in Eb by exact N. eapply S, Eb.
Qed.
Lemma sound_new H k : sound H -> sound_cell H k -> sound (fst (new H k)).
Proof.
  intros S C b x Eb. apply keeps_sound_cell with (1 := keeps_new H k). cbn in Eb.
  destruct (Nat.lt_ge_cases b (List.length H)) as [L|L].
  - rewrite nth_error_app1 in Eb by exact L. eapply S, Eb.
  - rewrite nth_error_app2 in Eb by exact L. destruct (b - List.length H) as [|n]; cbn in Eb; [injection Eb as <-; exact C|].
    destruct n; discriminate Eb.
Qed.
Lemma store_sound H m c q : sound H -> (forall x a, c x = HList a -> exists l, nth_error H a = Some (KList l)) ->
  store_match H m c = Some q -> sound_cell H (KQuery q).
Proof.
  intros S R E. destruct m as [a|o]; cbn in E.
  - destruct (nth_error H a) as [[]|] eqn:Ea; try discriminate E. injection E as <-. intros d Hd. inversion Hd; subst; eauto.
    eapply S in Ea. apply Ea. assumption.
  - destruct (base_of o); [|discriminate E]. injection E as <-. intros d Hd. inversion Hd; subst. eauto.
Qed.
Lemma hq_list H q x a : sound_cell H (KQuery q) -> hq_clauses q x = HList a -> exists l, nth_error H a = Some (KList l).
Proof. intros S E. apply S. destruct q; cbn in E; econstructor; exact E. Qed.
Lemma grows_sound H H' : sound H -> grows H H' -> sound H'.
Proof.
  intros S G a k E. pose proof (G a) as Ga. rewrite E in Ga. destruct (nth_error H a) as [k0|] eqn:E0; [|contradiction].
  apply keeps_sound_cell with (1 := grows_keeps H H' G). specialize (S a k0 E0).
  destruct k0, k; cbn in Ga; try contradiction; cbn in *; auto; [subst; exact S|].
  destruct Ga as [L Er]. intros b Eb. rewrite Eb in L. destruct (hr_query r) eqn:Q; cbn in L; try contradiction. apply S. congruence.
Qed.
Lemma step_sound H c : sound H -> sound (fst (step H c)).
Proof.
  intros S. pose proof (step_keeps H c) as K.
  destruct c as [l|a o|m c|a m|a c v|q|a f v|a f v|r|a r|a m]; unfold step in *; try (apply sound_new; [exact S|exact I]).
  - destruct (nth_error H a) as [[]|] eqn:E; try exact S. eapply sound_put; [exact S|exact K|exact E|exact I].
  - destruct (real_clauses H c) eqn:R; [|exact S]. destruct (see_match H m) as [x|]; try exact S.
    destruct (mk_query x _); [|exact S]. destruct (store_match H m c) eqn:E; try exact S. apply sound_new; [exact S|].
    eapply store_sound; [exact S| |exact E]. intros y z. apply real_list, R.
  - destruct (nth_error H a) as [[]|] eqn:Ea; try exact S. destruct (see_match H m) as [x|]; try exact S.
    destruct (set_match (see H q) x); [|exact S]. destruct (store_match H m (hq_clauses q)) eqn:E; try exact S. apply sound_new; [exact S|].
    eapply store_sound; [exact S| |exact E]. intros y z. apply hq_list. eapply S, Ea.
  - destruct (nth_error H a) as [[]|] eqn:Ea; try exact S. destruct (real_val H v) eqn:R; try exact S.
    destruct (set_clause c _ _) as [q0|]; try exact S. apply sound_new; [exact S|].
    pose proof (S a _ Ea) as Sq. cbn in Sq. intros b Hb. unfold with_clause in Hb.
    assert (forall y, (if clause_eqb y c then stored c v q0 else hq_clauses q y) = HList b -> exists l, nth_error H b = Some (KList l)) as W.
    { intros y. destruct (clause_eqb y c).
      - destruct v as [o|d]; cbn; intros E; [discriminate E|]. injection E as ->. cbn in R. destruct (nth_error H b) as [[]|]; try discriminate R. eauto.
      - intros E. eapply hq_list; [exact Sq|exact E]. }
    destruct q as [bb cc|i cc]; cbn in Hb; inversion Hb; subst; eauto. apply Sq. apply hl_inner. assumption.
  - destruct (nth_error H a) as [[]|]; try exact S. destruct (mq_set f q v); [|exact S]. apply sound_new; [exact S|exact I].
  - destruct (nth_error H a) as [[]|] eqn:E; try exact S. eapply sound_put; [exact S|exact K|exact E|exact I].
  - destruct (real_request H r) eqn:R; try exact S. apply sound_new; [exact S|]. cbn. unfold real_request in R. intros a Ea. rewrite Ea in R.
    destruct (nth_error H a) as [k|]; [|discriminate R]. exists k. split; [reflexivity|]. destruct k; try discriminate R; exact I.
  - destruct (nth_error H a) as [[]|] eqn:E; try exact S. destruct (real_request H r) eqn:R; try exact S.
    eapply sound_put; [exact S|exact K|exact E|]. cbn. unfold real_request in R. intros b Eb. rewrite Eb in R.
    destruct (nth_error H b) as [k|]; [|discriminate R]. exists k. split; [reflexivity|]. destruct k; try discriminate R; exact I.
  - eapply grows_sound; [exact S|apply ask_grows].
Qed.
Lemma run_sound cs : forall H, sound H -> sound (run H cs).
Proof. induction cs as [|c cs IH]; cbn; intros H S; [exact S|]. apply IH, step_sound, S. Qed.
Lemma nil_sound : sound [].
Proof. intros [|a] k E; discriminate E. Qed.
Lemma part_exists H a b : sound H -> a < List.length H -> part_of H a b -> b < List.length H.
Proof.
  intros S L P. inversion P as [|q c E Hl|r c E Q|r d q c E Q Ed Hl]; subst; [exact L|..].
  - apply (S a _ E) in Hl as (l & El). eapply nth_some_lt, El.
  - apply (S a _ E) in Q as (k & Ek & _). eapply nth_some_lt, Ek.
  - apply (S d _ Ed) in Hl as (l & El). eapply nth_some_lt, El.
Qed.
(** a call that does not assign to [b] leaves the object there in a later state *)
Lemma step_other H c b : b < List.length H -> changes c <> Some b -> opt_later (nth_error H b) (nth_error (fst (step H c)) b).
Proof.
  intros L N.
  assert (forall k, opt_later (nth_error H b) (nth_error (fst (new H k)) b)) as Nw.
  { intros k. cbn. rewrite nth_error_app1 by exact L. apply opt_later_refl. }
  assert (forall a k, a <> b -> opt_later (nth_error H b) (nth_error (put H a k) b)) as Pt.
  { intros a k D. rewrite nth_put_other by exact D. apply opt_later_refl. }
  destruct c as [l|a o|m c|a m|a c v|q|a f v|a f v|r|a r|a m]; unfold step; cbn [changes] in N; try apply Nw.
  - destruct (nth_error H a) as [[]|]; try apply opt_later_refl. apply Pt. congruence.
  - destruct (real_clauses H c), (see_match H m) as [x|]; try apply opt_later_refl.
    destruct (mk_query x _), (store_match H m c); try apply opt_later_refl. apply Nw.
  - destruct (nth_error H a) as [[]|], (see_match H m) as [x|]; try apply opt_later_refl.
    destruct (set_match (see H q) x), (store_match H m (hq_clauses q)); try apply opt_later_refl. apply Nw.
  - destruct (nth_error H a) as [[]|], (real_val H v); try apply opt_later_refl.
    destruct (set_clause c _ _); try apply opt_later_refl. apply Nw.
  - destruct (nth_error H a) as [[]|]; try apply opt_later_refl. destruct (mq_set f q v); [apply Nw|apply opt_later_refl].
  - destruct (nth_error H a) as [[]|]; try apply opt_later_refl. apply Pt. congruence.
  - destruct (real_request H r); [apply Nw|apply opt_later_refl].
  - destruct (nth_error H a) as [[]|]; try apply opt_later_refl. destruct (real_request H r); try apply opt_later_refl. apply Pt. congruence.
  - apply ask_grows.
Qed.
Lemma step_length H c : List.length H <= List.length (fst (step H c)).
Proof.
  pose proof (step_keeps H c) as K. destruct (List.length H) as [|n] eqn:E; [lia|].
  destruct (nth_error H n) as [k|] eqn:En; [|apply nth_error_None in En; lia].
  destruct (K n k En) as (k' & E' & _). apply nth_some_lt in E'. lia.
Qed.
Lemma run_other cs : forall H b, b < List.length H -> (forall c, In c cs -> changes c <> Some b) ->
  opt_later (nth_error H b) (nth_error (run H cs) b).
Proof.
  induction cs as [|c cs IH]; cbn [run]; intros H b L N; [apply opt_later_refl|].
  eapply opt_later_trans; [apply step_other; [exact L|apply N; left; reflexivity]|].
  apply IH; [eapply Nat.lt_le_trans; [exact L|apply step_length]|]. intros x Hx. apply N. right. exact Hx.
Qed.
End S.
