(** C83: an invariant for threads that share MetricsQuery objects. *)
From Verif Require Import PyBase PyFacts Objects Exprs Query Optimizer OptFacts Metrics Mql MetricsQuery MetricsQueryFacts
  Json Request History HistoryFacts Threads SpecThreads.

Section F.
Context {RT : PyRT} {ST : PyStr}.

(** * serialize() and the object afterwards *)
Lemma serialized_field q f : f <> FQuery -> mq_get f (serialized q) = mq_get f q.
Proof.
  intros N. unfold serialized, mq_serialize. destruct (mq_validate q); [|reflexivity].
  destruct (optimize_mval (mq_query q)); [|reflexivity]. cbn [fst]. destruct q, f; try reflexivity. congruence.
Qed.
Lemma serialized_put q : mq_put FQuery (mq_query (serialized q)) q = serialized q.
Proof.
  unfold serialized, mq_serialize. destruct (mq_validate q); [|apply mq_put_same].
  destruct (optimize_mval (mq_query q)); [|apply mq_put_same]. cbn [fst]. destruct q; reflexivity.
Qed.
Lemma serialized_check q : check_query (mq_query (serialized q)) = check_query (mq_query q).
Proof.
  unfold serialized, mq_serialize. destruct (mq_validate q) as [[]|] eqn:V; [|reflexivity].
  destruct (optimize_mval (mq_query q)) as [v|] eqn:O; [|reflexivity]. cbn [fst].
  replace (mq_query (mq_put FQuery v q)) with v by (destruct q; reflexivity).
  apply mq_validate_query in V. rewrite V. eapply check_query_optimized; eassumption.
Qed.
Lemma serialized_twice q : serialized (serialized q) = serialized q.
Proof.
  unfold serialized. destruct (mq_serialize q) as [q1 r] eqn:E. cbn [fst]. rewrite (serialize_again _ _ _ E). reflexivity.
Qed.

(** * Code that goes right whenever other threads store what serialize() stores *)
Section One.
Variables (a : nat) (q : mquery).
Local Notation q1 := (serialized q).
(** [k]: the object is known to be as serialize() leaves it *)
Fixpoint good {A} (k : bool) (c : code A) (post : bool -> result A -> Prop) (made : mquery -> Prop) : Prop :=
  match c with
  | Done r => post k r
  | New x => made x
  | Load b f g => b = a /\ good true (g (mq_get f q1)) post made /\ (k = false -> good false (g (mq_get f q)) post made)
  | Store b f v g => b = a /\ f = FQuery /\ v = mq_query q1 /\ good true g post made
  end.
Lemma good_impl A (c : code A) : forall k (post post' : bool -> result A -> Prop) (made made' : mquery -> Prop), good k c post made ->
  (forall k' r, (k = true -> k' = true) -> post k' r -> post' k' r) -> (forall x, made x -> made' x) -> good k c post' made'.
Proof.
  induction c as [r|x|b f g IH|b f v g IH]; intros k post post' made made' G H M; cbn [good] in *.
  - apply H; auto.
  - apply M, G.
  - destruct G as (E & G1 & G2). split; [exact E|]. split.
    + eapply IH; [exact G1| |exact M]. intros k' r K. apply H. intros _. apply K. reflexivity.
    + intros K. subst k. eapply IH; [exact (G2 eq_refl)| |exact M]. intros k' r _. apply H. discriminate.
  - destruct G as (E & E' & E2 & G). repeat split; auto. eapply IH; [exact G| |exact M].
    intros k' r K. apply H. intros _. apply K. reflexivity.
Qed.
Lemma good_bind A B (c : code A) (d : A -> code B) : forall k post made,
  good k c (fun k' r => match r with Ok x => good k' (d x) post made | Raise e => post k' (Raise e) end) made ->
  good k (cbind c d) post made.
Proof.
  induction c as [r|x|b f g IH|b f v g IH]; intros k post made G; cbn [good cbind] in *.
  - destruct r; exact G.
  - exact G.
  - destruct G as (E & G1 & G2). auto.
  - destruct G as (E & E' & E2 & G). auto.
Qed.
(** code with one possible result *)
Definition gives {A} (k : bool) (c : code A) (r : result A) : Prop :=
  good k c (fun k' r' => (k = true -> k' = true) /\ r' = r) (fun _ => False).
Lemma gives_bind A B (c : code A) (d : A -> code B) k r (s : A -> result B) : gives k c r ->
  (forall k' x, (k = true -> k' = true) -> r = Ok x -> gives k' (d x) (s x)) ->
  gives k (cbind c d) (let! x := r in s x).
Proof.
  intros G H. apply good_bind. eapply good_impl; [exact G| |auto]. intros k' r' K [K' ->]. destruct r as [x|e]; cbn.
  - eapply good_impl; [apply H; auto| |auto]. intros k2 r2 K2 [K3 ->]. auto.
  - auto.
Qed.
Lemma gives_done A k (r : result A) : gives k (Done r) r.
Proof. cbn. auto. Qed.
Lemma gives_look A k f (r : mval -> result A) : r (mq_get f q1) = r (mq_get f q) -> gives k (look a f r) (r (mq_get f q)).
Proof. intros E. cbn. rewrite E. split; [reflexivity|]. split; [auto|intros ->; auto]. Qed.
Lemma gives_field A k f (r : mval -> result A) : f <> FQuery -> gives k (look a f r) (r (mq_get f q)).
Proof. intros N. apply gives_look. rewrite serialized_field by exact N. reflexivity. Qed.

Ltac fields := repeat (first [apply gives_bind; [apply gives_field; discriminate|intros ? ? _ _] | apply gives_done | apply gives_field; discriminate]).
Lemma validate_gives k : gives k (validate_code a) (mq_validate q).
Proof.
  unfold validate_code, mq_validate. apply (gives_bind _ _ _ _ k (check_query (mq_query q))).
  { apply (gives_look _ k FQuery check_query). apply serialized_check. }
  intros k' x _ _. fields.
Qed.
Lemma optimize_good k : mq_validate q = Ok tt ->
  good k (optimize_code a) (fun k' r => match optimize_mval (mq_query q) with
    | Ok _ => r = Ok tt /\ (k' = true \/ q1 = q)
    | Raise e => r = Raise e
    end) (fun _ => False).
Proof.
  intros V.
  assert (mq_query q1 = match optimize_mval (mq_query q) with Ok v => v | Raise _ => mq_query q end) as Q.
  { unfold serialized, mq_serialize. rewrite V. destruct (optimize_mval (mq_query q)); [|reflexivity]. destruct q; reflexivity. }
  assert (mq_query q1 = mq_query q -> q1 = q) as S by (intros E; rewrite <- serialized_put, E; apply mq_put_same).
  unfold optimize_code, look. clear V.
  Ltac walk a b := repeat first [progress cbn -[mk_timeseries optimize] | rewrite a | rewrite b | split | intros K; discriminate K | intros _ | reflexivity].
  assert (forall x : mquery, x = x) as R by reflexivity.
  destruct (mq_query q) as [o|m|t|r|sc|n pk ps ag f g] eqn:Ev.
  1,2,4,5: cbn in Q; walk Q Ev; auto.
  - cbn [optimize_mval] in *. destruct (ts_filters t) as [fs|] eqn:Ef.
    2:{ walk Q Ev; rewrite ?Ef; walk Q Ev; auto. }
    destruct (optimize fs) as [[fs'|]|e] eqn:Eo; cbn [PyBase.bind ts_fields] in *.
    + destruct (mk_timeseries (VMetric (ts_metric t)) (OStr (ts_agg t)) (obj_of_opt OList (ts_params t)) (OList fs')
        (obj_of_opt OList (ts_groupby t))) as [t'|e] eqn:Et; cbn [PyBase.bind] in *.
      * pose proof (mk_ts_same _ _ _ Et) as E'. rewrite E' in Q.
        repeat first [progress cbn -[mk_timeseries optimize] | rewrite Q | rewrite Ev | rewrite Ef | rewrite Eo | rewrite (optimize_idempotent _ _ Eo)
          | rewrite Et | rewrite E' | split | intros K; discriminate K | intros _ | reflexivity]; auto.
      * repeat first [progress cbn -[mk_timeseries optimize] | rewrite Q | rewrite Ev | rewrite Ef | rewrite Eo 
          | rewrite Et | split | intros K; discriminate K | intros _ | reflexivity]; auto.
    + repeat first [progress cbn -[mk_timeseries optimize] | rewrite Q | rewrite Ev | rewrite Ef | rewrite Eo 
          | split | intros K; discriminate K | intros _ | reflexivity]; auto.
    + repeat first [progress cbn -[mk_timeseries optimize] | rewrite Q | rewrite Ev | rewrite Ef | rewrite Eo 
          | split | intros K; discriminate K | intros _ | reflexivity]; auto.
  - cbn [optimize_mval] in *. destruct (is_none f) eqn:Ef.
    { destruct f; try discriminate Ef. walk Q Ev; auto. }
    assert (forall A (x y : A), match f with ONone => x | _ => y end = y) as N by (intros; destruct f; [discriminate Ef|reflexivity..]).
    rewrite N in *.
    destruct (iter f) as [fs|e] eqn:Ei; cbn [PyBase.bind] in *.
    2:{ repeat first [progress cbn -[mk_timeseries optimize] | rewrite Q | rewrite Ev | rewrite Ef | rewrite Ei 
          | split | intros K; discriminate K | intros _ | reflexivity]; auto. }
    destruct (optimize fs) as [[fs'|]|e] eqn:Eo; cbn [PyBase.bind] in *.
    + repeat first [progress cbn -[mk_timeseries optimize] | rewrite Q | rewrite Ev | rewrite Ef | rewrite Ei | rewrite Eo | rewrite (optimize_idempotent _ _ Eo)
          | split | intros K; discriminate K | intros _ | reflexivity]; auto.
    + repeat first [progress cbn -[mk_timeseries optimize] | rewrite Q | rewrite Ev | rewrite Ef | rewrite Ei | rewrite Eo
          | split | intros K; discriminate K | intros _ | reflexivity]; auto.
    + repeat first [progress cbn -[mk_timeseries optimize] | rewrite Q | rewrite Ev | rewrite Ef | rewrite Ei | rewrite Eo
          | split | intros K; discriminate K | intros _ | reflexivity]; auto.
Qed.
Lemma gives_good A k (c : code A) r (post : bool -> result A -> Prop) made : gives k c r ->
  (forall k', (k = true -> k' = true) -> post k' r) -> good k c post made.
Proof. intros G H. eapply good_impl; [exact G| |intros x []]. intros k' r' _ [K ->]. auto. Qed.
Lemma field_payload (f : mfield) x : f <> FQuery -> x = q \/ x = q1 -> mq_get f x = mq_get f q.
Proof. intros N [->| ->]; [reflexivity|apply serialized_field, N]. Qed.
Lemma payload_good k : good k (payload_code a) (fun k' r => (k = true -> k' = true) /\ (r = mq_payload q1 \/ (k = false /\ r = mq_payload q)))
  (fun _ => False).
Proof.
  assert (forall k' x, x = q \/ x = q1 -> good k' (match print_mq_query (mq_query x) with
      | Ok m => let& st := look a FStart print_time in
          let& en := look a FEnd print_time in
          let& ro := look a FRollup print_rollup in
          let& sc := look a FScope print_scope in
          let& li := look a FLimit print_limit in
          let& off := look a FOffset print_offset in
          let& ex := look a FExtrapolate print_extrapolate in
          let& ix := look a FIndexer print_indexer in
          Done (Ok (m, ODict [$"start"; $"end"; $"rollup"; $"scope"; $"indexer_mappings"; $"limit";
                      $"offset"; $"extrapolate"] [st; en; ro; sc; ix; li; off; ex]))
      | Raise e => Done (Raise e)
      end) (fun k2 r => (k' = true -> k2 = true) /\ r = mq_payload x) (fun _ => False)) as H.
  { intros k' x X. unfold mq_payload.
    pose proof (fun f N => field_payload f x N X) as F. clear X.
    rewrite (F FStart ltac:(discriminate) : mq_start x = mq_start q), (F FEnd ltac:(discriminate) : mq_end x = mq_end q),
      (F FRollup ltac:(discriminate) : mq_rollup x = mq_rollup q), (F FScope ltac:(discriminate) : mq_scope x = mq_scope q),
      (F FLimit ltac:(discriminate) : mq_limit x = mq_limit q), (F FOffset ltac:(discriminate) : mq_offset x = mq_offset q),
      (F FExtrapolate ltac:(discriminate) : mq_extrapolate x = mq_extrapolate q),
      (F FIndexer ltac:(discriminate) : mq_indexer x = mq_indexer q).
    destruct (print_mq_query (mq_query x)) as [m|e]; [|split; auto]. cbn [PyBase.bind]. fold (@gives (str * obj) k').
    fields. }
  unfold payload_code, look at 1. cbn [good cbind mq_get]. split; [reflexivity|]. split.
  - eapply good_impl; [apply (H true q1); auto| |auto]. intros k' r _ [K ->]. auto.
  - intros ->. eapply good_impl; [apply (H false q); auto| |auto]. intros k' r _ [K ->]. split; [discriminate|auto].
Qed.
Lemma serialize_good k : good k (serialize_code a) (fun k' r => r = snd (mq_serialize q) /\ (k' = true \/ q1 = q)) (fun _ => False).
Proof.
  unfold serialize_code. apply good_bind. eapply gives_good; [apply validate_gives|]. intros k1 _.
  destruct (mq_validate q) as [[]|e] eqn:V.
  2:{ unfold serialized, mq_serialize. rewrite V. auto. }
  apply good_bind. eapply good_impl; [apply optimize_good, V| |auto]. cbn beta.
  assert (snd (mq_serialize q) = match optimize_mval (mq_query q) with Ok _ => mq_payload q1 | Raise e => Raise e end) as E.
  { unfold serialized, mq_serialize. rewrite V. destruct (optimize_mval (mq_query q)); reflexivity. }
  assert (forall e, optimize_mval (mq_query q) = Raise e -> q1 = q) as S.
  { intros e O. unfold serialized, mq_serialize. rewrite V, O. reflexivity. }
  rewrite E. destruct (optimize_mval (mq_query q)) as [v|e]; intros k2 r K2.
  - intros [-> D]. eapply good_impl; [apply payload_good| |auto]. intros k3 r K3 [K4 [->|[-> ->]]].
    + split; [reflexivity|]. destruct D as [D|D]; auto.
    + destruct D as [D| ->]; [discriminate|auto].
  - intros ->. split; [reflexivity|]. right. eapply S. reflexivity.
Qed.
Lemma print_good k : good k (print_code a) (fun _ r => r = mq_print_text q \/ r = mq_print_text q1) (fun _ => False).
Proof.
  unfold print_code. apply good_bind. eapply gives_good; [apply validate_gives|]. intros k1 _.
  assert (mq_validate q1 = mq_validate q) as V1.
  { unfold mq_validate. rewrite serialized_check.
    pose proof (fun f N => field_payload f q1 N (or_intror eq_refl)) as F.
    rewrite (F FStart ltac:(discriminate) : mq_start q1 = mq_start q), (F FEnd ltac:(discriminate) : mq_end q1 = mq_end q),
      (F FRollup ltac:(discriminate) : mq_rollup q1 = mq_rollup q), (F FScope ltac:(discriminate) : mq_scope q1 = mq_scope q),
      (F FLimit ltac:(discriminate) : mq_limit q1 = mq_limit q), (F FOffset ltac:(discriminate) : mq_offset q1 = mq_offset q),
      (F FExtrapolate ltac:(discriminate) : mq_extrapolate q1 = mq_extrapolate q),
      (F FIndexer ltac:(discriminate) : mq_indexer q1 = mq_indexer q). reflexivity. }
  unfold mq_print_text, mq_print. rewrite V1. destruct (mq_validate q) as [u|e]; [|left; reflexivity].
  unfold str_code. apply good_bind. eapply good_impl; [apply payload_good| |auto]. cbn beta.
  intros k2 r K [_ [->|[_ ->]]].
  - cbn [PyBase.bind]. destruct (mq_payload q1) as [p|e]; cbn; auto.
  - cbn [PyBase.bind]. destruct (mq_payload q) as [p|e]; cbn; auto.
Qed.
Lemma str_good k : good k (str_code a) (fun _ r => r = mq_str_text q \/ r = mq_str_text q1) (fun _ => False).
Proof.
  unfold str_code, mq_str_text. apply good_bind. eapply good_impl; [apply payload_good| |auto]. cbn beta.
  intros k2 r K [_ [->|[_ ->]]].
  - destruct (mq_payload q1) as [p|e]; cbn; auto.
  - destruct (mq_payload q) as [p|e]; cbn; auto.
Qed.
(** ** setters *)
Lemma field_good k f x g (post : bool -> result mval -> Prop) : g <> FQuery ->
  (forall k', (k = true -> k' = true) -> post k' (Ok (if mfield_eqb f g then x else mq_get g q))) ->
  good k (field_code a f x g) post (fun _ => False).
Proof.
  intros N H. unfold field_code. destruct (mfield_eqb f g); [apply H; auto|].
  eapply gives_good; [apply gives_field, N|exact H].
Qed.
Lemma set_good k f v : good k (set_code a f v) (fun _ r => exists e, mq_set f q v = Raise e /\ r = Raise e)
  (fun x => mq_set f q v = Ok x \/ mq_set f q1 v = Ok x).
Proof.
  unfold set_code, mq_set. cbn [cbind]. destruct (mq_setter_value f v) as [x|e]; [|cbn; eauto]. cbn [PyBase.bind].
  assert (forall w k', (exists y, (y = q \/ y = q1) /\ w = if mfield_eqb f FQuery then x else mq_query y) ->
    good k' (let& st := field_code a f x FStart in
      let& en := field_code a f x FEnd in
      let& ro := field_code a f x FRollup in
      let& sc := field_code a f x FScope in
      let& li := field_code a f x FLimit in
      let& off := field_code a f x FOffset in
      let& ex := field_code a f x FExtrapolate in
      let& ix := field_code a f x FIndexer in
      New (mkMQ w st en ro sc li off ex ix) : code answer) (fun _ r => exists e, Ok (mq_put f x q) = Raise e /\ r = Raise e)
      (fun z => Ok (mq_put f x q) = Ok z \/ Ok (mq_put f x q1) = Ok z)) as H.
  { intros w k' (y & Y & ->).
    assert (forall (g : mfield) kk (post : bool -> result mval -> Prop) made, g <> FQuery ->
      (forall k', (kk = true -> k' = true) -> post k' (Ok (if mfield_eqb f g then x else mq_get g q))) ->
      good kk (field_code a f x g) post made) as FG.
    { intros g kk post made N P. eapply good_impl; [apply field_good; [exact N|exact P]|auto|intros ? []]. }
    repeat (apply good_bind; apply FG; [discriminate|intros ? _]).
    cbn [good]. 
    assert (mkMQ (if mfield_eqb f FQuery then x else mq_query y) (if mfield_eqb f FStart then x else mq_get FStart q)
      (if mfield_eqb f FEnd then x else mq_get FEnd q) (if mfield_eqb f FRollup then x else mq_get FRollup q)
      (if mfield_eqb f FScope then x else mq_get FScope q) (if mfield_eqb f FLimit then x else mq_get FLimit q)
      (if mfield_eqb f FOffset then x else mq_get FOffset q) (if mfield_eqb f FExtrapolate then x else mq_get FExtrapolate q)
      (if mfield_eqb f FIndexer then x else mq_get FIndexer q) = mq_put f x y) as ->.
    { rewrite <- !(fun g N => field_payload g y N Y) by discriminate. destruct y, f; reflexivity. }
    destruct Y as [->| ->]; auto. }
  apply good_bind. unfold field_code at 1. destruct (mfield_eqb f FQuery) eqn:E.
  - cbn [good]. apply H. exists q. auto.
  - unfold look. cbn [good mq_get]. split; [reflexivity|]. split; [|intros _]; apply H; eauto.
Qed.
(** ** requests *)
Lemma request_validate_gives k r : sr_query r = a -> gives k (request_validate_code r) (request_validate (request_on r q)).
Proof.
  intros E. unfold request_validate_code, request_validate. rewrite E. cbn [rq_dataset rq_app rq_parent rq_tenants rq_query rq_flags request_on rquery_validate].
  set (u := check_safe (sr_dataset r)). set (w := check_safe (sr_app r)). set (y := check_parent (sr_parent r)).
  set (z := assert_ (is_dict (sr_tenants r)) InvalidRequestError).
  replace (u ;! w ;! y ;! z ;! mq_validate q ;! rflags_validate (sr_flags r))
    with ((u ;! w ;! y ;! z) ;! mq_validate q ;! rflags_validate (sr_flags r)).
  2:{ destruct u; [|reflexivity]. destruct w; [|reflexivity]. destruct y; [|reflexivity]. reflexivity. }
  apply gives_bind; [apply gives_done|intros k' x _ _]. apply gives_bind; [apply validate_gives|intros k2 x2 _ _]. apply gives_done.
Qed.
Lemma to_dict_good k r : sr_query r = a ->
  good k (to_dict_code r) (fun _ d => d = snd (request_to_dict (request_on r q))) (fun _ => False).
Proof.
  intros E. unfold to_dict_code, request_to_dict. apply good_bind.
  eapply gives_good; [apply request_validate_gives, E|]. intros k1 _.
  destruct (request_validate (request_on r q)) as [u|e]; [|reflexivity].
  cbn [rq_flags request_on rq_query cbind]. destruct (rflags_to_dict (sr_flags r)) as [fl|e]; [|reflexivity].
  apply good_bind. rewrite E. eapply good_impl; [apply serialize_good| |auto]. cbn beta. intros k2 p _ [-> _].
  destruct (mq_serialize q) as [q' res]. cbn [snd]. destruct res; reflexivity.
Qed.
Lemma request_serialize_good k r : sr_query r = a ->
  good k (request_serialize_code r) (fun _ d => d = snd (request_serialize (request_on r q))) (fun _ => False).
Proof.
  intros E. unfold request_serialize_code, request_serialize. apply good_bind.
  eapply good_impl; [apply to_dict_good, E| |auto]. cbn beta. intros k1 d _ ->.
  destruct (request_to_dict (request_on r q)) as [r' d]. cbn [snd]. destruct d; reflexivity.
Qed.
Lemma request_print_good k r : sr_query r = a ->
  good k (request_print_code r) (fun _ d => d = snd (request_print (request_on r q))) (fun _ => False).
Proof.
  intros E. unfold request_print_code, request_print. apply good_bind.
  eapply gives_good; [apply request_validate_gives, E|]. intros k1 _.
  destruct (request_validate (request_on r q)) as [u|e]; [|reflexivity]. apply good_bind.
  eapply good_impl; [apply to_dict_good, E| |auto]. cbn beta. intros k2 d _ ->.
  destruct (request_to_dict (request_on r q)) as [r' d]. cbn [snd]. destruct d; reflexivity.
Qed.

(** ** every call *)
Definition fits (c : tcall) (r : answer) : Prop :=
  match c with
  | TValidate _ => r = of_unit (mq_validate q)
  | TSerialize _ => r = of_mql (snd (mq_serialize q))
  | TPrint _ => r = of_text (mq_print_text q) \/ r = of_text (mq_print_text q1)
  | TStr _ => r = of_text (mq_str_text q) \/ r = of_text (mq_str_text q1)
  | TSet _ f v => exists e, mq_set f q v = Raise e /\ r = ARaise e
  | TAssign _ _ _ => False
  | RValidate d => r = of_unit (request_validate (request_on d q))
  | RToDict d => r = of_obj (snd (request_to_dict (request_on d q)))
  | RSerialize d => r = of_text (snd (request_serialize (request_on d q)))
  | RPrint d => r = of_text (snd (request_print (request_on d q)))
  end.
Definition makes (c : tcall) (x : mquery) : Prop :=
  match c with TSet _ f v => mq_set f q v = Ok x \/ mq_set f q1 v = Ok x | _ => False end.
Definition settles (c : tcall) : bool := match c with TSerialize _ => true | _ => false end.
Lemma answers_good A (f : A -> answer) (c : code A) k (post : bool -> answer -> Prop) :
  good k c (fun k' r => post k' (match r with Ok x => f x | Raise e => ARaise e end)) (fun _ => False) ->
  good k (answers f c) (fun k' r => post k' (answer_of r)) (fun _ => False).
Proof.
  intros G. apply good_bind. eapply good_impl; [exact G| |auto]. cbn beta. intros k' r _ P. destruct r; exact P.
Qed.
Lemma call_good c : object_of c = a -> (forall b f v, c <> TAssign b f v) ->
  good false (code_of c) (fun k' r => fits c (answer_of r) /\ (settles c = true -> k' = true \/ q1 = q)) (makes c).
Proof.
  intros E N.
  destruct c as [b|b|b|b|b f v|b f v|r|r|r|r]; cbn [object_of code_of] in *; subst;
    try (exfalso; eapply N; reflexivity).
  5:{ eapply good_impl; [apply set_good| |auto]. intros k' r _ (e & E & ->). cbn. split; [eauto|discriminate]. }
  all: match goal with |- good _ _ (fun k' r => fits ?c (answer_of r) /\ _) _ =>
    eapply good_impl; [apply (answers_good _ _ _ _ (fun k' r => fits c r /\ (settles c = true -> k' = true \/ q1 = q)))|intros k' d _ H; exact H|intros x []] end.
  all: cbn [settles fits].
  - eapply gives_good; [apply validate_gives|]. intros k1 _. split; [|discriminate]. destruct (mq_validate q); reflexivity.
  - eapply good_impl; [apply serialize_good| |auto]. intros k' r _ [-> D]. split; [|auto]. destruct (snd (mq_serialize q)); reflexivity.
  - eapply good_impl; [apply print_good| |auto]. cbn beta. intros k' r _ [->| ->]; (split; [|discriminate]); [left|right]; match goal with |- context [of_text ?t] => destruct t end; reflexivity.
  - eapply good_impl; [apply str_good| |auto]. cbn beta. intros k' r _ [->| ->]; (split; [|discriminate]); [left|right]; match goal with |- context [of_text ?t] => destruct t end; reflexivity.
  - eapply gives_good; [apply request_validate_gives; assumption|]. intros k1 _. split; [|discriminate]. destruct (request_validate (request_on r q)); reflexivity.
  - eapply good_impl; [apply to_dict_good; assumption| |auto]. intros k' d _ ->. split; [|discriminate]. destruct (snd (request_to_dict (request_on r q))); reflexivity.
  - eapply good_impl; [apply request_serialize_good; assumption| |auto]. intros k' d _ ->. split; [|discriminate]. destruct (snd (request_serialize (request_on r q))); reflexivity.
  - eapply good_impl; [apply request_print_good; assumption| |auto]. intros k' d _ ->. split; [|discriminate]. destruct (snd (request_print (request_on r q))); reflexivity.
Qed.
End One.

(** * The invariant *)
Definition thread_ok (o : nat -> mquery -> Prop) (h : list mquery) (t : thread) : Prop :=
  match t with
  | Idle _ => True
  | Busy c p _ _ => exists q b, o (object_of c) q /\ (b = true -> nth_error h (object_of c) = Some (serialized q))
      /\ good (object_of c) q b p (fun k r => fits q c (answer_of r) /\ (settles c = true -> k = true \/ serialized q = q)) (makes q c)
  end.
Definition objects_ok (o : nat -> mquery -> Prop) (h : list mquery) : Prop :=
  (forall a q, o a q -> exists s, nth_error h a = Some s /\ (s = q \/ s = serialized q))
  /\ (forall a s, nth_error h a = Some s -> exists q, o a q)
  /\ (forall a q q', o a q -> o a q' -> q = q').
Definition more (o : nat -> mquery -> Prop) (es : list event) : nat -> mquery -> Prop := fun a q => o a q \/ In (Made a q) es.
Definition assigns (es : list event) : Prop := exists a f v, In (Called (TAssign a f v)) es.
(** objects that are as serialize() leaves them stay so *)
Definition settled_kept (o : nat -> mquery -> Prop) (h h1 : list mquery) : Prop :=
  forall a q, o a q -> nth_error h a = Some (serialized q) -> nth_error h1 a = Some (serialized q).
Lemma thread_ok_later (o o1 : nat -> mquery -> Prop) h h1 t : (forall a q, o a q -> o1 a q) -> settled_kept o h h1 -> thread_ok o h t -> thread_ok o1 h1 t.
Proof.
  destruct t as [c|c p k x]; [auto|]. intros M K (q & b & O & B & G). exists q, b. split; [auto|]. split; [|exact G].
  intros T. apply K; auto.
Qed.
Definition answer_right (o : nat -> mquery -> Prop) (h : list mquery) (e : event) : Prop :=
  match e with
  | Answered c r => right_answer o c r /\ (settles c = true -> forall q, o (object_of c) q -> nth_error h (object_of c) = Some (serialized q))
  | _ => True
  end.
Lemma fits_right (o : nat -> mquery -> Prop) c r q : o (object_of c) q -> fits q c r -> right_answer o c r.
Proof. intros O F. exists q. split; [exact O|]. destruct c; cbn [fits] in F; auto. Qed.
Lemma makes_right (o : nat -> mquery -> Prop) c x q b : o (object_of c) q -> o b x -> makes q c x -> right_answer o c (ANew b).
Proof. intros O B F. exists q. split; [exact O|]. destruct c; cbn [makes] in F; try contradiction. right. eauto. Qed.

Lemma acts_ok o h t e h1 t1 : objects_ok o h -> thread_ok o h t -> ~ assigns e -> acts h t e h1 t1 ->
  objects_ok (more o e) h1 /\ thread_ok (more o e) h1 t1 /\ settled_kept o h h1 /\ Forall (answer_right (more o e) h1) e.
Proof.
  intros (O1 & O2 & O3) T NA A.
  assert (forall a q, more o [] a q <-> o a q) as MN by (intros; unfold more; cbn; tauto).
  assert (forall x, (forall a q, ~ In (Made a q) x) -> objects_ok (more o x) h) as ON.
  { intros x N. assert (forall a q, more o x a q -> o a q) as W by (intros a q [?|I]; [assumption|destruct (N _ _ I)]).
    split; [|split].
    - intros a q I. apply O1, W, I.
    - intros a s I. destruct (O2 _ _ I) as [q I']. exists q. left. exact I'.
    - intros a q q' I I'. eapply O3; apply W; eassumption. }
  destruct A as [h c k x q N|h c a f g k x q N|h c a f v g k x q N|h c q k x|h c r k x|h c p k x].
  - split; [apply ON; intros ? ? [I|[]]; discriminate|]. split; [|split; [intros ? ? ? ?; assumption|repeat constructor]].
    destruct (O2 _ _ N) as [q0 Q0]. exists q0, false. split; [left; exact Q0|]. split; [discriminate|].
    apply call_good; [reflexivity|]. intros b f v ->. apply NA. exists b, f, v. left. reflexivity.
  - split; [apply ON; intros ? ? []|]. split; [|split; [intros ? ? ? ?; assumption|constructor]].
    destruct T as (q0 & b & Q0 & B & G). cbn [good] in G. destruct G as (-> & G1 & G2).
    destruct (O1 _ _ Q0) as (s & S & D). rewrite S in N. injection N as ->.
    destruct D as [-> | ->].
    + destruct b.
      * specialize (B eq_refl). rewrite S in B. injection B as E. exists q0, true. split; [left; exact Q0|]. split; [rewrite S, <- E; reflexivity|].
        rewrite <- E in G1 at 1. exact G1.
      * exists q0, false. split; [left; exact Q0|]. split; [discriminate|]. apply G2. reflexivity.
    + exists q0, true. split; [left; exact Q0|]. split; [auto|exact G1].
  - destruct T as (q0 & b & Q0 & B & G). cbn [good] in G. destruct G as (-> & -> & -> & G).
    destruct (O1 _ _ Q0) as (s & S & D). rewrite S in N. injection N as ->.
    assert (mq_put FQuery (mq_query (serialized q0)) q = serialized q0) as ->.
    { destruct D as [-> | ->]; [apply serialized_put|apply mq_put_same]. }
    assert (object_of c < List.length h) as L by (apply nth_error_Some; rewrite S; discriminate).
    assert (settled_kept o h (put h (object_of c) (serialized q0))) as K.
    { intros a1 q1 I1 H1. destruct (Nat.eq_dec (object_of c) a1) as [<-|Ne].
      - rewrite nth_put_same by exact L. rewrite (O3 _ _ _ I1 Q0). reflexivity.
      - rewrite nth_put_other by exact Ne. exact H1. }
    split; [split; [|split]|split; [|split; [exact K|constructor]]].
    + intros a1 q1 I1. apply MN in I1. destruct (Nat.eq_dec (object_of c) a1) as [<-|Ne].
      * rewrite nth_put_same by exact L. rewrite (O3 _ _ _ I1 Q0). eauto.
      * rewrite nth_put_other by exact Ne. apply O1, I1.
    + intros a1 s1 I1. assert (exists s2, nth_error h a1 = Some s2) as [s2 I2].
      { destruct (nth_error h a1) as [s2|] eqn:E2; [eauto|]. apply nth_error_None in E2.
        assert (a1 < List.length (put h (object_of c) (serialized q0))) by (apply nth_error_Some; rewrite I1; discriminate).
        rewrite put_length in H. lia. }
      destruct (O2 _ _ I2) as [q2 I3]. exists q2. left. exact I3.
    + intros a1 q1 q2 I1 I2. apply MN in I1, I2. eapply O3; eassumption.
    + exists q0, true. split; [left; exact Q0|]. split; [|exact G]. intros _. apply nth_put_same, L.
  - destruct T as (q0 & b & Q0 & B & G). cbn [good] in G.
    assert (forall a q', o a q' -> a < List.length h) as L.
    { intros a q' I. destruct (O1 _ _ I) as (s & S & _). apply nth_error_Some. rewrite S. discriminate. }
    assert (nth_error (h ++ [q]) (List.length h) = Some q) as Last by (rewrite nth_error_app2, Nat.sub_diag by lia; reflexivity).
    assert (settled_kept o h (h ++ [q])) as K.
    { intros a1 q1 I1 H1. rewrite nth_error_app1 by (eapply L, I1). exact H1. }
    assert (forall a q', In (Made a q') [Made (List.length h) q; Answered c (ANew (List.length h))] -> a = List.length h /\ q' = q) as W.
    { intros a q' [I|[I|[]]]; [injection I as <- <-; auto|discriminate]. }
    split; [split; [|split]|split; [exact I|split; [exact K|]]].
    + intros a1 q1 [I1|I1].
      * rewrite nth_error_app1 by (eapply L, I1). apply O1, I1.
      * apply W in I1 as [-> ->]. rewrite Last. eauto.
    + intros a1 s1 I1. destruct (Nat.lt_ge_cases a1 (List.length h)) as [L1|L1].
      * rewrite nth_error_app1 in I1 by exact L1. destruct (O2 _ _ I1) as [q2 I2]. exists q2. left. exact I2.
      * assert (a1 < List.length (h ++ [q])) as L2 by (apply nth_error_Some; rewrite I1; discriminate). rewrite app_length in L2. cbn in L2.
        assert (a1 = List.length h) as -> by lia. exists q. right. left. reflexivity.
    + intros a1 q1 q2 [I1|I1] [I2|I2].
      * eapply O3; eassumption.
      * apply W in I2 as [-> ->]. apply L in I1. lia.
      * apply W in I1 as [-> ->]. apply L in I2. lia.
      * apply W in I1 as [-> ->]. apply W in I2 as [_ ->]. reflexivity.
    + repeat constructor.
      * eapply makes_right; [left; exact Q0|right; left; reflexivity|exact G].
      * intros Se. destruct c; try discriminate Se. destruct G.
  - destruct T as (q0 & b & Q0 & B & G). cbn [good] in G. destruct G as [G D].
    split; [apply ON; intros ? ? [I|[]]; discriminate|]. split; [exact I|]. split; [intros ? ? ? ?; assumption|].
    repeat constructor.
    + eapply fits_right; [left; exact Q0|exact G].
    + intros Se q1 [I1|[I1|[]]]; [|discriminate]. rewrite (O3 _ _ _ I1 Q0). destruct (D Se) as [->|E]; [apply B; reflexivity|].
      destruct (O1 _ _ Q0) as (s & S & [-> | ->]); congruence.
  - split; [apply ON; intros ? ? []|]. split; [exact I|]. split; [intros ? ? ? ?; assumption|constructor].
Qed.
Lemma answer_right_later (o o1 : nat -> mquery -> Prop) h h1 e : (forall a q, o a q -> o1 a q) -> (forall a q q', o1 a q -> o1 a q' -> q = q') ->
  settled_kept o h h1 -> answer_right o h e -> answer_right o1 h1 e.
Proof.
  intros M U K. destruct e as [c|a q|c r]; cbn [answer_right]; auto. intros [R S]. split.
  - destruct R as (q & Q & R). exists q. split; [auto|]. destruct c; auto. destruct R as [R|(b & q' & -> & B & R)]; [auto|right].
    exists b, q'. auto.
  - intros Se q Q. destruct R as (q' & Q' & _). rewrite (U _ _ _ Q (M _ _ Q')). apply K; auto.
Qed.
Lemma executes_ok h ts es h1 ts1 : executes h ts es h1 ts1 -> forall o, objects_ok o h -> Forall (thread_ok o h) ts -> ~ assigns es ->
  objects_ok (more o es) h1 /\ Forall (thread_ok (more o es) h1) ts1 /\ settled_kept o h h1 /\ Forall (answer_right (more o es) h1) es.
Proof.
  induction 1 as [h ts|h l t r e h1 t1 es h2 ts A X IH]; intros o O T NA.
  - assert (forall a q, more o [] a q <-> o a q) as MN by (intros; unfold more; cbn; tauto).
    split; [|split; [|split; [intros ? ? ? ?; assumption|constructor]]].
    + destruct O as (O1 & O2 & O3). split; [|split].
      * intros a q I. apply O1, MN, I.
      * intros a s I. destruct (O2 _ _ I) as [q I']. exists q. apply MN, I'.
      * intros a q q' I I'. eapply O3; apply MN; eassumption.
    + eapply Forall_impl; [|exact T]. intros t. apply thread_ok_later; [|intros ? ? ? ?; assumption]. intros a q. apply MN.
  - apply Forall_app in T as [Tl T]. inversion T as [|? ? T0 Tr]; subst.
    destruct (acts_ok o h t e h1 t1 O T0) as (O' & T1 & K & R).
    { intros (a & f & v & I). apply NA. exists a, f, v. apply in_or_app. auto. }
    { exact A. }
    destruct (IH (more o e)) as (O2 & T2 & K2 & R2).
    { exact O'. }
    { assert (forall x, thread_ok o h x -> thread_ok (more o e) h1 x) as TL.
      { intros x. apply thread_ok_later; [|exact K]. intros a q I. left. exact I. }
      apply Forall_app. split; [eapply Forall_impl; [|exact Tl]; exact TL|]. constructor; [exact T1|].
      eapply Forall_impl; [|exact Tr]; exact TL. }
    { intros (a & f & v & I). apply NA. exists a, f, v. apply in_or_app. auto. }
    assert (forall a q, more (more o e) es a q <-> more o (e ++ es) a q) as MA.
    { intros a q. unfold more. rewrite in_app_iff. tauto. }
    assert (objects_ok (more o (e ++ es)) h2) as O3.
    { destruct O2 as (P1 & P2 & P3). split; [|split].
      - intros a q I. apply P1, MA, I.
      - intros a s I. destruct (P2 _ _ I) as [q I']. exists q. apply MA, I'.
      - intros a q q' I I'. eapply P3; apply MA; eassumption. }
    split; [exact O3|]. split.
    { eapply Forall_impl; [|exact T2]. intros x. apply thread_ok_later; [intros a q; apply MA|intros ? ? ? ?; assumption]. }
    split.
    { intros a q I H. apply K2; [left; exact I|]. apply K; assumption. }
    apply Forall_app. split.
    + eapply Forall_impl; [|exact R]. intros x. apply answer_right_later.
      * intros a q I. apply MA. left. exact I.
      * apply O3.
      * exact K2.
    + eapply Forall_impl; [|exact R2]. intros x. apply answer_right_later.
      * intros a q. apply MA.
      * apply O3.
      * intros ? ? ? ?; assumption.
Qed.

(** * Bounds *)
Lemma at_most_le A (c : code A) : forall n m, n <= m -> at_most n c -> at_most m c.
Proof.
  induction c as [r|x|b f g IH|b f v g IH]; intros n m L H.
  - destruct m; exact I.
  - destruct m; exact I.
  - destruct n; [destruct H|]. destruct m; [lia|]. intros v. apply (IH v n); [lia|apply H].
  - destruct n; [destruct H|]. destruct m; [lia|]. apply (IH n); [lia|exact H].
Qed.
Lemma at_most_bind A B (c : code A) (d : A -> code B) m : (forall x, at_most m (d x)) -> forall n, at_most n c -> at_most (n + m) (cbind c d).
Proof.
  intros D. induction c as [r|x|b f g IH|b f v g IH]; intros n H.
  - destruct r; [|destruct (n + m); exact I]. cbn [cbind]. eapply at_most_le; [|apply D]. lia.
  - destruct (n + m); exact I.
  - destruct n; [destruct H|]. cbn in *. intros v. apply IH, H.
  - destruct n; [destruct H|]. cbn in *. apply IH, H.
Qed.
Lemma look_most A a f (r : mval -> result A) : at_most 1 (look a f r).
Proof. cbn. auto. Qed.
Lemma validate_most a : at_most 9 (validate_code a).
Proof. unfold validate_code. cbn. repeat (intros ?; match goal with |- context [match ?r with Ok _ => _ | _ => _ end] => destruct r; cbn; [|exact I] end). intros ?. exact I. Qed.
Lemma payload_most a : at_most 9 (payload_code a).
Proof. unfold payload_code. cbn. repeat (intros ?; match goal with |- context [match ?r with Ok _ => _ | _ => _ end] => destruct r; cbn; [|exact I] end). exact I. Qed.
Lemma optimize_most a : at_most 5 (optimize_code a).
Proof.
  unfold optimize_code. cbn. intros v1. destruct (is_formula v1 || is_ts v1); cbn; [|exact I].
  intros v2. destruct (filters_attr v2) as [f|e]; cbn; [|exact I]. destruct (is_none f); cbn; [exact I|].
  intros v3. match goal with |- context [match ?r with Ok _ => _ | _ => _ end] => destruct r as [[fs|]|e]; cbn; [|exact I|exact I] end.
  intros v4. destruct (replace_filters v4 fs); cbn; exact I.
Qed.
Lemma serialize_most a : at_most 23 (serialize_code a).
Proof.
  unfold serialize_code. apply (at_most_bind _ _ _ _ 14) with (n := 9); [|apply validate_most]. intros _.
  apply (at_most_bind _ _ _ _ 9) with (n := 5); [|apply optimize_most]. intros _. apply payload_most.
Qed.
Lemma request_validate_most r : at_most 9 (request_validate_code r).
Proof.
  unfold request_validate_code. apply (at_most_bind _ _ (Done _) _ 9 ) with (n := 0); [|exact I]. intros _.
  apply (at_most_bind _ _ _ _ 0) with (n := 9); [|apply validate_most]. intros _. exact I.
Qed.
Lemma to_dict_most r : at_most 32 (to_dict_code r).
Proof.
  unfold to_dict_code. apply (at_most_bind _ _ _ _ 23) with (n := 9); [|apply request_validate_most]. intros _.
  apply (at_most_bind _ _ (Done _) _ 23) with (n := 0); [|exact I]. intros fl.
  apply (at_most_bind _ _ _ _ 0) with (n := 23); [|apply serialize_most]. intros p. exact I.
Qed.
Lemma set_most a f v : at_most 9 (set_code a f v).
Proof.
  unfold set_code. apply (at_most_bind _ _ (Done _) _ 9) with (n := 0); [|exact I]. intros x.
  assert (forall g, at_most 1 (field_code a f x g)) as F by (intros g; unfold field_code; destruct (mfield_eqb f g); cbn; auto).
  do 9 (match goal with |- at_most ?j _ => apply (at_most_bind _ _ _ _ (pred j)) with (n := 1); [intros ?|apply F] end; cbn [pred]).
  exact I.
Qed.
Lemma answers_most A (f : A -> answer) c n : at_most n c -> at_most n (answers f c).
Proof. intros H. replace n with (n + 0) by lia. apply at_most_bind; [intros; exact I|exact H]. Qed.
Lemma str_most a : at_most 9 (str_code a).
Proof. apply (at_most_bind _ _ _ _ 0) with (n := 9); [intros; exact I|apply payload_most]. Qed.
Lemma call_most c : at_most 41 (code_of c).
Proof.
  destruct c as [b|b|b|b|b f v|b f v|r|r|r|r]; cbn [code_of]; try apply answers_most.
  - eapply at_most_le; [|apply validate_most]. lia.
  - eapply at_most_le; [|apply serialize_most]. lia.
  - eapply at_most_le with (n := 18); [lia|]. apply (at_most_bind _ _ _ _ 9) with (n := 9); [intros; apply str_most|apply validate_most].
  - eapply at_most_le; [|apply str_most]. lia.
  - eapply at_most_le; [|apply set_most]. lia.
  - exact I.
  - eapply at_most_le; [|apply request_validate_most]. lia.
  - eapply at_most_le; [|apply to_dict_most]. lia.
  - eapply at_most_le with (n := 32); [lia|]. apply (at_most_bind _ _ _ _ 0) with (n := 32); [intros; exact I|apply to_dict_most].
  - apply (at_most_bind _ _ _ _ 32) with (n := 9); [|apply request_validate_most]. intros _.
    apply (at_most_bind _ _ _ _ 0) with (n := 32); [intros; exact I|apply to_dict_most].
Qed.

(** * Assignments to other attributes than the query *)
Fixpoint stores_query {A} (c : code A) : Prop :=
  match c with
  | Done _ | New _ => True
  | Load _ _ k => forall v, stores_query (k v)
  | Store _ f _ k => f = FQuery /\ stores_query k
  end.
Lemma stores_bind A B (c : code A) (d : A -> code B) : stores_query c -> (forall x, stores_query (d x)) -> stores_query (cbind c d).
Proof.
  intros C D. induction c as [r|x|b f g IH|b f v g IH]; cbn in *; auto.
  - destruct r; [apply D|exact I].
  - destruct C. auto.
Qed.
Lemma stores_look A a f (r : mval -> result A) : stores_query (look a f r).
Proof. cbn. auto. Qed.
Ltac stores := repeat first [apply stores_bind; [|intros ?] | apply stores_look | exact I].
Lemma validate_stores a : stores_query (validate_code a).
Proof. unfold validate_code. stores. Qed.
Lemma payload_stores a : stores_query (payload_code a).
Proof. unfold payload_code. stores. Qed.
Lemma optimize_stores a : stores_query (optimize_code a).
Proof.
  unfold optimize_code. intros v1. destruct (is_formula v1 || is_ts v1); [|exact I]. stores. destruct (is_none x); [exact I|]. stores.
  destruct x0; [|exact I]. stores. split; [reflexivity|exact I].
Qed.
Lemma serialize_stores a : stores_query (serialize_code a).
Proof. apply stores_bind; [apply validate_stores|intros _]. apply stores_bind; [apply optimize_stores|intros _]. apply payload_stores. Qed.
Lemma str_stores a : stores_query (str_code a).
Proof. apply stores_bind; [apply payload_stores|intros; exact I]. Qed.
Lemma request_validate_stores r : stores_query (request_validate_code r).
Proof. apply stores_bind; [exact I|intros _]. apply stores_bind; [apply validate_stores|intros; exact I]. Qed.
Lemma to_dict_stores r : stores_query (to_dict_code r).
Proof.
  apply stores_bind; [apply request_validate_stores|intros _]. apply stores_bind; [exact I|intros fl].
  apply stores_bind; [apply serialize_stores|intros; exact I].
Qed.
Lemma call_stores c : (forall b f v, c <> TAssign b f v) -> stores_query (code_of c).
Proof.
  intros N. destruct c as [b|b|b|b|b f v|b f v|r|r|r|r]; cbn [code_of]; try (exfalso; eapply N; reflexivity).
  all: try (apply stores_bind; [|intros; exact I]).
  - apply validate_stores.
  - apply serialize_stores.
  - apply stores_bind; [apply validate_stores|intros _; apply str_stores].
  - apply str_stores.
  - assert (forall x g, stores_query (field_code b f x g)) as F by (intros x g; unfold field_code; destruct (mfield_eqb f g); cbn; auto).
    unfold set_code. apply stores_bind; [exact I|intros x]. do 9 (apply stores_bind; [apply F|intros ?]). exact I.
  - apply request_validate_stores.
  - apply to_dict_stores.
  - apply stores_bind; [apply to_dict_stores|intros; exact I].
  - apply stores_bind; [apply request_validate_stores|intros _]. apply stores_bind; [apply to_dict_stores|intros; exact I].
Qed.
Section Assigned.
Variables (a : nat) (f : mfield) (v : mval).
Hypothesis not_query : f <> FQuery.
Definition holds_v (h : list mquery) : Prop := exists s, nth_error h a = Some s /\ mq_get f s = v.
Definition busy_ok (h : list mquery) (t : thread) : Prop :=
  match t with
  | Idle _ => True
  | Busy c p _ _ =>
      stores_query p /\ (forall b g w, c <> TAssign b g w)
      \/ (exists b g w, c = TAssign b g w /\ (b = a -> g = f -> w = v)
            /\ (p = Store b g w (Done (Ok ANone)) \/ p = Done (Ok ANone) /\ (b = a -> g = f -> holds_v h)))
  end.
Lemma mq_get_put g w q : mq_get g (mq_put g w q) = w.
Proof. destruct q, g; reflexivity. Qed.
Lemma mq_get_put_other g g' w q : g <> g' -> mq_get g (mq_put g' w q) = mq_get g q.
Proof. intros N. destruct q, g, g'; try reflexivity; congruence. Qed.
(** storing into another place keeps the attribute *)
Lemma put_keeps h b g w q x : nth_error h b = Some q -> (b = a -> g = f -> w = x) ->
  (exists s, nth_error h a = Some s /\ mq_get f s = x) -> exists s, nth_error (put h b (mq_put g w q)) a = Some s /\ mq_get f s = x.
Proof.
  intros N O (s & S & E). destruct (Nat.eq_dec b a) as [->|Ne].
  - assert (a < List.length h) as L by (apply nth_error_Some; rewrite N; discriminate).
    rewrite nth_put_same by exact L. exists (mq_put g w q). split; [reflexivity|]. rewrite S in N. injection N as ->.
    assert ({g = f} + {g <> f}) as [->|Ne] by (destruct g, f; (left; reflexivity) || (right; discriminate)).
    + rewrite mq_get_put. auto.
    + rewrite mq_get_put_other by congruence. exact E.
  - rewrite nth_put_other by exact Ne. eauto.
Qed.
Lemma acts_assigned h t e h1 t1 : busy_ok h t -> only_assignment e a f v -> acts h t e h1 t1 ->
  busy_ok h1 t1 /\ (holds_v h -> holds_v h1) /\ (In (Answered (TAssign a f v) ANone) e -> holds_v h1).
Proof.
  intros B O A. destruct A as [h c k x q N|h c b g r k x q N|h c b g w r k x q N|h c q k x|h c r k x|h c p k x].
  - split; [|split; [auto|intros [I|[]]; discriminate]].
    assert ((exists b g w, c = TAssign b g w) \/ forall b g w, c <> TAssign b g w) as [(b & g & w & ->)|Na].
    { destruct c; try (right; intros; discriminate). left. eauto. }
    + right. exists b, g, w. split; [reflexivity|]. split; [|left; reflexivity]. intros -> ->. apply O. left. reflexivity.
    + left. split; [apply call_stores, Na|exact Na].
  - split; [|split; [auto|intros []]].
    destruct B as [[S Na]|(b' & g' & w & -> & _ & [D|[D _]])]; [|discriminate D..]. left. split; [apply S|exact Na].
  - destruct B as [[S Na]|(b' & g' & w' & -> & Ow & [D|[D _]])].
    + destruct S as [-> S].
      assert (forall y, (exists s, nth_error h a = Some s /\ mq_get f s = y) -> exists s, nth_error (put h b (mq_put FQuery w q)) a = Some s /\ mq_get f s = y) as K.
      { intros y. apply put_keeps; [exact N|]. intros _ E. congruence. }
      split; [left; auto|]. split; [apply K|]. intros [].
    + injection D as <- <- <- ->. split; [|split].
      * right. exists b, g, w. split; [reflexivity|]. split; [exact Ow|]. right. split; [reflexivity|]. intros -> ->.
        assert (a < List.length h) as L by (apply nth_error_Some; rewrite N; discriminate).
        exists (mq_put f w q). rewrite nth_put_same by exact L. split; [reflexivity|]. rewrite mq_get_put. auto.
      * apply put_keeps; assumption.
      * intros [].
    + discriminate D.
  - split; [exact I|].
    assert (forall y, (exists s, nth_error h a = Some s /\ mq_get f s = y) -> exists s, nth_error (h ++ [q]) a = Some s /\ mq_get f s = y) as K.
    { intros y (s & S & E). exists s. rewrite nth_error_app1 by (apply nth_error_Some; rewrite S; discriminate). auto. }
    split; [apply K|]. intros [I|[I|[]]]; [discriminate|]. injection I as _ I. discriminate I.
  - split; [exact I|]. split; [auto|]. intros [I|[]]. injection I as -> E.
    destruct B as [[S Na]|(b' & g' & w & D & Ow & [E'|[E' H]])]; [exfalso; eapply Na; reflexivity|discriminate E'|].
    injection D as <- <- <-. auto.
  - split; [exact I|]. split; [auto|]. intros [].
Qed.
Lemma busy_ok_later h h1 t : (holds_v h -> holds_v h1) -> busy_ok h t -> busy_ok h1 t.
Proof.
  intros K. destruct t as [c|c p k x]; [auto|]. intros [S|(b & g & w & -> & Ow & [D|[D H]])]; [left; exact S|right..].
  - exists b, g, w. auto.
  - exists b, g, w. split; [reflexivity|]. split; [exact Ow|]. right. auto.
Qed.
Lemma executes_assigned h ts es h1 ts1 : executes h ts es h1 ts1 -> Forall (busy_ok h) ts -> only_assignment es a f v ->
  (holds_v h \/ In (Answered (TAssign a f v) ANone) es) -> holds_v h1.
Proof.
  induction 1 as [h ts|h l t r e h1 t1 es h2 ts A X IH]; intros B O D.
  - destruct D as [D|[]]. exact D.
  - apply Forall_app in B as [Bl B]. inversion B as [|? ? B0 Br]; subst.
    destruct (acts_assigned h t e h1 t1 B0) as (B1 & K & S); [intros w I; apply O, in_or_app; auto|exact A|].
    apply IH.
    + apply Forall_app. split; [eapply Forall_impl; [|exact Bl]; intros x; apply busy_ok_later, K|]. constructor; [exact B1|].
      eapply Forall_impl; [|exact Br]; intros x; apply busy_ok_later, K.
    + intros w I. apply O, in_or_app. auto.
    + destruct D as [D|D]; [auto|]. apply in_app_iff in D as [D|D]; auto.
Qed.
End Assigned.

(** * Running a schedule *)
Definition go (h : list mquery) (t : thread) : option (list event * list mquery * thread) :=
  match t with
  | Idle Stop => None
  | Idle (Then c k x) =>
      match nth_error h (object_of c) with
      | Some _ => Some ([Called c], h, Busy c (code_of c) k x)
      | None => None
      end
  | Busy c (Done r) k x => Some ([Answered c (answer_of r)], h, Idle (k (answer_of r)))
  | Busy c (New q) k x =>
      Some ([Made (List.length h) q; Answered c (ANew (List.length h))], h ++ [q], Idle (k (ANew (List.length h))))
  | Busy c (Load a f g) k x =>
      match nth_error h a with Some q => Some ([], h, Busy c (g (mq_get f q)) k x) | None => None end
  | Busy c (Store a f v g) k x =>
      match nth_error h a with Some q => Some ([], put h a (mq_put f v q), Busy c g k x) | None => None end
  end.
Lemma go_acts h t e h1 t1 : go h t = Some (e, h1, t1) -> acts h t e h1 t1.
Proof.
  destruct t as [[|c k x]|c [r|q|a f g|a f v g] k x]; cbn; try discriminate;
    try (destruct (nth_error h _) eqn:E; [|discriminate]); intros D; injection D as <- <- <-;
    econstructor; eassumption.
Qed.
(** a schedule: which thread acts; true: it is interrupted *)
Definition stops (h : list mquery) (t : thread) : option (list event * list mquery * thread) :=
  match t with Idle _ => None | Busy c p k x => Some ([], h, Idle x) end.
Fixpoint drive (s : list (nat * bool)) (h : list mquery) (ts : list thread) : option (list event * list mquery * list thread) :=
  match s with
  | [] => Some ([], h, ts)
  | (i, stop) :: s' =>
      match nth_error ts i with
      | None => None
      | Some t =>
          match (if stop then stops h t else go h t) with
          | None => None
          | Some (e, h1, t1) =>
              match drive s' h1 (put ts i t1) with
              | None => None
              | Some (es, h2, ts2) => Some (e ++ es, h2, ts2)
              end
          end
      end
  end.
Lemma drive_executes s : forall h ts es h1 ts1, drive s h ts = Some (es, h1, ts1) -> executes h ts es h1 ts1.
Proof.
  induction s as [|[i b] s IH]; intros h ts es h1 ts1; cbn [drive].
  - intros D. injection D as <- <- <-. constructor.
  - destruct (nth_error ts i) as [t|] eqn:N; [|discriminate]. destruct (if b then stops h t else go h t) as [[[e h2] t2]|] eqn:G; [|discriminate].
    destruct (drive s h2 (put ts i t2)) as [[[es2 h3] ts3]|] eqn:D; [|discriminate]. intros E. injection E as <- <- <-.
    apply nth_error_split in N as (l & r & -> & <-). apply IH in D.
    replace (put (l ++ t :: r) (List.length l) t2) with (l ++ t2 :: r) in D.
    { eapply ex_step; [|exact D]. destruct b; [|apply go_acts, G]. destruct t; [discriminate|]. injection G as <- <- <-. constructor. }
    unfold put. rewrite firstn_app, firstn_all, Nat.sub_diag, app_nil_r, skipn_app, skipn_all, Nat.sub_diag. reflexivity.
Qed.
End F.
