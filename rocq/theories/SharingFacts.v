(** Facts about programs with shared objects *)
From Verif Require Import PyBase PyFacts Objects Exprs Query Optimizer OptFacts Metrics MetricsFacts MetricsQuery MetricsQueryFacts Request
  Sharing SpecSharing.
From Verif Require History HistoryFacts.
From Coq Require Import Lia.

(** * Objects that read the same *)
Definition alike (x y : option cell) : Prop :=
  x = y \/ exists f f', x = Some (KMetrics f) /\ y = Some (KMetrics f').
Definition all_alike (h h' : heap) (s : slot) : Prop := forall b, reaches h s b -> alike (nth_error h b) (nth_error h' b).

Lemma cell_part h s k x b : cell_of h s = Some k -> In x (parts k) -> reaches h x b -> reaches h s b.
Proof.
  destruct s as [v|q|a|k']; cbn; intros E I R; try discriminate E.
  - eapply re_part; eassumption.
  - injection E as ->. eapply re_own; eassumption.
Qed.
Lemma all_alike_part h h' s k x : all_alike h h' s -> cell_of h s = Some k -> In x (parts k) -> all_alike h h' x.
Proof. intros A E I b R. apply A. eapply cell_part; eassumption. Qed.
Lemma cell_alike h h' s : all_alike h h' s -> alike (cell_of h s) (cell_of h' s).
Proof.
  intros A. destruct s as [v|q|a|k]; cbn; try (left; reflexivity). apply A. constructor.
Qed.
Lemma params_alike r r' h h' p : all_alike h h' p -> (forall x k, cell_of h p = Some k -> In x (parts k) -> r' x = r x) ->
  params_of r' h' p = params_of r h p.
Proof.
  intros A R. pose proof (cell_alike h h' p A) as C. unfold params_of.
  assert (match cell_of h' p with
          | Some (KList l) => match collect (map r' l) with Some vs => Some (Objects.KList, vs) | None => None end
          | _ => None end
          = match cell_of h p with
          | Some (KList l) => match collect (map r l) with Some vs => Some (Objects.KList, vs) | None => None end
          | _ => None end) as ->; [|reflexivity].
  destruct C as [C|(f & f' & C & C')].
  - rewrite <- C. destruct (cell_of h p) as [[l| | | | | | |]|] eqn:E; try reflexivity.
    rewrite (map_ext_in r' r); [reflexivity|]. intros x I. eapply R; [reflexivity|exact I].
  - rewrite C, C'. reflexivity.
Qed.
Lemma read_alike n : forall h h' s, all_alike h h' s -> read n h' s = read n h s.
Proof.
  induction n as [|n IH]; intros h h' s A; [destruct s; reflexivity|].
  pose proof (cell_alike h h' s A) as C. pose proof (fun k x => all_alike_part h h' s k x A) as Pt.
  assert (forall k x, cell_of h s = Some k -> In x (parts k) -> read n h' x = read n h x) as R.
  { intros k x E I. apply IH. eapply Pt; eassumption. }
  destruct C as [C|(f & f' & C & C')].
  - destruct s as [v|q|a|k0]; cbn [read]; try reflexivity; rewrite <- C;
      (destruct (cell_of h _) as [k|] eqn:E; [|reflexivity]; specialize (R k); specialize (Pt k);
       destruct k as [l|ks vs|m x p fl g|m x p fl g|o p u|f|st c|r fl]; try reflexivity;
       [ rewrite (map_ext_in (fun x => as_o (read n h' x)) (fun x => as_o (read n h x))); [reflexivity|];
         intros y I; rewrite (R y eq_refl I); reflexivity
       | rewrite (map_ext_in (fun x => as_o (read n h' x)) (fun x => as_o (read n h x))); [reflexivity|];
         intros y I; rewrite (R y eq_refl I); reflexivity
       | rewrite !(fun y => R y eq_refl) by (cbn; tauto); reflexivity
       | rewrite (params_alike (read n h) (read n h') h h' x);
         [|apply (Pt x eq_refl); cbn; tauto
          |intros y k Ek I; apply IH; intros b Rb; apply (Pt x eq_refl); [cbn; tauto|eapply cell_part; eassumption]];
         rewrite !(fun y => R y eq_refl) by (cbn; tauto); reflexivity
       | rewrite !(fun y => R y eq_refl) by (cbn; tauto); reflexivity ]).
  - destruct s as [v|q|a|k0]; cbn [read]; try reflexivity; rewrite C, C'; reflexivity.
Qed.

(** * A metrics query with its filters merged *)
Section S.
Context {RT : PyRT} {ST : PyStr}.

Inductive merged_in : mval -> mval -> Prop :=
| mi_ts m a p fs g fs' : forallb is_condition_obj fs = true -> optimize fs = Ok (Some fs') ->
    merged_in (VTS (mkTS m a p (Some fs) g)) (VTS (mkTS m a p (Some fs') g))
| mi_formula x k ps a f g fs fs' : iter f = Ok fs -> optimize fs = Ok (Some fs') ->
    merged_in (VFormula x k ps a f g) (VFormula x k ps a (OList fs') g).
Lemma optimize_conditions l l' : forallb is_condition_obj l = true -> optimize l = Ok (Some l') -> forallb is_condition_obj l' = true.
Proof.
  intros F E. apply optimize_each in E. induction E as [|c c' l l' H _ IH]; [reflexivity|].
  cbn in F. apply andb_prop in F as [F1 F2]. cbn. rewrite (IH F2), andb_true_r. destruct H as [->|H]; [exact F1|].
  rewrite optimize_condition_try in H. destruct (merge_try c) as [[lhs rs]|]; [|discriminate].
  apply bind_Ok in H as (n & H & H'). injection H' as <-. unfold mk_condition in H.
  destruct (negb _); [discriminate|]. apply bind_Ok in H as (u & _ & H). injection H as <-. reflexivity.
Qed.
Lemma merged_check v v' : merged_in v v' -> check_query v' = check_query v.
Proof.
  intros [m a p fs g fs' C O|x k ps a f g fs fs' I O]; [|reflexivity].
  cbn. unfold ts_validate, ts_fields, mk_timeseries; cbn. destruct (metric_validate m); cbn; [|reflexivity].
  destruct (as_opt_list is_literal _ _); cbn; [|reflexivity].
  rewrite C, (optimize_conditions _ _ C O). cbn. destruct (as_opt_list is_groupable _ _); reflexivity.
Qed.
Lemma merged_optimize v v' : merged_in v v' -> check_query v = Ok tt -> optimize_mval v = Ok v'.
Proof.
  intros [m a p fs g fs' C O|x k ps a f g fs fs' I O] H.
  - cbn. rewrite O. cbn. cbn in H. unfold ts_validate, ts_fields, mk_timeseries in *; cbn in *.
    destruct (metric_validate m); cbn in *; [|discriminate]. rewrite C in H. rewrite (optimize_conditions _ _ C O).
    destruct p as [p|]; cbn in *.
    + destruct (forallb is_literal p); [|discriminate]. cbn in *. destruct g as [g|]; cbn in *; [|reflexivity].
      destruct (forallb is_groupable g); [reflexivity|discriminate].
    + destruct g as [g|]; cbn in *; [|reflexivity]. destruct (forallb is_groupable g); [reflexivity|discriminate].
  - cbn. rewrite I. cbn. rewrite O. cbn. destruct f; try reflexivity. discriminate I.
Qed.
Definition qlater (q q' : mquery) : Prop :=
  exists v, q' = mq_put FQuery v q /\ (v = mq_query q \/ merged_in (mq_query q) v).
Lemma qlater_refl q : qlater q q.
Proof. exists (mq_query q). rewrite mq_put_same. auto. Qed.
Lemma qlater_validate q q' : qlater q q' -> mq_validate q' = mq_validate q.
Proof.
  intros (v & -> & [->|M]); [rewrite mq_put_same; reflexivity|]. unfold mq_validate.
  rewrite HistoryFacts.mq_put_get, (merged_check _ _ M). destruct q; reflexivity.
Qed.
Lemma qlater_later q q' : qlater q q' -> mq_validate q = Ok tt -> HistoryFacts.later q q'.
Proof.
  intros (v & -> & [->|M]) V; [rewrite mq_put_same; apply HistoryFacts.later_refl|].
  apply mq_validate_query in V. exists v. split; [reflexivity|]. right. split; [exact V|apply merged_optimize; assumption].
Qed.
Lemma qlater_serialize q q' : qlater q q' -> snd (mq_serialize q') = snd (mq_serialize q).
Proof.
  intros H. pose proof (qlater_validate _ _ H) as V. destruct (mq_validate q) as [[]|e] eqn:E.
  - apply HistoryFacts.later_serialize, qlater_later; assumption.
  - unfold mq_serialize. rewrite V, E. reflexivity.
Qed.
Definition rqlater (q q' : rquery) : Prop :=
  match q, q' with
  | RMetrics x, RMetrics y => qlater x y
  | RMetrics _, _ | _, RMetrics _ => False
  | _, _ => q = q'
  end.
Definition req_later (r r' : request) : Prop := rqlater (rq_query r) (rq_query r') /\ r' = with_query r (rq_query r').
Lemma req_validate r r' : req_later r r' -> request_validate r' = request_validate r.
Proof.
  intros [H ->]. assert (rquery_validate (rq_query r') = rquery_validate (rq_query r)) as K.
  { destruct (rq_query r), (rq_query r'); cbn in *; try contradiction; try congruence. apply qlater_validate, H. }
  destruct r; unfold request_validate, with_query in *; cbn in *. rewrite K. reflexivity.
Qed.
Lemma req_valid_later r r' : req_later r r' -> request_validate r = Ok tt -> HistoryFacts.req_later r r'.
Proof.
  intros [H E] V. split; [|exact E]. unfold request_validate in V. do 4 apply seq_ok in V as [_ V].
  apply seq_ok in V as [V _].
  destruct (rq_query r), (rq_query r'); cbn in *; try contradiction; try congruence. apply qlater_later; assumption.
Qed.
Lemma req_to_dict r r' : req_later r r' -> snd (request_to_dict r') = snd (request_to_dict r).
Proof.
  intros L. pose proof (req_validate _ _ L) as V. destruct (request_validate r) as [[]|e] eqn:E.
  - apply HistoryFacts.req_to_dict, req_valid_later; assumption.
  - unfold request_to_dict. rewrite V, E. reflexivity.
Qed.
Lemma req_serialize r r' : req_later r r' -> snd (request_serialize r') = snd (request_serialize r).
Proof.
  intros L. pose proof (req_to_dict _ _ L) as H. unfold request_serialize.
  destruct (request_to_dict r), (request_to_dict r'). cbn in *. congruence.
Qed.
Lemma req_print r r' : req_later r r' -> snd (request_print r') = snd (request_print r).
Proof.
  intros L. pose proof (req_to_dict _ _ L) as H. unfold request_print. rewrite (req_validate _ _ L).
  destruct (request_validate r); [|reflexivity].
  destruct (request_to_dict r), (request_to_dict r'). cbn in *. congruence.
Qed.

(** * Slots *)
Variable N : nat.

Lemma optimized_part h s b : reaches h (optimized N h s) b -> reaches h s b.
Proof.
  destruct s as [v|q|a|k]; cbn [optimized].
  - destruct (optimize_mval v); intros R; inversion R.
  - auto.
  - destruct (cell_of h (Ref a)) as [k|] eqn:E; [|auto]. cbn in E.
    destruct k as [l|ks vs|m x p fl g|m x p fl g|o p u|f|st c|r fl]; auto;
      (destruct (new_filters N h fl); [|auto]; intros R; inversion R as [| |k s b' I Rs]; subst; cbn in I;
       eapply re_part; [exact E| |exact Rs]; cbn;
       destruct I as [<-|[<-|[<-|[<-|[<-|[]]]]]]; auto 6; inversion Rs).
  - destruct (cell_of h (Own k)) as [k'|] eqn:E; [|auto]. cbn in E. injection E as ->.
    destruct k' as [l|ks vs|m x p fl g|m x p fl g|o p u|f|st c|r fl]; auto;
      (destruct (new_filters N h fl); [|auto]; intros R; inversion R as [| |k s b' I Rs]; subst; cbn in I;
       eapply re_own; [|exact Rs]; cbn;
       destruct I as [<-|[<-|[<-|[<-|[<-|[]]]]]]; auto 6; inversion Rs).
Qed.
Lemma new_filters_alike h h' f : all_alike h h' f -> new_filters N h' f = new_filters N h f.
Proof. intros A. unfold new_filters. rewrite (read_alike _ _ _ _ A). reflexivity. Qed.
Lemma optimized_alike h h' s : all_alike h h' s -> optimized N h' s = optimized N h s.
Proof.
  intros A. destruct s as [v|q|a|k]; try reflexivity;
    (pose proof (cell_alike _ _ _ A) as C; pose proof (fun k x => all_alike_part _ _ _ k x A) as Pt;
     unfold optimized; destruct C as [C|(f & f' & C & C')]; [|rewrite C, C'; reflexivity]; rewrite <- C;
     destruct (cell_of h _) as [k'|] eqn:E; [|reflexivity];
     destruct k' as [l|ks vs|m x p fl g|m x p fl g|o p u|f|st c|r fl]; try reflexivity;
     (rewrite (new_filters_alike h h' fl); [reflexivity|eapply Pt; [reflexivity|cbn; tauto]])).
Qed.
(** merging the filters of the value of [s] makes a new object *)
Definition fine (h : heap) (s : slot) : Prop :=
  match s with
  | Imm v => exists v', merged_in v v' /\ check_query v = Ok tt
  | _ => match cell_of h s with
         | Some (KTimeseries _ _ _ f _) => exists fs fs', read (pred N) h f = Some (VObj (OList fs))
             /\ forallb is_condition_obj fs = true /\ optimize fs = Ok (Some fs')
         | Some (KFormula _ _ _ f _) => exists o fs fs', read (pred N) h f = Some (VObj o) /\ iter o = Ok fs /\ optimize fs = Ok (Some fs')
         | _ => False
         end
  end.
Lemma fine_alike h h' s : all_alike h h' s -> fine h s -> fine h' s.
Proof.
  intros A. destruct s as [v|q|a|k]; try (intros H; exact H);
    (pose proof (cell_alike _ _ _ A) as C; pose proof (fun k x => all_alike_part _ _ _ k x A) as Pt;
     unfold fine; destruct C as [C|(f & f' & C & C')]; [|rewrite C, C'; auto]; rewrite <- C;
     destruct (cell_of h _) as [k'|] eqn:E; [|auto];
     destruct k' as [l|ks vs|m x p fl g|m x p fl g|o p u|f|st c|r fl]; auto;
     (rewrite (read_alike (pred N) h h' fl); [auto|eapply Pt; [reflexivity|cbn; tauto]])).
Qed.
(** the value of a Timeseries or Formula with other filters *)
Lemma read_fine h s : fine h s ->
  match get N h s, get N h (optimized N h s) with
  | Some v, Some v' => merged_in v v'
  | None, None => True
  | _, _ => False
  end.
Proof.
  assert (forall s, match s with Imm _ => False | _ => True end -> fine h s ->
    match get N h s, get N h (optimized N h s) with
    | Some v, Some v' => merged_in v v' | None, None => True | _, _ => False end) as K.
  { clear s. intros s NI F. assert (fine h s = match cell_of h s with
         | Some (KTimeseries _ _ _ f _) => exists fs fs', read (pred N) h f = Some (VObj (OList fs))
             /\ forallb is_condition_obj fs = true /\ optimize fs = Ok (Some fs')
         | Some (KFormula _ _ _ f _) => exists o fs fs', read (pred N) h f = Some (VObj o) /\ iter o = Ok fs /\ optimize fs = Ok (Some fs')
         | _ => False
         end) as EF by (destruct s; try contradiction; reflexivity).
    rewrite EF in F. clear EF.
    assert (optimized N h s = match cell_of h s with
         | Some (KTimeseries m a p f g) =>
             match new_filters N h f with Some fs => Own (KTimeseries m a p (Imm (VObj (OList fs))) g) | None => s end
         | Some (KFormula x p a f g) =>
             match new_filters N h f with Some fs => Own (KFormula x p a (Imm (VObj (OList fs))) g) | None => s end
         | _ => s
         end) as EO by (destruct s; try contradiction; reflexivity).
    rewrite EO. clear EO. unfold get. destruct N as [|n].
    - destruct (cell_of h s) as [k|] eqn:E; [|contradiction].
      assert (read 0 h s = None) as -> by (destruct s; try contradiction; reflexivity).
      destruct k as [l|ks vs|m x p fl g|m x p fl g|o p u|f|st c|r fl]; try contradiction; unfold new_filters;
        [destruct F as (fs & fs' & Rf & _ & O)|destruct F as (o & fs & fs' & Rf & I & O)]; rewrite Rf; cbn [as_o iter];
        [|rewrite I]; rewrite O; reflexivity.
    - assert (read (S n) h s = match cell_of h s with
          | Some (KTimeseries m a p f g) =>
              match read n h m, read n h a, as_opt_l (read n h p), as_opt_l (read n h f), as_opt_l (read n h g) with
              | Some (VMetric m), Some (VObj (OStr a)), Some p, Some f, Some g => Some (VTS (mkTS m a p f g))
              | _, _, _, _, _ => None
              end
          | Some (KFormula x p a f g) =>
              match as_o (read n h x), params_of (read n h) h p, as_o (read n h a), as_o (read n h f), as_o (read n h g) with
              | Some x, Some (k, ps), Some a, Some f, Some g => Some (VFormula x (Some k) ps a f g)
              | _, _, _, _, _ => None
              end
          | _ => read (S n) h s
          end) as ER by (destruct s; try contradiction; cbn [read]; destruct (cell_of h _) as [[]|]; reflexivity).
      rewrite ER. clear ER. destruct (cell_of h s) as [k|] eqn:E; [|contradiction].
      destruct k as [l|ks vs|m x p fl g|m x p fl g|o p u|f|st c|r fl]; try contradiction; unfold new_filters; cbn [pred] in *.
      + destruct F as (fs & fs' & Rf & C & O). rewrite Rf. cbn [as_o iter]. rewrite O. cbn [read cell_of].
        assert (forall v, read n h (Imm v) = Some v) as RI by (intros v; destruct n; reflexivity). rewrite RI. cbn [as_opt_l].
        destruct (read n h m) as [[|m'| | | |]|]; try exact I. destruct (read n h x) as [[[]| | | | |]|]; try exact I.
        destruct (as_opt_l (read n h p)); [|exact I]. destruct (as_opt_l (read n h g)); [|exact I]. constructor; assumption.
      + destruct F as (o & fs & fs' & Rf & It & O). rewrite Rf. cbn [as_o]. rewrite It, O. cbn [read cell_of].
        assert (forall v, read n h (Imm v) = Some v) as RI by (intros v; destruct n; reflexivity). rewrite RI. cbn [as_o].
        destruct (as_o (read n h m)); [|exact I]. destruct (params_of (read n h) h x) as [[k ps]|]; [|exact I].
        destruct (as_o (read n h p)); [|exact I]. destruct (as_o (read n h g)); [|exact I].
        apply mi_formula with fs; assumption. }
  destruct s as [v|q|a|k]; try (apply K; exact I).
  intros (v' & M & C). unfold get. cbn [optimized]. rewrite (merged_optimize _ _ M C).
  assert (forall v, read N h (Imm v) = Some v) as RI by (intros w; destruct N; reflexivity). rewrite !RI. exact M.
Qed.
(** a valid query: serialize() keeps it or makes a new object *)
Lemma optimized_cases h s v v' : get N h s = Some v -> check_query v = Ok tt -> optimize_mval v = Ok v' ->
  optimized N h s = s \/ fine h s.
Proof.
  intros G C O.
  assert (forall n w, read n h (Imm w) = Some w) as RI by (intros n w; destruct n; reflexivity).
  destruct s as [w|q|a|k].
  - unfold get in G. rewrite RI in G. injection G as ->. cbn [optimized]. rewrite O.
    destruct v as [o|m|t|r|sc|n pk ps a f g]; cbn [optimize_mval] in O; try (left; congruence).
    + destruct t as [m a p [fs|] g]; cbn in O; [|left; congruence]. destruct (optimize fs) as [[fs'|]|e] eqn:Of; cbn in O; try discriminate; [|left; congruence].
      right. eexists. split; [|exact C]. apply mi_ts with (fs' := fs'); [|exact Of].
      cbn in C. unfold ts_validate, ts_fields, mk_timeseries in C; cbn in C.
      destruct (metric_validate m); [|discriminate]. cbn in C. destruct (as_opt_list is_literal _ _); [|discriminate]. cbn in C.
      destruct (forallb is_condition_obj fs); [reflexivity|discriminate].
    + assert (f = ONone \/ (let! fs := iter f in let! o := optimize fs in
             match o with
             | None => Ok (VFormula n pk ps a f g)
             | Some fs' => Ok (VFormula n pk ps a (OList fs') g)
             end) = Ok v') as [->|K] by (destruct f; auto); [left; congruence|].
      apply bind_Ok in K as (fs & It & K). apply bind_Ok in K as ([fs'|] & Of & K); [|left; congruence].
      right. eexists. split; [|exact C]. eapply mi_formula; eassumption.
  - left. reflexivity.
  - unfold get in G. unfold optimized, fine, new_filters. destruct N as [|n]; [discriminate G|]. cbn [read] in G. cbn [pred].
    destruct (cell_of h (Ref a)) as [k'|]; [|left; reflexivity].
    destruct k' as [l|ks vs|m x p fl g|m x p fl g|o p u|f|st c|r fl]; try (left; reflexivity).
    + destruct (read n h m) as [[|m'| | | |]|]; try discriminate G. destruct (read n h x) as [[[]| | | | |]|]; try discriminate G.
      destruct (as_opt_l (read n h p)) as [p'|]; try discriminate G.
      destruct (read n h fl) as [[[]| | | | |]|]; try discriminate G; cbn [as_opt_l] in G; destruct (as_opt_l (read n h g)) as [g'|]; try discriminate G;
        injection G as <-; cbn [as_o iter]; [left; reflexivity|].
      destruct (optimize l) as [[fs'|]|e] eqn:Of; auto. right. exists l, fs'. repeat split; try assumption.
      cbn in C. unfold ts_validate, ts_fields, mk_timeseries in C; cbn in C.
      destruct (metric_validate m'); [|discriminate]. cbn in C. destruct (as_opt_list is_literal _ _); [|discriminate]. cbn in C.
      destruct (forallb is_condition_obj l); [reflexivity|discriminate].
    + destruct (read n h fl) as [[o| | | | |]|]; auto. cbn [as_o]. destruct (iter o) as [fs|] eqn:It; auto.
      destruct (optimize fs) as [[fs'|]|] eqn:Of; auto. right. exists o, fs, fs'. auto.
  - unfold get in G. unfold optimized, fine, new_filters. destruct N as [|n]; [discriminate G|]. cbn [read] in G. cbn [pred].
    destruct (cell_of h (Own k)) as [k'|]; [|left; reflexivity].
    destruct k' as [l|ks vs|m x p fl g|m x p fl g|o p u|f|st c|r fl]; try (left; reflexivity).
    + destruct (read n h m) as [[|m'| | | |]|]; try discriminate G. destruct (read n h x) as [[[]| | | | |]|]; try discriminate G.
      destruct (as_opt_l (read n h p)) as [p'|]; try discriminate G.
      destruct (read n h fl) as [[[]| | | | |]|]; try discriminate G; cbn [as_opt_l] in G; destruct (as_opt_l (read n h g)) as [g'|]; try discriminate G;
        injection G as <-; cbn [as_o iter]; [left; reflexivity|].
      destruct (optimize l) as [[fs'|]|e] eqn:Of; auto. right. exists l, fs'. repeat split; try assumption.
      cbn in C. unfold ts_validate, ts_fields, mk_timeseries in C; cbn in C.
      destruct (metric_validate m'); [|discriminate]. cbn in C. destruct (as_opt_list is_literal _ _); [|discriminate]. cbn in C.
      destruct (forallb is_condition_obj l); [reflexivity|discriminate].
    + destruct (read n h fl) as [[o| | | | |]|]; auto. cbn [as_o]. destruct (iter o) as [fs|] eqn:It; auto.
      destruct (optimize fs) as [[fs'|]|] eqn:Of; auto. right. exists o, fs, fs'. auto.
Qed.
(** doing it again changes nothing *)
Lemma optimized_twice h h' s : optimized N h' (optimized N h s) = optimized N h s \/ optimized N h s = s.
Proof.
  assert (forall g fs fs', optimize fs = Ok (Some fs') -> new_filters N g (Imm (VObj (OList fs'))) = None) as K.
  { intros g fs fs' O. unfold new_filters. assert (read (pred N) g (Imm (VObj (OList fs'))) = Some (VObj (OList fs'))) as -> by (destruct (pred N); reflexivity).
    cbn [as_o iter]. rewrite (optimize_idempotent _ _ O). reflexivity. }
  assert (forall f fs', new_filters N h f = Some fs' -> exists fs, optimize fs = Ok (Some fs')) as F.
  { intros f fs' H. unfold new_filters in H. destruct (as_o _) as [o|]; [|discriminate]. destruct (iter o) as [fs|]; [|discriminate].
    destruct (optimize fs) as [[l|]|] eqn:O; try discriminate. injection H as ->. eauto. }
  destruct s as [v|q|a|k].
  - cbn [optimized]. destruct (optimize_mval v) as [v'|e] eqn:O; [|right; reflexivity]. left. cbn [optimized].
    rewrite (optimize_mval_idem _ _ O). reflexivity.
  - right. reflexivity.
  - unfold optimized at 2 3 4. destruct (cell_of h (Ref a)) as [k'|]; [|right; reflexivity].
    destruct k' as [l|ks vs|m x p fl g|m x p fl g|o p u|f|st c|r fl]; try (right; reflexivity);
      (destruct (new_filters N h fl) as [fs'|] eqn:E; [|right; reflexivity]; left; apply F in E as (fs & O);
       cbn [optimized cell_of]; rewrite (K h' fs fs' O); reflexivity).
  - unfold optimized at 2 3 4. destruct (cell_of h (Own k)) as [k'|]; [|right; reflexivity].
    destruct k' as [l|ks vs|m x p fl g|m x p fl g|o p u|f|st c|r fl]; try (right; reflexivity);
      (destruct (new_filters N h fl) as [fs'|] eqn:E; [|right; reflexivity]; left; apply F in E as (fs & O);
       cbn [optimized cell_of]; rewrite (K h' fs fs' O); reflexivity).
Qed.

(** * Heaps before and after questions *)
Inductive crel (h : heap) : cell -> cell -> Prop :=
| cr_same k : crel h k k
| cr_metrics f f' : (forall x, x <> FQuery -> f' x = f x) ->
    (f' FQuery = f FQuery \/ f' FQuery = optimized N h (f FQuery) /\ fine h (f FQuery)) ->
    crel h (KMetrics f) (KMetrics f').
Definition orel (h : heap) (x y : option cell) : Prop :=
  match x, y with Some k, Some k' => crel h k k' | None, None => True | _, _ => False end.
Definition agree (P : nat -> Prop) (h h' : heap) : Prop := forall a, P a -> orel h (nth_error h a) (nth_error h' a).
Lemma agree_refl P h : agree P h h.
Proof. intros a _. unfold orel. destruct (nth_error h a); [apply cr_same|exact I]. Qed.
Lemma orel_alike h x y : orel h x y -> alike x y.
Proof.
  destruct x as [k|], y as [k'|]; cbn; intros H; try contradiction; [|left; reflexivity].
  inversion H; subst; [left; reflexivity|]. right. eauto.
Qed.
Lemma agree_alike P h h' s : agree P h h' -> (forall b, reaches h s b -> P b) -> all_alike h h' s.
Proof. intros A R b Rb. eapply orel_alike, A, R, Rb. Qed.
Lemma mfields_all x : In x mfields.
Proof. destruct x; cbn; tauto. Qed.
Lemma rfields_all x : In x rfields.
Proof. destruct x; cbn; tauto. Qed.

Lemma get_query_rel P h h' f f' : agree P h h' -> (forall x b, reaches h (f x) b -> P b) -> crel h (KMetrics f) (KMetrics f') ->
  match get_query N h f, get_query N h' f' with
  | Some q, Some q' => qlater q q'
  | None, None => True
  | _, _ => False
  end.
Proof.
  intros A R C. assert (forall x, get N h' (f x) = get N h (f x)) as G.
  { intros x. apply read_alike. eapply agree_alike; [exact A|apply R]. }
  assert (forall x, x <> FQuery -> f' x = f x) as E by (inversion C; subst; auto).
  assert (match get N h (f FQuery), get N h' (f' FQuery) with
          | Some v, Some v' => v' = v \/ merged_in v v' | None, None => True | _, _ => False end) as Q.
  { assert (f' FQuery = f FQuery \/ f' FQuery = optimized N h (f FQuery) /\ fine h (f FQuery)) as [->|[-> F]] by (inversion C; subst; auto).
    - rewrite G. destruct (get N h (f FQuery)); auto.
    - pose proof (read_fine _ _ F) as K.
      assert (get N h' (optimized N h (f FQuery)) = get N h (optimized N h (f FQuery))) as ->.
      { apply read_alike. eapply agree_alike; [exact A|]. intros b Rb. eapply R, optimized_part, Rb. }
      destruct (get N h (f FQuery)), (get N h (optimized N h (f FQuery))); auto. }
  unfold get_query. rewrite (E FStart), (E FEnd), (E FRollup), (E FScope), (E FLimit), (E FOffset), (E FExtrapolate), (E FIndexer) by discriminate.
  rewrite (G FStart), (G FEnd), (G FRollup), (G FScope), (G FLimit), (G FOffset), (G FExtrapolate), (G FIndexer).
  destruct (get N h (f FQuery)) as [v|], (get N h' (f' FQuery)) as [v'|]; try contradiction; [|exact I].
  destruct (get N h (f FStart)); [|exact I]. destruct (get N h (f FEnd)); [|exact I]. destruct (get N h (f FRollup)); [|exact I].
  destruct (get N h (f FScope)); [|exact I]. destruct (get N h (f FLimit)); [|exact I]. destruct (get N h (f FOffset)); [|exact I].
  destruct (get N h (f FExtrapolate)); [|exact I]. destruct (get N h (f FIndexer)); [|exact I].
  exists v'. split; [reflexivity|exact Q].
Qed.
Lemma reach_metrics h a f x b : nth_error h a = Some (KMetrics f) -> reaches h (f x) b -> reaches h (Ref a) b.
Proof. intros E R. eapply re_part; [exact E| |exact R]. exact (in_map f mfields x (mfields_all x)). Qed.
Lemma get_rquery_rel P h h' s : agree P h h' -> (forall b, reaches h s b -> P b) ->
  match get_rquery N h s, get_rquery N h' s with
  | Some q, Some q' => rqlater q q'
  | None, None => True
  | _, _ => False
  end.
Proof.
  intros A R. destruct s as [v|q|a|k]; cbn.
  - destruct v; cbn; auto.
  - reflexivity.
  - pose proof (A a (R a (re_ref h a))) as Aa. destruct (nth_error h a) as [k|] eqn:E, (nth_error h' a) as [k'|] eqn:E'; cbn in Aa; try contradiction; [|exact I].
    assert (match k, k' with KMetrics f, KMetrics f' => True | KMetrics _, _ => False | _, _ => k = k' end) as D by (inversion Aa; subst; [destruct k'; auto|exact I]).
    destruct k as [l|ks vs|m x p fl g|m x p fl g|o p u|f|st c|r fl]; subst; try exact I.
    + destruct k' as [| | | | |f'| |]; try contradiction.
      pose proof (get_query_rel P h h' f f' A (fun x b Rb => R b (reach_metrics h a f x b E Rb)) Aa) as K.
      destruct (get_query N h f), (get_query N h' f'); auto.
    + unfold get_o, get. rewrite !(read_alike N h h').
      * destruct (as_o (read N h st)), (as_o (read N h c)); cbn; auto.
      * eapply agree_alike; [exact A|]. intros b Rb. apply R. eapply re_part; [exact E| |exact Rb]. cbn; auto.
      * eapply agree_alike; [exact A|]. intros b Rb. apply R. eapply re_part; [exact E| |exact Rb]. cbn; auto.
  - assert (forall x b, In x (parts k) -> reaches h x b -> P b) as Rk.
    { intros x b Ix Rb. apply R. eapply re_own; eassumption. }
    destruct k as [l|ks vs|m x p fl g|m x p fl g|o p u|f|st c|r fl]; try exact I.
    + pose proof (get_query_rel P h h' f f A (fun x b Rb => Rk (f x) b (in_map f mfields x (mfields_all x)) Rb) (cr_same h (KMetrics f))) as K.
      destruct (get_query N h f), (get_query N h' f); auto.
    + unfold get_o, get. rewrite !(read_alike N h h').
      * destruct (as_o (read N h st)), (as_o (read N h c)); cbn; auto.
      * eapply agree_alike; [exact A|]. intros b Rb. eapply Rk; [|exact Rb]. cbn; auto.
      * eapply agree_alike; [exact A|]. intros b Rb. eapply Rk; [|exact Rb]. cbn; auto.
Qed.
Lemma get_request_rel P h h' r fl : agree P h h' -> (forall x b, reaches h (r x) b -> P b) ->
  match get_request N h r fl, get_request N h' r fl with
  | Some q, Some q' => req_later q q'
  | None, None => True
  | _, _ => False
  end.
Proof.
  intros A R. assert (forall x, get_o N h' (r x) = get_o N h (r x)) as G.
  { intros x. unfold get_o, get. rewrite (read_alike N h h'); [reflexivity|]. eapply agree_alike; [exact A|apply R]. }
  pose proof (get_rquery_rel P h h' (r RQueryF) A (R RQueryF)) as Q. unfold get_request. rewrite !G.
  destruct (get_o N h (r RDataset)); [|exact I]. destruct (get_o N h (r RApp)); [|exact I].
  destruct (get_rquery N h (r RQueryF)) as [q|], (get_rquery N h' (r RQueryF)) as [q'|]; try contradiction; [|exact I].
  destruct (get_o N h (r RParent)); [|exact I]. destruct (get_o N h (r RTenants)); [|exact I].
  split; [exact Q|reflexivity].
Qed.
Lemma reach_request h a r fl x b : nth_error h a = Some (KRequest r fl) -> reaches h (r x) b -> reaches h (Ref a) b.
Proof. intros E R. eapply re_part; [exact E| |exact R]. exact (in_map r rfields x (rfields_all x)). Qed.
Lemma entries_rel P h h' r o : agree P h h' -> (forall b, reaches h (r RQueryF) b -> P b) -> entries h' r o = entries h r o.
Proof.
  intros A R. assert (alike (cell_of h (r RQueryF)) (cell_of h' (r RQueryF))) as C by (apply cell_alike; eapply agree_alike; eassumption).
  unfold entries. destruct o; try reflexivity. apply map_ext. intros [k v]. cbn. destruct (str_eqb k _); [reflexivity|].
  destruct (str_eqb k _); [|reflexivity]. destruct C as [C|(f & f' & C & C')]; [rewrite C|rewrite C, C']; reflexivity.
Qed.

(** ** the answer to a question *)
Lemma ask_same P h h' a m : agree P h h' -> (forall b, reaches h (Ref a) b -> P b) -> about_sending h a m ->
  snd (ask N h' a m) = snd (ask N h a m).
Proof.
  intros A R S. pose proof (A a (R a (re_ref h a))) as Aa. unfold ask.
  assert (get N h' (Ref a) = get N h (Ref a)) as G by (apply read_alike; eapply agree_alike; eassumption).
  rewrite G.
  destruct (nth_error h a) as [k|] eqn:E, (nth_error h' a) as [k'|] eqn:E'; cbn in Aa; try contradiction; [|reflexivity].
  assert (match k, k' with KMetrics f, KMetrics f' => True | KMetrics _, _ => False | _, _ => k = k' end) as D by (inversion Aa; subst; [destruct k'; auto|exact I]).
  destruct k as [l|ks vs|mm x p fl g|mm x p fl g|o p u|f|st c|r fl]; subst; try reflexivity.
  - destruct (get N h (Ref a)); [|reflexivity]. destruct m; reflexivity.
  - destruct (get N h (Ref a)); [|reflexivity]. destruct m; reflexivity.
  - destruct (get N h (Ref a)) as [[]|]; try reflexivity. destruct m; reflexivity.
  - destruct k' as [| | | | |f'| |]; try contradiction.
    pose proof (get_query_rel P h h' f f' A (fun x b Rb => R b (reach_metrics h a f x b E Rb)) Aa) as K.
    destruct (get_query N h f) as [q|], (get_query N h' f') as [q'|]; try contradiction; [|reflexivity].
    unfold about_sending in S. destruct m; cbn [snd]; try reflexivity.
    + rewrite (qlater_validate _ _ K). reflexivity.
    + rewrite (qlater_serialize _ _ K). reflexivity.
    + elim (S f E).
    + elim (S f E).
  - unfold get_o, get. rewrite !(read_alike N h h').
    + destruct (as_o (read N h st)); [|reflexivity]. destruct (as_o (read N h c)); [|reflexivity]. destruct m; reflexivity.
    + eapply agree_alike; [exact A|]. intros b Rb. apply R. eapply re_part; [exact E| |exact Rb]. cbn; auto.
    + eapply agree_alike; [exact A|]. intros b Rb. apply R. eapply re_part; [exact E| |exact Rb]. cbn; auto.
  - pose proof (get_request_rel P h h' r fl A (fun x b Rb => R b (reach_request h a r fl x b E Rb))) as K.
    destruct (get_request N h r fl) as [q|], (get_request N h' r fl) as [q'|]; try contradiction; [|reflexivity].
    destruct m; cbn [snd].
    + rewrite (req_validate _ _ K). reflexivity.
    + rewrite (req_serialize _ _ K). reflexivity.
    + rewrite (req_print _ _ K). reflexivity.
    + rewrite (req_serialize _ _ K). reflexivity.
    + rewrite (req_to_dict _ _ K). unfold of_dict. destruct (snd (request_to_dict q)) as [o|e]; [|reflexivity].
      rewrite (entries_rel P h h' r o A); [reflexivity|]. intros b Rb. apply R. eapply reach_request; eassumption.
Qed.

(** ** what a question changes *)
Definition closed (P : nat -> Prop) (h : heap) : Prop := forall a b, P a -> reaches h (Ref a) b -> P b.
Lemma mupd_same f x s : mupd f x s x = s.
Proof. unfold mupd. destruct x; reflexivity. Qed.
Lemma mupd_other f x s y : x <> y -> mupd f x s y = f y.
Proof. unfold mupd. destruct x, y; intros H; try reflexivity; congruence. Qed.
Lemma crel_metrics h f k : crel h (KMetrics f) k -> exists f', k = KMetrics f' /\ (forall x, x <> FQuery -> f' x = f x)
  /\ (f' FQuery = f FQuery \/ f' FQuery = optimized N h (f FQuery) /\ fine h (f FQuery)).
Proof. intros C. inversion C; subst; eauto 6. Qed.
Lemma after_serialize_agree P h h' b : agree P h h' -> closed P h -> agree P h (after_serialize N h' b).
Proof.
  intros A Cl. unfold after_serialize. destruct (nth_error h' b) as [k'|] eqn:E'; [|exact A].
  destruct k' as [| | | | |f'| |]; try exact A. destruct (get_query N h' f') as [q'|] eqn:Q'; [|exact A].
  destruct (mq_validate q') as [[]|] eqn:V; [|exact A]. destruct (optimize_mval (mq_query q')) as [v'|] eqn:O; [|exact A].
  intros c Pc. destruct (Nat.eq_dec b c) as [->|D]; [|rewrite HistoryFacts.nth_put_other by exact D; apply A, Pc].
  rewrite HistoryFacts.nth_put_same by (eapply HistoryFacts.nth_some_lt; exact E'). pose proof (A c Pc) as Ac. rewrite E' in Ac.
  destruct (nth_error h c) as [k|] eqn:E; cbn in Ac |- *; [|contradiction].
  assert (exists f, k = KMetrics f) as [f ->] by (inversion Ac; subst; eauto).
  assert (forall x b, reaches h (f x) b -> P b) as R by (intros x d Rd; eapply Cl; [exact Pc|eapply reach_metrics; eassumption]).
  pose proof (get_query_rel P h h' f f' A R Ac) as K. rewrite Q' in K.
  destruct (get_query N h f) as [q|] eqn:Q; [|contradiction].
  pose proof (qlater_validate _ _ K) as Vq. rewrite V in Vq. symmetry in Vq.
  assert (all_alike h h' (f FQuery)) as Al by (eapply agree_alike; [exact A|apply R]).
  apply crel_metrics in Ac as (f2 & Ef & Eo & Eq). injection Ef as <-. constructor.
  - intros x Nx. rewrite mupd_other by congruence. apply Eo, Nx.
  - rewrite mupd_same. destruct Eq as [Eq|[Eq F]].
    + rewrite Eq, (optimized_alike h h' _ Al).
      assert (get N h (f FQuery) = Some (mq_query q)) as Gq.
      { unfold get_query in Q. destruct (get N h (f FQuery)); [|discriminate].
        destruct (get N h (f FStart)); [|discriminate]. destruct (get N h (f FEnd)); [|discriminate]. destruct (get N h (f FRollup)); [|discriminate].
        destruct (get N h (f FScope)); [|discriminate]. destruct (get N h (f FLimit)); [|discriminate]. destruct (get N h (f FOffset)); [|discriminate].
        destruct (get N h (f FExtrapolate)); [|discriminate]. destruct (get N h (f FIndexer)); [|discriminate]. injection Q as <-. reflexivity. }
      pose proof (qlater_later _ _ K Vq) as L. apply mq_validate_query in Vq.
      assert (exists w, optimize_mval (mq_query q) = Ok w) as [w Ow].
      { destruct L as (v & -> & [->|[_ Ov]]); [|eauto]. rewrite mq_put_same in O. eauto. }
      destruct (optimized_cases h _ _ _ Gq Vq Ow) as [-> |F]; auto.
    + right. split; [|exact F]. rewrite Eq. destruct (optimized_twice h h' (f FQuery)) as [T|T]; [exact T|].
      rewrite T at 1. rewrite (optimized_alike h h' _ Al). reflexivity.
Qed.
Lemma ask_agree P h h' a m : agree P h h' -> closed P h -> agree P h (fst (ask N h' a m)).
Proof.
  intros A Cl. assert (forall r x, agree P h (after_to_dict N h' r x)) as T.
  { intros r x. unfold after_to_dict. destruct (request_validate x); [|exact A]. destruct (rflags_to_dict _); [|exact A].
    destruct (r RQueryF); try exact A. apply after_serialize_agree; assumption. }
  unfold ask. destruct (nth_error h' a) as [k|]; [|exact A].
  destruct k as [l|ks vs|mm x p fl g|mm x p fl g|o p u|f|st c|r fl]; try exact A.
  - destruct (get N h' (Ref a)); [|exact A]. destruct m; exact A.
  - destruct (get N h' (Ref a)); [|exact A]. destruct m; exact A.
  - destruct (get N h' (Ref a)) as [[]|]; try exact A. destruct m; exact A.
  - destruct (get_query N h' f); [|exact A]. destruct m; try exact A. apply after_serialize_agree; assumption.
  - destruct (get_o N h' st); [|exact A]. destruct (get_o N h' c); [|exact A]. destruct m; exact A.
  - destruct (get_request N h' r fl); [|exact A]. destruct m; cbn [fst]; try exact A; apply T.
Qed.

(** * All calls *)

(** ** references are to objects that exist *)
Inductive inside : slot -> nat -> Prop :=
| in_ref a : inside (Ref a) a
| in_own k s b : In s (parts k) -> inside s b -> inside (Own k) b.
Definition ssound (h : heap) (s : slot) : Prop := forall b, inside s b -> b < List.length h.
Definition ksound (h : heap) (k : cell) : Prop := forall s, In s (parts k) -> ssound h s.
Definition sound (h : heap) : Prop := forall a k, nth_error h a = Some k -> ksound h k.
Lemma nil_sound : sound [].
Proof. intros [|a] k E; discriminate E. Qed.
Lemma arg_sound h s : arg h s = true -> ssound h s.
Proof.
  destruct s as [v|q|a|k]; cbn; intros H b I; inversion I; subst; try discriminate. apply Nat.ltb_lt, H.
Qed.
Lemma args_sound h l s : forallb (arg h) l = true -> In s l -> ssound h s.
Proof. intros H I. apply arg_sound. rewrite forallb_forall in H. apply H, I. Qed.
Lemma reaches_exists h s b : sound h -> ssound h s -> reaches h s b -> b < List.length h.
Proof.
  intros Sh Ss R. induction R as [a|a k s b E I R IH|k s b I R IH].
  - apply Ss. constructor.
  - apply IH. intros c Ic. eapply Sh; eassumption.
  - apply IH. intros c Ic. apply Ss. econstructor; eassumption.
Qed.
Lemma reaches_trans h s a b : reaches h s a -> reaches h (Ref a) b -> reaches h s b.
Proof.
  intros R Rb. induction R as [a|a k s c E I R IH|k s c I R IH]; [exact Rb| |].
  - eapply re_part; [exact E|exact I|apply IH, Rb].
  - eapply re_own; [exact I|apply IH, Rb].
Qed.
Lemma reaches_closed h s : closed (reaches h s) h.
Proof. intros a b. apply reaches_trans. Qed.

(** ** what a call does to the heap *)
Inductive moves (Q : slot -> Prop) (h : heap) (c : call) : heap -> Prop :=
| mv_none : moves Q h c h
| mv_new k : (forall s, In s (parts k) -> Q s) -> moves Q h c (h ++ [k])
| mv_put a k : changes c = Some a -> a < List.length h -> (forall s, In s (parts k) -> Q s) -> moves Q h c (History.put h a k)
| mv_ask a m : c = Ask a m -> moves Q h c (fst (ask N h a m)).
Lemma put_key_parts k v ks : forall vs s, In s (snd (put_key k v ks vs)) -> s = v \/ In s vs.
Proof.
  induction ks as [|k' ks IH]; intros [|x vs] s; cbn; try (intros [<-|[]]; auto).
  destruct (str_eqb k' k); cbn; [intros [<-|]; auto|]. destruct (put_key k v ks vs) as [ks1 vs1] eqn:E. cbn.
  intros [<-|I]; auto. specialize (IH vs s). rewrite E in IH. destruct (IH I); auto.
Qed.
Lemma moves_checked {A} (Q : slot -> Prop) h c (r : result A) k : (forall s, In s (parts k) -> Q s) -> moves Q h c (fst (checked h r k)).
Proof. intros K. destruct r; cbn; [apply mv_new, K|apply mv_none]. Qed.
Lemma step_moves (Q : slot -> Prop) h c : (forall s, arg h s = true -> Q s) ->
  (forall a k s, nth_error h a = Some k -> In s (parts k) -> Q s) -> moves Q h c (fst (step N h c)).
Proof.
  intros AQ So.
  assert (forall l s, forallb (arg h) l = true -> In s l -> Q s) as ArgsQ by (intros l s F I; rewrite forallb_forall in F; apply AQ, F, I).
  destruct c; cbn [step].
  - destruct (forallb (arg h) l) eqn:F; [|apply mv_none]. apply mv_new. intros ss I. eapply ArgsQ; eassumption.
  - destruct (forallb (arg h) vs && _)%bool eqn:F; [|apply mv_none]. apply andb_prop in F as [F _]. apply mv_new. intros ss I. eapply ArgsQ; eassumption.
  - destruct (forallb (arg h) _) eqn:F; [|apply mv_none].
    destruct (get N h metric); [|apply mv_none]. destruct (get_o N h aggregate); [|apply mv_none]. destruct (get_o N h params); [|apply mv_none].
    destruct (get_o N h filters); [|apply mv_none]. destruct (get_o N h groupby); [|apply mv_none].
    apply moves_checked. intros ss I. eapply ArgsQ; eassumption.
  - destruct (forallb (arg h) _) eqn:F; [|apply mv_none]. apply mv_new. intros ss I. eapply ArgsQ; eassumption.
  - destruct (forallb (arg h) _) eqn:F; [|apply mv_none].
    destruct (get_o N h orgs); [|apply mv_none]. destruct (get_o N h projects); [|apply mv_none]. destruct (get_o N h usecase); [|apply mv_none].
    apply moves_checked. intros ss I. eapply ArgsQ; eassumption.
  - destruct (forallb _ mfields) eqn:F; [|apply mv_none]. apply mv_new. intros ss I. cbn [parts] in I. apply in_map_iff in I as (x & <- & Ix).
    apply AQ. rewrite forallb_forall in F. apply F, Ix.
  - destruct (arg h storage && arg h columns)%bool eqn:F; [|apply mv_none]. apply andb_prop in F as [F1 F2].
    apply mv_new. intros ss [<-|[<-|[]]]; apply AQ; assumption.
  - destruct (forallb _ rfields) eqn:F; [|apply mv_none]. apply mv_new. intros ss I. cbn [parts] in I. apply in_map_iff in I as (x & <- & Ix).
    apply AQ. rewrite forallb_forall in F. apply F, Ix.
  - destruct (nth_error h a) as [[]|] eqn:E; try apply mv_none. destruct (get N h (Ref a)) as [[]|]; try apply mv_none.
    destruct (get N h v); [|apply mv_none]. destruct (arg h v) eqn:F; [|apply mv_none]. apply moves_checked.
    intros ss I. cbn in I. destruct I as [<-|I]; [apply AQ, F|]. eapply So; [exact E|]. cbn. tauto.
  - destruct (nth_error h a) as [[]|] eqn:E; try apply mv_none. destruct (get N h (Ref a)) as [[]|]; try apply mv_none.
    destruct (get_o N h v); [|apply mv_none]. destruct (get_o N h p); [|apply mv_none].
    destruct (arg h v && arg h p)%bool eqn:F; [|apply mv_none]. apply andb_prop in F as [F1 F2]. apply moves_checked.
    intros ss I. cbn in I. destruct I as [<-|[<-|[<-|I]]]; try (apply AQ; assumption); eapply So; [exact E| |exact E|]; cbn; tauto.
  - destruct (nth_error h a) as [[]|] eqn:E; try apply mv_none.
    + destruct (get N h (Ref a)) as [[]|]; try apply mv_none.
      destruct (get_o N h v); [|apply mv_none]. destruct (arg h v) eqn:F; [|apply mv_none]. apply moves_checked.
      intros ss I. cbn in I. destruct I as [<-|[<-|[<-|[<-|I]]]]; try (apply AQ; assumption); (eapply So; [exact E|]; cbn; tauto).
    + destruct (get N h (Ref a)); [|apply mv_none].
      destruct (get_o N h v); [|apply mv_none]. destruct (arg h v) eqn:F; [|apply mv_none]. apply moves_checked.
      intros ss I. cbn in I. destruct I as [<-|[<-|[<-|[<-|I]]]]; try (apply AQ; assumption); (eapply So; [exact E|]; cbn; tauto).
  - destruct (nth_error h a) as [[]|] eqn:E; try apply mv_none.
    + destruct (get N h (Ref a)) as [[]|]; try apply mv_none.
      destruct (get_o N h v); [|apply mv_none]. destruct (arg h v) eqn:F; [|apply mv_none]. apply moves_checked.
      intros ss I. cbn in I. destruct I as [<-|[<-|[<-|[<-|[<-|[]]]]]]; try (apply AQ; assumption); (eapply So; [exact E|]; cbn; tauto).
    + destruct (get N h (Ref a)); [|apply mv_none].
      destruct (get_o N h v); [|apply mv_none]. destruct (arg h v) eqn:F; [|apply mv_none]. apply moves_checked.
      intros ss I. cbn in I. destruct I as [<-|[<-|[<-|[<-|[<-|[]]]]]]; try (apply AQ; assumption); (eapply So; [exact E|]; cbn; tauto).
  - destruct (nth_error h a) as [[]|] eqn:E; try apply mv_none.
    destruct (get N h (Ref a)); [|apply mv_none]. destruct (params_of _ h v) as [[]|]; [|apply mv_none].
    destruct (arg h v) eqn:F; [|apply mv_none]. apply moves_checked.
    intros ss I. cbn in I. destruct I as [<-|[<-|I]]; try (apply AQ; assumption); (eapply So; [exact E|]; cbn; tauto).
  - destruct (nth_error h a) as [[]|] eqn:E; try apply mv_none. destruct (get N h (Ref a)) as [[]|]; try apply mv_none.
    destruct (get_o N h v); [|apply mv_none]. destruct (arg h v) eqn:F; [|apply mv_none]. apply moves_checked.
    intros ss I. cbn in I. destruct I as [<-|[<-|[<-|[]]]]; try (apply AQ; assumption); (eapply So; [exact E|]; cbn; tauto).
  - destruct (nth_error h a) as [[]|] eqn:E; try apply mv_none. destruct (get N h v) as [w|]; [|apply mv_none].
    destruct (arg h v) eqn:F; [|apply mv_none]. destruct (mq_setter_value f w) as [x|]; [|apply mv_none]. apply mv_new.
    intros ss I. cbn [parts] in I. apply in_map_iff in I as (y & <- & Iy). unfold mupd. destruct (mfield_eqb f y).
    + unfold field_slot. destruct f; try (apply AQ; assumption); apply AQ; reflexivity.
    + eapply So; [exact E|]. exact (in_map _ mfields y Iy).
  - apply mv_ask. reflexivity.
  - destruct (nth_error h a) as [[]|] eqn:E; try apply mv_none. destruct (arg h v) eqn:F; [|apply mv_none].
    apply mv_put; [reflexivity|eapply HistoryFacts.nth_some_lt, E|]. intros ss I. cbn in I. apply in_app_or in I as [I|[<-|[]]]; [|apply AQ, F].
    eapply So; [exact E|exact I].
  - destruct (nth_error h a) as [[]|] eqn:E; try apply mv_none. destruct (arg h v) eqn:F; [|apply mv_none].
    destruct (put_key k v ks vs) as [ks' vs'] eqn:K.
    apply mv_put; [reflexivity|eapply HistoryFacts.nth_some_lt, E|]. intros ss I. cbn in I.
    assert (ss = v \/ In ss vs) as [->|J] by (apply (put_key_parts k v ks); rewrite K; exact I); [apply AQ, F|].
    eapply So; [exact E|exact J].
  - destruct (nth_error h a) as [[]|] eqn:E; try apply mv_none. destruct (arg h v) eqn:F; [|apply mv_none].
    apply mv_put; [reflexivity|eapply HistoryFacts.nth_some_lt, E|].
    intros ss I. destruct x; cbn in I; destruct I as [<-|[<-|[<-|[<-|[<-|[]]]]]]; try (apply AQ; assumption); (eapply So; [exact E|]; cbn; tauto).
  - destruct (nth_error h a) as [[]|] eqn:E; try apply mv_none. destruct (arg h v) eqn:F; [|apply mv_none].
    apply mv_put; [reflexivity|eapply HistoryFacts.nth_some_lt, E|].
    intros ss I. destruct x; cbn in I; destruct I as [<-|[<-|[<-|[]]]]; try (apply AQ; assumption); (eapply So; [exact E|]; cbn; tauto).
  - destruct (nth_error h a) as [[]|] eqn:E; try apply mv_none. destruct (arg h v) eqn:F; [|apply mv_none].
    apply mv_put; [reflexivity|eapply HistoryFacts.nth_some_lt, E|].
    intros ss I. cbn [parts] in I. apply in_map_iff in I as (y & <- & Iy). unfold mupd. destruct (mfield_eqb f y); [apply AQ, F|].
    eapply So; [exact E|]. exact (in_map _ mfields y Iy).
  - destruct (nth_error h a) as [[]|] eqn:E; try apply mv_none. destruct (arg h v) eqn:F; [|apply mv_none].
    apply mv_put; [reflexivity|eapply HistoryFacts.nth_some_lt, E|].
    intros ss I. cbn [parts] in I. apply in_map_iff in I as (y & <- & Iy). unfold rupd. destruct (rfield_eqb x y); [apply AQ, F|].
    eapply So; [exact E|]. exact (in_map _ rfields y Iy).
  - destruct (nth_error h a) as [[]|] eqn:E; try apply mv_none.
    apply mv_put; [reflexivity|eapply HistoryFacts.nth_some_lt, E|]. intros ss I. eapply So; [exact E|exact I].
Qed.

(** ** references stay sound *)
Lemma ssound_le h h' s : List.length h <= List.length h' -> ssound h s -> ssound h' s.
Proof. intros L S b I. specialize (S b I). lia. Qed.
Lemma sound_new h k : sound h -> ksound h k -> sound (h ++ [k]).
Proof.
  intros Sh K a k' E s I. apply ssound_le with h; [rewrite app_length; lia|].
  destruct (Nat.lt_ge_cases a (List.length h)) as [L|L].
  - rewrite nth_error_app1 in E by exact L. eapply Sh; eassumption.
  - rewrite nth_error_app2 in E by exact L. destruct (a - List.length h) as [|n]; [|destruct n; discriminate E].
    injection E as <-. apply K, I.
Qed.
Lemma sound_put h a k : sound h -> ksound h k -> sound (History.put h a k).
Proof.
  intros Sh K b k' E s I. apply ssound_le with h; [rewrite HistoryFacts.put_length; lia|].
  destruct (Nat.eq_dec a b) as [->|D].
  - assert (b < List.length h) as L by (apply HistoryFacts.nth_some_lt in E; rewrite HistoryFacts.put_length in E; exact E).
    rewrite HistoryFacts.nth_put_same in E by exact L. injection E as <-. apply K, I.
  - rewrite HistoryFacts.nth_put_other in E by exact D. eapply Sh; eassumption.
Qed.
Lemma optimized_sound h s : sound h -> ssound h s -> ssound h (optimized N h s).
Proof.
  intros Sh Ss. destruct s as [v|q|a|k]; cbn [optimized].
  - destruct (optimize_mval v); intros b I; inversion I.
  - exact Ss.
  - destruct (cell_of h (Ref a)) as [k|] eqn:E; [|exact Ss]. cbn in E.
    destruct k as [l|ks vs|m x p fl g|m x p fl g|o p u|f|st c|r fl]; try exact Ss;
      (destruct (new_filters N h fl); [|exact Ss]; intros b I; inversion I as [|k s b' J Js]; subst; cbn in J;
       destruct J as [<-|[<-|[<-|[<-|[<-|[]]]]]]; try (eapply Sh; [exact E| |exact Js]; cbn; tauto); inversion Js).
  - destruct (cell_of h (Own k)) as [k'|] eqn:E; [|exact Ss]. cbn in E. injection E as ->.
    destruct k' as [l|ks vs|m x p fl g|m x p fl g|o p u|f|st c|r fl]; try exact Ss;
      (destruct (new_filters N h fl); [|exact Ss]; intros b I; inversion I as [|k s b' J Js]; subst; cbn in J;
       destruct J as [<-|[<-|[<-|[<-|[<-|[]]]]]]; try (apply Ss; eapply in_own; [|exact Js]; cbn; tauto); inversion Js).
Qed.
Lemma after_serialize_sound h a : sound h -> sound (after_serialize N h a).
Proof.
  intros Sh. unfold after_serialize. destruct (nth_error h a) as [k|] eqn:E; [|exact Sh].
  destruct k as [| | | | |f| |]; try exact Sh. destruct (get_query N h f); [|exact Sh].
  destruct (mq_validate _); [|exact Sh]. destruct (optimize_mval _); [|exact Sh].
  apply sound_put; [exact Sh|]. intros s I. cbn [parts] in I. apply in_map_iff in I as (y & <- & Iy). unfold mupd.
  assert (forall z, ssound h (f z)) as Sf by (intros z; eapply Sh; [exact E|exact (in_map f mfields z (mfields_all z))]).
  destruct (mfield_eqb FQuery y); [apply optimized_sound; auto|apply Sf].
Qed.
Lemma ask_sound h a m : sound h -> sound (fst (ask N h a m)).
Proof.
  intros Sh. assert (forall r x, sound (after_to_dict N h r x)) as T.
  { intros r x. unfold after_to_dict. destruct (request_validate x); [|exact Sh]. destruct (rflags_to_dict _); [|exact Sh].
    destruct (r RQueryF); try exact Sh. apply after_serialize_sound, Sh. }
  unfold ask. destruct (nth_error h a) as [k|]; [|exact Sh].
  destruct k as [l|ks vs|mm x p fl g|mm x p fl g|o p u|f|st c|r fl]; try exact Sh.
  - destruct (get N h (Ref a)); [|exact Sh]. destruct m; exact Sh.
  - destruct (get N h (Ref a)); [|exact Sh]. destruct m; exact Sh.
  - destruct (get N h (Ref a)) as [[]|]; try exact Sh. destruct m; exact Sh.
  - destruct (get_query N h f); [|exact Sh]. destruct m; try exact Sh. apply after_serialize_sound, Sh.
  - destruct (get_o N h st); [|exact Sh]. destruct (get_o N h c); [|exact Sh]. destruct m; exact Sh.
  - destruct (get_request N h r fl); [|exact Sh]. destruct m; cbn [fst]; try exact Sh; apply T.
Qed.
Lemma step_sound h c : sound h -> sound (fst (step N h c)).
Proof.
  intros Sh. destruct (step_moves (ssound h) h c (arg_sound h) (fun a k s E I => Sh a k E s I)) as [|k K|a k _ _ K|a m _]; auto using sound_new, sound_put, ask_sound.
Qed.
Lemma run_sound cs : forall h, sound h -> sound (run N h cs).
Proof. induction cs as [|c cs IH]; intros h Sh; cbn; [exact Sh|]. apply IH, step_sound, Sh. Qed.

(** ** objects that are not changed *)
Lemma run_agree P h cs : closed P h -> (forall a, P a -> a < List.length h) ->
  (forall c b, In c cs -> P b -> changes c <> Some b) -> forall h', sound h' -> agree P h h' -> agree P h (run N h' cs).
Proof.
  intros Cl B. induction cs as [|c cs IH]; intros Nc h' Sh A; cbn; [exact A|].
  apply IH; [intros d b Id; apply Nc; right; exact Id|apply step_sound, Sh|].
  assert (forall a, P a -> a < List.length h') as B'.
  { intros a Pa. pose proof (A a Pa) as Aa. apply B in Pa. apply nth_error_Some. apply nth_error_Some in Pa.
    destruct (nth_error h a), (nth_error h' a); cbn in Aa; congruence || contradiction. }
  destruct (step_moves (ssound h') h' c (arg_sound h') (fun a k s E I => Sh a k E s I)) as [|k K|a k Ch L K|a m _].
  - exact A.
  - intros b Pb. rewrite nth_error_app1 by (apply B', Pb). apply A, Pb.
  - intros b Pb. rewrite HistoryFacts.nth_put_other; [apply A, Pb|]. intros ->. apply (Nc c b (or_introl eq_refl) Pb Ch).
  - apply ask_agree; assumption.
Qed.

(** * Programs with and without their questions *)

(** no object made by serialize() *)
Definition plain (h : heap) : Prop := forall a k s, nth_error h a = Some k -> In s (parts k) -> arg h s = true.
Definition everywhere : nat -> Prop := fun _ => True.
Lemma plain_sound h : plain h -> sound h.
Proof. intros Ph a k E s I. eapply arg_sound, Ph; eassumption. Qed.
Lemma arg_le h h' s : List.length h <= List.length h' -> arg h s = true -> arg h' s = true.
Proof. destruct s; cbn; auto. intros L H. apply Nat.ltb_lt in H. apply Nat.ltb_lt. lia. Qed.
Lemma arg_length h h' s : List.length h = List.length h' -> arg h s = arg h' s.
Proof. intros L. destruct s; cbn; auto. rewrite L. reflexivity. Qed.
Lemma plain_step h c : plain h -> asks c = false -> plain (fst (step N h c)).
Proof.
  intros Ph Nc. destruct (step_moves (fun s => arg h s = true) h c (fun s H => H) Ph) as [|k K|a k _ L K|a m E].
  - exact Ph.
  - intros a k' s E I. apply arg_le with h; [rewrite app_length; lia|]. destruct (Nat.lt_ge_cases a (List.length h)) as [L|L].
    + rewrite nth_error_app1 in E by exact L. eapply Ph; eassumption.
    + rewrite nth_error_app2 in E by exact L. destruct (a - List.length h) as [|n]; [|destruct n; discriminate E].
      injection E as <-. apply K, I.
  - intros b k' s E I. apply arg_le with h; [rewrite HistoryFacts.put_length; lia|]. destruct (Nat.eq_dec a b) as [->|D].
    + rewrite HistoryFacts.nth_put_same in E by exact L. injection E as <-. apply K, I.
    + rewrite HistoryFacts.nth_put_other in E by exact D. eapply Ph; eassumption.
  - subst c. discriminate Nc.
Qed.
Lemma agree_length h h' : agree everywhere h h' -> List.length h' = List.length h.
Proof.
  intros A. assert (forall a, nth_error h a = None <-> nth_error h' a = None) as K.
  { intros a. pose proof (A a I) as Aa. destruct (nth_error h a), (nth_error h' a); cbn in Aa; try contradiction; split; congruence. }
  pose proof (proj1 (K (List.length h))) as K1. pose proof (proj2 (K (List.length h'))) as K2. rewrite !nth_error_None in K1, K2.
  specialize (K1 (le_n _)). specialize (K2 (le_n _)). lia.
Qed.
Lemma agree_get h h' s : agree everywhere h h' -> get N h' s = get N h s.
Proof. intros A. apply read_alike. eapply agree_alike; [exact A|intros; exact I]. Qed.
Lemma agree_get_o h h' s : agree everywhere h h' -> get_o N h' s = get_o N h s.
Proof. intros A. unfold get_o. rewrite (agree_get h h' s A). reflexivity. Qed.
Lemma agree_arg h h' s : agree everywhere h h' -> arg h' s = arg h s.
Proof. intros A. apply arg_length, agree_length, A. Qed.

Inductive both (h h' : heap) (c : call) : heap -> heap -> Prop :=
| bo_none : both h h' c h h'
| bo_new k k' : crel h k k' -> (forall s, In s (parts k) -> arg h s = true) -> both h h' c (h ++ [k]) (h' ++ [k'])
| bo_put a k k' : changes c = Some a -> a < List.length h -> crel h k k' ->
    (forall f, k = KMetrics f -> exists f0, nth_error h a = Some (KMetrics f0)
       /\ (f FQuery = f0 FQuery \/ exists f', k' = KMetrics f' /\ f' FQuery = f FQuery)) ->
    both h h' c (History.put h a k) (History.put h' a k').
Definition in_step (h h' : heap) (c : call) (x x' : heap * answer) : Prop :=
  snd x' = snd x /\ both h h' c (fst x) (fst x').
Lemma in_bad h h' c w : in_step h h' c (h, w) (h', w).
Proof. split; [reflexivity|apply bo_none]. Qed.
Lemma in_new h h' c k k' : List.length h' = List.length h -> crel h k k' -> (forall s, In s (parts k) -> arg h s = true) ->
  in_step h h' c (new h k) (new h' k').
Proof. intros L C K. split; [cbn; rewrite L; reflexivity|apply bo_new; assumption]. Qed.
Lemma in_checked {A} h h' c (r : result A) k : List.length h' = List.length h -> (forall s, In s (parts k) -> arg h s = true) ->
  in_step h h' c (checked h r k) (checked h' r k).
Proof. intros L K. destruct r; cbn; [apply in_new; auto using cr_same|apply in_bad]. Qed.
Lemma in_changed h h' c a k : changes c = Some a -> a < List.length h -> (forall f, k <> KMetrics f) ->
  in_step h h' c (changed h a k) (changed h' a k).
Proof.
  intros C L K. split; [reflexivity|]. apply bo_put; auto using cr_same. intros f E. elim (K f E).
Qed.
Definition not_metrics (k : cell) : bool := match k with KMetrics _ => false | _ => true end.
Lemma agree_cell h h' a : agree everywhere h h' ->
  match nth_error h a with
  | None => nth_error h' a = None
  | Some (KMetrics f) => exists f', nth_error h' a = Some (KMetrics f') /\ crel h (KMetrics f) (KMetrics f')
  | Some k => nth_error h' a = Some k
  end.
Proof.
  intros A. pose proof (A a I) as Aa. destruct (nth_error h a) as [k|], (nth_error h' a) as [k'|]; cbn in Aa; try contradiction; [|reflexivity].
  destruct k; try (inversion Aa; subst; reflexivity). exists (match k' with KMetrics f' => f' | _ => f end).
  assert (exists f', k' = KMetrics f') as [f' ->] by (inversion Aa; subst; eauto). auto.
Qed.
Lemma forallb_arg h h' l : (forall s, arg h' s = arg h s) -> forallb (arg h') l = forallb (arg h) l.
Proof. intros H. induction l as [|s l IH]; cbn; [reflexivity|]. rewrite H, IH. reflexivity. Qed.
Lemma forallb_arg_f {X} (f : X -> slot) h h' l : (forall s, arg h' s = arg h s) ->
  forallb (fun x => arg h' (f x)) l = forallb (fun x => arg h (f x)) l.
Proof. intros H. induction l as [|s l IH]; cbn; [reflexivity|]. rewrite H, IH. reflexivity. Qed.
Lemma crel_mupd h f f' x s s' : crel h (KMetrics f) (KMetrics f') -> s' = s ->
  crel h (KMetrics (mupd f x s)) (KMetrics (mupd f' x s')).
Proof.
  intros C ->. apply crel_metrics in C as (g & E & O & Q). injection E as <-. constructor.
  - intros y Ny. unfold mupd. destruct (mfield_eqb x y); [reflexivity|apply O, Ny].
  - unfold mupd. destruct (mfield_eqb x FQuery); [left; reflexivity|exact Q].
Qed.
Ltac agreed h h' a A E :=
  let K := fresh "K" in pose proof (agree_cell h h' a A) as K;
  destruct (nth_error h a) as [[]|] eqn:E;
  first [destruct K as (? & K & ?); rewrite K; try apply in_bad | rewrite K; try apply in_bad].
Lemma step_both h h' c : agree everywhere h h' -> plain h -> asks c = false -> in_step h h' c (step N h c) (step N h' c).
Proof.
  intros A Ph Nc. pose proof (agree_length h h' A) as L.
  pose proof (fun s => agree_get h h' s A) as G. pose proof (fun s => agree_get_o h h' s A) as Go. pose proof (fun s => agree_arg h h' s A) as Ga.
  assert (forall l, forallb (arg h') l = forallb (arg h) l) as Gl by (intros l; apply forallb_arg, Ga).
  assert (forall l s, forallb (arg h) l = true -> In s l -> arg h s = true) as Fl by (intros l s F I; rewrite forallb_forall in F; apply F, I).
  destruct c; try discriminate Nc; cbn [step].
  - rewrite Gl. destruct (forallb (arg h) l) eqn:F; [|apply in_bad]. apply in_new; [exact L|apply cr_same|]. intros ss I. eapply Fl; eassumption.
  - rewrite Gl. destruct (forallb (arg h) vs && _)%bool eqn:F; [|apply in_bad]. apply andb_prop in F as [F _].
    apply in_new; [exact L|apply cr_same|]. intros ss I. eapply Fl; eassumption.
  - rewrite Gl, !G, !Go. destruct (forallb (arg h) _) eqn:F; [|apply in_bad].
    destruct (get N h metric); [|apply in_bad]. destruct (get_o N h aggregate); [|apply in_bad]. destruct (get_o N h params); [|apply in_bad].
    destruct (get_o N h filters); [|apply in_bad]. destruct (get_o N h groupby); [|apply in_bad].
    apply in_checked; [exact L|]. intros ss I. eapply Fl; eassumption.
  - rewrite Gl. destruct (forallb (arg h) _) eqn:F; [|apply in_bad]. apply in_new; [exact L|apply cr_same|]. intros ss I. eapply Fl; eassumption.
  - rewrite Gl, !Go. destruct (forallb (arg h) _) eqn:F; [|apply in_bad].
    destruct (get_o N h orgs); [|apply in_bad]. destruct (get_o N h projects); [|apply in_bad]. destruct (get_o N h usecase); [|apply in_bad].
    apply in_checked; [exact L|]. intros ss I. eapply Fl; eassumption.
  - rewrite (forallb_arg_f f h h' mfields Ga). destruct (forallb _ mfields) eqn:F; [|apply in_bad]. apply in_new; [exact L|apply cr_same|].
    intros ss I. cbn [parts] in I. apply in_map_iff in I as (x & <- & Ix). rewrite forallb_forall in F. apply F, Ix.
  - rewrite !Ga. destruct (arg h storage && arg h columns)%bool eqn:F; [|apply in_bad]. apply andb_prop in F as [F1 F2].
    apply in_new; [exact L|apply cr_same|]. intros ss [<-|[<-|[]]]; assumption.
  - rewrite (forallb_arg_f r h h' rfields Ga). destruct (forallb _ rfields) eqn:F; [|apply in_bad]. apply in_new; [exact L|apply cr_same|].
    intros ss I. cbn [parts] in I. apply in_map_iff in I as (x & <- & Ix). rewrite forallb_forall in F. apply F, Ix.
  - rewrite !G, Ga. agreed h h' a A E. destruct (get N h (Ref a)) as [[]|]; try apply in_bad.
    destruct (get N h v); [|apply in_bad]. destruct (arg h v) eqn:F; [|apply in_bad]. apply in_checked; [exact L|].
    intros ss I. cbn in I. destruct I as [<-|I]; [exact F|]. eapply Ph; [exact E|]. cbn. tauto.
  - rewrite !G, !Go, !Ga. agreed h h' a A E. destruct (get N h (Ref a)) as [[]|]; try apply in_bad.
    destruct (get_o N h v); [|apply in_bad]. destruct (get_o N h p); [|apply in_bad].
    destruct (arg h v && arg h p)%bool eqn:F; [|apply in_bad]. apply andb_prop in F as [F1 F2]. apply in_checked; [exact L|].
    intros ss I. cbn in I. destruct I as [<-|[<-|[<-|I]]]; try assumption; (eapply Ph; [exact E|]; cbn; tauto).
  - rewrite !G, !Go, !Ga. agreed h h' a A E.
    + destruct (get N h (Ref a)) as [[]|]; try apply in_bad. destruct (get_o N h v); [|apply in_bad].
      destruct (arg h v) eqn:F; [|apply in_bad]. apply in_checked; [exact L|].
      intros ss I. cbn in I. destruct I as [<-|[<-|[<-|[<-|I]]]]; try assumption; (eapply Ph; [exact E|]; cbn; tauto).
    + destruct (get N h (Ref a)); [|apply in_bad]. destruct (get_o N h v); [|apply in_bad].
      destruct (arg h v) eqn:F; [|apply in_bad]. apply in_checked; [exact L|].
      intros ss I. cbn in I. destruct I as [<-|[<-|[<-|[<-|I]]]]; try assumption; (eapply Ph; [exact E|]; cbn; tauto).
  - rewrite !G, !Go, !Ga. agreed h h' a A E.
    + destruct (get N h (Ref a)) as [[]|]; try apply in_bad. destruct (get_o N h v); [|apply in_bad].
      destruct (arg h v) eqn:F; [|apply in_bad]. apply in_checked; [exact L|].
      intros ss I. cbn in I. destruct I as [<-|[<-|[<-|[<-|[<-|[]]]]]]; try assumption; (eapply Ph; [exact E|]; cbn; tauto).
    + destruct (get N h (Ref a)); [|apply in_bad]. destruct (get_o N h v); [|apply in_bad].
      destruct (arg h v) eqn:F; [|apply in_bad]. apply in_checked; [exact L|].
      intros ss I. cbn in I. destruct I as [<-|[<-|[<-|[<-|[<-|[]]]]]]; try assumption; (eapply Ph; [exact E|]; cbn; tauto).
  - rewrite !G, !Ga. agreed h h' a A E.
    destruct (get N h (Ref a)); [|apply in_bad].
    assert (params_of (get N h') h' v = params_of (get N h) h v) as ->.
    { apply params_alike; [eapply agree_alike; [exact A|intros; exact I]|]. intros; apply G. }
    destruct (params_of _ h v) as [[]|]; [|apply in_bad].
    destruct (arg h v) eqn:F; [|apply in_bad]. apply in_checked; [exact L|].
    intros ss I. cbn in I. destruct I as [<-|[<-|I]]; try assumption; (eapply Ph; [exact E|]; cbn; tauto).
  - rewrite !G, !Go, !Ga. agreed h h' a A E. destruct (get N h (Ref a)) as [[]|]; try apply in_bad. destruct (get_o N h v); [|apply in_bad].
    destruct (arg h v) eqn:F; [|apply in_bad]. apply in_checked; [exact L|].
    intros ss I. cbn in I. destruct I as [<-|[<-|[<-|[]]]]; try assumption; (eapply Ph; [exact E|]; cbn; tauto).
  - rewrite !G, !Ga. agreed h h' a A E. destruct (get N h v) as [w|]; [|apply in_bad].
    destruct (arg h v) eqn:F; [|apply in_bad]. destruct (mq_setter_value f w) as [y|]; [|apply in_bad].
    apply in_new; [exact L|apply crel_mupd; [assumption|reflexivity]|].
    intros ss I. cbn [parts] in I. apply in_map_iff in I as (z & <- & Iz). unfold mupd. destruct (mfield_eqb f z).
    + unfold field_slot. destruct f; try assumption; reflexivity.
    + eapply Ph; [exact E|]. exact (in_map _ mfields z Iz).
  - rewrite !Ga. agreed h h' a A E. destruct (arg h v) eqn:F; [|apply in_bad].
    apply in_changed; [reflexivity|eapply HistoryFacts.nth_some_lt, E|discriminate].
  - rewrite !Ga. agreed h h' a A E. destruct (arg h v) eqn:F; [|apply in_bad]. destruct (put_key k v ks vs).
    apply in_changed; [reflexivity|eapply HistoryFacts.nth_some_lt, E|discriminate].
  - rewrite !Ga. agreed h h' a A E. destruct (arg h v) eqn:F; [|apply in_bad].
    apply in_changed; [reflexivity|eapply HistoryFacts.nth_some_lt, E|]. destruct x; discriminate.
  - rewrite !Ga. agreed h h' a A E. destruct (arg h v) eqn:F; [|apply in_bad].
    apply in_changed; [reflexivity|eapply HistoryFacts.nth_some_lt, E|]. destruct x; discriminate.
  - rewrite !Ga. agreed h h' a A E. destruct (arg h v) eqn:F; [|apply in_bad].
    split; [reflexivity|]. apply bo_put; [reflexivity|eapply HistoryFacts.nth_some_lt, E|apply crel_mupd; [assumption|reflexivity]|].
    intros g Eg. injection Eg as <-. eexists. split; [exact E|]. destruct (mfield_eqb f FQuery) eqn:D.
    + right. eexists. split; [reflexivity|]. unfold mupd. rewrite D. reflexivity.
    + left. unfold mupd. rewrite D. reflexivity.
  - rewrite !Ga. agreed h h' a A E. destruct (arg h v) eqn:F; [|apply in_bad].
    apply in_changed; [reflexivity|eapply HistoryFacts.nth_some_lt, E|discriminate].
  - agreed h h' a A E. apply in_changed; [reflexivity|eapply HistoryFacts.nth_some_lt, E|discriminate].
Qed.

(** the merged queries stay those of the objects *)
Lemma crel_alike h h2 k k' : (forall f, k = KMetrics f -> all_alike h h2 (f FQuery)) -> crel h k k' -> crel h2 k k'.
Proof.
  intros H C. inversion C as [k0|f f' O Q]; subst; [apply cr_same|]. constructor; [exact O|].
  destruct Q as [Q|[Q F]]; [left; exact Q|]. right. specialize (H f eq_refl).
  rewrite (optimized_alike h h2 _ H). split; [exact Q|eapply fine_alike; eassumption].
Qed.
Lemma agree_new h h' k k' : plain h -> agree everywhere h h' -> crel h k k' -> (forall s, In s (parts k) -> arg h s = true) ->
  agree everywhere (h ++ [k]) (h' ++ [k']).
Proof.
  intros Ph A C K a _. pose proof (agree_length h h' A) as L.
  assert (forall s, arg h s = true -> all_alike h (h ++ [k]) s) as Al.
  { intros s As b R. left. rewrite nth_error_app1; [reflexivity|]. eapply reaches_exists; [apply plain_sound, Ph|apply arg_sound, As|exact R]. }
  destruct (Nat.lt_ge_cases a (List.length h)) as [B|B].
  - rewrite !nth_error_app1 by lia. pose proof (A a I) as Aa. unfold orel in *. destruct (nth_error h a) as [k1|] eqn:E, (nth_error h' a) as [k1'|]; try contradiction; [|exact I].
    eapply crel_alike; [|exact Aa]. intros f ->. apply Al. eapply Ph; [exact E|]. exact (in_map f mfields FQuery (mfields_all FQuery)).
  - rewrite !nth_error_app2 by lia. rewrite L. destruct (a - List.length h) as [|n]; [|destruct n; exact I]. cbn.
    eapply crel_alike; [|exact C]. intros f ->. apply Al, K. exact (in_map f mfields FQuery (mfields_all FQuery)).
Qed.
(** changing an object that is no part of a query in the sense of the specification *)
Lemma query_kept h a k f c : plain h -> ~ query_part h a -> nth_error h c = Some (KMetrics f) ->
  fine h (f FQuery) -> optimized N (History.put h a k) (f FQuery) = optimized N h (f FQuery) /\ fine (History.put h a k) (f FQuery).
Proof.
  intros Ph NQ E F. assert (arg h (f FQuery) = true) as Ag by (eapply Ph; [exact E|exact (in_map f mfields FQuery (mfields_all FQuery))]).
  destruct (f FQuery) as [v|q|x|k0] eqn:Q; try discriminate Ag; [auto| |].
  - elim F.
  - assert (a <> x) as D by (intros ->; apply NQ; eapply qp_query; eassumption).
    unfold optimized, fine in *. cbn [cell_of] in *. rewrite HistoryFacts.nth_put_other by exact D.
    destruct (nth_error h x) as [k1|] eqn:Ex; [|elim F].
    destruct k1 as [l|ks vs|m y p fl g|m y p fl g|o p u|f1|st cc|r fl]; try (elim F; fail).
    + assert (all_alike h (History.put h a k) fl) as Al.
      { intros b R. left. rewrite HistoryFacts.nth_put_other; [reflexivity|]. intros ->. apply NQ. eapply qp_timeseries; eassumption. }
      rewrite (new_filters_alike _ _ _ Al), (read_alike _ _ _ _ Al). auto.
    + assert (all_alike h (History.put h a k) fl) as Al.
      { intros b R. left. rewrite HistoryFacts.nth_put_other; [reflexivity|]. intros ->. apply NQ. eapply qp_formula; eassumption. }
      rewrite (new_filters_alike _ _ _ Al), (read_alike _ _ _ _ Al). auto.
Qed.
Lemma agree_put h h' a k k' : plain h -> agree everywhere h h' -> ~ query_part h a -> a < List.length h -> crel h k k' ->
  (forall f, k = KMetrics f -> exists f0, nth_error h a = Some (KMetrics f0)
     /\ (f FQuery = f0 FQuery \/ exists f', k' = KMetrics f' /\ f' FQuery = f FQuery)) ->
  agree everywhere (History.put h a k) (History.put h' a k').
Proof.
  intros Ph A NQ B C K c _. pose proof (agree_length h h' A) as L. destruct (Nat.eq_dec a c) as [->|D].
  - rewrite !HistoryFacts.nth_put_same by lia. cbn. inversion C as [k0|f f' O Q]; subst; [apply cr_same|]. constructor; [exact O|].
    destruct (K f eq_refl) as (f0 & E0 & [Ef|(f1 & E1 & Q1)]).
    + destruct Q as [Q|[Q F]]; [left; exact Q|]. right. rewrite Ef in *. destruct (query_kept h c (KMetrics f) f0 c Ph NQ E0 F) as [-> F']. auto.
    + injection E1 as <-. left. exact Q1.
  - rewrite !HistoryFacts.nth_put_other by exact D. pose proof (A c I) as Ac. unfold orel in *.
    destruct (nth_error h c) as [k1|] eqn:E, (nth_error h' c) as [k1'|]; try contradiction; [|exact I].
    inversion Ac as [k0|f f' O Q]; subst; [apply cr_same|]. constructor; [exact O|].
    destruct Q as [Q|[Q F]]; [left; exact Q|]. right. destruct (query_kept h a k f c Ph NQ E F) as [-> F']. auto.
Qed.
Lemma step_agree h h' c : agree everywhere h h' -> plain h -> asks c = false -> (forall b, changes c = Some b -> ~ query_part h b) ->
  snd (step N h' c) = snd (step N h c) /\ agree everywhere (fst (step N h c)) (fst (step N h' c)).
Proof.
  intros A Ph Nc NQ. destruct (step_both h h' c A Ph Nc) as [S B]. split; [exact S|].
  clear S. revert B. generalize (fst (step N h c)) (fst (step N h' c)). intros x x' B. destruct B as [|k k' C K|a k k' Ch Ba C K].
  - exact A.
  - apply agree_new; assumption.
  - apply agree_put; auto.
Qed.
Lemma closed_everywhere h : closed everywhere h.
Proof. intros a b _ _. exact I. Qed.
Lemma run_same cs : forall h h', agree everywhere h h' -> plain h -> calm N h cs ->
  agree everywhere (run N h (filter (fun c => negb (asks c)) cs)) (run N h' cs).
Proof.
  induction cs as [|c cs IH]; intros h h' A Ph Cm; cbn [filter run calm] in *; [exact A|]. destruct Cm as [NQ Cm].
  destruct (asks c) eqn:Nc; cbn [negb run] in *.
  - apply IH; [|exact Ph|exact Cm]. destruct c; try discriminate Nc. cbn [step]. apply ask_agree; [exact A|apply closed_everywhere].
  - apply IH; [apply step_agree; assumption|apply plain_step; assumption|exact Cm].
Qed.
Lemma nil_plain : plain [].
Proof. intros [|a] k s E; discriminate E. Qed.
Lemma run_app cs cs' : forall h, run N h (cs ++ cs') = run N (run N h cs) cs'.
Proof. induction cs as [|c cs IH]; intros h; cbn; [reflexivity|apply IH]. Qed.

(** * The entries of a payload *)
Lemma dict_put_in d k v k' v' : In (k', v') (dict_put d k v) -> (k', v') = (k, v) \/ In (k', v') d.
Proof.
  induction d as [|[k1 v1] d IH]; cbn; [intros [E|[]]; auto|]. destruct (str_eqb k k1) eqn:E; cbn.
  - apply str_eqb_eq in E as ->. intros [H|H]; auto.
  - intros [H|H]; auto. destruct (IH H); auto.
Qed.
Lemma dict_puts_in l : forall d k v, In (k, v) (dict_puts d l) -> In (k, v) l \/ In (k, v) d.
Proof.
  induction l as [|[k1 v1] l IH]; intros d k v; cbn; [auto|]. intros H. apply IH in H as [H|H]; auto.
  apply dict_put_in in H as [H|H]; auto.
Qed.
Lemma combine_split {A B} (l : list (A * B)) : combine (map fst l) (map snd l) = l.
Proof. induction l as [|[x y] l IH]; cbn; [reflexivity|]. rewrite IH. reflexivity. Qed.
Lemma rflags_keys f l k v : rflags_to_dict f = Ok l -> In (k, v) l -> k <> $"tenant_ids" /\ k <> $"query".
Proof.
  destruct f as [|f|o]; cbn [rflags_to_dict]; intros E I; try discriminate E; [injection E as <-; elim I|].
  unfold flags_to_dict in E. apply seq_ok in E as [_ E].
  assert (l = filter (fun kv => negb (is_none (snd kv))) (flag_fields f)) as El by congruence. rewrite El in I. apply filter_In in I as [I _].
  clear El E. cbn in I. repeat (destruct I as [I|I]; [injection I as <- _; split; discriminate|]). elim I.
Qed.
(** the payload of a request: its keys, its tenants and its query *)
Lemma to_dict_entries r o : snd (request_to_dict r) = Ok o -> exists l, o = dict_obj l
  /\ (forall v, In ($"tenant_ids", v) l -> v = rq_tenants r)
  /\ (forall q v, rq_query r = RDelete q -> In ($"query", v) l -> v = ODict [$"columns"] [dq_columns q]).
Proof.
  unfold request_to_dict. destruct (request_validate r); [|discriminate]. destruct (rflags_to_dict (rq_flags r)) as [fl|] eqn:F; [|discriminate].
  pose proof (fun v => rflags_keys _ _ ($"tenant_ids") v F) as T. pose proof (fun v => rflags_keys _ _ ($"query") v F) as Q.
  assert (forall q c v, In ($"tenant_ids", v) (dict_puts (dict_puts fl
    [($"query", OStr q); ($"dataset", rq_dataset r); ($"app_id", rq_app r);
     ($"tenant_ids", rq_tenants r); ($"parent_api", rq_parent r)]) c) -> (forall k w, In (k, w) c -> k = $"mql_context") -> v = rq_tenants r) as K.
  { intros q c v I C. apply dict_puts_in in I as [I|I]; [apply C in I; discriminate I|]. apply dict_puts_in in I as [I|I].
    - cbn in I. repeat (destruct I as [I|I]; [first [discriminate I|injection I as I; symmetry; exact I]|]). elim I.
    - elim (proj1 (T v I) eq_refl). }
  destruct (rq_query r) as [q|q|q|x] eqn:Eq; cbn [snd]; try discriminate.
  - intros E. apply bind_Ok in E as (s & _ & E). injection E as <-. eexists. split; [reflexivity|]. split; [|discriminate].
    intros v I. eapply K; [exact I|]. intros k w [].
  - destruct (mq_serialize q) as [q' res]. cbn [snd]. intros E. apply bind_Ok in E as (p & _ & E). injection E as <-.
    eexists. split; [reflexivity|]. split; [|discriminate]. intros v I. eapply K; [exact I|]. intros k w [J|[]]. congruence.
  - intros E. apply bind_Ok in E as (s & D & E). injection E as <-. unfold delete_serialize in D. apply seq_ok in D as [_ D]. injection D as <-.
    exists (dict_puts fl [($"query", ODict [$"columns"] [dq_columns q]); ($"app_id", rq_app r); ($"tenant_ids", rq_tenants r); ($"parent_api", rq_parent r)]).
    split; [reflexivity|]. split.
    + intros v I. apply dict_puts_in in I as [I|I]; [|elim (proj1 (T v I) eq_refl)].
      cbn in I. repeat (destruct I as [I|I]; [first [discriminate I|injection I as I; symmetry; exact I]|]). elim I.
    + intros q0 v E I. injection E as <-. apply dict_puts_in in I as [I|I]; [|elim (proj2 (Q v I) eq_refl)].
      cbn in I. repeat (destruct I as [I|I]; [first [discriminate I|injection I as I; symmetry; exact I]|]). elim I.
Qed.
End S.
