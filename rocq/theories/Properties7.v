(** Properties C47-C50: MetricsQuery. *)
From Verif Require Import PyBase PyFacts DateTime Objects Exprs SpecExpr SpecQuery WfFacts Translate Query Optimizer SpecTime SpecOccurs SpecHazard
  SpecLogic OptFacts Metrics Mql MetricsQuery MetricsQueryFacts SpecMetricsQuery IsoFacts ApiTac Concrete Properties6.

(** a concrete query for the refutations and the cases *)
Definition demo_time (d : Z) (tz : option Z) : mval := VObj (ODateTime (mkDT (mkDate 2023 5 d) 8 30 0 0 tz)).
Definition demo_rollup : rollup := mkRollup (Some (PInt 3600)) None None (OInt 3600).
Definition demo_scope : mscope := mkScope [PInt 1] [PInt 11; PInt 12] (Some ($"transactions")).
Definition demo_query (ix : obj) (v : mval) : mquery :=
  mkMQ v (demo_time 1 None) (demo_time 2 (Some 19800000000%Z)) (VRollup demo_rollup) (VScope demo_scope)
    (VObj (OLimit (PInt 100))) (VObj ONone) (VObj ONone) (VObj ix).
Definition demo_col (s : str) : obj := OColumn (mkColumn s None None None).
Definition demo_or : obj :=
  OBoolC BOr OR KList [OCond (demo_col ($"env")) EQ (OStr ($"prod")); OCond (demo_col ($"env")) EQ (OStr ($"dev"))].
Definition demo_sum (f : list obj) : mval :=
  VFormula (OStr ($"plus")) (Some KList)
    [VTS (mkTS (mkMetric (Some ($"transaction.duration")) None None) ($"count") None (Some f) None); VObj (OInt 2)]
    ONone (OList f) ONone.
Definition demo_func : obj := OCond (demo_col ($"env")) EQ (OFunc true ($"lower") KNone [] KList [OStr ($"PROD")] None).
Definition demo_ix : obj := ODict [$"transaction.duration"] [OInt 7].

Section P.
Context {RT : PyRT} {ST : PyStr}.

(** ** C47 A validated MetricsQuery serializes *)
Lemma demo_sum_built f : Forall (is_filter api) f -> built api (demo_sum f).
Proof.
  intros F. unfold demo_sum. constructor; [discriminate| |left; reflexivity|right; eauto|left; reflexivity].
  constructor; [|constructor; [constructor|constructor]]. constructor; cbn; auto. left; discriminate.
Qed.
Lemma demo_or_filter : is_filter api demo_or.
Proof. split; [unfold demo_or, demo_col; api_tac|right; unfold demo_or; eauto]. Qed.

(** false: indexer_mappings may be left out for validate() but not for serialize() *)
Theorem C47_indexer_refuted : mq_validate (demo_query ONone (demo_sum [demo_or])) = Ok tt
  /\ built api (demo_sum [demo_or])
  /\ snd (mq_serialize (demo_query ONone (demo_sum [demo_or]))) = Raise InvalidMetricsQueryError.
Proof.
  split; [vm_compute; reflexivity|]. split; [|vm_compute; reflexivity]. apply demo_sum_built. constructor; [exact demo_or_filter|constructor].
Qed.
(** false: a function on the right of a comparison is accepted but not printed *)
Theorem C47_function_refuted : mq_validate (demo_query demo_ix (demo_sum [demo_func])) = Ok tt
  /\ built api (demo_sum [demo_func])
  /\ snd (mq_serialize (demo_query demo_ix (demo_sum [demo_func]))) = Raise InvalidExpressionError.
Proof.
  split; [vm_compute; reflexivity|]. split; [|vm_compute; reflexivity]. apply demo_sum_built. constructor; [|constructor].
  split; [unfold demo_func, demo_col; api_tac|left; unfold demo_func; eauto].
Qed.
(** no query without indexer_mappings serializes *)
Theorem C47_indexer_partial : forall q, mq_validate q = Ok tt -> mq_indexer q = VObj ONone ->
  exists e, snd (mq_serialize q) = Raise e.
Proof.
  intros q V N. destruct (mq_serialize q) as [q1 r] eqn:E. cbn. destruct r as [x|e]; [|eauto]. exfalso.
  apply serialize_parts in E as (_ & v & _ & -> & P). apply payload_indexer in P. destruct q; contradiction.
Qed.
(** every other failure comes from a value in the query that MQL printing refuses *)
Theorem C47_failures_partial : forall q e, built api (mq_query q) -> mq_validate q = Ok tt -> mq_indexer q <> VObj ONone ->
  snd (mq_serialize q) = Raise e -> exists x, within x (mq_query q) /\ mql_hazard e x.
Proof.
  intros q e B V N E. pose proof (serialize_total q (built_impl _ _ _ api_wf B) V N) as T. rewrite E in T. exact T.
Qed.
Theorem C47_serializes_partial : forall q, built api (mq_query q) -> mq_validate q = Ok tt -> mq_indexer q <> VObj ONone ->
  (forall e x, within x (mq_query q) -> ~ mql_hazard e x) -> exists p, snd (mq_serialize q) = Ok p.
Proof.
  intros q B V N H. destruct (snd (mq_serialize q)) as [p|e] eqn:E; [eauto|].
  destruct (C47_failures_partial q e B V N E) as (x & W & Hz). elim (H e x W Hz).
Qed.

(** ** C48 Serializing a MetricsQuery twice gives the same payload *)
Definition after_serialize (q : mquery) : mquery := fst (mq_serialize q).
Theorem C48_serialize_again : forall q n, snd (mq_serialize (Nat.iter n after_serialize q)) = snd (mq_serialize q).
Proof.
  assert (forall n q, mq_serialize (Nat.iter n after_serialize q) = mq_serialize q \/
    exists q1 r, mq_serialize q = (q1, r) /\ Nat.iter n after_serialize q = q1) as K.
  { induction n as [|n IH]; intros q; [left; reflexivity|]. right. cbn [Nat.iter].
    destruct (mq_serialize q) as [q1 r] eqn:E. exists q1, r. split; [reflexivity|].
    change (Nat.iter (S n) after_serialize q) with (after_serialize (Nat.iter n after_serialize q)).
    unfold after_serialize at 1. destruct (IH q) as [H|(q2 & r2 & H & ->)]; [rewrite H, E; reflexivity|].
    assert (q2 = q1) as -> by congruence. rewrite (serialize_again q q1 r E). reflexivity. }
  intros q n. destruct (K n q) as [->|(q1 & r & E & ->)]; [reflexivity|]. rewrite (serialize_again q q1 r E), E. reflexivity.
Qed.
(** the object stops changing after the first call *)
Theorem C48_object_settles : forall q n, Nat.iter (S n) after_serialize q = after_serialize q.
Proof.
  intros q n. induction n as [|n IH]; [reflexivity|].
  change (Nat.iter (S (S n)) after_serialize q) with (after_serialize (Nat.iter (S n) after_serialize q)). rewrite IH.
  unfold after_serialize. destruct (mq_serialize q) as [q1 r] eqn:E. cbn. rewrite (serialize_again q q1 r E). reflexivity.
Qed.

(** ** C49 serialize() does not change what the MetricsQuery shows *)
(** it changes nothing but the filters at the root, and these only where an Or of
    equalities on one key becomes one IN *)
Theorem C49_only_filters_partial : forall q q1 r, mq_serialize q = (q1, r) ->
  q1 = q \/ exists l l' v, root_filters (mq_query q) l /\ refiltered (mq_query q) l' v /\ q1 = mq_put FQuery v q
    /\ Forall2 optimized_at l l' /\ Exists mergeable l.
Proof.
  intros q q1 r. unfold mq_serialize. destruct (mq_validate q) as [[]|e] eqn:V.
  - destruct (optimize_mval (mq_query q)) as [v|e] eqn:O; intros E; injection E as <- <-; [|left; reflexivity].
    apply optimize_mval_changes in O as [(-> & _)|(l & l' & R & R' & O)]; [left; apply mq_put_same| |apply mq_validate_query, V].
    right. exists l, l', v. apply optimize_Some in O as [X F]. auto.
  - intros E; injection E as <- <-. left; reflexivity.
Qed.
(** without such an Or nothing changes *)
Theorem C49_unchanged_partial : forall q q1 r, mq_serialize q = (q1, r) ->
  (forall l, root_filters (mq_query q) l -> Forall (fun c => ~ mergeable c) l) -> q1 = q /\ mq_print q1 = mq_print q.
Proof.
  intros q q1 r E H. destruct (C49_only_filters_partial q q1 r E) as [->|(l & l' & v & R & _ & _ & _ & X)]; [auto|].
  exfalso. apply Exists_exists in X as (c & I & M). specialize (H l R). rewrite Forall_forall in H. elim (H c I M).
Qed.
(** the new filters hold in the same rows as the old ones *)
Theorem C49_same_meaning_partial : forall q q1 r I, mq_serialize q = (q1, r) -> in_is_any I -> sees_python_equality I ->
  forall l, root_filters (mq_query q) l -> exists l', root_filters (mq_query q1) l' /\ group_truth I l' = group_truth I l.
Proof.
  intros q q1 r I E HI P l R. unfold mq_serialize in E. destruct (mq_validate q) as [[]|e] eqn:V.
  - destruct (optimize_mval (mq_query q)) as [v|e] eqn:O; injection E as <- <-; [|exists l; auto].
    replace (mq_query (mq_put FQuery v q)) with v by (destruct q; reflexivity).
    apply optimize_mval_changes in O as [(-> & _)|(l0 & l' & R0 & R' & O)]; [exists l; auto| |apply mq_validate_query, V].
    assert (l0 = l) as -> by (inversion R; subst; inversion R0; congruence).
    exists l'. split; [inversion R'; subst; constructor|]. eapply c34_general; eassumption.
  - injection E as <- <-. exists l; auto.
Qed.
(** C49 is false: print() before and after *)
Theorem C49_print_refuted : exists q q1 p p1, mq_serialize q = (q1, Ok p) /\ mq_print q = Ok p1
  /\ mq_print q1 = Ok p /\ fst p <> fst p1.
Proof.
  eexists (demo_query demo_ix (demo_sum [demo_or])), _, _, _. split; [vm_compute; reflexivity|].
  split; [vm_compute; reflexivity|]. split; [vm_compute; reflexivity|]. vm_compute. discriminate.
Qed.
(** after serialize(), print() shows exactly what serialize() returned *)
Theorem C49_print_after_partial : forall q q1 p, mq_serialize q = (q1, Ok p) -> mq_print q1 = Ok p.
Proof. exact print_after. Qed.

(** ** C50 The mql_context carries the query's settings unchanged *)
Theorem C50_context : forall q q1 m d s, mq_serialize q = (q1, Ok (m, d)) -> has_settings q s ->
  real_datetime (se_start s) -> real_datetime (se_end s) -> shows_settings s d.
Proof.
  intros q q1 m d s E S R1 R2. apply serialize_settings in E as (s' & S' & ->).
  assert (s' = s) as -> by (eapply has_settings_fun; eassumption).
  unfold shows_settings, context_of.
  assert (forall ks vs k v, entry k ks vs v -> dict_entry (ODict ks vs) k v) as K by (intros; exists ks, vs; auto).
  split; [eexists; reflexivity|].
  split; [eexists; split; [apply K; cbn; auto|apply datetime_full_text, R1]|].
  split; [eexists; split; [apply K; cbn; right; split; [discriminate|]; left; split; reflexivity|apply datetime_full_text, R2]|].
  split.
  { exists (rollup_dict (se_rollup s)). split; [apply K; cbn; repeat (right; split; [discriminate|]); left; split; reflexivity|].
    unfold shows_rollup, rollup_dict. split; [eexists; reflexivity|].
    destruct (se_rollup s) as [[[]|] [[]|] [[]|] g];
      (split; [|split; [|split]]); apply K; cbn; tauto || (repeat (right; split; [discriminate|]); left; split; reflexivity). }
  split.
  { exists (scope_dict (se_scope s)). split; [apply K; cbn; repeat (right; split; [discriminate|]); left; split; reflexivity|].
    unfold shows_scope, scope_dict. split; [eexists; reflexivity|].
    destruct (se_scope s) as [os ps [u|]];
      (split; [|split]); apply K; cbn; tauto || (repeat (right; split; [discriminate|]); left; split; reflexivity). }
  repeat split; apply K; cbn; repeat (right; split; [discriminate|]); left; split; reflexivity.
Qed.
(** every query that serializes has such settings *)
Theorem C50_has_settings : forall q q1 p, mq_serialize q = (q1, Ok p) -> exists s, has_settings q s /\ has_settings q1 s.
Proof.
  intros q q1 [m d] E. pose proof E as E'. apply serialize_settings in E as (s & S & _). exists s. split; [exact S|].
  apply serialize_parts in E' as (_ & v & _ & -> & _). apply has_settings_put, S.
Qed.
(** the context determines the settings: no two settings give the same context *)
Theorem C50_injective : forall s s' d, shows_settings s d -> shows_settings s' d -> s = s'.
Proof.
  assert (forall ks vs k v v', entry k ks vs v -> entry k ks vs v' -> v = v') as EF.
  { induction ks as [|k' ks IH]; intros [|w vs] k v v'; cbn; try contradiction. intros [(-> & ->)|(N & A)] [(E & ->)|(N' & B)]; try congruence. eauto. }
  assert (forall d k v v', dict_entry d k v -> dict_entry d k v' -> v = v') as DF.
  { intros d k v v' (ks & vs & -> & A) (ks' & vs' & E & B). injection E as <- <-. eauto. }
  assert (forall i j, int_text i = int_text j -> i = j) as IT by (intros [] []; cbn; congruence).
  assert (forall A (k : A -> obj) x y, (forall u v, k u = k v -> u = v) -> (forall u, k u <> ONone) -> or_none k x = or_none k y -> x = y) as ON.
  { intros A k [x|] [y|] J N H; cbn in H; [f_equal; apply J, H| | |reflexivity]; elim (N _ H) || elim (N _ (eq_sym H)). }
  assert (forall i, int_text i <> ONone) as IN by (intros []; discriminate).
  assert (forall l l', map int_text l = map int_text l' -> l = l') as MI.
  { induction l as [|x l IH]; intros [|y l'] H; try discriminate H; [reflexivity|]. injection H as A B. f_equal; auto. }
  intros [s1 s2 s3 s4 s5 s6 s7 [s8 s9]] [t1 t2 t3 t4 t5 t6 t7 [t8 t9]] d (_ & (a & A & A') & (b & B & B') & (c & C & C') & (e & D & D') & E & F & G & H)
    (_ & (a2 & A2 & A2') & (b2 & B2 & B2') & (c2 & C2 & C2') & (e2 & D2 & D2') & E2 & F2 & G2 & H2). cbn [se_start se_end se_rollup se_scope se_limit se_offset se_extrapolate se_indexer fst snd] in *.
  pose proof (DF _ _ _ _ A A2) as Q1. injection Q1 as ->. pose proof (DF _ _ _ _ B B2) as Q2. injection Q2 as ->.
  pose proof (DF _ _ _ _ C C2) as Q3. subst c2. pose proof (DF _ _ _ _ D D2) as Q4. subst e2.
  pose proof (full_iso_fun _ _ _ A' A2') as ->. pose proof (full_iso_fun _ _ _ B' B2') as ->.
  apply (DF _ _ _ _ E), ON in E2; [|exact IT|exact IN]. apply (DF _ _ _ _ F), ON in F2; [|exact IT|exact IN].
  apply (DF _ _ _ _ G), ON in G2; [|congruence|discriminate]. pose proof (DF _ _ _ _ H H2) as Q. injection Q as -> ->.
  assert (s3 = t3) as ->.
  { destruct C' as (_ & I1 & I2 & I3 & I4), C2' as (_ & J1 & J2 & J3 & J4).
    apply (DF _ _ _ _ I1), ON in J1; [|exact IT|exact IN]. pose proof (DF _ _ _ _ I2 J2).
    apply (DF _ _ _ _ I3), ON in J3; [|intros [] [] X; (reflexivity || discriminate X)|discriminate].
    apply (DF _ _ _ _ I4), ON in J4; [|intros [] [] X; (reflexivity || discriminate X)|discriminate].
    destruct s3, t3; cbn in *. congruence. }
  assert (s4 = t4) as ->.
  { destruct D' as (_ & I1 & I2 & I3), D2' as (_ & J1 & J2 & J3).
    pose proof (DF _ _ _ _ I1 J1) as K1. injection K1 as K1. apply MI in K1.
    pose proof (DF _ _ _ _ I2 J2) as K2. injection K2 as K2. apply MI in K2.
    apply (DF _ _ _ _ I3), ON in J3; [|congruence|discriminate]. destruct s4, t4; cbn in *. congruence. }
  congruence.
Qed.
End P.

(** * Cases that meet the hypotheses *)
#[local] Existing Instance demoRT.
#[local] Existing Instance demoST.
Example C47_case : built api (mq_query (demo_query demo_ix (demo_sum [demo_or])))
  /\ mq_validate (demo_query demo_ix (demo_sum [demo_or])) = Ok tt
  /\ mq_indexer (demo_query demo_ix (demo_sum [demo_or])) <> VObj ONone
  /\ (forall e x, within x (demo_sum [demo_or]) -> ~ mql_hazard e x)
  /\ exists p, snd (mq_serialize (demo_query demo_ix (demo_sum [demo_or]))) = Ok p.
Proof.
  assert (built api (demo_sum [demo_or])) as B by (apply demo_sum_built; constructor; [exact demo_or_filter|constructor]).
  assert (mq_validate (demo_query demo_ix (demo_sum [demo_or])) = Ok tt) as V by (vm_compute; reflexivity).
  assert (forall e x, within x (demo_sum [demo_or]) -> ~ mql_hazard e x) as H.
  { assert (forall x, occurs x demo_or -> forall e, ~ mql_hazard e x) as K.
    { intros x O e Hz. unfold demo_or, demo_col in O.
      repeat match goal with
      | H : False |- _ => elim H
      | H : In _ _ |- _ => destruct H; subst
      | H : occurs _ _ |- _ => inversion H; subst; clear H
      | H : mql_hazard _ _ |- _ => inversion H; subst; clear H
      | H : hazard _ _ |- _ => inversion H; subst; clear H
      end; try discriminate. }
    assert (forall x, in_obj x (OList [demo_or]) -> forall e, ~ mql_hazard e x) as K2.
    { intros x (l & y & E & I & O). injection E as <-. destruct I as [<-|[]]. apply K, O. }
    intros e x W. inversion W as [|? ? ? ? ? ? ? [I|(l & y & E & _)]|? p ? ? ? ? ? ? Ip Wp]; subst; [eauto|discriminate E|].
    destruct Ip as [<-|[<-|[]]]; [|inversion Wp]. inversion Wp as [? ? [I|[I|I]]| |]; subst; cbn in I.
    - destruct I as (l & y & E & _). discriminate E.
    - apply K2. destruct I as (l & y & E & Iy). cbn in E. injection E as <-. exists [demo_or], y. auto.
    - destruct I as (l & y & E & _). discriminate E. }
  split; [exact B|]. split; [exact V|]. split; [discriminate|]. split; [exact H|].
  apply (C47_serializes_partial (demo_query demo_ix (demo_sum [demo_or])) B V); [discriminate|exact H].
Qed.
Example C48_case : exists q1 p, mq_serialize (demo_query demo_ix (demo_sum [demo_or])) = (q1, Ok p)
  /\ q1 <> demo_query demo_ix (demo_sum [demo_or]).
Proof. eexists _, _. split; [vm_compute; reflexivity|]. discriminate. Qed.
Example C49_print_texts :
  match mq_print (demo_query demo_ix (demo_sum [demo_or])), snd (mq_serialize (demo_query demo_ix (demo_sum [demo_or]))) with
  | Ok (a, _), Ok (b, _) =>
      a = $"(count(transaction.duration){(env:""prod"" OR env:""dev"")} + 2){(env:""prod"" OR env:""dev"")}"
      /\ b = $"(count(transaction.duration){(env:""prod"" OR env:""dev"")} + 2){env:[""prod"", ""dev""]}"
  | _, _ => False
  end.
Proof. vm_compute. split; reflexivity. Qed.
Example C49_case : forall l, root_filters (demo_sum [OCond (demo_col ($"env")) EQ (OInt 1)]) l -> Forall (fun c => ~ mergeable c) l.
Proof. intros l H. inversion H; subst. constructor; [|constructor]. intros M. inversion M. Qed.
Definition demo_settings : settings :=
  mkSet (mkDT (mkDate 2023 5 1) 8 30 0 0 None) (mkDT (mkDate 2023 5 2) 8 30 0 0 (Some 19800000000%Z)) demo_rollup demo_scope
    (Some (PInt 100)) None None ([$"transaction.duration"], [OInt 7]).
Example C50_case : has_settings (demo_query demo_ix (demo_sum [demo_or])) demo_settings
  /\ real_datetime (se_start demo_settings) /\ real_datetime (se_end demo_settings)
  /\ match snd (mq_serialize (demo_query demo_ix (demo_sum [demo_or]))) with
     | Ok (_, d) => dict_entry d ($"end") (OStr ($"2023-05-02T08:30:00+05:30"))
     | _ => False
     end.
Proof.
  assert (forall t, se_start demo_settings = t \/ se_end demo_settings = t -> real_datetime t) as R.
  { intros t [<-|<-]; (split; [|cbn; lia]); (split; [cbn; lia|]; split; [cbn; lia|]; exists 31%Z; cbn; split; [apply ml_31; cbn; auto 10|lia]). }
  split; [repeat split|]. split; [apply R; auto|]. split; [apply R; auto|].
  vm_compute. eexists _, _. split; [reflexivity|]. cbn. right. split; [discriminate|]. left. split; reflexivity.
Qed.

Print Assumptions C47_indexer_refuted.
Print Assumptions C47_function_refuted.
Print Assumptions C47_indexer_partial.
Print Assumptions C47_failures_partial.
Print Assumptions C47_serializes_partial.
Print Assumptions C48_serialize_again.
Print Assumptions C48_object_settles.
Print Assumptions C49_only_filters_partial.
Print Assumptions C49_unchanged_partial.
Print Assumptions C49_same_meaning_partial.
Print Assumptions C49_print_refuted.
Print Assumptions C49_print_after_partial.
Print Assumptions C50_context.
Print Assumptions C50_has_settings.
Print Assumptions C50_injective.
