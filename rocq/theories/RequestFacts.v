(** C51-C54: requests, flags and delete queries. *)
From Verif Require Import PyBase PyFacts Regex RegexFacts DateTime Objects Exprs SpecExpr ExprFacts Query Metrics MetricsFacts MetricsQuery
  SpecMetricsQuery MetricsQueryFacts Request SpecRequest.

Section F.
Context {RT : PyRT} {ST : PyStr}.

(** * Dictionaries *)
Lemma dict_put_new d k v : ~ In k (map fst d) -> dict_put d k v = d ++ [(k, v)].
Proof.
  induction d as [|[k' v'] d IH]; intros H; [reflexivity|]. cbn [dict_put map fst In] in *.
  destruct (str_eqb k k') eqn:E; [apply str_eqb_eq in E; subst; tauto|]. cbn. rewrite IH; tauto.
Qed.
Lemma dict_puts_new l : forall d, NoDup (map fst d ++ map fst l) -> dict_puts d l = d ++ l.
Proof.
  induction l as [|[k v] l IH]; intros d H; [symmetry; apply app_nil_r|].
  unfold dict_puts. cbn [fold_left fst snd]. cbn [map fst] in H.
  assert (~ In k (map fst d)) as N.
  { apply NoDup_remove_2 in H. intros I. apply H, in_or_app. auto. }
  rewrite (dict_put_new d k v N). change (dict_puts (d ++ [(k, v)]) l = d ++ (k, v) :: l).
  rewrite IH; [rewrite <- app_assoc; reflexivity|]. rewrite map_app, <- app_assoc. exact H.
Qed.
Lemma entry_in (l : list (str * obj)) k v : NoDup (map fst l) -> entry k (map fst l) (map snd l) v <-> In (k, v) l.
Proof.
  induction l as [|[k' v'] l IH]; intros N; cbn; [tauto|]. inversion_clear N. rewrite IH by assumption. split.
  - intros [(-> & ->)|(_ & H1)]; auto.
  - intros [E|I]; [injection E as -> ->; auto|]. right. split; [|exact I]. intros ->.
    apply H. apply in_map_iff. exists (k', v). auto.
Qed.
Lemma dict_entry_in (l : list (str * obj)) k v : NoDup (map fst l) -> dict_entry (dict_obj l) k v <-> In (k, v) l.
Proof.
  intros N. unfold dict_entry, dict_obj. split.
  - intros (ks & vs & E & H). injection E as <- <-. apply entry_in in H; assumption.
  - intros H. eexists _, _. split; [reflexivity|]. apply entry_in; assumption.
Qed.

(** * Flags *)
Lemma flag_fields_iff f n v : In (n, v) (flag_fields f) <-> flag_of f n v.
Proof.
  unfold flag_fields. cbn [In]. split.
  - intros H. repeat (destruct H as [H|H]; [injection H as <- <-; constructor|]). elim H.
  - intros []; tauto.
Qed.
Lemma flag_ok_iff v : flag_ok v = true <-> none_or_bool v.
Proof.
  unfold none_or_bool. split.
  - destruct v; try discriminate; eauto.
  - intros [->|(b & ->)]; reflexivity.
Qed.
Lemma check_all_iff {A} (f : A -> result unit) l : check_all f l = Ok tt <-> Forall (fun x => f x = Ok tt) l.
Proof.
  induction l as [|x l IH]; cbn [check_all]; [split; auto|]. split.
  - intros H. apply seq_ok in H as (H1 & H2). constructor; [exact H1|apply IH, H2].
  - intros H. inversion_clear H. apply seq_ok. split; [assumption|apply IH; assumption].
Qed.
Lemma check_all_raise {A} (f : A -> result unit) e l : (forall x, f x = Ok tt \/ f x = Raise e) ->
  check_all f l = Ok tt \/ check_all f l = Raise e.
Proof.
  intros H. induction l as [|x l IH]; cbn [check_all]; [auto|]. destruct (H x) as [-> | ->]; cbn; auto.
Qed.
Lemma flags_validate_iff f : flags_validate f = Ok tt <-> flags_fine f.
Proof.
  unfold flags_validate. rewrite check_all_iff, Forall_forall. unfold flags_fine. split.
  - intros H n v F. apply flag_fields_iff in F. specialize (H _ F). cbn in H. apply flag_ok_iff.
    destruct (flag_ok v); [reflexivity|discriminate].
  - intros H [n v] I. apply flag_fields_iff in I. cbn. apply H, flag_ok_iff in I. rewrite I. reflexivity.
Qed.
Lemma flags_validate_raise f : flags_validate f = Ok tt \/ flags_validate f = Raise InvalidFlagError.
Proof. apply check_all_raise. intros [n v]. cbn. destruct (flag_ok v); auto. Qed.
Lemma flags_dict_iff f l : flags_to_dict f = Ok l ->
  flags_fine f /\ NoDup (map fst l) /\ incl (map fst l) (map fst (flag_fields f))
  /\ forall n v, In (n, v) l <-> flag_of f n v /\ v <> ONone.
Proof.
  unfold flags_to_dict. intros H. apply seq_ok in H as (V & H).
  assert (l = filter (fun f => negb (is_none (snd f))) (flag_fields f)) as -> by congruence. clear H.
  split; [apply flags_validate_iff, V|].
  assert (forall p (m : list (str * obj)), incl (map fst (filter p m)) (map fst m)) as Inc.
  { intros p m x I. apply in_map_iff in I as (y & <- & I). apply filter_In in I. apply in_map, I. }
  split.
  { assert (NoDup (map fst (flag_fields f))) as N.
    { cbn. repeat constructor; cbn; intuition discriminate. }
    revert N. generalize (flag_fields f) as m. induction m as [|[k v] m IH]; intros N; [constructor|]. cbn [map filter snd fst] in *.
    inversion_clear N. destruct (negb (is_none v)); [|auto]. cbn. constructor; [|auto]. intros I. apply H, (Inc _ _ _ I). }
  split; [apply Inc|].
  intros n v. rewrite filter_In, flag_fields_iff. cbn. destruct v; cbn; intuition congruence.
Qed.

(** * Names *)
Lemma flag_re_iff s : re_matches flag_re s = true <->
  exists body nl, s = body ++ nl /\ Forall safe_char body /\ opt_newline nl.
Proof.
  unfold flag_re. rewrite matches_seq.
  assert (S : single (RClass flag_char) safe_char).
  { apply single_class. intros c. unfold flag_char, safe_char. rewrite orb_true_iff, is_alnum_iff, one_of_iff. reflexivity. }
  split.
  - intros (nl & H & Hn). apply (mt_star_single _ _ S) in H as (p & -> & Hp). eauto.
  - intros (body & nl & -> & Hb & Hn). exists nl. split; [|exact Hn]. apply (mt_star_single _ _ S). eauto.
Qed.
Lemma check_safe_iff o : check_safe o = Ok tt <-> safe_name o.
Proof.
  unfold check_safe, safe_name. split.
  - destruct o; try discriminate. intros H. destruct (truthy (OStr s) && re_matches flag_re s) eqn:E; [|discriminate].
    apply andb_true_iff in E as (T & M). apply flag_re_iff in M as (body & nl & -> & F & N).
    exists body, nl. split; [reflexivity|]. split; [|auto]. intros E. rewrite E in T. discriminate.
  - intros (body & nl & -> & N & F & O).
    assert (re_matches flag_re (body ++ nl) = true) as -> by (apply flag_re_iff; eauto).
    destruct (body ++ nl); [congruence|reflexivity].
Qed.
Lemma check_safe_raise o : check_safe o = Ok tt \/ check_safe o = Raise InvalidRequestError.
Proof. unfold check_safe. destruct o; auto. destruct (_ && _); auto. Qed.
Lemma check_parent_iff o : check_parent o = Ok tt <-> exists s, o = OStr s /\ s <> [].
Proof.
  unfold check_parent. split.
  - destruct o as [| | | |s| | | | | | | | | | | | | | | | | | | | | | | | | | | | |]; try discriminate. destruct s; [discriminate|]. intros _. eexists. split; [reflexivity|discriminate].
  - intros (s & -> & N). destruct s; [congruence|reflexivity].
Qed.
Lemma rquery_validate_iff q : rquery_validate q = Ok tt <-> query_valid q.
Proof. destruct q; cbn; try tauto. split; [discriminate|tauto]. Qed.
Lemma rflags_validate_iff f : rflags_validate f = Ok tt <-> flags_valid f.
Proof. destruct f; cbn; [tauto|apply flags_validate_iff|]. split; [discriminate|tauto]. Qed.
Lemma request_validate_iff r : request_validate r = Ok tt <-> valid_request r.
Proof.
  unfold request_validate, valid_request.
  rewrite !seq_ok, !check_safe_iff, check_parent_iff, rquery_validate_iff, rflags_validate_iff.
  assert (assert_ (is_dict (rq_tenants r)) InvalidRequestError = Ok tt <-> exists ks vs, rq_tenants r = ODict ks vs) as ->.
  { destruct (rq_tenants r); cbn; split; intros H; try discriminate; try (destruct H as (? & ? & H); discriminate); eauto. }
  tauto.
Qed.

(** * The payload *)
Definition fixed_keys : list str :=
  [$"query"; $"dataset"; $"app_id"; $"tenant_ids"; $"parent_api"; $"mql_context"].
Lemma flags_disjoint f : NoDup (map fst (flag_fields f) ++ fixed_keys).
Proof. cbn. repeat constructor; cbn; intuition discriminate. Qed.
Lemma keys_nodup (l : list (str * obj)) f m : NoDup (map fst l) -> incl (map fst l) (map fst (flag_fields f)) ->
  NoDup m -> incl m fixed_keys -> NoDup (map fst l ++ m).
Proof.
  intros N I N' I'. pose proof (flags_disjoint f) as D.
  assert (forall x, In x (map fst l) -> ~ In x m) as X.
  { intros x A B. apply I in A. apply I' in B. revert A B D. generalize (map fst (flag_fields f)). intros ff A B D.
    apply in_split in A as (l1 & l2 & ->). rewrite <- app_assoc in D. cbn in D. apply NoDup_remove_2 in D. apply D, in_or_app. right.
    apply in_or_app. auto. }
  clear I I' D f. revert N X. induction (map fst l) as [|x xs IH]; intros N X; [exact N'|]. cbn. inversion_clear N. constructor.
  - intros A. apply in_app_or in A as [A|A]; [auto|]. apply (X x); cbn; auto.
  - apply IH; [assumption|]. intros y Hy. apply X. right. exact Hy.
Qed.
Lemma rflags_dict_iff r l : rflags_to_dict (rq_flags r) = Ok l -> NoDup (map fst l)
  /\ (exists f, incl (map fst l) (map fst (flag_fields f)))
  /\ forall n v, In (n, v) l <-> exists f b, rq_flags r = RFlags f /\ v = OBool b /\ flag_of f n v.
Proof.
  destruct (rq_flags r) as [|f|o]; cbn; intros H; [|apply flags_dict_iff in H as (F & N & I & H)|discriminate].
  - injection H as <-. cbn. split; [constructor|]. split; [exists no_flags; intros x []|]. intros n v. split; [intros []|intros (f & b & E & _); discriminate E].
  - split; [exact N|]. split; [eauto|]. intros n v. rewrite H. split.
    + intros (A & B). destruct (F n v A) as [->|(b & ->)]; [congruence|]. exists f, b. auto.
    + intros (f' & b & E & -> & A). injection E as <-. split; [exact A|discriminate].
Qed.
Lemma payload_iff r fl (l : list (str * obj)) :
  rflags_to_dict (rq_flags r) = Ok fl -> NoDup (map fst l) -> incl (map fst l) fixed_keys ->
  dict_puts fl l = fl ++ l /\ NoDup (map fst (fl ++ l))
  /\ forall k v, dict_entry (dict_obj (fl ++ l)) k v
     <-> (exists f b, rq_flags r = RFlags f /\ v = OBool b /\ flag_of f k v) \/ In (k, v) l.
Proof.
  intros F N I. apply rflags_dict_iff in F as (N1 & (f & I1) & F).
  assert (NoDup (map fst fl ++ map fst l)) as D by (apply (keys_nodup fl f); assumption).
  split; [apply dict_puts_new, D|]. split; [rewrite map_app; exact D|].
  intros k v. rewrite dict_entry_in by (rewrite map_app; exact D). rewrite in_app_iff, F. reflexivity.
Qed.
Lemma dict_puts_app d l m : dict_puts (dict_puts d l) m = dict_puts d (l ++ m).
Proof. unfold dict_puts. rewrite fold_left_app. reflexivity. Qed.

Lemma to_dict_entries r r' d : request_to_dict r = (r', Ok d) ->
  (exists ks vs, d = ODict ks vs /\ NoDup ks /\ List.length vs = List.length ks) /\ forall k v, dict_entry d k v <-> payload_entry r k v.
Proof.
  unfold request_to_dict. destruct (request_validate r) as [[]|e]; [|discriminate].
  destruct (rflags_to_dict (rq_flags r)) as [fl|e] eqn:F; [|discriminate].
  assert (forall (l : list (str * obj)) (b : bool), NoDup (map fst l) -> incl (map fst l) fixed_keys -> d = dict_obj (dict_puts fl l) ->
    (forall k v, In (k, v) l <-> payload_entry r k v /\ ~ (exists f b, rq_flags r = RFlags f /\ v = OBool b /\ flag_of f k v)) ->
    (exists ks vs, d = ODict ks vs /\ NoDup ks /\ List.length vs = List.length ks) /\ forall k v, dict_entry d k v <-> payload_entry r k v) as K.
  { intros l _ N I -> H. destruct (payload_iff r fl l F N I) as (-> & D & E).
    split; [eexists _, _; split; [reflexivity|]; split; [exact D|rewrite !map_length; reflexivity]|]. intros k v. rewrite E, H. split.
    - intros [(f & b & A & -> & B)|A]; [eapply pe_flag; eassumption|apply A].
    - intros P. assert ((exists f b, rq_flags r = RFlags f /\ v = OBool b /\ flag_of f k v) \/ ~ exists f b, rq_flags r = RFlags f /\ v = OBool b /\ flag_of f k v) as [?|?]; [|tauto|tauto].
      pose proof (rflags_dict_iff r fl F) as (_ & _ & X). rewrite <- X.
      assert (forall a b : str, {a = b} + {a <> b}) as De by (intros a b; destruct (str_eqb a b) eqn:Eq; [left; apply str_eqb_eq, Eq|right; intros ->; rewrite str_eqb_refl in Eq; discriminate]).
      destruct (in_dec De k (map fst fl)) as [A|A].
      + inversion P; subst; try (left; apply X; eauto; fail);
          exfalso; apply rflags_dict_iff in F as (_ & (f & I1) & _); apply I1 in A; revert A; cbn; intuition discriminate.
      + right. intros B. apply A. apply in_map_iff. exists (k, v). auto. }
  assert (forall f b n v, rq_flags r = RFlags f -> v = OBool b -> flag_of f n v -> ~ In n fixed_keys) as NF.
  { intros f b n v _ _ G I. pose proof (flags_disjoint f) as D.
    apply flag_fields_iff in G. apply in_map with (f := fst) in G. cbn [fst] in G. revert G I D. generalize (map fst (flag_fields f)). intros ff A B D.
    apply in_split in A as (l1 & l2 & ->). rewrite <- app_assoc in D. cbn [app] in D. apply NoDup_remove_2 in D. apply D, in_or_app. right.
    apply in_or_app. auto. }
  destruct (rq_query r) as [q|q|q|o] eqn:Q; [| | |discriminate].
  - intros E. injection E as <- E. apply bind_Ok in E as (s & S & E). injection E as <-.
    apply (K ([($"query", OStr s); ($"dataset", rq_dataset r); ($"app_id", rq_app r); ($"tenant_ids", rq_tenants r); ($"parent_api", rq_parent r)]) true); [| |reflexivity|].
    + cbn. repeat constructor; cbn; intuition discriminate.
    + intros x. cbn. tauto.
    + intros k v. split.
      * intros I. split.
        { cbn in I. repeat (destruct I as [I|I]; [injection I as <- <-|]); [eapply pe_snql; eassumption|apply pe_dataset|apply pe_app|apply pe_tenants|apply pe_parent|elim I].
          intros (q' & E). congruence. }
        { intros (f & b & A & B & C). eapply NF; try eassumption. apply in_map with (f := fst) in I. revert I. cbn. tauto. }
      * intros (P & N). destruct P; try congruence; cbn; try tauto.
        { elim N. eauto 6. }
        { left. congruence. }
  - destruct (mq_serialize q) as [q' res] eqn:S. intros E. injection E as <- E. apply bind_Ok in E as ([s c] & Es & E). injection E as <-. subst res.
    cbn [fst snd]. apply (K ([($"query", OStr s); ($"dataset", rq_dataset r); ($"app_id", rq_app r); ($"tenant_ids", rq_tenants r); ($"parent_api", rq_parent r)] ++ [($"mql_context", c)]) true); [| |unfold request_payload; rewrite dict_puts_app; reflexivity|].
    + cbn. repeat constructor; cbn; intuition discriminate.
    + intros x. cbn. tauto.
    + assert (snd (mq_serialize q) = Ok (s, c)) as S' by (rewrite S; reflexivity).
      intros k v. split.
      * intros I. split.
        { cbn in I. repeat (destruct I as [I|I]; [injection I as <- <-|]); [eapply pe_mql; eassumption|apply pe_dataset|apply pe_app|apply pe_tenants|apply pe_parent|eapply pe_mql_context; eassumption|elim I].
          intros (q2 & E). congruence. }
        { intros (f & b & A & B & C). eapply NF; try eassumption. apply in_map with (f := fst) in I. revert I. cbn. tauto. }
      * intros (P & N). destruct P; try congruence; cbn; try tauto.
        { elim N. eauto 6. }
        { left. congruence. }
        { do 5 right. left. congruence. }
  - intros E. injection E as <- E. apply bind_Ok in E as (dd & S & E). injection E as <-.
    unfold delete_serialize in S. apply seq_ok in S as (_ & S). injection S as <-.
    apply (K ([($"query", ODict [$"columns"] [dq_columns q]); ($"app_id", rq_app r); ($"tenant_ids", rq_tenants r); ($"parent_api", rq_parent r)]) true); [| |reflexivity|].
    + cbn. repeat constructor; cbn; intuition discriminate.
    + intros x. cbn. tauto.
    + intros k v. split.
      * intros I. split.
        { cbn in I. repeat (destruct I as [I|I]; [injection I as <- <-|]); [eapply pe_delete; eassumption|apply pe_app|apply pe_tenants|apply pe_parent|elim I]. }
        { intros (f & b & A & B & C). eapply NF; try eassumption. apply in_map with (f := fst) in I. revert I. cbn. tauto. }
      * intros (P & N). destruct P; try congruence; cbn; try tauto.
        { elim N. eauto 6. }
        { left. congruence. }
        { elim H. eexists; eassumption. }
Qed.

(** * Delete queries *)
Lemma sized_iff o n : py_len o = Ok n <-> sized o n.
Proof. split; [destruct o; try discriminate; cbn; intros H; injection H as <-; constructor|intros []; reflexivity]. Qed.
Lemma delete_validate_iff q : delete_validate q = Ok tt <-> deletes_something_bounded (dq_columns q).
Proof.
  unfold delete_validate, deletes_something_bounded. split.
  - destruct (dq_columns q) as [| | | | | | | | | |ks vs| | | | | | | | | | | | | | | | | | | | | | |]; try discriminate.
    destruct ks as [|k ks]; [discriminate|]. intros H. exists (k :: ks), vs. split; [reflexivity|]. split; [discriminate|].
    apply check_all_iff in H. eapply Forall_impl; [|exact H]. cbn. intros v E. apply bind_Ok in E as (n & E & G).
    exists n. split; [apply sized_iff, E|]. destruct n; [discriminate|lia].
  - intros (ks & vs & -> & N & F). destruct ks as [|k ks]; [congruence|]. apply check_all_iff. eapply Forall_impl; [|exact F].
    cbn. intros v (n & S & G). apply sized_iff in S. rewrite S. cbn. destruct n; [lia|reflexivity].
Qed.
End F.
