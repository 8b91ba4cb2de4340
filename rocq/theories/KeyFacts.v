(** Lemmas for C89-C91. *)
From Verif Require Import PyBase PyFacts Objects Exprs SpecExpr SpecMetricsQuery Query Strptime Request Legacy SpecLegacy SpecKeys
  ExprFacts LegacyFacts LegacyProps BodyFacts.

Section K.
Context {RT : PyRT} {CV : PyConv}.

Lemma bind_assoc {A B C} (r : result A) (f : A -> result B) (g : B -> result C) :
  bind (bind r f) g = bind r (fun x => bind (f x) g).
Proof. now destruct r. Qed.

(** what the result is made of *)
Definition plain_keys : list str :=
  [ $"sample"; $"arrayjoin"; $"from_date"; $"to_date"; $"orderby"; $"limit"; $"offset"; $"granularity"; $"totals";
    $"consistent"; $"turbo"; $"debug"; $"dry_run"; $"dataset"; $"app_id"; $"tenant_ids" ].
Record parts_equal (b b' : obj) : Prop := {
  pe_plain : forall k, In k plain_keys -> body_get b k ONone = body_get b' k ONone;
  pe_agg : convert_aggregations (body_get b ($"aggregations") (OList [])) = convert_aggregations (body_get b' ($"aggregations") (OList []));
  pe_sel : convert_selected (body_get b ($"selected_columns") (OList [])) = convert_selected (body_get b' ($"selected_columns") (OList []));
  pe_gb : convert_groupby (body_get b ($"groupby") (OList [])) = convert_groupby (body_get b' ($"groupby") (OList []));
  pe_org : extension b ($"organization") ($"org_id") false = extension b' ($"organization") ($"org_id") false;
  pe_proj : extension b ($"project") ($"project_id") true = extension b' ($"project") ($"project_id") true;
  pe_where : bind (iter (body_get b ($"conditions") (OList []))) (mapM convert_where)
    = bind (iter (body_get b' ($"conditions") (OList []))) (mapM convert_where);
  pe_having : bind (iter (body_get b ($"having") (OList []))) (mapM convert_having)
    = bind (iter (body_get b' ($"having") (OList []))) (mapM convert_having);
  pe_limitby : forall q, set_legacy_limitby b q = set_legacy_limitby b' q }.

Lemma query_parts b b' e : parts_equal b b' -> legacy_query b e = legacy_query b' e.
Proof.
  intros P. unfold legacy_query, extensions, time_bound.
  assert (W : forall ks (x : obj) A (g : list (list obj) -> result A) ,
    ks = x -> bind (iter ks) (fun items => bind (mapM convert_where items) g) = bind (bind (iter x) (mapM convert_where)) g).
  { intros ks x A g ->. now rewrite bind_assoc. }
  assert (H : forall x A (g : list obj -> result A) ,
    bind (iter x) (fun items => bind (mapM convert_having items) g) = bind (bind (iter x) (mapM convert_having)) g).
  { intros x A g. now rewrite bind_assoc. }
  rewrite (pe_plain _ _ P ($"sample")), (pe_plain _ _ P ($"arrayjoin")), (pe_plain _ _ P ($"from_date")), (pe_plain _ _ P ($"to_date"))
    by (cbn; auto 30).
  rewrite (pe_agg _ _ P), (pe_sel _ _ P), (pe_gb _ _ P), (pe_org _ _ P), (pe_proj _ _ P).
  repeat match goal with |- bind ?r _ = bind ?r _ => destruct r; cbn [bind]; [|reflexivity] end.
  etransitivity; [apply (W _ _ _ _ eq_refl)|]. etransitivity; [|symmetry; apply (W _ _ _ _ eq_refl)].
  rewrite (pe_where _ _ P). destruct (bind _ (mapM convert_where)); cbn [bind]; [|reflexivity].
  destruct (set_clause CWhere _ _); cbn [bind]; [|reflexivity].
  etransitivity; [apply H|]. etransitivity; [|symmetry; apply H]. now rewrite (pe_having _ _ P).
Qed.
Lemma request_parts b b' e q : parts_equal b b' -> legacy_request b e q = legacy_request b' e q.
Proof.
  intros P. unfold legacy_request, set_extra, or_default, legacy_flags, legacy_flag. rewrite (pe_limitby _ _ P).
  repeat match goal with |- context [body_get b ?k ?d] => rewrite (pe_plain _ _ P k) by (cbn; auto 30) end. reflexivity.
Qed.
Lemma orderby_parts ks vs ks' vs' q : body_get (ODict ks vs) ($"orderby") ONone = body_get (ODict ks' vs') ($"orderby") ONone ->
  snd (legacy_orderby (ODict ks vs) q) = snd (legacy_orderby (ODict ks' vs') q).
Proof.
  intros E. unfold legacy_orderby. rewrite E. destruct (truthy _); [|reflexivity].
  destruct (body_get (ODict ks' vs') ($"orderby") ONone); try reflexivity. destruct (convert_orderby l None); reflexivity.
Qed.
Lemma outcome_parts ks vs ks' vs' e : parts_equal (ODict ks vs) (ODict ks' vs') ->
  snd (json_to_snql (ODict ks vs) e) = snd (json_to_snql (ODict ks' vs') e).
Proof.
  intros P.
  assert (J : forall ks vs, snd (json_to_snql (ODict ks vs) e)
    = let! q := legacy_query (ODict ks vs) e in let! q := snd (legacy_orderby (ODict ks vs) q) in legacy_request (ODict ks vs) e q).
  { clear. intros ks vs. destruct (json_to_snql (ODict ks vs) e) as (b' & r) eqn:E. cbn [snd].
    pose proof (fun k d => get_after _ _ _ _ _ k d E) as G. unfold json_to_snql in E.
    destruct (legacy_query (ODict ks vs) e) as [q|x]; cbn [bind]; [|congruence].
    destruct (legacy_orderby (ODict ks vs) q) as (b1 & [q1|x]) eqn:O; cbn [snd bind] in *; injection E as <- <-; [|reflexivity].
    apply request_body. intros k d N. apply G, N. }
  rewrite !J. rewrite (query_parts _ _ _ P). destruct (legacy_query (ODict ks' vs') e) as [q|x]; cbn [bind]; [|reflexivity].
  rewrite (orderby_parts ks vs ks' vs' q (pe_plain _ _ P ($"orderby") ltac:(cbn; auto 30))).
  destruct (snd (legacy_orderby (ODict ks' vs') q)); cbn [bind]; [|reflexivity]. apply request_parts, P.
Qed.

(** ** None and no value *)
Lemma get_same b b' k d : is_dict b -> is_dict b' -> same_at b b' k -> body_get b k d = body_get b' k d.
Proof.
  intros (ks & vs & ->) (ks' & vs' & ->) S. apply body_get_iff.
  destruct (proj1 (body_get_iff ks' vs' k d _) eq_refl) as [X|(X & Y)]; [left; apply S, X|right; split; [|exact Y]].
  intros v H. apply S, X in H. exact H.
Qed.
Lemma get_none b b' k : is_dict b -> is_dict b' -> same_but_none_at b b' k -> body_get b k ONone = body_get b' k ONone.
Proof.
  intros (ks & vs & ->) (ks' & vs' & ->) S.
  assert (N : forall v, v = ONone \/ v <> ONone) by (intros []; auto; right; discriminate).
  destruct (N (body_get (ODict ks vs) k ONone)) as [E|E].
  - destruct (N (body_get (ODict ks' vs') k ONone)) as [E'|E']; [congruence|]. pose proof (not_none _ _ _ _ eq_refl E') as D.
    apply S in D; [|exact E']. exact (proj2 (body_get_iff ks vs k ONone _) (or_introl D)).
  - pose proof (not_none _ _ _ _ eq_refl E) as D. apply S in D; [|exact E]. symmetry. exact (proj2 (body_get_iff _ _ k ONone _) (or_introl D)).
Qed.
Lemma parts_none b b' : is_dict b -> is_dict b' -> Forall (same_at b b') list_keys -> Forall (same_but_none_at b b') optional_keys ->
  parts_equal b b'.
Proof.
  intros D D' L O. rewrite Forall_forall in L, O.
  assert (G : forall k, In k optional_keys -> body_get b k ONone = body_get b' k ONone) by (intros; apply get_none; auto).
  assert (E : forall k, In k list_keys -> body_get b k (OList []) = body_get b' k (OList [])) by (intros; apply get_same; auto).
  constructor.
  - intros k I. apply G. cbn in I |- *. intuition.
  - now rewrite E by (cbn; auto).
  - now rewrite E by (cbn; auto).
  - now rewrite E by (cbn; auto).
  - unfold extension. now rewrite G by (cbn; auto 30).
  - unfold extension. now rewrite G by (cbn; auto 30).
  - now rewrite E by (cbn; auto).
  - now rewrite E by (cbn; auto 30).
  - intros q. unfold set_legacy_limitby. now rewrite G by (cbn; auto 30).
Qed.

(** ** Tuples and lists *)
Lemma items_iter v v' : same_items v v' -> iter v = iter v'.
Proof. intros [->|(l & A & B)]; [reflexivity|]. inversion A; inversion B; subst; reflexivity. Qed.
Lemma items_truthy v v' : same_items v v' -> truthy v = truthy v'.
Proof. intros [->|(l & A & B)]; [reflexivity|]. inversion A; inversion B; subst; reflexivity. Qed.
Lemma items_tuple v v' : same_items v v' -> tuple_to_list v = tuple_to_list v'.
Proof. intros [->|(l & A & B)]; [reflexivity|]. inversion A; inversion B; subst; reflexivity. Qed.
Lemma map_rel {A} (R : obj -> obj -> Prop) (f : obj -> result A) l l' : Forall2 R l l' -> (forall x y, R x y -> f x = f y) -> mapM f l = mapM f l'.
Proof. intros F H. induction F as [|x y l l' r F IH]; [reflexivity|]. cbn [mapM]. now rewrite (H x y r), IH. Qed.
Lemma pairwise_iter {A} (R : obj -> obj -> Prop) (f : obj -> result A) v v' : pairwise R v v' -> (forall x y, R x y -> f x = f y) ->
  bind (iter v) (mapM f) = bind (iter v') (mapM f).
Proof.
  intros (l & l' & L & L' & F) H.
  assert (iter v = Ok l) as -> by now inversion L. assert (iter v' = Ok l') as -> by now inversion L'.
  cbn [bind]. eapply map_rel; eauto.
Qed.
Lemma alike_scalar b v v' : alike v v' -> parse_scalar b v = parse_scalar b v'.
Proof.
  assert (N : forall v, parse_scalar b (tuples v) = parse_scalar b v).
  { clear. fix IH 1. intros o. destruct o; try reflexivity.
    - cbn [tuples parse_scalar]. f_equal. rewrite map_map. revert l. fix IL 1. intros [|x l]; [reflexivity|]. cbn [map]. f_equal; [apply IH|apply IL].
    - cbn [tuples parse_scalar]. f_equal. rewrite map_map. revert l. fix IL 1. intros [|x l]; [reflexivity|]. cbn [map]. f_equal; [apply IH|apply IL]. }
  intros A. rewrite <- (N v), <- (N v'). now rewrite A.
Qed.
Lemma alike_cases v v' : alike v v' -> v = v' \/ pairwise alike v v'.
Proof.
  unfold alike. intros A.
  assert (F : forall l l', map tuples l = map tuples l' -> Forall2 (fun x y => tuples x = tuples y) l l').
  { intros l. induction l as [|x l IH]; intros [|y l'] E; try discriminate; constructor; injection E; auto. }
  destruct v, v'; cbn [tuples] in A; try discriminate; try (left; exact A); injection A as A; right; do 2 eexists;
    (split; [constructor|]); (split; [constructor|]); apply F, A.
Qed.
Lemma alike_truthy v v' : alike v v' -> truthy v = truthy v'.
Proof. intros A. destruct (alike_cases _ _ A) as [->|(l & l' & L & L' & F)]; [reflexivity|]. inversion L; inversion L'; subst; destruct F; reflexivity. Qed.
Lemma scalars_rel b l l' : Forall2 alike l l' -> map (parse_scalar b) l = map (parse_scalar b) l'.
Proof. intros F. induction F; [reflexivity|]. cbn [map]. f_equal; [apply alike_scalar|]; assumption. Qed.
Lemma alike_extension col v v' i : alike v v' -> parse_extension col v i = parse_extension col v' i.
Proof.
  intros A. destruct (alike_cases _ _ A) as [->|(l & l' & L & L' & F)]; [reflexivity|].
  unfold parse_extension. destruct (mk_column (OStr col) ONone); [|reflexivity]. cbn [bind].
  inversion L; inversion L'; subst; rewrite (scalars_rel _ _ _ F); reflexivity.
Qed.
Lemma cond_parse c c' : cond_alike c c' -> parse_condition c = parse_condition c'.
Proof.
  intros (a & o & r & r' & L & L' & A). unfold parse_condition, condition_rest.
  assert (I : forall i, index c i = index (OList [a; o; r]) i) by now inversion L.
  assert (I' : forall i, index c' i = index (OList [a; o; r']) i) by now inversion L'.
  rewrite !I, !I'. cbn [index nth_error bind]. destruct (parse_exp a) as [x|]; [|reflexivity]. cbn [bind].
  now rewrite (alike_scalar (only_strings x) _ _ A).
Qed.
Lemma cond_is c c' : cond_alike c c' -> is_condition c = is_condition c'.
Proof.
  intros (a & o & r & r' & L & L' & A). unfold is_condition.
  inversion L; inversion L'; subst; reflexivity.
Qed.
Lemma pair_not v v' : pairwise cond_alike v v' -> is_condition v = Ok false /\ is_condition v' = Ok false.
Proof.
  intros (l & l' & L & L' & F).
  assert (G : forall l (x : obj), list_or_tuple x l -> (forall c, In c l -> exists y, list_or_tuple c y) -> is_condition x = Ok false).
  { clear. intros l x L H. unfold is_condition. assert (py_len x = Ok (List.length l)) as -> by now inversion L. cbn [bind].
    destruct (Nat.eqb (List.length l) 3) eqn:N; [|reflexivity]. apply Nat.eqb_eq in N.
    destruct l as [|a [|b [|c [|d l]]]]; try discriminate N. assert (index x 1 = Ok b) as -> by now inversion L. cbn [bind].
    destruct (H b) as (y & Y); [cbn; auto|]. now inversion Y. }
  split; (eapply G; [eassumption|]).
  - intros c I. apply In_nth_error in I as (n & I). clear L L'. revert n I.
    induction F as [|x y l l' (a & o & r & r' & A & _) F IH]; intros [|n] I; try discriminate; [injection I as <-; eauto|]. eapply IH, I.
  - intros c I. apply In_nth_error in I as (n & I). clear L L'. revert n I.
    induction F as [|x y l l' (a & o & r & r' & _ & A & _) F IH]; intros [|n] I; try discriminate; [injection I as <-; eauto|]. eapply IH, I.
Qed.
Lemma filter_where c c' : filter_alike c c' -> convert_where c = convert_where c'.
Proof.
  intros [->|[(T & C)|P]]; [reflexivity| |]; unfold convert_where.
  - rewrite <- (cond_is _ _ C), (proj2 (is_condition_yes c) T), (cond_parse _ _ C). reflexivity.
  - destruct (pair_not _ _ P) as (-> & ->). cbn [bind]. rewrite <- !bind_assoc. now rewrite (pairwise_iter _ _ _ _ P cond_parse).
Qed.
Lemma filter_having c c' : filter_alike c c' -> convert_having c = convert_having c'.
Proof.
  intros [->|[(T & C)|P]]; [reflexivity| |]; unfold convert_having.
  - rewrite <- (cond_is _ _ C), (proj2 (is_condition_yes c) T), (cond_parse _ _ C). reflexivity.
  - destruct (pair_not _ _ P) as (-> & ->). cbn [bind]. rewrite <- !bind_assoc. now rewrite (pairwise_iter _ _ _ _ P cond_parse).
Qed.

Lemma get_exchange b b' k d : is_dict b -> is_dict b' -> exchangeable_at b b' k -> exchangeable k (body_get b k d) (body_get b' k d).
Proof.
  intros (ks & vs & ->) (ks' & vs' & ->) [(v & v' & A & B & E)|(A & B)].
  - rewrite (proj2 (body_get_iff ks vs k d v) (or_introl A)), (proj2 (body_get_iff ks' vs' k d v') (or_introl B)). exact E.
  - rewrite (proj2 (body_get_iff ks vs k d d) (or_intror (conj A eq_refl))), (proj2 (body_get_iff ks' vs' k d d) (or_intror (conj B eq_refl))). constructor.
Qed.
Lemma parts_exchange b b' : is_dict b -> is_dict b' -> Forall (exchangeable_at b b') known_keys -> parts_equal b b'.
Proof.
  intros D D' F. rewrite Forall_forall in F.
  assert (G : forall k d, In k known_keys -> exchangeable k (body_get b k d) (body_get b' k d)) by (intros; apply get_exchange; auto).
  assert (NI : forall k l, In k l -> forallb (fun x => negb (str_eqb x k)) l = true -> False).
  { intros k l I H. rewrite forallb_forall in H. specialize (H k I). rewrite str_eqb_refl in H. discriminate. }
  constructor.
  - intros k I. assert (E : exchangeable k (body_get b k ONone) (body_get b' k ONone)).
    { apply G. cbn in I. cbn. intuition. }
    cbn in I. inversion E; subst; try reflexivity; exfalso;
      repeat match goal with H : In _ _ |- _ => cbn in H end; intuition (subst; discriminate).
  - pose proof (G ($"aggregations") (OList []) ltac:(cbn; auto 30)) as E. inversion E as [|? ? ? I P| |? ? ? I P|? ? ? I P|]; subst; try reflexivity;
      try (exfalso; apply (NI _ _ I); reflexivity). unfold convert_aggregations. apply (pairwise_iter _ _ _ _ P). intros x y H. now rewrite (items_iter _ _ H).
  - pose proof (G ($"selected_columns") (OList []) ltac:(cbn; auto 30)) as E. inversion E as [|? ? ? I P| |? ? ? I P|? ? ? I P|]; subst; try reflexivity;
      try (exfalso; apply (NI _ _ I); reflexivity). unfold convert_selected. apply (pairwise_iter _ _ _ _ P). intros x y H. now rewrite (items_tuple _ _ H).
  - pose proof (G ($"groupby") (OList []) ltac:(cbn; auto 30)) as E. inversion E as [|? ? ? I P| l l' P|? ? ? I P|? ? ? I P|]; subst; try reflexivity;
      try (exfalso; apply (NI _ _ I); reflexivity). unfold convert_groupby. cbn [iter bind]. apply (map_rel _ _ _ _ P). intros x y J. now rewrite (items_tuple _ _ J).
  - pose proof (G ($"organization") ONone ltac:(cbn; auto 30)) as E. unfold extension. inversion E as [|? ? ? I P| |? ? ? I P|? ? ? I P|]; subst;
      try (exfalso; apply (NI _ _ I); reflexivity); [reflexivity|]. now rewrite (alike_truthy _ _ P), (alike_extension _ _ _ _ P).
  - pose proof (G ($"project") ONone ltac:(cbn; auto 30)) as E. unfold extension. inversion E as [|? ? ? I P| |? ? ? I P|? ? ? I P|]; subst;
      try (exfalso; apply (NI _ _ I); reflexivity); [reflexivity|]. now rewrite (alike_truthy _ _ P), (alike_extension _ _ _ _ P).
  - pose proof (G ($"conditions") (OList []) ltac:(cbn; auto 30)) as E. inversion E as [|? ? ? I P| |? ? ? I P|? ? ? I P|]; subst; try reflexivity;
      try (exfalso; apply (NI _ _ I); reflexivity). apply (pairwise_iter _ _ _ _ P), filter_where.
  - pose proof (G ($"having") (OList []) ltac:(cbn; auto 30)) as E. inversion E as [|? ? ? I P| |? ? ? I P|? ? ? I P|]; subst; try reflexivity;
      try (exfalso; apply (NI _ _ I); reflexivity). apply (pairwise_iter _ _ _ _ P), filter_having.
  - intros q. pose proof (G ($"limitby") ONone ltac:(cbn; auto 30)) as E. unfold set_legacy_limitby. inversion E as [|? ? ? I P| |? ? ? I P|? ? ? I P|? ? P]; subst;
      try (exfalso; apply (NI _ _ I); reflexivity); [reflexivity|]. now rewrite (items_truthy _ _ P), (items_iter _ _ P).
Qed.
End K.
