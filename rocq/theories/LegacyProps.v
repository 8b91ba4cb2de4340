(** Facts about legacy.py: bodies (C55, C57, C59). *)
From Verif Require Import PyBase DateTime Objects Exprs PyFacts SpecExpr ExprFacts SpecLogic Query SetterProps SpecSetters
  SpecMetricsQuery Request Strptime Legacy SpecLegacy LegacyFacts.
From Verif Require ExprProps StrptimeFacts.

Section Props.
Context {RT : PyRT} {CV : PyConv}.

(** ** Conditions from organization, project, from_date and to_date *)
Lemma assoc_in (l : list (str * str)) k v : NoDup (map fst l) -> (assoc k l = Some v <-> In (k, v) l).
Proof.
  induction l as [ | (k', v') l IH ]; cbn [assoc map fst In].
  - intros _. split; [ discriminate | intros [] ].
  - intro N. inversion N; subst. destruct (str_eqb k' k) eqn:E.
    + apply str_eqb_eq in E. subst. split; [ intro H; injection H as ->; now left | ].
      intros [ H | H ]; [ congruence | ]. elim H1. apply in_map_iff. exists (k, v). auto.
    + rewrite IH by assumption. split; [ now right | intros [ H | H ]; [ | exact H ] ].
      injection H as -> ->. rewrite str_eqb_refl in E. discriminate.
Qed.
Lemma time_column_iff e c : required_time_column e = Some c <-> time_column e c.
Proof.
  unfold required_time_column. rewrite assoc_in.
  - split.
    + unfold entity_time_columns. cbn [In]. intro H.
      repeat (destruct H as [ H | H ]; [ injection H as <- <-; (apply tc_timestamp + apply tc_finish + apply tc_sessions); cbn [In]; tauto | ]).
      destruct H.
    + intros [ x H | x H | ]; unfold entity_time_columns; cbn [In] in *; intuition (subst; auto 20).
  - assert (D : forall l : list str, (fix dup l := match l with [] => true | x :: l' => negb (mem_str x l') && dup l' end) l = true -> NoDup l).
    { clear. induction l as [ | x l IH ]; [ constructor | ]. intro H. apply andb_true_iff in H. destruct H as (H & K).
      constructor; [ | now apply IH ]. intro I. apply mem_str_In in I. rewrite I in H. discriminate. }
    apply D. vm_compute. reflexivity.
Qed.

Lemma org_column : mk_column (OStr ($"org_id")) ONone = Ok (plain_column ($"org_id")).
Proof. vm_compute. reflexivity. Qed.
Lemma project_column : mk_column (OStr ($"project_id")) ONone = Ok (plain_column ($"project_id")).
Proof. vm_compute. reflexivity. Qed.
Lemma time_columns e c : time_column e c -> mk_column (OStr c) ONone = Ok (plain_column c).
Proof. intros []; vm_compute; reflexivity. Qed.

Lemma mk_plain_condition n o v c : mk_condition (plain_column n) (OOp o) v = Ok c <->
  condition_ok (plain_column n) (OOp o) v /\ c = OCond (plain_column n) o v.
Proof.
  split.
  - intro H. split; [ apply ExprProps.c08_accept; eauto | ].
    apply ExprProps.c08_stores in H. destruct H as (q & E & ->). now injection E as <-.
  - intros (C & ->). apply ExprProps.c08_accept in C. destruct C as (c & C). rewrite C.
    apply ExprProps.c08_stores in C. destruct C as (q & E & ->). now injection E as <-.
Qed.
Lemma literal_condition n o v : o <> IS_NULL -> o <> IS_NOT_NULL -> scalar v -> condition_ok (plain_column n) (OOp o) v.
Proof.
  intros N1 N2 S. split; [ left; constructor | ]. exists o. split; [ reflexivity | ]. split; [ | auto ].
  intros [ -> | -> ]; congruence.
Qed.
Lemma bool_int b : int_value (OBool b) (if b then 1 else 0)%Z.
Proof. destruct b; constructor. Qed.
Lemma scalar_int v z : int_value v z -> scalar v.
Proof. intros []; repeat constructor. Qed.
Lemma values_map l l' : Forall2 (legacy_value False) l l' <-> l' = map (parse_scalar false) l.
Proof.
  split.
  - induction 1 as [ | x y l l' H _ IH ]; [ reflexivity | ]. cbn [map]. rewrite <- IH. f_equal.
    now apply (legacy_value_det false False false_iff).
  - intros ->. induction l; cbn [map]; constructor; [ apply (parse_scalar_value false False false_iff) | assumption ].
Qed.
Lemma in_condition n l c : mk_condition (plain_column n) (OOp IN) (OTuple l) = Ok c <->
  scalar (OTuple l) /\ c = OCond (plain_column n) IN (OTuple l).
Proof.
  rewrite mk_plain_condition. split.
  - intros ((_ & o & E & _ & S) & ->). split; [ | reflexivity ]. destruct S as [ S | [ S | S ] ]; [ inversion S | inversion S | exact S ].
  - intros (S & ->). split; [ apply literal_condition; auto; discriminate | reflexivity ].
Qed.
Lemma extension_iff ks vs key col (b : bool) l : mk_column (OStr col) ONone = Ok (plain_column col) ->
  extension (ODict ks vs) key col b = Ok l <-> id_conditions (ODict ks vs) key col (b = true) l.
Proof.
  intro C. unfold extension. split.
  - intro H. destruct (proj1 (body_get_iff ks vs key ONone _) eq_refl) as [ E | (N & E) ].
    + set (v := body_get (ODict ks vs) key ONone) in *.
      destruct (truthy v) eqn:T; [ | injection H as <-; eapply id_false; eauto ].
      unfold parse_extension in H. rewrite C in H. cbn [bind] in H.
      apply bind_Ok in H. destruct H as (x & Hx & H). injection H as <-.
      destruct v eqn:V; try (injection Hx as <-; eapply id_other; [ exact E | intros z K; inversion K | intros m K; inversion K ]);
        try (destruct b; apply bind_Ok in Hx; destruct Hx as (c & Hc & Hx); injection Hx as <-);
        try (apply bind_Ok in Hx; destruct Hx as (c & Hc & Hx); injection Hx as <-);
        try (apply in_condition in Hc; destruct Hc as (S & ->));
        try (apply mk_plain_condition in Hc; destruct Hc as (S & ->)).
      * eapply id_given; [ exact E | exact T | ]. eapply ic_in1; [ first [ apply bool_int | constructor ] | reflexivity ].
      * eapply id_given; [ exact E | exact T | ]. eapply ic_eq; [ first [ apply bool_int | constructor ] | discriminate ].
      * eapply id_given; [ exact E | exact T | ]. eapply ic_in1; [ first [ apply bool_int | constructor ] | reflexivity ].
      * eapply id_given; [ exact E | exact T | ]. eapply ic_eq; [ first [ apply bool_int | constructor ] | discriminate ].
      * eapply id_given; [ exact E | exact T | ]. eapply ic_in; [ constructor | now apply values_map | exact S ].
      * eapply id_given; [ exact E | exact T | ]. eapply ic_in; [ constructor | now apply values_map | exact S ].
      * eapply id_given; [ exact E | exact T | ]. eapply ic_in; [ constructor | now apply values_map | exact S ].
      * eapply id_given; [ exact E | exact T | ]. eapply ic_in; [ constructor | now apply values_map | exact S ].
    + rewrite E in H. injection H as <-. now apply id_absent.
  - intro H. inversion H; subst.
    + rewrite (proj2 (body_get_iff ks vs key ONone ONone) (or_intror (conj H0 eq_refl))). reflexivity.
    + rewrite (proj2 (body_get_iff ks vs key ONone v) (or_introl H0)), H1. reflexivity.
    + rewrite (proj2 (body_get_iff ks vs key ONone v) (or_introl H0)). destruct (truthy v); [ | reflexivity ].
      unfold parse_extension. rewrite C. cbn [bind].
      destruct v; try reflexivity; first [ now elim (H1 _ (bool_int _)) | now elim (H1 _ (iv_int _)) | now elim (H2 _ (lt_list _)) | now elim (H2 _ (lt_tuple _)) ].
    + rewrite (proj2 (body_get_iff ks vs key ONone v) (or_introl H0)), H1.
      unfold parse_extension. rewrite C. cbn [bind]. inversion H2; subst.
      * destruct b; [ congruence | ].
        assert (M : mk_condition (plain_column col) (OOp EQ) v = Ok (OCond (plain_column col) EQ v)).
        { apply mk_plain_condition. split; [ | reflexivity ]. apply literal_condition; try discriminate. eapply scalar_int; eauto. }
        destruct H3; rewrite M; reflexivity.
      * assert (M : mk_condition (plain_column col) (OOp IN) (OTuple [v]) = Ok (OCond (plain_column col) IN (OTuple [v]))).
        { apply in_condition. split; [ | reflexivity ]. apply sc_tuple. constructor; [ left; eapply scalar_int; eauto | constructor ]. }
        destruct H3; cbn [map parse_scalar]; rewrite M; reflexivity.
      * apply values_map in H4. subst l'.
        pose proof (proj2 (in_condition col _ _) (conj H5 eq_refl)) as M. destruct H3; rewrite M; reflexivity.
Qed.

Lemma time_bound_iff ks vs key col o l : o <> IS_NULL -> o <> IS_NOT_NULL -> mk_column (OStr col) ONone = Ok (plain_column col) ->
  time_bound (ODict ks vs) col key o = Ok l <-> time_conditions (ODict ks vs) key col o l.
Proof.
  intros N1 N2 C. unfold time_bound.
  assert (M : forall t, mk_condition (plain_column col) (OOp o) (ODateTime t) = Ok (OCond (plain_column col) o (ODateTime t))).
  { intro t. apply mk_plain_condition. split; [ | reflexivity ]. apply literal_condition; auto. repeat constructor. }
  split.
  - intro H. destruct (proj1 (body_get_iff ks vs key ONone _) eq_refl) as [ E | (N & E) ].
    + set (v := body_get (ODict ks vs) key ONone) in *.
      destruct (truthy v) eqn:T; [ | injection H as <-; eapply ti_false; eauto ].
      rewrite C in H. cbn [bind] in H. apply bind_Ok in H. destruct H as (t & Ht & H). rewrite M in H. injection H as <-.
      destruct v eqn:V; try discriminate Ht.
      * cbn [date_value] in Ht. destruct (parse_datetime s) eqn:P; [ | discriminate ]. injection Ht as ->.
        eapply ti_given; [ exact E | | exact P ]. intros ->. discriminate T.
      * cbn [date_value] in Ht. match type of Ht with context [ if ?c then _ else _ ] => destruct c; discriminate Ht end.
      * cbn [date_value] in Ht. match type of Ht with context [ if ?c then _ else _ ] => destruct c; discriminate Ht end.
      * cbn [date_value] in Ht. match type of Ht with context [ if ?c then _ else _ ] => destruct c; discriminate Ht end.
    + rewrite E in H. injection H as <-. now apply ti_absent.
  - intro H. inversion H; subst.
    + rewrite (proj2 (body_get_iff ks vs key ONone ONone) (or_intror (conj H0 eq_refl))). reflexivity.
    + rewrite (proj2 (body_get_iff ks vs key ONone v) (or_introl H0)), H1. reflexivity.
    + rewrite (proj2 (body_get_iff ks vs key ONone (OStr s)) (or_introl H0)). destruct s as [ | c s ]; [ congruence | ]. cbn [truthy].
      rewrite C. cbn [bind date_value]. rewrite H2. cbn [bind]. rewrite M. reflexivity.
Qed.
Lemma id_conditions_prop body k col (P Q : Prop) l : (P <-> Q) -> id_conditions body k col P l -> id_conditions body k col Q l.
Proof.
  intros PQ H. inversion H; subst; [ now apply id_absent | now eapply id_false; eauto | now eapply id_other; eauto | ].
  eapply id_given; eauto. inversion H2; subst; [ eapply ic_eq | eapply ic_in1 | eapply ic_in ]; eauto; tauto.
Qed.
Lemma extensions_iff ks vs e l : extensions (ODict ks vs) e = Ok l <-> extension_conditions (ODict ks vs) e l.
Proof.
  unfold extensions. split.
  - intro H. apply bind_Ok in H. destruct H as (org & Ho & H). apply bind_Ok in H. destruct H as (ts & Ht & H).
    apply bind_Ok in H. destruct H as (pr & Hp & H). injection H as <-.
    apply (extension_iff _ _ _ _ _ _ org_column) in Ho. apply (extension_iff _ _ _ _ _ _ project_column) in Hp.
    apply (id_conditions_prop _ _ _ _ False) in Ho; [ | split; [ discriminate | intros [] ] ].
    apply (id_conditions_prop _ _ _ _ True) in Hp; [ | tauto ].
    destruct (required_time_column e) as [ c | ] eqn:R.
    + apply time_column_iff in R. apply bind_Ok in Ht. destruct Ht as (a & Ha & Ht). apply bind_Ok in Ht. destruct Ht as (b & Hb & Ht).
      injection Ht as <-. rewrite <- app_assoc.
      apply time_bound_iff in Ha; try discriminate; [ | eapply time_columns; eauto ].
      apply time_bound_iff in Hb; try discriminate; [ | eapply time_columns; eauto ].
      eapply ec_time; eauto.
    + injection Ht as <-. apply ec_no_time; auto. intros c K. apply time_column_iff in K. congruence.
  - intro H. inversion H; subst.
    + apply (id_conditions_prop _ _ _ _ (false = true)) in H1; [ | split; [ intros [] | discriminate ] ].
      apply (id_conditions_prop _ _ _ _ (true = true)) in H4; [ | tauto ].
      apply (extension_iff _ _ _ _ _ _ org_column) in H1. apply (extension_iff _ _ _ _ _ _ project_column) in H4.
      rewrite H1. cbn [bind]. pose proof (time_columns _ _ H0) as C. apply time_column_iff in H0. rewrite H0.
      apply time_bound_iff in H2; try discriminate; [ | exact C ]. apply time_bound_iff in H3; try discriminate; [ | exact C ].
      rewrite H2. cbn [bind]. rewrite H3. cbn [bind]. rewrite H4. cbn [bind]. now rewrite <- app_assoc.
    + apply (id_conditions_prop _ _ _ _ (false = true)) in H1; [ | split; [ intros [] | discriminate ] ].
      apply (id_conditions_prop _ _ _ _ (true = true)) in H2; [ | tauto ].
      apply (extension_iff _ _ _ _ _ _ org_column) in H1. apply (extension_iff _ _ _ _ _ _ project_column) in H2.
      rewrite H1. cbn [bind]. destruct (required_time_column e) as [ c | ] eqn:R.
      * apply time_column_iff in R. now elim (H0 c).
      * cbn [bind]. rewrite H2. reflexivity.
Qed.

(** ** Requests *)
Lemma mk_entity_name n s e : mk_entity n ONone s ONone = Ok e -> exists m x, n = OStr m /\ e = OEntity (mkEntity m None x None).
Proof.
  unfold mk_entity. intro H. apply bind_Ok in H. destruct H as (m & Hm & H). apply bind_Ok in H. destruct H as (x & Hx & H).
  cbn [bind] in H. apply bind_Ok in H. destruct H as (d & Hd & H). injection H as <-. cbn in Hd. injection Hd as <-.
  exists m, x. split; [ | reflexivity ]. unfold check_word in Hm. destruct n; try discriminate Hm.
  match type of Hm with context [ if ?c then _ else _ ] => destruct c; [ | discriminate Hm ] end. now injection Hm as ->.
Qed.
Lemma stored_where q l q' : set_clause CWhere q (OList l) = Ok q' -> c_where (q_clauses q') = OList l.
Proof. intro H. apply setter_frame in H. destruct H as (S & _). inversion S; subst. congruence. Qed.
Lemma stored_having q l q' : set_clause CHaving q (OList l) = Ok q' -> c_having (q_clauses q') = OList l
  /\ c_where (q_clauses q') = c_where (q_clauses q).
Proof.
  intro H. apply setter_frame in H. destruct H as (S & _ & F). split; [ inversion S; subst; congruence | ].
  apply (F CWhere). discriminate.
Qed.
Definition same_conditions (q q' : query) : Prop :=
  c_where (q_clauses q') = c_where (q_clauses q) /\ c_having (q_clauses q') = c_having (q_clauses q).
Lemma same_refl q : same_conditions q q.
Proof. now split. Qed.
Lemma same_trans a b c : same_conditions a b -> same_conditions b c -> same_conditions a c.
Proof. intros (A & B) (C & D). split; congruence. Qed.
Lemma frame_conditions k q v q' : k <> CWhere -> k <> CHaving -> set_clause k q v = Ok q' -> same_conditions q q'.
Proof.
  intros N1 N2 H. apply setter_frame in H. destruct H as (_ & _ & F).
  split; [ apply (F CWhere); congruence | apply (F CHaving); congruence ].
Qed.
Lemma extra_conditions body key k q q' : k <> CWhere -> k <> CHaving -> set_extra body key k q = Ok q' -> same_conditions q q'.
Proof.
  intros N1 N2. unfold set_extra. destruct (is_none _); [ intro H; injection H as <-; apply same_refl | ].
  now apply frame_conditions.
Qed.
Lemma limitby_conditions body q q' : set_legacy_limitby body q = Ok q' -> same_conditions q q'.
Proof.
  unfold set_legacy_limitby. destruct (truthy _); [ | intro H; injection H as <-; apply same_refl ].
  intro H. apply bind_Ok in H. destruct H as (l & _ & H). destruct l as [ | lim [ | name [ | ] ] ]; try discriminate H.
  apply bind_Ok in H. destruct H as (c & _ & H). apply bind_Ok in H. destruct H as (n & _ & H).
  apply bind_Ok in H. destruct H as (lb & _ & H). eapply frame_conditions; [ | | exact H ]; discriminate.
Qed.
Lemma request_conditions body entity q r : legacy_request body entity q = Ok r ->
  exists q', rq_query r = RQuery q' /\ same_conditions q q'.
Proof.
  unfold legacy_request. intro H. apply bind_Ok in H. destruct H as (q1 & H1 & H). apply bind_Ok in H. destruct H as (q2 & H2 & H).
  apply bind_Ok in H. destruct H as (q3 & H3 & H). apply bind_Ok in H. destruct H as (q4 & H4 & H).
  apply bind_Ok in H. destruct H as (q5 & H5 & H). injection H as <-. exists q5. split; [ reflexivity | ].
  apply limitby_conditions in H1. apply extra_conditions in H2; try discriminate. apply extra_conditions in H3; try discriminate.
  apply extra_conditions in H4; try discriminate. apply extra_conditions in H5; try discriminate.
  eauto using same_trans.
Qed.
Lemma orderby_conditions body q b' q' : legacy_orderby body q = (b', Ok q') -> same_conditions q q'.
Proof.
  unfold legacy_orderby. destruct (truthy _); [ | intro H; injection H as _ <-; apply same_refl ].
  set (v := body_get body ($"orderby") ONone).
  assert (K : forall (r : result (list obj)), (let! obs := r in set_clause COrderby q (OList obs)) = Ok q' -> same_conditions q q').
  { intros r H. apply bind_Ok in H. destruct H as (obs & _ & H). eapply frame_conditions; [ | | exact H ]; discriminate. }
  destruct v, body; try (intro H; apply (f_equal snd) in H; exact (K _ H)).
  match goal with |- context [ convert_orderby ?l None ] => destruct (convert_orderby l None) as (l', r) end.
  intro H. injection H as _ H. exact (K _ H).
Qed.
Lemma query_conditions ks vs entity q : legacy_query (ODict ks vs) entity = Ok q ->
  exists n ext items css hitems hs, entity = OStr n
    /\ extension_conditions (ODict ks vs) n ext
    /\ listed (ODict ks vs) ($"conditions") items /\ Forall2 where_object items css
    /\ c_where (q_clauses q) = OList (ext ++ List.concat css)
    /\ listed (ODict ks vs) ($"having") hitems /\ Forall2 having_object hitems hs
    /\ c_having (q_clauses q) = OList hs.
Proof.
  unfold legacy_query. intro H. apply bind_Ok in H. destruct H as (sample & _ & H).
  apply bind_Ok in H. destruct H as (e & He & H). apply bind_Ok in H. destruct H as (q0 & _ & H).
  apply bind_Ok in H. destruct H as (aggs & _ & H). apply bind_Ok in H. destruct H as (sel & _ & H).
  apply bind_Ok in H. destruct H as (q1 & _ & H). apply bind_Ok in H. destruct H as (q2 & _ & H).
  apply bind_Ok in H. destruct H as (gb & _ & H). apply bind_Ok in H. destruct H as (q3 & _ & H).
  apply bind_Ok in H. destruct H as (ext & Hx & H). apply bind_Ok in H. destruct H as (items & Hi & H).
  apply bind_Ok in H. destruct H as (css & Hc & H). apply bind_Ok in H. destruct H as (q4 & Hw & H).
  apply bind_Ok in H. destruct H as (hitems & Hhi & H). apply bind_Ok in H. destruct H as (hs & Hh & H).
  apply mk_entity_name in He. destruct He as (n & x & -> & ->). cbn [e_name] in Hx.
  exists n, ext, items, css, hitems, hs. split; [ reflexivity | ].
  split; [ now apply extensions_iff | ]. split; [ now apply listed_iff | ]. split.
  { apply mapM_Ok in Hc. eapply StrptimeFacts.Forall2_impl; [ | exact Hc ]. intros. now apply convert_where_sound. }
  apply stored_having in H. destruct H as (S1 & S2). apply stored_where in Hw. split; [ congruence | ].
  split; [ now apply listed_iff | ]. split; [ | exact S1 ].
  apply mapM_Ok in Hh. eapply StrptimeFacts.Forall2_impl; [ | exact Hh ]. intros. now apply convert_having_sound.
Qed.
Lemma snql_conditions body entity body' r : json_to_snql body entity = (body', Ok r) ->
  exists q n ext items css hitems hs, rq_query r = RQuery q /\ entity = OStr n
    /\ extension_conditions body n ext
    /\ listed body ($"conditions") items /\ Forall2 where_object items css
    /\ c_where (q_clauses q) = OList (ext ++ List.concat css)
    /\ listed body ($"having") hitems /\ Forall2 having_object hitems hs
    /\ c_having (q_clauses q) = OList hs.
Proof.
  unfold json_to_snql. destruct body; try discriminate. 
  destruct (legacy_query (ODict keys vals) entity) as [ q0 | ] eqn:Q; [ | discriminate ].
  destruct (legacy_orderby (ODict keys vals) q0) as (b1, r1) eqn:O. intro H. injection H as -> H.
  apply bind_Ok in H. destruct H as (q1 & -> & H). apply orderby_conditions in O.
  apply request_conditions in H. destruct H as (q2 & Hq & S).
  destruct (same_trans _ _ _ O S) as (W & V).
  apply query_conditions in Q. destruct Q as (n & ext & items & css & hitems & hs & Q).
  exists q2, n, ext, items, css, hitems, hs. rewrite W, V. tauto.
Qed.

(** ** C57: what happens to the body *)
Lemma put_back_same k ks : forall vs v, entry k ks vs v -> put_back k v ks vs = vs.
Proof.
  induction ks as [ | k' ks IH ]; intros [ | v' vs ] v; cbn [entry put_back]; try intros [].
  - destruct H as (<- & <-). now rewrite str_eqb_refl.
  - destruct H as (N & H). destruct (str_eqb k' k) eqn:E; [ apply str_eqb_eq in E; congruence | ]. f_equal. now apply IH.
Qed.
Lemma put_back_entry k w ks : forall vs v, entry k ks vs v -> forall k' x, entry k' ks (put_back k w ks vs) x <->
  (k' = k /\ x = w \/ k' <> k /\ entry k' ks vs x).
Proof.
  induction ks as [ | k0 ks IH ]; intros [ | v' vs ] v; cbn [entry put_back]; try intros []; intros k' x.
  - destruct H as (<- & <-). rewrite str_eqb_refl. cbn [entry]. split; [ tauto | ]. intros [ H | (N & [ (E & _) | (_ & H) ]) ]; tauto.
  - destruct H as (N & H). destruct (str_eqb k0 k) eqn:E; [ apply str_eqb_eq in E; congruence | ]. cbn [entry].
    rewrite (IH vs v H k' x). split.
    + intros [ (-> & ->) | (N' & [ (-> & ->) | (N2 & K) ]) ]; [ right; split; [ congruence | now left ] | now left | right; tauto ].
    + intros [ (-> & ->) | (N' & [ (-> & ->) | (N2 & K) ]) ]; [ right; split; [ congruence | now left ] | now left | right; tauto ].
Qed.
Lemma lstrip_minus s : (List.length (lstrip is_minus s) <= List.length s)%nat.
Proof. induction s as [ | c s IH ]; cbn [lstrip]; [ lia | ]. destruct (is_minus c); cbn [List.length]; lia. Qed.
Lemma lstrip_minus_head s c r : lstrip is_minus s = c :: r -> c <> 45%N.
Proof.
  induction s as [ | d s IH ]; cbn [lstrip]; [ discriminate | ]. unfold is_minus at 1. destruct (N.eqb 45 d) eqn:E; [ exact IH | ].
  intro H. injection H as <- <-. apply N.eqb_neq in E. congruence.
Qed.
(** one item *)
Lemma item_after o p : forall o' d r, orderby_item o p = (o', d, r) ->
  (changed_item o -> o' <> o /\ d = DESC /\ ~ changed_item o' /\ exists l, o' = OList l)
  /\ (~ changed_item o -> o' = o /\ (forall l, o = OList l -> d = ASC)).
Proof.
  intros o' d r H.
  assert (K : forall s, startswith ($"-") s = true <-> exists t, s = $"-" ++ t) by (intro s; apply prefixb_iff).
  destruct o; try (injection H as <- <- <-; split; [ intros (s' & r' & E); discriminate E | intros _; split; [ reflexivity | intros; reflexivity || discriminate ] ]).
  - cbn [orderby_item] in H. split; [ intros (s' & r' & E); discriminate E | ]. intros _.
    destruct (startswith _ s); injection H as <- <- <-; (split; [ reflexivity | discriminate ]).
  - cbn [orderby_item] in H. destruct l as [ | x l ].
    + injection H as <- <- <-. split; [ intros (s' & r' & E); discriminate E | auto ].
    + destruct x; try (injection H as <- <- <-; split; [ intros (s' & r' & E); discriminate E | auto ]).
      destruct (startswith ($"-") s) eqn:S; injection H as <- <- <-.
      * apply K in S. destruct S as (t & ->). split; [ | intro N; elim N; eexists; eexists; reflexivity ].
        intros _. split; [ | split; [ reflexivity | split; [ | eauto ] ] ].
        -- intro E. assert (E1 : lstrip is_minus ($"-" ++ t) = $"-" ++ t) by congruence.
           apply (f_equal (@List.length N)) in E1. pose proof (lstrip_minus t).
           change (lstrip is_minus ($"-" ++ t)) with (lstrip is_minus t) in E1.
           change (List.length ($"-" ++ t)) with (S (List.length t)) in E1. lia.
        -- intros (s' & r' & E). injection E as E _. apply (lstrip_minus_head _ _ _ E). reflexivity.
      * split; [ | auto ]. intros (s' & r' & E). injection E as -> _. discriminate S.
Qed.
Lemma convert_orderby_after l : forall p l' r, convert_orderby l p = (l', r) ->
  (Forall (fun o => ~ changed_item o) l -> l' = l)
  /\ (forall obs, r = Ok obs -> (l' = l -> Forall (fun o => ~ changed_item o) l)
        /\ Forall2 (fun o o' => changed_item o -> ~ changed_item o' /\ exists x, o' = OList x) l l'
        /\ Forall2 (fun o ob => (changed_item o -> exists e, ob = OOrderBy e DESC)
                                /\ (~ changed_item o -> forall x, o = OList x -> exists e, ob = OOrderBy e ASC)) l obs).
Proof.
  induction l as [ | o l IH ]; intros p l' r H; cbn [convert_orderby] in H.
  - injection H as <- <-. split; [ auto | ]. intros obs E. injection E as <-. repeat split; constructor.
  - destruct (orderby_item o p) as ((o', d), x) eqn:I. destruct (item_after _ _ _ _ _ I) as (A & B).
    destruct x as [ e | ex ].
    2: { injection H as <- <-. split; [ | discriminate ]. intro F. inversion F; subst. f_equal. now apply B. }
    destruct (mk_orderby e (ODir d)) as [ ob | ex ] eqn:M.
    2: { injection H as <- <-. split; [ | discriminate ]. intro F. inversion F; subst. f_equal. now apply B. }
    assert (Eob : ob = OOrderBy e d). { unfold mk_orderby in M. destruct (negb _); [ discriminate | ]. now injection M as <-. }
    destruct (convert_orderby l (Some e)) as (rest, rs) eqn:R. injection H as <- <-.
    destruct (IH _ _ _ R) as (C & D). split.
    + intro F. inversion F; subst. f_equal; [ now apply B | now apply C ].
    + intros obs E. apply bind_Ok in E. destruct E as (xs & -> & E). injection E as <-.
      destruct (D xs eq_refl) as (D1 & D2 & D3). split; [ | split ].
      * intro E. injection E as E1 E2. constructor; [ | now apply D1 ]. intro K. now apply A in K.
      * constructor; [ | exact D2 ]. intro K. destruct (A K) as (_ & _ & ? & ?). auto.
      * constructor; [ | exact D3 ]. subst ob. split.
        -- intro K. destruct (A K) as (_ & -> & _). eauto.
        -- intros K y Ey. destruct (B K) as (_ & Z). rewrite (Z _ Ey). eauto.
Qed.

Definition same_order (q q' : query) : Prop := c_orderby (q_clauses q') = c_orderby (q_clauses q).
Lemma frame_order k q v q' : k <> COrderby -> set_clause k q v = Ok q' -> same_order q q'.
Proof. intros N H. apply setter_frame in H. destruct H as (_ & _ & F). apply (F COrderby). congruence. Qed.
Lemma request_order body entity q r : legacy_request body entity q = Ok r -> exists q', rq_query r = RQuery q' /\ same_order q q'.
Proof.
  unfold legacy_request. intro H. apply bind_Ok in H. destruct H as (q1 & H1 & H). apply bind_Ok in H. destruct H as (q2 & H2 & H).
  apply bind_Ok in H. destruct H as (q3 & H3 & H). apply bind_Ok in H. destruct H as (q4 & H4 & H).
  apply bind_Ok in H. destruct H as (q5 & H5 & H). injection H as <-. exists q5. split; [ reflexivity | ].
  assert (X : forall key k a b, k <> COrderby -> set_extra body key k a = Ok b -> same_order a b).
  { intros key k a b N. unfold set_extra. destruct (is_none _); [ intro K; injection K as <-; reflexivity | now apply frame_order ]. }
  apply X in H2; [ | discriminate ]. apply X in H3; [ | discriminate ]. apply X in H4; [ | discriminate ]. apply X in H5; [ | discriminate ].
  assert (L : same_order q q1).
  { unfold set_legacy_limitby in H1. destruct (truthy _); [ | injection H1 as <-; reflexivity ].
    apply bind_Ok in H1. destruct H1 as (l & _ & H). destruct l as [ | lim [ | name [ | ] ] ]; try discriminate H.
    apply bind_Ok in H. destruct H as (c & _ & H). apply bind_Ok in H. destruct H as (n & _ & H).
    apply bind_Ok in H. destruct H as (lb & _ & H). eapply frame_order; [ | exact H ]; discriminate. }
  unfold same_order in *. congruence.
Qed.
(** the body afterwards *)
Lemma snql_body body entity body' r : json_to_snql body entity = (body', r) ->
  body' = body \/ exists ks vs l l' x, body = ODict ks vs /\ entry ($"orderby") ks vs (OList l)
    /\ convert_orderby l None = (l', x) /\ body' = ODict ks (put_back ($"orderby") (OList l') ks vs).
Proof.
  unfold json_to_snql. destruct body; try (intro H; injection H as <- _; now left).
  destruct (legacy_query _ _) as [ q | ]; [ | intro H; injection H as <- _; now left ].
  unfold legacy_orderby.
  destruct (truthy (body_get (ODict keys vals) ($"orderby") ONone)) eqn:T; [ | intro H; injection H as <- _; now left ].
  destruct (proj1 (body_get_iff keys vals ($"orderby") ONone _) eq_refl) as [ (ks & vs & E & H) | (_ & E) ];
    [ | rewrite E in T; discriminate T ].
  injection E as <- <-. revert H. destruct (body_get (ODict keys vals) ($"orderby") ONone); try (intros _ H; apply (f_equal fst) in H; left; symmetry; exact H).
  intros E H. right. destruct (convert_orderby l None) as (l', x) eqn:C. apply (f_equal fst) in H. cbn [fst] in H. subst body'.
  exists keys, vals, l, l', x. auto.
Qed.
Lemma snql_order ks vs entity body' r l : json_to_snql (ODict ks vs) entity = (body', Ok r) ->
  entry ($"orderby") ks vs (OList l) -> l <> [] ->
  exists l' obs q, convert_orderby l None = (l', Ok obs) /\ body' = ODict ks (put_back ($"orderby") (OList l') ks vs)
    /\ rq_query r = RQuery q /\ c_orderby (q_clauses q) = OList obs.
Proof.
  intros H E N. unfold json_to_snql in H. destruct (legacy_query _ _) as [ q | ]; [ | discriminate ].
  unfold legacy_orderby in H.
  assert (B : body_get (ODict ks vs) ($"orderby") ONone = OList l) by (apply body_get_iff; left; exists ks, vs; auto).
  rewrite B in H. destruct l as [ | o l ]; [ congruence | ]. cbn [truthy] in H.
  destruct (convert_orderby (o :: l) None) as (l', x) eqn:C. injection H as <- H.
  apply bind_Ok in H. destruct H as (q1 & H1 & H). apply bind_Ok in H1. destruct H1 as (obs & -> & H1).
  apply request_order in H. destruct H as (q2 & Hq & S). exists l', obs, q2. repeat split; auto.
  rewrite S. apply setter_frame in H1. destruct H1 as (St & _). inversion St; subst. congruence.
Qed.

Lemma entry_det k ks : forall vs v w, entry k ks vs v -> entry k ks vs w -> v = w.
Proof. intros vs v w A B. apply lookup_iff in A, B. congruence. Qed.
Lemma other_keys body entity body' r : json_to_snql body entity = (body', r) ->
  forall k v, k <> $"orderby" -> (dict_entry body' k v <-> dict_entry body k v).
Proof.
  intros H k v N. apply snql_body in H. destruct H as [ -> | (ks & vs & l & l' & x & -> & E & _ & ->) ]; [ reflexivity | ].
  unfold dict_entry. split; intros (ks' & vs' & K & H); injection K as <- <-; eexists; eexists; (split; [ reflexivity | ]).
  - apply (put_back_entry _ _ _ _ _ E) in H. tauto.
  - apply (put_back_entry _ _ _ _ _ E). tauto.
Qed.
Lemma body_kept body entity body' r : json_to_snql body entity = (body', r) ->
  (forall l, orders body l -> Forall (fun o => ~ changed_item o) l) -> body' = body.
Proof.
  intros H O. apply snql_body in H. destruct H as [ -> | (ks & vs & l & l' & x & -> & E & C & ->) ]; [ reflexivity | ].
  apply convert_orderby_after in C. destruct C as (C & _).
  rewrite C; [ | apply O; exists ks, vs; auto ]. f_equal. now apply put_back_same.
Qed.
Lemma Forall2_nth {A B} (R : A -> B -> Prop) l m : Forall2 R l m -> forall i x, nth_error l i = Some x -> exists y, nth_error m i = Some y /\ R x y.
Proof.
  induction 1; intros [ | i ] z E; cbn in E |- *; try discriminate; [ injection E as <-; eauto | now apply IHForall2 ].
Qed.
Lemma second_differs body entity body' r l o : json_to_snql body entity = (body', Ok r) ->
  orders body l -> In o l -> changed_item o -> body' <> body /\ snd (json_to_snql body' entity) <> Ok r.
Proof.
  intros H (ks & vs & -> & E) I Ch.
  assert (N : l <> []) by (intros ->; destruct I).
  destruct (snql_order _ _ _ _ _ _ H E N) as (l' & obs & q & C & -> & Q & O).
  pose proof (convert_orderby_after _ _ _ _ C) as (_ & D). destruct (D _ eq_refl) as (D1 & D2 & D3).
  assert (E' : entry ($"orderby") ks (put_back ($"orderby") (OList l') ks vs) (OList l')) by (apply (put_back_entry _ _ _ _ _ E); auto).
  split.
  - intro K. injection K as K. rewrite K in E'. pose proof (entry_det _ _ _ _ _ E E') as X. injection X as X.
    specialize (D1 (eq_sym X)). rewrite Forall_forall in D1. now elim (D1 o I).
  - destruct (json_to_snql (ODict ks (put_back ($"orderby") (OList l') ks vs)) entity) as (b2, r2) eqn:H2. cbn [snd]. intros ->.
    assert (N' : l' <> []) by (intros ->; inversion D2; subst; congruence).
    destruct (snql_order _ _ _ _ _ _ H2 E' N') as (l2 & obs2 & q2 & C2 & _ & Q2 & O2).
    assert (obs2 = obs) by congruence. subst obs2.
    pose proof (convert_orderby_after _ _ _ _ C2) as (_ & D'). destruct (D' _ eq_refl) as (_ & _ & D3').
    apply In_nth_error in I. destruct I as (i & I).
    destruct (Forall2_nth _ _ _ D2 _ _ I) as (o' & I' & X). destruct (X Ch) as (Nc & y & Ey).
    destruct (Forall2_nth _ _ _ D3 _ _ I) as (ob & Io & Y & _). destruct (Y Ch) as (e & ->).
    destruct (Forall2_nth _ _ _ D3' _ _ I') as (ob' & Io' & _ & Z). destruct (Z Nc _ Ey) as (e' & ->).
    rewrite Io in Io'. discriminate Io'.
Qed.

(** ** For the statements of the properties *)
Lemma snql_dict body entity body' r : json_to_snql body entity = (body', Ok r) -> exists ks vs, body = ODict ks vs.
Proof. unfold json_to_snql. destruct body; try discriminate. eauto. Qed.

Lemma scalar_kept b v : scalar v -> scalar (parse_scalar b v).
Proof.
  assert (X : forall v, expression v -> parse_scalar b v = v) by (intros x []; reflexivity).
  induction v using obj_ind'; try (intro S; exact S).
  - intros _. cbn [parse_scalar]. destruct b; [ repeat constructor | ]. destruct (parse_datetime s); repeat constructor.
  - intro S. cbn [parse_scalar]. apply sc_tuple. inversion S; subst; [ inversion H0 | ].
    clear S. induction H1; cbn [map]; constructor; inversion H; subst; auto.
    destruct H0 as [ H0 | H0 ]; [ left; auto | right; rewrite X; assumption ].
  - intro S. cbn [parse_scalar]. apply sc_tuple. inversion S; subst; [ inversion H0 | ].
    clear S. induction H1; cbn [map]; constructor; inversion H; subst; auto.
    destruct H0 as [ H0 | H0 ]; [ left; auto | right; rewrite X; assumption ].
Qed.
Lemma capitals_of_op o : capitals (op_value o) = op_value o.
Proof. destruct o; vm_compute; reflexivity. Qed.
Lemma op_is_null o : null_test (OStr (op_value o)) <-> o = IS_NULL \/ o = IS_NOT_NULL.
Proof.
  unfold null_test. split.
  - intros [ H | H ]; injection H as H; [ left | right ]; apply op_value_inj; exact H.
  - intros [ -> | -> ]; auto.
Qed.
Lemma simple_condition t n o v : sequence t [OStr n; OStr (op_value o); v] -> column_name n -> scalar v ->
  is_condition t = Ok true
  /\ exists col v', mk_column (OStr n) ONone = Ok col
       /\ ((o = IS_NULL \/ o = IS_NOT_NULL) /\ v' = ONone
           \/ o <> IS_NULL /\ o <> IS_NOT_NULL /\ legacy_value (text_side col) v v')
       /\ parse_condition t = Ok (OCond col o v').
Proof.
  intros S N V. split.
  - apply is_condition_yes. exists (OStr n), (op_value o), v, o. split; [ exact S | ]. split; [ apply capitals_of_op | left; eauto ].
  - assert (M : exists col, mk_column (OStr n) ONone = Ok (OColumn col)).
    { eexists. apply mk_column_Ok. exists n, None. split; [ reflexivity | ]. split; [ exact N | ]. split; [ now left | ]. split; [ left; auto | reflexivity ]. }
    destruct M as (col & M).
    assert (L : legacy_exp (OStr n) (OColumn col)).
    { apply le_column; [ | | exact M ].
      - intros ->. destruct N as (f & b & s & nl & E & _). discriminate E.
      - intros inner Q. destruct N as (f & b & s & nl & E & F & _). destruct Q as [ Q | (Q & _) ]; rewrite Q in E; injection E as E _; subst f;
          destruct F as [ [ F | F ] | F ]; revert F; clear; intro; lia || discriminate. }
    assert (D : denotes_op (OStr (op_value o)) o) by now left.
    assert (I0 : item_at t 0 (OStr n)) by (eexists; split; [ exact S | reflexivity ]).
    assert (I1 : item_at t 1 (OStr (op_value o))) by (eexists; split; [ exact S | reflexivity ]).
    assert (I2 : item_at t 2 v) by (eexists; split; [ exact S | reflexivity ]).
    assert (Dec : (o = IS_NULL \/ o = IS_NOT_NULL) \/ o <> IS_NULL /\ o <> IS_NOT_NULL) by (destruct o; intuition discriminate).
    exists (OColumn col). destruct Dec as [ Hn | (N1 & N2) ].
    + exists ONone. split; [ exact M | ]. split; [ left; auto | ]. apply parse_condition_iff. exists (OColumn col), o, ONone.
      split; [ econstructor; eauto; apply lr_null; now apply op_is_null | ]. split; [ | reflexivity ].
      split; [ left; constructor | ]. exists o. split; [ reflexivity | ]. split; [ auto | right; right; repeat constructor ].
    + exists (parse_scalar (only_strings (OColumn col)) v). split; [ exact M | ].
      assert (LV : legacy_value (text_side (OColumn col)) v (parse_scalar (only_strings (OColumn col)) v)) by (apply parse_scalar_value, only_strings_iff).
      split; [ right; auto | ]. apply parse_condition_iff. eexists _, o, _. split.
      * econstructor; eauto. eapply lr_value; eauto. intro K. apply op_is_null in K. destruct K; contradiction.
      * split; [ | reflexivity ]. split; [ left; constructor | ]. exists o. split; [ reflexivity | ]. split; [ tauto | ].
        right. right. now apply scalar_kept.
Qed.

Lemma entry_unique body k v w : dict_entry body k v -> dict_entry body k w -> v = w.
Proof. intros (ks & vs & -> & A) (ks' & vs' & E & B). injection E as <- <-. eapply entry_det; eauto. Qed.
Lemma id_present body k col (P : Prop) l v : id_conditions body k col P l -> dict_entry body k v -> truthy v = true ->
  (exists z, int_value v z) \/ (exists m, list_or_tuple v m) -> exists c, id_condition col P v c /\ In c l.
Proof.
  intros H E T K. inversion H; subst.
  - now elim (H0 v).
  - rewrite (entry_unique _ _ _ _ H0 E) in H1. congruence.
  - rewrite (entry_unique _ _ _ _ H0 E) in *. destruct K as [ (z & K) | (m & K) ]; [ now elim (H1 z) | now elim (H2 m) ].
  - rewrite (entry_unique _ _ _ _ H0 E) in *. exists c. split; [ assumption | now left ].
Qed.
Lemma time_present body k col o l v : time_conditions body k col o l -> dict_entry body k v -> truthy v = true ->
  exists s t, v = OStr s /\ parse_datetime s = Some t /\ In (OCond (plain_column col) o (ODateTime t)) l.
Proof.
  intros H E T. inversion H; subst.
  - now elim (H0 v).
  - rewrite (entry_unique _ _ _ _ H0 E) in H1. congruence.
  - rewrite <- (entry_unique _ _ _ _ H0 E) in *. exists s, t. repeat split; auto. now left.
Qed.
Lemma time_column_det e c c' : time_column e c -> time_column e c' -> c = c'.
Proof. intros A B. apply time_column_iff in A, B. congruence. Qed.
Lemma extensions_present body entity body' r : json_to_snql body entity = (body', Ok r) ->
  let has c := exists q l, rq_query r = RQuery q /\ c_where (q_clauses q) = OList l /\ In c l in
  (forall v, dict_entry body ($"organization") v -> truthy v = true ->
     (exists z, int_value v z) \/ (exists l, list_or_tuple v l) ->
     exists c, id_condition ($"org_id") False v c /\ has c)
  /\ (forall v, dict_entry body ($"project") v -> truthy v = true ->
     (exists z, int_value v z) \/ (exists l, list_or_tuple v l) ->
     exists c, id_condition ($"project_id") True v c /\ has c)
  /\ (forall n col v, entity = OStr n -> time_column n col -> dict_entry body ($"from_date") v -> truthy v = true ->
     exists s t, v = OStr s /\ parse_datetime s = Some t /\ has (OCond (plain_column col) GTE (ODateTime t)))
  /\ (forall n col v, entity = OStr n -> time_column n col -> dict_entry body ($"to_date") v -> truthy v = true ->
     exists s t, v = OStr s /\ parse_datetime s = Some t /\ has (OCond (plain_column col) LT (ODateTime t))).
Proof.
  intro H. apply snql_conditions in H. destruct H as (q & n & ext & items & css & hitems & hs & Q & En & X & _ & _ & C & _).
  intro has. assert (Hi : forall c, In c ext -> has c).
  { intros c I. exists q, (ext ++ List.concat css). split; [ exact Q | ]. split; [ exact C | ]. apply in_or_app. now left. }
  inversion X as [ col org fr to proj T O F U J | org proj T O J ]; subst ext.
  - split; [ | split; [ | split ] ].
    + intros v E Tr K. destruct (id_present _ _ _ _ _ _ O E Tr K) as (c & A & B). exists c. split; [ exact A | ]. apply Hi. rewrite !in_app_iff. auto.
    + intros v E Tr K. destruct (id_present _ _ _ _ _ _ J E Tr K) as (c & A & B). exists c. split; [ exact A | ]. apply Hi. rewrite !in_app_iff. auto.
    + intros m col' v Em Tc E Tr. assert (m = n) by congruence. subst m. rewrite (time_column_det _ _ _ Tc T) in *.
      destruct (time_present _ _ _ _ _ _ F E Tr) as (s & t & A & B & D). exists s, t. repeat split; auto. apply Hi. rewrite !in_app_iff. auto.
    + intros m col' v Em Tc E Tr. assert (m = n) by congruence. subst m. rewrite (time_column_det _ _ _ Tc T) in *.
      destruct (time_present _ _ _ _ _ _ U E Tr) as (s & t & A & B & D). exists s, t. repeat split; auto. apply Hi. rewrite !in_app_iff. auto.
  - split; [ | split; [ | split ] ].
    + intros v E Tr K. destruct (id_present _ _ _ _ _ _ O E Tr K) as (c & A & B). exists c. split; [ exact A | ]. apply Hi. rewrite !in_app_iff. auto.
    + intros v E Tr K. destruct (id_present _ _ _ _ _ _ J E Tr K) as (c & A & B). exists c. split; [ exact A | ]. apply Hi. rewrite !in_app_iff. auto.
    + intros m col' v Em Tc E Tr. assert (m = n) by congruence. subst m. now elim (T col').
    + intros m col' v Em Tc E Tr. assert (m = n) by congruence. subst m. now elim (T col').
Qed.
End Props.
