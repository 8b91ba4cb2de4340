(** Facts about legacy.py: expressions and conditions (C55, C56). *)
From Verif Require Import PyBase DateTime Objects SpecOps Exprs PyFacts SpecExpr ExprFacts SpecLogic Query SetterProps
  SpecMetricsQuery Request Strptime Legacy SpecLegacy.
From Verif Require StrptimeFacts ExprProps.

Section Facts.
Context {RT : PyRT} {CV : PyConv}.

(** ** Sequences *)
Lemma index_iff o i x : (i < 3)%nat -> (index o i = Ok x <-> item_at o i x).
Proof.
  intros _. unfold item_at. split.
  - intro H.
    assert (K : forall l, match nth_error l i with Some y => Ok y | None => Raise IndexError end = Ok x ->
              nth_error l i = Some x).
    { intros l E. destruct (nth_error l i); [ now injection E as -> | discriminate ]. }
    destruct o; try discriminate H; cbn in H; apply K in H.
    + eexists; split; [ apply sq_str | exact H ].
    + eexists; split; [ apply sq_bytes | exact H ].
    + eexists; split; [ apply sq_list | exact H ].
    + eexists; split; [ apply sq_tuple | exact H ].
  - intros (l & S & H). destruct S; cbn; now rewrite H.
Qed.
Lemma item_det o i x y : item_at o i x -> item_at o i y -> x = y.
Proof.
  intros (l & S & H) (l' & S' & H').
  assert (l = l'). { destruct S; inversion S'; reflexivity. } congruence.
Qed.
Lemma sequence_det o l l' : sequence o l -> sequence o l' -> l = l'.
Proof. intros S S'. destruct S; inversion S'; reflexivity. Qed.
Lemma iter_iff o l : iter o = Ok l <-> items_of o l.
Proof.
  split.
  - intro H. destruct o; try discriminate H; injection H as <-; first [ apply io_dict | constructor; constructor ].
  - intros [ o' l' S | ks vs ]; [ destruct S | ]; reflexivity.
Qed.
Lemma items_det o l l' : items_of o l -> items_of o l' -> l = l'.
Proof. intros A B. apply iter_iff in A, B. congruence. Qed.

(** ** is_condition *)
Lemma capitals_upper s : upper s = capitals s.
Proof.
  unfold upper, capitals. rewrite flat_map_concat_map. f_equal. apply map_ext. intro c.
  unfold upper_char, in_range. destruct (c <? 128)%N eqn:E; [ destruct ((97 <=? c) && (c <=? 122))%N; reflexivity | ].
  apply N.ltb_ge in E. destruct (97 <=? c)%N eqn:A, (c <=? 122)%N eqn:B; try reflexivity.
  apply N.leb_le in B. lia.
Qed.
Lemma all_ops_all o : In o all_ops.
Proof. unfold all_ops. destruct o; cbn; tauto. Qed.
Lemma recognised_iff o : is_recognised_op o = true <-> exists s p, o = OStr s /\ capitals s = op_value p.
Proof.
  split.
  - intro H. destruct o; try discriminate. cbn [is_recognised_op] in H. apply mem_str_In, in_map_iff in H.
    destruct H as (p & E & _). exists s, p. now rewrite <- capitals_upper.
  - intros (s & p & -> & E). cbn [is_recognised_op]. apply mem_str_In, in_map_iff. exists p.
    rewrite capitals_upper. split; [ now symmetry | apply all_ops_all ].
Qed.
Lemma readable_iff a : is_str_tuple_list a = true <-> (exists x, a = OStr x) \/ (exists l, list_or_tuple a l).
Proof.
  split.
  - destruct a; try discriminate; intros _; [ left; eauto | right; eexists; constructor | right; eexists; constructor ].
  - intros [ (x & ->) | (l & [ ]) ]; reflexivity.
Qed.
Lemma len_sequence o l : sequence o l -> py_len o = Ok (List.length l).
Proof. intro S. destruct S; cbn; now rewrite ?map_length. Qed.

Lemma is_condition_yes t : is_condition t = Ok true <-> triple t.
Proof.
  split.
  - unfold is_condition. intro H. apply bind_Ok in H. destruct H as (n & L & H).
    destruct (Nat.eqb n 3) eqn:N3; [ | discriminate ]. apply Nat.eqb_eq in N3. subst n.
    apply bind_Ok in H. destruct H as (b & Hb & H). destruct (is_recognised_op b) eqn:R; [ | discriminate ].
    apply bind_Ok in H. destruct H as (a & Ha & H). injection H as H.
    apply index_iff in Ha; [ | lia ]. apply index_iff in Hb; [ | lia ].
    destruct Ha as (l & S & Na). destruct Hb as (l' & S' & Nb). rewrite (sequence_det _ _ _ S' S) in Nb. clear l' S'.
    rewrite (len_sequence _ _ S) in L. injection L as L.
    destruct l as [ | a0 [ | b0 [ | c0 [ | ] ] ] ]; try discriminate L. cbn in Na, Nb. injection Na as ->. injection Nb as ->.
    apply recognised_iff in R. destruct R as (s & p & -> & E). apply readable_iff in H.
    exists a, s, c0, p. auto.
  - intros (a & s & c & p & S & E & A). unfold is_condition. rewrite (len_sequence _ _ S). cbn [List.length bind Nat.eqb].
    assert (I1 : index t 1 = Ok (OStr s)). { apply index_iff; [ lia | ]. eexists; split; [ exact S | reflexivity ]. }
    assert (I0 : index t 0 = Ok a). { apply index_iff; [ lia | ]. eexists; split; [ exact S | reflexivity ]. }
    rewrite I1. cbn [bind]. replace (is_recognised_op (OStr s)) with true by (symmetry; apply recognised_iff; eauto).
    rewrite I0. cbn [bind]. f_equal. now apply readable_iff.
Qed.
Lemma is_condition_no t : is_condition t = Ok false -> ~ triple t.
Proof. intros H T. apply is_condition_yes in T. congruence. Qed.
Lemma is_condition_list l : exists b, is_condition (OList l) = Ok b.
Proof.
  unfold is_condition. cbn [py_len bind]. destruct (Nat.eqb (List.length l) 3) eqn:E; [ | eauto ].
  apply Nat.eqb_eq in E. destruct l as [ | a [ | b [ | c [ | ] ] ] ]; try discriminate. cbn.
  destruct (is_recognised_op b); eauto.
Qed.
Lemma not_triple l : ~ triple (OList l) -> is_condition (OList l) = Ok false.
Proof.
  intro H. destruct (is_condition_list l) as ([ | ] & E); [ | exact E ]. apply is_condition_yes in E. contradiction.
Qed.

(** ** Values *)
Lemma parse_scalar_value (b : bool) (keep : Prop) : (b = true <-> keep) -> forall v, legacy_value keep v (parse_scalar b v).
Proof.
  intros K v. induction v using obj_ind';
    try (cbn [parse_scalar]; apply lv_other; [ intros ? E; discriminate E | intros ? E; inversion E ]).
  - cbn [parse_scalar]. destruct b.
    + apply lv_text. left. now apply K.
    + destruct (parse_datetime s) eqn:E.
      * apply lv_date; [ | exact E ]. intro Q. apply K in Q. discriminate.
      * apply lv_text. now right.
  - cbn [parse_scalar]. eapply lv_sequence; [ constructor | ]. induction H; cbn; constructor; auto.
  - cbn [parse_scalar]. eapply lv_sequence; [ constructor | ]. induction H; cbn; constructor; auto.
Qed.
Lemma legacy_value_det (b : bool) (keep : Prop) : (b = true <-> keep) -> forall v v', legacy_value keep v v' -> v' = parse_scalar b v.
Proof.
  intros K v. induction v using obj_ind'; intros v' E; inversion E; subst; try reflexivity;
    try (match goal with H : list_or_tuple _ _ |- _ => inversion H; subst end);
    try (match goal with H : forall s, _ <> OStr s |- _ => now elim (H _ eq_refl) end);
    try (match goal with H : forall l, ~ list_or_tuple (OList _) _ |- _ => now elim (H _ (lt_list _)) end);
    try (match goal with H : forall l, ~ list_or_tuple (OTuple _) _ |- _ => now elim (H _ (lt_tuple _)) end).
  - cbn [parse_scalar]. destruct b; [ destruct H0; now apply K | ]. now rewrite H1.
  - cbn [parse_scalar]. destruct b; [ reflexivity | ]. destruct H0 as [ H0 | H0 ]; [ apply K in H0; discriminate | ]. now rewrite H0.
  - cbn [parse_scalar]. f_equal. clear E H0. induction H1; [ reflexivity | ]. inversion H; subst. cbn. f_equal; auto.
  - cbn [parse_scalar]. f_equal. clear E H0. induction H1; [ reflexivity | ]. inversion H; subst. cbn. f_equal; auto.
Qed.
Lemma false_iff : false = true <-> False.
Proof. split; [ discriminate | intros [] ]. Qed.

(** ** Left-hand sides whose right-hand side stays a text *)
Lemma text_column_iff o : is_text_column o = true <-> text_column o.
Proof.
  unfold text_column. split.
  - intro H. destruct o; try discriminate. exists c. split; [ reflexivity | ]. cbn [is_text_column] in H.
    apply orb_true_iff in H. destruct H as [ H | H ]; [ left | right; now apply str_eqb_eq ].
    destruct (c_sub c); [ | discriminate ]. cbn [option_eqb] in H. apply str_eqb_eq in H. now subst.
  - intros (c & -> & H). cbn [is_text_column]. apply orb_true_iff. destruct H as [ H | H ].
    + left. rewrite H. cbn [option_eqb]. apply str_eqb_refl.
    + right. rewrite H. apply str_eqb_refl.
Qed.
Lemma only_strings_iff lhs : only_strings lhs = true <-> text_side lhs.
Proof.
  unfold text_side. split.
  - intro H. destruct lhs; try discriminate.
    + left. apply text_column_iff. exact H.
    + right. cbn [only_strings] in H. destruct is_function; [ | discriminate ].
      destruct params as [ | p [ | q pl ] ]; try discriminate. apply andb_true_iff in H. destruct H as [ H1 H2 ].
      apply str_eqb_eq in H1. subst. apply text_column_iff in H2. do 7 eexists. split; [ reflexivity | exact H2 ].
  - intros [ H | (ik & il & pk & p & q & pl & a & -> & H) ].
    + pose proof H as (c & -> & _). apply text_column_iff. exact H.
    + cbn [only_strings]. rewrite str_eqb_refl. now apply text_column_iff.
Qed.

(** ** Operators *)
Lemma op_value_inj a b : op_value a = op_value b -> a = b.
Proof. destruct a, b; intro H; try reflexivity; discriminate H. Qed.
Lemma op_of_iff b o : op_of b = Ok o <-> denotes_op b o.
Proof.
  unfold denotes_op. split.
  - intro H. destruct b; try discriminate H.
    + cbn [op_of] in H. destruct (find _ all_ops) eqn:F; [ | discriminate H ]. injection H as ->.
      apply find_some in F. destruct F as [ _ F ]. apply str_eqb_eq in F. left. f_equal. symmetry. exact F.
    + injection H as ->. now right.
  - intros [ -> | -> ]; [ | reflexivity ]. cbn [op_of].
    destruct (find (fun p => str_eqb (op_value p) (op_text o)) all_ops) eqn:F.
    + apply find_some in F. destruct F as [ _ F ]. apply str_eqb_eq in F. apply op_value_inj in F. now subst.
    + exfalso. pose proof (find_none _ _ F o (all_ops_all o)) as N. cbn beta in N. rewrite str_eqb_refl in N. discriminate.
Qed.
Lemma null_test_iff b : is_null_test b = true <-> null_test b.
Proof.
  unfold null_test. split.
  - intro H. destruct b; try discriminate. cbn [is_null_test] in H. apply orb_true_iff in H.
    rewrite !str_eqb_eq in H. destruct H as [ -> | -> ]; auto.
  - intros [ -> | -> ]; reflexivity.
Qed.
Lemma op_function_iff o f : op_function o = Some f <-> op_function_name o f.
Proof. split; [ intro H; destruct o; injection H as <- || discriminate H; constructor | intros [ ]; reflexivity ]. Qed.

(** the right-hand side and the operator *)
Lemma condition_rest_iff lhs t b o rhs : condition_rest lhs b (index t 2) = Ok (o, rhs) <->
  denotes_op b o /\ legacy_rhs lhs t b rhs.
Proof.
  unfold condition_rest. split.
  - intro H. apply bind_Ok in H. destruct H as (r & Hr & H). apply bind_Ok in H. destruct H as (p & Hp & H).
    injection H as -> ->. apply op_of_iff in Hp. split; [ exact Hp | ].
    destruct (is_null_test b) eqn:N.
    + injection Hr as <-. apply lr_null. now apply null_test_iff.
    + apply bind_Ok in Hr. destruct Hr as (v & Hv & Hr). injection Hr as <-.
      eapply lr_value.
      * intro K. apply null_test_iff in K. congruence.
      * apply index_iff in Hv; [ exact Hv | lia ].
      * apply parse_scalar_value. apply only_strings_iff.
  - intros (D & R). apply op_of_iff in D. inversion R; subst.
    + apply null_test_iff in H. rewrite H. cbn [bind]. rewrite D. reflexivity.
    + replace (is_null_test b) with false by (symmetry; destruct (is_null_test b) eqn:E; [ now apply null_test_iff in E | reflexivity ]).
      apply index_iff in H0; [ | lia ]. rewrite H0. cbn [bind]. rewrite D. cbn [bind].
      rewrite (legacy_value_det (only_strings lhs) (text_side lhs) (only_strings_iff lhs) _ _ H1). reflexivity.
Qed.

(** ** Quotes and parentheses *)
Lemma endswith_iff p s : endswith p s = true <-> exists m, s = m ++ p.
Proof.
  unfold endswith. rewrite prefixb_iff. split.
  - intros (r & E). exists (rev r). rewrite <- (rev_involutive s), E, rev_app_distr, rev_involutive. reflexivity.
  - intros (m & ->). exists (rev m). apply rev_app_distr.
Qed.
Lemma removelast_app1 {A} (l : list A) x : removelast (l ++ [x]) = l.
Proof. rewrite removelast_app by discriminate. apply app_nil_r. Qed.
Lemma quoted_iff q s : startswith [q] s && endswith [q] s = true <-> exists inner, quoted q s inner.
Proof.
  rewrite andb_true_iff. unfold startswith. rewrite prefixb_iff, endswith_iff. unfold quoted. split.
  - intros ((r & Er) & (m & Em)). destruct m as [ | c m ].
    + exists []. now right.
    + rewrite Em in Er. injection Er as -> Er. exists m. now left.
  - intros (inner & [ -> | (-> & ->) ]); split.
    + now exists (inner ++ [q]).
    + exists (q :: inner). reflexivity.
    + now exists [].
    + now exists [].
Qed.
Lemma quoted_inner q s inner : quoted q s inner -> slice_1_m1 s = inner.
Proof.
  intros [ -> | (-> & ->) ]; [ | reflexivity ]. unfold slice_1_m1. cbn [app tl]. apply removelast_app1.
Qed.
Lemma quoted_not q s : startswith [q] s && endswith [q] s = false <-> forall inner, ~ quoted q s inner.
Proof.
  split.
  - intros H inner Q. assert (E : startswith [q] s && endswith [q] s = true) by (apply quoted_iff; eauto). congruence.
  - intro H. destruct (startswith [q] s && endswith [q] s) eqn:E; [ | reflexivity ].
    apply quoted_iff in E. destruct E as (inner & E). now elim (H inner).
Qed.

Lemma legacy_alias_iff r a : legacy_alias r = Ok a <-> legacy_alias_of r a.
Proof.
  split.
  - destruct r as [ | x r ]; cbn [legacy_alias]; [ intro H; injection H as <-; constructor | ].
    destruct (truthy x) eqn:T; [ | intro H; injection H as <-; now constructor ].
    destruct x; try discriminate. intro H.
    assert (E : a = OStr (if startswith [BQ] s && endswith [BQ] s then slice_1_m1 s else s)) by congruence. subst a. clear H.
    assert (N : s <> []) by (intros ->; discriminate T).
    destruct (startswith [BQ] s && endswith [BQ] s) eqn:Q.
    + apply quoted_iff in Q. destruct Q as (inner & Q). rewrite (quoted_inner _ _ _ Q). apply la_quoted; [ exact N | exact Q ].
    + apply la_plain; [ exact N | apply (proj1 (quoted_not _ _)); exact Q ].
  - intro H. inversion H; subst; cbn [legacy_alias]; try reflexivity.
    + now rewrite H0.
    + destruct s as [ | c s ]; [ congruence | ]. cbn [truthy].
      replace (startswith [BQ] (c :: s) && endswith [BQ] (c :: s)) with true by (symmetry; apply quoted_iff; eauto).
      now rewrite (quoted_inner _ _ _ H1).
    + destruct s as [ | c s ]; [ congruence | ]. cbn [truthy].
      replace (startswith [BQ] (c :: s) && endswith [BQ] (c :: s)) with false by (symmetry; apply (proj2 (quoted_not _ _)); assumption).
      reflexivity.
Qed.

Lemma is_paren_iff c : is_paren c = true <-> paren c.
Proof.
  unfold is_paren, one_of, paren. rewrite mem_char_In. cbn. split.
  - intros [ <- | [ <- | [] ] ]; auto.
  - intros [ -> | -> ]; auto.
Qed.
Lemma lstrip_spec f s : exists a, s = a ++ lstrip f s /\ Forall (fun c => f c = true) a
  /\ (forall c r, lstrip f s = c :: r -> f c = false).
Proof.
  induction s as [ | c s (a & E & F & H) ]; cbn [lstrip].
  - exists []. repeat split; [ constructor | discriminate ].
  - destruct (f c) eqn:Q.
    + exists (c :: a). cbn [app]. rewrite <- E. split; [ reflexivity | ]. split; [ now constructor | exact H ].
    + exists []. split; [ reflexivity | ]. split; [ constructor | ]. intros c' r K. now injection K as <- <-.
Qed.
Lemma lstrip_drop f a s : Forall (fun c => f c = true) a -> lstrip f (a ++ s) = lstrip f s.
Proof. induction 1; cbn [app lstrip]; [ reflexivity | now rewrite H ]. Qed.
Lemma strip_parens n : without_parens n (strip is_paren n).
Proof.
  destruct (lstrip_spec is_paren (rev n)) as (b & Eb & Fb & Hb).
  assert (En : n = rstrip is_paren n ++ rev b).
  { unfold rstrip. rewrite <- rev_app_distr, <- Eb. symmetry. apply rev_involutive. }
  destruct (lstrip_spec is_paren (rstrip is_paren n)) as (a & Ea & Fa & Ha).
  exists a, (rev b). unfold strip. split; [ | split; [ | split; [ | split ] ] ].
  - rewrite app_assoc, <- Ea. exact En.
  - eapply Forall_impl; [ | exact Fa ]. intros c. apply is_paren_iff.
  - apply Forall_rev. eapply Forall_impl; [ | exact Fb ]. intros c. apply is_paren_iff.
  - intros c r E P. apply is_paren_iff in P. rewrite (Ha _ _ E) in P. discriminate.
  - intros c r E P. apply is_paren_iff in P. rewrite E in Ea. unfold rstrip in Ea.
    assert (K : lstrip is_paren (rev n) = c :: rev (a ++ r)).
    { rewrite <- (rev_involutive (lstrip is_paren (rev n))), Ea, app_assoc, rev_app_distr. reflexivity. }
    rewrite (Hb _ _ K) in P. discriminate.
Qed.
Lemma strip_parens_det n n' : without_parens n n' -> n' = strip is_paren n.
Proof.
  intros (a & b & -> & Fa & Fb & H1 & H2). unfold strip, rstrip.
  assert (Fa' : Forall (fun c => is_paren c = true) a) by (eapply Forall_impl; [ | exact Fa ]; intro; apply is_paren_iff).
  assert (Fb' : Forall (fun c => is_paren c = true) (rev b))
    by (apply Forall_rev; eapply Forall_impl; [ | exact Fb ]; intro; apply is_paren_iff).
  rewrite !rev_app_distr, <- app_assoc, (lstrip_drop _ _ _ Fb').
  destruct n' as [ | c n' ].
  - cbn [rev app]. rewrite <- (app_nil_r (rev a)), lstrip_drop by (now apply Forall_rev). reflexivity.
  - assert (L : exists x y, c :: n' = y ++ [x]).
    { exists (List.last (c :: n') c), (removelast (c :: n')). apply app_removelast_last. discriminate. }
    destruct L as (x & y & L).
    assert (Px : is_paren x = false). { destruct (is_paren x) eqn:E; [ | reflexivity ]. apply is_paren_iff in E. now elim (H2 x y L). }
    rewrite (lstrip_id is_paren (rev (c :: n') ++ rev a)) by (rewrite L, rev_app_distr; exact Px).
    rewrite rev_app_distr, !rev_involutive, (lstrip_drop _ _ _ Fa').
    symmetry. apply lstrip_id. destruct (is_paren c) eqn:E; [ | reflexivity ]. apply is_paren_iff in E. now elim (H1 c n' eq_refl).
Qed.

(** ** Expressions *)
Lemma exps_mapM l :
  (fix exps (l : list obj) : result (list obj) :=
    match l with
    | [] => Ok []
    | x :: l' => let! y := parse_exp x in let! r := exps l' in Ok (y :: r)
    end) l = mapM parse_exp l.
Proof. induction l as [ | x l IH ]; [ reflexivity | ]. cbn [mapM]. now rewrite IH. Qed.

Lemma parse_string_sound s e : parse_string_exp s = Ok e -> legacy_exp (OStr s) e.
Proof.
  unfold parse_string_exp. destruct s as [ | c s ]; [ intro H; injection H as <-; constructor | ].
  destruct (startswith [SQ] (c :: s) && endswith [SQ] (c :: s)) eqn:Q; intro H.
  - injection H as <-. apply quoted_iff in Q. destruct Q as (inner & Q). rewrite (quoted_inner _ _ _ Q).
    apply le_text; [ discriminate | exact Q ].
  - apply le_column; [ discriminate | apply (proj1 (quoted_not _ _)); exact Q | exact H ].
Qed.
Lemma no_suffix p s : endswith p s = false -> forall m, s <> m ++ p.
Proof. intros H m E. assert (endswith p s = true) by (apply endswith_iff; eauto). congruence. Qed.

Lemma parse_exp_sound v :
  (forall e, parse_exp v = Ok e -> legacy_exp v e)
  /\ (forall l, v = OList l -> forall es, mapM parse_exp l = Ok es -> legacy_exps l es).
Proof.
  induction v using obj_ind'; split; try discriminate; intros e0 He;
    try (injection He as <-; apply le_value; [ discriminate | discriminate | ];
         exact (parse_scalar_value false False false_iff _)).
  - now apply parse_string_sound.
  - cbn [parse_exp] in He. apply bind_Ok in He. destruct He as (b & Hb & He). destruct b.
    + apply is_condition_yes in Hb.
      destruct l as [ | a [ | b r ] ]; [ discriminate He | discriminate He | ].
      apply bind_Ok in He. destruct He as (lhs & Hl & He). apply bind_Ok in He. destruct He as ((o & rhs) & Hr & He).
      apply condition_rest_iff in Hr. destruct Hr as (D & R). unfold condition_function in He. cbn [fst snd] in He.
      destruct (op_function o) as [ f | ] eqn:F; [ | discriminate He ]. apply op_function_iff in F.
      eapply le_condition; eauto; try reflexivity. inversion H; subst. apply H2. exact Hl.
    + apply is_condition_no in Hb.
      destruct l as [ | a [ | b r ] ]; [ discriminate He | destruct a; discriminate He | ].
      apply bind_Ok in He. destruct He as (al & Ha & He). apply legacy_alias_iff in Ha.
      destruct a; try discriminate He.
      destruct (truthy b) eqn:T.
      * rewrite !andb_false_r in He. apply bind_Ok in He. destruct He as (ch & Hc & He).
        inversion H as [ | ? ? _ H' ]; subst. inversion H' as [ | ? ? Hb' _ ]; subst. destruct Hb' as (Hb1 & Hb2).
        destruct b; try (apply bind_Ok in Hc; destruct Hc as (x & Hx & Hc); injection Hc as <-;
          eapply le_arg; eauto; discriminate).
        apply bind_Ok in Hc. destruct Hc as (xs & Hx & Hc). injection Hc as <-. rewrite exps_mapM in Hx.
        eapply le_args; eauto. intros ->. discriminate T.
      * cbn [negb] in He. rewrite !andb_true_r in He.
        destruct (endswith ($"()") s) eqn:E1.
        { eapply le_no_args; eauto; [ now apply endswith_iff | apply strip_parens ]. }
        destruct (endswith ($")") s) eqn:E2; cbn [negb] in He.
        { eapply le_no_params; eauto; [ now apply no_suffix | now apply endswith_iff | ].
          destruct b; try discriminate T; try exact He. destruct l; [ exact He | discriminate T ]. }
        { eapply le_no_parens; eauto. now apply no_suffix. }
  - injection He as <-. clear -H. intros es He.
    apply mapM_Ok in He. induction He as [ | x y l es Hx Hl IH ]; [ constructor | ].
    inversion H; subst. constructor; [ now apply H2 | now apply IH ].
Qed.

Scheme lgexp_ind := Minimality for legacy_exp Sort Prop
  with lgexps_ind := Minimality for legacy_exps Sort Prop
  with lgrhs_ind := Minimality for legacy_rhs Sort Prop.
Lemma parse_exp_complete v e : legacy_exp v e -> parse_exp v = Ok e.
Proof.
  revert v e. apply (lgexp_ind RT CV (fun v e => parse_exp v = Ok e) (fun l es => mapM parse_exp l = Ok es)
    (fun lhs t b rhs => legacy_rhs lhs t b rhs)); try (intros; reflexivity).
  - intros s inner N Q. cbn [parse_exp]. unfold parse_string_exp. destruct s as [ | c s ]; [ congruence | ].
    replace (startswith [SQ] (c :: s) && endswith [SQ] (c :: s)) with true by (symmetry; apply quoted_iff; eauto).
    now rewrite (quoted_inner _ _ _ Q).
  - intros s e N Q E. cbn [parse_exp]. unfold parse_string_exp. destruct s as [ | c s ]; [ congruence | ].
    replace (startswith [SQ] (c :: s) && endswith [SQ] (c :: s)) with false by (symmetry; apply (proj2 (quoted_not _ _)); assumption).
    exact E.
  - intros v e N1 N2 L. apply (legacy_value_det false False false_iff) in L. subst e.
    destruct v; try reflexivity; [ now elim (N1 s) | now elim (N2 l) ].
  - intros l a b lhs o rhs f e T Na Nb _ IH D R _ F E.
    destruct l as [ | a' [ | b' l ] ]; try discriminate. cbn in Na, Nb. injection Na as ->. injection Nb as ->.
    cbn [parse_exp]. apply is_condition_yes in T. rewrite T. cbn [bind]. rewrite IH. cbn [bind].
    rewrite (proj2 (condition_rest_iff lhs (OList (a :: b :: l)) b o rhs) (conj D R)). cbn [bind].
    unfold condition_function. cbn [fst snd]. apply op_function_iff in F. now rewrite F.
  - intros n n' b r al e T Tb (m & Em) W A E. apply not_triple in T. cbn [parse_exp]. rewrite T. cbn [bind].
    apply legacy_alias_iff in A. rewrite A. cbn [bind]. rewrite Tb.
    replace (endswith ($"()") n) with true by (symmetry; apply endswith_iff; eauto). cbn [negb andb].
    now rewrite <- (strip_parens_det _ _ W).
  - intros n b r al e T Tb Nm A E. apply not_triple in T. cbn [parse_exp]. rewrite T. cbn [bind].
    apply legacy_alias_iff in A. rewrite A. cbn [bind]. rewrite Tb.
    replace (endswith ($"()") n) with false.
    2: { symmetry. destruct (endswith ($"()") n) eqn:Q; [ | reflexivity ]. apply endswith_iff in Q. destruct Q as (m & Q).
         elim (Nm (m ++ $"(")). rewrite <- app_assoc. exact Q. }
    replace (endswith ($")") n) with false.
    2: { symmetry. destruct (endswith ($")") n) eqn:Q; [ | reflexivity ]. apply endswith_iff in Q. destruct Q as (m & Q).
         now elim (Nm m). }
    exact E.
  - intros n b r al e T Tb N1 (m & Em) A E. apply not_triple in T. cbn [parse_exp]. rewrite T. cbn [bind].
    apply legacy_alias_iff in A. rewrite A. cbn [bind]. rewrite Tb.
    replace (endswith ($"()") n) with false.
    2: { symmetry. destruct (endswith ($"()") n) eqn:Q; [ | reflexivity ]. apply endswith_iff in Q. destruct Q as (m' & Q).
         now elim (N1 m'). }
    replace (endswith ($")") n) with true by (symmetry; apply endswith_iff; eauto). cbn [negb andb].
    destruct b; try discriminate Tb; try exact E. destruct l; [ exact E | discriminate Tb ].
  - intros n args es r al e T Na _ IH A E. apply not_triple in T. cbn [parse_exp]. rewrite T. cbn [bind].
    apply legacy_alias_iff in A. rewrite A. cbn [bind]. destruct args as [ | x args ]; [ congruence | ]. cbn [truthy negb].
    rewrite !andb_false_r, (exps_mapM (x :: args)), IH. exact E.
  - intros n b x r al e T Tb Nl _ IH A E. apply not_triple in T. cbn [parse_exp]. rewrite T. cbn [bind].
    apply legacy_alias_iff in A. rewrite A. cbn [bind]. rewrite Tb. cbn [negb]. rewrite !andb_false_r.
    destruct b; try (now elim (Nl l)); rewrite IH; exact E.
  - intros v e vs es _ IH _ IHs. cbn [mapM]. rewrite IH. cbn [bind]. rewrite IHs. reflexivity.
  - intros. now constructor.
  - intros. eapply lr_value; eauto.
Qed.
Lemma parse_exp_iff v e : parse_exp v = Ok e <-> legacy_exp v e.
Proof. split; [ apply parse_exp_sound | apply parse_exp_complete ]. Qed.

(** ** Conditions *)
Lemma parse_condition_iff t c : parse_condition t = Ok c <-> cond_object t c.
Proof.
  unfold parse_condition, cond_object. split.
  - intro H. apply bind_Ok in H. destruct H as (a & Ha & H). apply bind_Ok in H. destruct H as (lhs & Hl & H).
    apply bind_Ok in H. destruct H as (b & Hb & H). apply bind_Ok in H. destruct H as ((o & rhs) & Hr & H).
    cbn [fst snd] in H. exists lhs, o, rhs. apply condition_rest_iff in Hr. destruct Hr as (D & R).
    split; [ | split ].
    + econstructor; eauto; [ apply index_iff; [ lia | exact Ha ] | now apply parse_exp_iff | apply index_iff; [ lia | exact Hb ] ].
    + apply ExprProps.c08_accept. eauto.
    + apply ExprProps.c08_stores in H. destruct H as (q & E & ->). now injection E as <-.
  - intros (lhs & o & rhs & L & C & ->). destruct L as [ a b lhs o rhs Ia La Ib D R ].
    apply index_iff in Ia; [ | lia ]. apply index_iff in Ib; [ | lia ]. apply parse_exp_iff in La.
    rewrite Ia. cbn [bind]. rewrite La. cbn [bind]. rewrite Ib. cbn [bind].
    rewrite (proj2 (condition_rest_iff lhs t b o rhs) (conj D R)). cbn [bind fst snd].
    apply ExprProps.c08_accept in C. destruct C as (c & C). rewrite C.
    apply ExprProps.c08_stores in C. destruct C as (q & E & ->). now injection E as <-.
Qed.

Lemma cond_is_condition t c : cond_object t c -> a_condition c.
Proof. intros (l & o & r & _ & _ & ->). constructor. Qed.
Lemma parse_conditions_iff l cs : mapM parse_condition l = Ok cs <-> Forall2 cond_object l cs.
Proof.
  rewrite mapM_Ok. split; intro H; induction H; constructor; auto; now apply parse_condition_iff.
Qed.
Lemma conditions_are l cs : Forall2 cond_object l cs -> Forall a_condition cs.
Proof. induction 1; constructor; [ eapply cond_is_condition; eauto | assumption ]. Qed.
Lemma mk_or_list cs o : Forall a_condition cs ->
  (mk_or (OList cs) = Ok o <-> (2 <= List.length cs)%nat /\ o = OBoolC BOr OR KList cs).
Proof.
  intro F. unfold mk_or. rewrite ExprProps.mk_boolean_Ok. split.
  - intros (q & k & l & Eq & El & N & _ & ->). injection Eq as <-. injection El as <- <-. auto.
  - intros (N & ->). exists OR, KList, cs. auto.
Qed.

(** ** WHERE and HAVING items *)
Lemma is_condition_seq t l : sequence t l -> exists b, is_condition t = Ok b.
Proof.
  intro S. unfold is_condition. rewrite (len_sequence _ _ S). cbn [bind].
  destruct (Nat.eqb (List.length l) 3) eqn:E; [ | eauto ]. apply Nat.eqb_eq in E.
  destruct l as [ | a [ | b [ | c [ | ] ] ] ]; try discriminate.
  assert (I1 : index t 1 = Ok b). { apply index_iff; [ lia | ]. eexists; split; [ exact S | reflexivity ]. }
  assert (I0 : index t 0 = Ok a). { apply index_iff; [ lia | ]. eexists; split; [ exact S | reflexivity ]. }
  rewrite I1, I0. cbn [bind]. destruct (is_recognised_op b); eauto.
Qed.
Lemma not_triple_seq t l : sequence t l -> ~ triple t -> is_condition t = Ok false.
Proof.
  intros S H. destruct (is_condition_seq t l S) as ([ | ] & E); [ | exact E ]. apply is_condition_yes in E. contradiction.
Qed.
Lemma convert_where_sound t cs : convert_where t = Ok cs -> where_object t cs.
Proof.
  unfold convert_where. intro H. apply bind_Ok in H. destruct H as ([ | ] & Hb & H).
  - apply is_condition_yes in Hb. apply bind_Ok in H. destruct H as (c & Hc & H). injection H as <-.
    apply wo_cond; [ exact Hb | now apply parse_condition_iff ].
  - apply is_condition_no in Hb. apply bind_Ok in H. destruct H as (l & Hl & H). apply bind_Ok in H. destruct H as (xs & Hx & H).
    apply iter_iff in Hl. apply parse_conditions_iff in Hx.
    destruct xs as [ | x [ | y xs ] ].
    + injection H as <-. inversion Hx; subst. now apply wo_none.
    + injection H as <-. inversion Hx as [ | ? ? ? ? Q R ]; subst. inversion R; subst. eapply wo_one; eauto.
    + apply bind_Ok in H. destruct H as (o & Ho & H). injection H as <-.
      apply (mk_or_list (x :: y :: xs) o (conditions_are _ _ Hx)) in Ho. destruct Ho as (N & ->). eapply wo_or; eauto.
Qed.
Lemma convert_where_complete t l cs : sequence t l -> where_object t cs -> convert_where t = Ok cs.
Proof.
  intros S W. unfold convert_where. inversion W; subst.
  - apply is_condition_yes in H. rewrite H. cbn [bind]. apply parse_condition_iff in H0. now rewrite H0.
  - rewrite (not_triple_seq _ _ S H). cbn [bind]. apply iter_iff in H0. rewrite H0. cbn [bind].
    pose proof (conditions_are _ _ H1) as F. apply parse_conditions_iff in H1. rewrite H1. cbn [bind].
    destruct cs0 as [ | x [ | y xs ] ]; cbn [List.length] in H2; [ lia | lia | ].
    rewrite (proj2 (mk_or_list _ _ F) (conj H2 eq_refl)). reflexivity.
  - rewrite (not_triple_seq _ _ S H). cbn [bind]. apply iter_iff in H0. rewrite H0. cbn [bind].
    cbn [mapM]. apply parse_condition_iff in H1. rewrite H1. reflexivity.
  - rewrite (not_triple_seq _ _ S H). cbn [bind]. apply iter_iff in H0. rewrite H0. reflexivity.
Qed.
Lemma convert_having_sound t c : convert_having t = Ok c -> having_object t c.
Proof.
  unfold convert_having. intro H. apply bind_Ok in H. destruct H as ([ | ] & Hb & H).
  - apply is_condition_yes in Hb. apply ho_cond; [ exact Hb | now apply parse_condition_iff ].
  - apply is_condition_no in Hb. apply bind_Ok in H. destruct H as (l & Hl & H). apply bind_Ok in H. destruct H as (xs & Hx & H).
    apply iter_iff in Hl. apply parse_conditions_iff in Hx.
    apply (mk_or_list xs c (conditions_are _ _ Hx)) in H. destruct H as (N & ->). eapply ho_or; eauto.
Qed.
Lemma convert_having_complete t l c : sequence t l -> having_object t c -> convert_having t = Ok c.
Proof.
  intros S W. unfold convert_having. inversion W; subst.
  - apply is_condition_yes in H. rewrite H. cbn [bind]. now apply parse_condition_iff.
  - rewrite (not_triple_seq _ _ S H). cbn [bind]. apply iter_iff in H0. rewrite H0. cbn [bind].
    pose proof (conditions_are _ _ H1) as F. apply parse_conditions_iff in H1. rewrite H1. cbn [bind].
    apply mk_or_list; auto.
Qed.

(** ** Truth *)
Lemma cond_object_truth I t c : cond_object t c -> cond_truth I t (truth I c).
Proof. intros (l & o & r & L & _ & ->). now constructor. Qed.
Lemma cond_objects_truth I l cs : Forall2 cond_object l cs -> Forall2 (cond_truth I) l (map (truth I) cs).
Proof. induction 1; cbn; constructor; [ now apply cond_object_truth | assumption ]. Qed.
Lemma or3_false a : or3 a TFalse = a.
Proof. now destruct a. Qed.
Lemma and3_true a : and3 a TTrue = a.
Proof. now destruct a. Qed.
Lemma and3_assoc a b c : and3 a (and3 b c) = and3 (and3 a b) c.
Proof. now destruct a, b, c. Qed.
Lemma all3_app l m : all3 (l ++ m) = and3 (all3 l) (all3 m).
Proof.
  induction l as [ | a l IH ]; cbn [app].
  - change (all3 []) with TTrue. now destruct (all3 m).
  - change (and3 a (all3 (l ++ m)) = and3 (and3 a (all3 l)) (all3 m)). rewrite IH. apply and3_assoc.
Qed.
Lemma group_truth_app I l m : group_truth I (l ++ m) = and3 (group_truth I l) (group_truth I m).
Proof. unfold group_truth. now rewrite map_app, all3_app. Qed.
Lemma where_truth I t cs : where_object t cs -> ~ empty_or t -> item_truth I t (group_truth I cs).
Proof.
  intros W N. inversion W; subst.
  - unfold group_truth. cbn [map all3 fold_right]. rewrite and3_true. apply it_cond; [ exact H | now apply cond_object_truth ].
  - unfold group_truth. cbn [map all3 fold_right truth]. rewrite and3_true. eapply it_or; eauto. now apply cond_objects_truth.
  - unfold group_truth. cbn [map all3 fold_right]. rewrite and3_true.
    replace (truth I c) with (any3 [truth I c]) by (cbn; apply or3_false).
    eapply it_or; eauto. constructor; [ now apply cond_object_truth | constructor ].
  - elim N. split; assumption.
Qed.
Lemma having_truth I t c : having_object t c -> item_truth I t (truth I c).
Proof.
  intros W. inversion W; subst.
  - apply it_cond; [ exact H | now apply cond_object_truth ].
  - cbn [truth]. eapply it_or; eauto. now apply cond_objects_truth.
Qed.
Lemma wheres_truth I items css : Forall2 where_object items css -> Forall (fun t => ~ empty_or t) items ->
  conditions_truth I items (group_truth I (List.concat css)).
Proof.
  intros W N. exists (map (group_truth I) css). split.
  - induction W; cbn; constructor; inversion N; subst; [ now apply where_truth | auto ].
  - clear. induction css as [ | cs css IH ]; [ reflexivity | ]. cbn [List.concat map]. rewrite group_truth_app, IH. reflexivity.
Qed.
Lemma havings_truth I items cs : Forall2 having_object items cs -> conditions_truth I items (group_truth I cs).
Proof.
  intros W. exists (map (truth I) cs). split; [ | reflexivity ].
  induction W; cbn; constructor; [ now apply having_truth | auto ].
Qed.

Lemma legacy_exp_det v e e' : legacy_exp v e -> legacy_exp v e' -> e = e'.
Proof. intros A B. apply parse_exp_iff in A, B. congruence. Qed.
Lemma legacy_cond_det t l o r l' o' r' : legacy_cond t l o r -> legacy_cond t l' o' r' -> l = l' /\ o = o' /\ r = r'.
Proof.
  intros [ a b lhs p rhs Ia La Ib D R ] [ a' b' lhs' p' rhs' Ia' La' Ib' D' R' ].
  rewrite <- (item_det _ _ _ _ Ia Ia') in La'. rewrite <- (item_det _ _ _ _ Ib Ib') in D', R'.
  rewrite <- (legacy_exp_det _ _ _ La La') in *.
  pose proof (proj2 (condition_rest_iff lhs t b p rhs) (conj D R)) as E.
  pose proof (proj2 (condition_rest_iff lhs t b p' rhs') (conj D' R')) as E'. rewrite E in E'. injection E' as -> ->. auto.
Qed.
Lemma cond_truth_det I t v v' : cond_truth I t v -> cond_truth I t v' -> v = v'.
Proof.
  intros [ l o r L ] [ l' o' r' L' ]. destruct (legacy_cond_det _ _ _ _ _ _ _ L L') as (-> & -> & ->). reflexivity.
Qed.
Lemma Forall2_det {A B} (R : A -> B -> Prop) l : (forall x y y', R x y -> R x y' -> y = y') ->
  forall m m', Forall2 R l m -> Forall2 R l m' -> m = m'.
Proof.
  intro D. induction l; intros m m' H H'; inversion H; inversion H'; subst; [ reflexivity | ]. f_equal; eauto.
Qed.
Lemma item_truth_det I t v v' : item_truth I t v -> item_truth I t v' -> v = v'.
Proof.
  intros [ w T C | l vs T L C ] [ w' T' C' | l' vs' T' L' C' ]; try contradiction.
  - eapply cond_truth_det; eauto.
  - rewrite <- (items_det _ _ _ L L') in C'. f_equal.
    eapply (Forall2_det (cond_truth I)); eauto. intros. eapply cond_truth_det; eauto.
Qed.
Lemma conditions_truth_det I items v v' : conditions_truth I items v -> conditions_truth I items v' -> v = v'.
Proof.
  intros (vs & F & ->) (vs' & F' & ->). f_equal. eapply (Forall2_det (item_truth I)); eauto. intros. eapply item_truth_det; eauto.
Qed.

(** ** Bodies *)
Lemma lookup_iff k ks : forall vs v, lookup k ks vs = Some v <-> entry k ks vs v.
Proof.
  induction ks as [ | k' ks IH ]; intros [ | v' vs ] v; cbn [lookup entry]; try (split; [ discriminate | intros [] ]).
  destruct (str_eqb k' k) eqn:E.
  - apply str_eqb_eq in E. subst k'. split; [ intro H; injection H as ->; left; auto | intros [ (_ & ->) | (N & _) ]; [ reflexivity | congruence ] ].
  - assert (k <> k') by (intros ->; rewrite str_eqb_refl in E; discriminate). rewrite IH. tauto.
Qed.
Lemma body_get_iff ks vs k d v : body_get (ODict ks vs) k d = v <->
  dict_entry (ODict ks vs) k v \/ (no_key (ODict ks vs) k /\ v = d).
Proof.
  unfold body_get, dict_entry, no_key. destruct (lookup k ks vs) as [ w | ] eqn:L.
  - apply lookup_iff in L. split.
    + intros <-. left. eauto.
    + intros [ (ks' & vs' & E & H) | (N & _) ].
      * injection E as <- <-. apply lookup_iff in L, H. congruence.
      * elim (N w). exists ks, vs. auto.
  - assert (N : forall x, ~ entry k ks vs x) by (intros x H; apply lookup_iff in H; congruence). split.
    + intros <-. right. split; [ | reflexivity ]. intros x (ks' & vs' & E & H). injection E as <- <-. eapply N; eauto.
    + intros [ (ks' & vs' & E & H) | (_ & ->) ]; [ | reflexivity ]. injection E as <- <-. now elim (N v).
Qed.
Lemma listed_iff ks vs k items : iter (body_get (ODict ks vs) k (OList [])) = Ok items <-> listed (ODict ks vs) k items.
Proof.
  unfold listed. split.
  - intro H. apply iter_iff in H. destruct (proj1 (body_get_iff ks vs k (OList []) _) eq_refl) as [ E | (N & E) ].
    + left. eauto.
    + right. split; [ exact N | ]. rewrite E in H. inversion H as [ ? ? S | ]; subst. now inversion S.
  - intros [ (v & E & H) | (N & ->) ].
    + rewrite (proj2 (body_get_iff ks vs k (OList []) v) (or_introl E)). now apply iter_iff.
    + rewrite (proj2 (body_get_iff ks vs k (OList []) (OList [])) (or_intror (conj N eq_refl))). reflexivity.
Qed.
End Facts.
