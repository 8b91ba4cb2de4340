(** Lemmas about the constructors (Exprs.v) in terms of SpecExpr.v. *)
From Verif Require Import PyBase PyFacts Regex RegexFacts DateTime Objects Exprs SpecExpr.

Lemma is_alpha_iff c : is_alpha c = true <-> ascii_letter c.
Proof.
  unfold is_alpha, is_lower, is_upper, in_range, ascii_letter.
  rewrite orb_true_iff, !andb_true_iff, !N.leb_le. lia.
Qed.
Lemma is_digit_iff c : is_digit c = true <-> ascii_digit c.
Proof. apply is_digit_range. Qed.
Lemma is_alnum_iff c : is_alnum_ c = true <-> ascii_word c.
Proof.
  unfold is_alnum_, ascii_word. rewrite !orb_true_iff, is_alpha_iff, is_digit_iff, N.eqb_eq. tauto.
Qed.
Lemma one_of_iff chars c : one_of chars c = true <-> In c (lit chars).
Proof. apply mem_char_In. Qed.
Lemma alpha_us_iff c : (is_alpha c || N.eqb c 95) = true <-> ascii_letter c \/ c = 95%N.
Proof. rewrite orb_true_iff, is_alpha_iff, N.eqb_eq. reflexivity. Qed.

Section Facts.
Context {RT : PyRT}.

Lemma is_word_iff c : is_word c = true <-> word_char c.
Proof.
  unfold is_word, word_char. destruct (N.ltb_spec c 128) as [H|H].
  - rewrite is_alnum_iff. split; [auto|]. intros [[_ H1]|[H1 _]]; [exact H1|lia].
  - split; [auto|]. intros [[H1 _]|[_ H1]]; [lia|exact H1].
Qed.

(** * Languages of the regular expressions *)

(** regexes that match exactly one character *)
Definition single (r : re) (P : N -> Prop) : Prop :=
  forall s s', mt r s s' <-> exists c, s = c :: s' /\ P c.
Lemma single_class f P : (forall c, f c = true <-> P c) -> single (RClass f) P.
Proof.
  intros H s s'. rewrite mt_class_iff. split; intros (c & E & Hc); exists c; split; auto; apply H; auto.
Qed.
Lemma single_char x : single (RChar x) (fun c => c = x).
Proof. apply single_class. intros c. rewrite N.eqb_eq. split; congruence. Qed.
Lemma single_alt a b P Q : single a P -> single b Q -> single (RAlt a b) (fun c => P c \/ Q c).
Proof.
  intros Ha Hb s s'. rewrite mt_alt_iff, (Ha s s'), (Hb s s'). split.
  - intros [(c & E & H)|(c & E & H)]; exists c; auto.
  - intros (c & E & [H|H]); [left|right]; exists c; auto.
Qed.
Lemma single_weaken r P Q : single r P -> (forall c, P c <-> Q c) -> single r Q.
Proof.
  intros H HPQ s s'. rewrite (H s s'). split; intros (c & E & Hc); exists c; split; auto; apply HPQ; auto.
Qed.
Lemma mt_star_single r P : single r P -> forall s s',
  mt (RStar r) s s' <-> exists p, s = p ++ s' /\ Forall P p.
Proof.
  intros Hs s s'. split.
  - intros H. remember (RStar r) as r' eqn:Er.
    induction H as [| | | | | |a s s1 s2 Ha _ Hl Hr IH| |]; try discriminate; injection Er as ->.
    + exists []; split; [reflexivity|constructor].
    + destruct (IH eq_refl) as (p & -> & Hp). apply Hs in Ha as (c & -> & Hc).
      exists (c :: p). split; [reflexivity|constructor; assumption].
  - intros (p & -> & Hp). induction Hp as [|c p Hc Hp IH]; cbn; [constructor|].
    eapply mt_starS; [apply Hs; exists c; split; [reflexivity|exact Hc]| |exact IH].
    cbn. lia.
Qed.
Lemma mt_plus_single r P : single r P -> forall s s',
  mt (RPlus r) s s' <-> exists p, p <> [] /\ s = p ++ s' /\ Forall P p.
Proof.
  intros Hs s s'. unfold RPlus. rewrite mt_seq_iff. split.
  - intros (m & H1 & H2). apply Hs in H1 as (c & -> & Hc).
    apply (mt_star_single r P Hs) in H2 as (p & -> & Hp).
    exists (c :: p). repeat split; [discriminate|constructor; assumption].
  - intros ([|c p] & Hne & -> & Hp); [elim Hne; reflexivity|]. inversion Hp; subst.
    exists (p ++ s'). split; [apply Hs; exists c; auto|].
    apply (mt_star_single r P Hs). exists p; auto.
Qed.

Lemma opt_newline_end s s' : mt REnd s s' <-> opt_newline s /\ s' = s.
Proof. rewrite mt_end_iff. reflexivity. Qed.

Lemma matches_seq r s : re_matches (RSeq r REnd) s = true <->
  exists nl, mt r s nl /\ opt_newline nl.
Proof.
  rewrite re_matches_iff. split.
  - intros (s' & H). apply mt_seq_iff in H as (m & H1 & H2). apply opt_newline_end in H2 as [H2 _]. eauto.
  - intros (nl & H1 & H2). exists nl. apply mt_seq_iff. exists nl. split; [exact H1|].
    apply opt_newline_end; auto.
Qed.

Lemma Forall_iff {A} (P Q : A -> Prop) l : (forall x, P x <-> Q x) -> Forall P l <-> Forall Q l.
Proof. intros H. rewrite !Forall_forall. split; intros G x Hx; apply H, G, Hx. Qed.

Lemma alias_re_iff a : re_matches alias_re a = true <->
  exists body nl, a = body ++ nl
    /\ Forall (fun c => ascii_word c \/ In c ($".+*/:-[]()@")) body /\ opt_newline nl.
Proof.
  unfold alias_re. rewrite matches_seq.
  assert (S : single (RClass alias_char) (fun c => ascii_word c \/ In c ($".+*/:-[]()@"))).
  { apply single_class. intros c. unfold alias_char.
    rewrite orb_true_iff, is_alnum_iff, one_of_iff. reflexivity. }
  split.
  - intros (nl & H & Hn). apply (mt_star_single _ _ S) in H as (p & -> & Hp). eauto.
  - intros (body & nl & -> & Hb & Hn). exists nl. split; [|exact Hn].
    apply (mt_star_single _ _ S). eauto.
Qed.

Lemma identifier_re_iff n : re_matches identifier_re n = true <-> identifier_name n.
Proof.
  unfold identifier_re, identifier_name. rewrite re_matches_iff.
  assert (S1 : single (RClass (fun c => is_alpha c || N.eqb c 95)) (fun c => ascii_letter c \/ c = 95%N))
    by (apply single_class, alpha_us_iff).
  assert (S2 : single (RClass is_alnum_) ascii_word) by (apply single_class, is_alnum_iff).
  split.
  - intros (s' & H). apply mt_seq_iff in H as (m & H1 & H). apply mt_seq_iff in H as (m2 & H2 & H3).
    apply S1 in H1 as (c & -> & Hc). apply (mt_star_single _ _ S2) in H2 as (p & -> & Hp).
    apply opt_newline_end in H3 as [H3 _]. exists c, p, m2. auto.
  - intros (c & p & nl & -> & Hc & Hp & Hn). exists nl.
    apply mt_seq_iff. exists (p ++ nl). split; [apply S1; exists c; auto|].
    apply mt_seq_iff. exists nl. split; [apply (mt_star_single _ _ S2); eauto|].
    apply opt_newline_end; auto.
Qed.

Lemma word_name_re_iff n : re_matches word_name_re n = true <-> entity_name n.
Proof.
  unfold word_name_re, entity_name. rewrite matches_seq.
  assert (S1 : single (RClass (fun c => is_alpha c || N.eqb c 95)) (fun c => ascii_letter c \/ c = 95%N))
    by (apply single_class, alpha_us_iff).
  split.
  - intros (nl & H & Hn). apply (mt_plus_single _ _ S1) in H as (p & Hne & -> & Hp). eauto 6.
  - intros (p & nl & -> & Hne & Hp & Hn). exists nl. split; [|exact Hn].
    apply (mt_plus_single _ _ S1); eauto.
Qed.

Lemma function_name_re_iff n : re_matches function_name_re n = true <-> function_name n.
Proof.
  unfold function_name_re, function_name. rewrite re_matches_iff.
  assert (S1 : single (RClass is_alpha) ascii_letter) by (apply single_class, is_alpha_iff).
  match goal with |- context [RPlus ?x] => set (r := x) end.
  assert (S2 : single r (fun c => word_char c \/ In c ($"().,+':- []") \/ c = 34%N)).
  { eapply single_weaken.
    - apply single_alt; [apply single_class, is_word_iff|].
      apply single_alt.
      { apply (single_class _ (fun c => In c ($"().,+':") \/ c = 34%N)). intros c.
        rewrite orb_true_iff, one_of_iff, N.eqb_eq. reflexivity. }
      repeat (apply single_alt; [apply single_char|]). apply single_char.
    - intros c. cbn. unfold DQ, LBR, RBR. intuition. }
  split.
  - intros (s' & H). apply mt_seq_iff in H as (m & H1 & H). apply mt_seq_iff in H as (m2 & H2 & H3).
    apply S1 in H1 as (c & -> & Hc). apply (mt_plus_single _ _ S2) in H2 as (p & Hne & -> & Hp).
    apply opt_newline_end in H3 as [H3 _]. exists c, p, m2. auto.
  - intros (c & p & nl & -> & Hc & Hne & Hp & Hn). exists nl.
    apply mt_seq_iff. exists (p ++ nl). split; [apply S1; exists c; auto|].
    apply mt_seq_iff. exists nl. split; [apply (mt_plus_single _ _ S2); eauto|].
    apply opt_newline_end; auto.
Qed.

Lemma column_name_re_iff n : re_matches column_name_re n = true <-> column_name n.
Proof.
  unfold column_name_re, column_name. rewrite re_matches_iff.
  assert (S1 : single (RClass (fun c => is_alpha c || N.eqb c 95)) (fun c => ascii_letter c \/ c = 95%N))
    by (apply single_class, alpha_us_iff).
  match goal with |- context [RStar (RAlt ?x ?y)] => set (r := RAlt x y) end.
  assert (S2 : single r (fun c => word_char c \/ In c ($".:/@"))).
  { eapply single_weaken.
    - apply single_alt; [apply single_class, is_word_iff|].
      repeat (apply single_alt; [apply single_char|]). apply single_char.
    - intros c. cbn. intuition. }
  assert (S3 : single (RClass (fun c => negb (one_of "[]" c))) (fun c => c <> 91%N /\ c <> 93%N)).
  { apply single_class. intros c. rewrite negb_true_iff.
    rewrite <- not_true_iff_false, one_of_iff. cbn. intuition. }
  split.
  - intros (s' & H). apply mt_seq_iff in H as (m & H1 & H). apply mt_seq_iff in H as (m2 & H2 & H).
    apply mt_seq_iff in H as (m3 & H3 & H4). apply opt_newline_end in H4 as [Hn ->].
    apply S1 in H1 as (c & -> & Hc). apply (mt_star_single _ _ S2) in H2 as (p & -> & Hp).
    unfold ROpt in H3. apply mt_alt_iff in H3 as [H3|H3].
    + apply mt_seq_iff in H3 as (x & H5 & H3). apply mt_seq_iff in H3 as (y & H6 & H7).
      apply single_char in H5 as (? & -> & ->). apply single_char in H7 as (? & -> & ->).
      apply (mt_star_single _ _ S3) in H6 as (key & -> & Hk).
      exists c, p, ([91%N] ++ key ++ [93%N]), m3. split; [|repeat split; auto].
      * cbn. f_equal. f_equal. f_equal. rewrite <- app_assoc. reflexivity.
      * right. exists key. split; [reflexivity|].
        rewrite Forall_forall in Hk. split; intros Hi; apply Hk in Hi; destruct Hi; congruence.
    + apply mt_eps_iff in H3 as ->. exists c, p, [], m3. repeat split; auto.
  - intros (c & p & sub & nl & -> & Hc & Hp & Hsub & Hn). exists nl.
    apply mt_seq_iff. exists (p ++ sub ++ nl). split; [apply S1; exists c; auto|].
    apply mt_seq_iff. exists (sub ++ nl). split; [apply (mt_star_single _ _ S2); eauto|].
    apply mt_seq_iff. exists nl. split; [|apply opt_newline_end; auto].
    unfold ROpt. apply mt_alt_iff. destruct Hsub as [->|(key & -> & Hk1 & Hk2)].
    + right. apply mt_eps_iff. reflexivity.
    + left. apply mt_seq_iff. exists (key ++ $"]" ++ nl). split.
      { apply single_char. exists 91%N. split; [cbn; rewrite <- app_assoc; reflexivity|reflexivity]. }
      apply mt_seq_iff. exists ($"]" ++ nl). split.
      { apply (mt_star_single _ _ S3). exists key. split; [reflexivity|].
        apply Forall_forall. intros x Hx. split; intros ->; auto. }
      apply single_char. exists 93%N. split; reflexivity.
Qed.

(** * Shapes *)

Lemma is_literal_iff o : is_literal o = true <-> literal o.
Proof. split; [destruct o; try discriminate; constructor|intros H; inversion H; reflexivity]. Qed.
Lemma is_expression_iff o : is_expression o = true <-> expression o.
Proof. split; [destruct o; try discriminate; constructor|intros H; inversion H; reflexivity]. Qed.
Lemma is_col_or_func_iff o : is_col_or_func o = true <-> a_column o \/ a_function o.
Proof.
  split; [destruct o; try discriminate; intros _; [left|right]; constructor|].
  intros [H|H]; inversion H; reflexivity.
Qed.
Lemma is_param_expr_iff o : is_param_expr o = true <-> a_param_expr o.
Proof.
  split.
  - destruct o; try discriminate; intros _; try (constructor; fail).
    + apply pe_column; constructor.
    + apply pe_function; constructor.
  - intros H; inversion H as [? H1|? H1| |]; subst; try reflexivity; inversion H1; reflexivity.
Qed.
Lemma is_condition_obj_iff o : is_condition_obj o = true <-> a_condition o.
Proof. split; [destruct o; try discriminate; constructor|intros H; inversion H; reflexivity]. Qed.
Lemma is_func_iff o : is_func o = true <-> a_function o.
Proof. split; [destruct o; try discriminate; constructor|intros H; inversion H; reflexivity]. Qed.

(** is_scalar without the local fixpoint *)
Fixpoint scalar_all (l : list obj) : result bool :=
  match l with
  | [] => Ok true
  | v :: l' =>
      let! b := is_scalar v in
      if b || is_expression v then scalar_all l' else Raise InvalidExpressionError
  end.
Lemma is_scalar_list l : is_scalar (OList l) = scalar_all l.
Proof. reflexivity. Qed.
Lemma is_scalar_tuple l : is_scalar (OTuple l) = scalar_all l.
Proof. reflexivity. Qed.

Definition is_seq (o : obj) : bool :=
  match o with OList _ | OTuple _ => true | _ => false end.

(** C10 in one lemma *)
Lemma is_scalar_spec o :
  (is_scalar o = Ok true /\ scalar o)
  \/ (is_scalar o = Raise InvalidExpressionError /\ ~ scalar o /\ exists l, list_or_tuple o l)
  \/ (is_scalar o = Ok false /\ ~ scalar o /\ ~ exists l, list_or_tuple o l).
Proof.
  assert (A : forall l, Forall (fun o =>
      (is_scalar o = Ok true /\ scalar o)
      \/ (is_scalar o = Raise InvalidExpressionError /\ ~ scalar o /\ exists l, list_or_tuple o l)
      \/ (is_scalar o = Ok false /\ ~ scalar o /\ ~ exists l, list_or_tuple o l)) l ->
      (scalar_all l = Ok true /\ Forall (fun v => scalar v \/ expression v) l)
      \/ (scalar_all l = Raise InvalidExpressionError
          /\ ~ Forall (fun v => scalar v \/ expression v) l)).
  { intros l H. induction H as [|v l Hv _ IH]; [left; auto|]. cbn.
    assert (N : ~ scalar v -> is_expression v = false ->
                ~ Forall (fun v => scalar v \/ expression v) (v :: l)).
    { intros H1 H2 H. inversion H as [|? ? [H3|H3]]; subst; [exact (H1 H3)|].
      apply is_expression_iff in H3; congruence. }
    assert (K : scalar v \/ expression v ->
      (scalar_all l = Ok true /\ Forall (fun v0 => scalar v0 \/ expression v0) (v :: l)) \/
      (scalar_all l = Raise InvalidExpressionError /\
       ~ Forall (fun v0 => scalar v0 \/ expression v0) (v :: l))).
    { intros Hve. destruct IH as [[E F]|[E F]]; [left|right]; split; auto.
      intros H. inversion H; subst; auto. }
    destruct Hv as [[E Hs]|[(E & Hs & Hl)|(E & Hs & Hl)]]; rewrite E; cbn.
    - apply K. left; exact Hs.
    - right. split; [reflexivity|]. apply N; [exact Hs|].
      destruct Hl as (l0 & Hl). inversion Hl; reflexivity.
    - destruct (is_expression v) eqn:Ev; cbn.
      + apply K. right. apply is_expression_iff, Ev.
      + right. split; [reflexivity|]. apply N; auto. }
  induction o as [| | | | | | | |l Hl|l Hl| | | | | | | | | | | | | | | | | | | | | | | |] using obj_ind';
    try (left; split; [reflexivity|constructor; constructor]);
    try (right; right; split; [reflexivity|split];
         [intros Hx; inversion Hx as [? Hy| |]; inversion Hy|intros (l0 & Hx); inversion Hx]; fail).
  - rewrite is_scalar_list. destruct (A l Hl) as [[E F]|[E F]].
    + left. split; [exact E|]. apply sc_list, F.
    + right; left. split; [exact E|]. split; [|eexists; constructor].
      intros H; inversion H as [? H1| |]; subst; [inversion H1|auto].
  - rewrite is_scalar_tuple. destruct (A l Hl) as [[E F]|[E F]].
    + left. split; [exact E|]. apply sc_tuple, F.
    + right; left. split; [exact E|]. split; [|eexists; constructor].
      intros H; inversion H as [? H1| |]; subst; [inversion H1|auto].
Qed.

Lemma is_scalar_true o : is_scalar o = Ok true <-> scalar o.
Proof.
  destruct (is_scalar_spec o) as [[E H]|[(E & H & _)|(E & H & _)]]; rewrite E; split; try tauto; discriminate.
Qed.
Lemma is_scalar_raise o e : is_scalar o = Raise e -> e = InvalidExpressionError.
Proof.
  destruct (is_scalar_spec o) as [[E H]|[(E & H & _)|(E & H & _)]]; rewrite E; congruence.
Qed.

Lemma as_seq_iff o k l : as_seq o = Some (k, l) -> sequence o l.
Proof. destruct o; try discriminate; intros H; injection H as <- <-; constructor. Qed.
Lemma as_seq_complete o l : sequence o l -> exists k, as_seq o = Some (k, l).
Proof. intros H; inversion H; subst; cbn; eauto. Qed.
Lemma as_lt_iff o k l : as_list_or_tuple o = Some (k, l) -> list_or_tuple o l.
Proof. destruct o; try discriminate; intros H; injection H as <- <-; constructor. Qed.
Lemma as_lt_complete o l : list_or_tuple o l -> exists k, as_list_or_tuple o = Some (k, l).
Proof. intros H; inversion H; subst; cbn; eauto. Qed.

Lemma as_int_iff o i : as_int o = Some i -> int_value o (pyint_Z i).
Proof. destruct o as [|[]| | | | | | | | | | | | | | | | | | | | | | | | | | | | | | | |];
  try discriminate; intros H; injection H as <-; constructor. Qed.
Lemma as_int_complete o z : int_value o z -> exists i, as_int o = Some i /\ pyint_Z i = z.
Proof. intros H; inversion H; subst; cbn; eauto. Qed.

(** * C01: columns *)

Lemma dm_contains_iff d n : dm_contains d n = true <-> In n (map sc_name (dm_columns d)).
Proof. apply mem_str_In. Qed.

Lemma column_entity_check_None n e : column_entity_check n None e = Ok tt <->
  exists a, e_alias e = Some a /\ a <> [] /\
    forall d, e_dm e = Some d -> In n (map sc_name (dm_columns d)).
Proof.
  unfold column_entity_check, validate_data_model. split.
  - destruct (e_alias e) as [[|x a]|]; try discriminate. intros H.
    exists (x :: a). repeat split; [discriminate|]. intros d Hd. rewrite Hd in H.
    destruct (dm_contains d n) eqn:E; [apply dm_contains_iff, E|discriminate].
  - intros (a & -> & Hne & H). destruct a as [|x a]; [elim Hne; reflexivity|].
    destruct (e_dm e) as [d|]; [|reflexivity].
    specialize (H d eq_refl). apply dm_contains_iff in H. rewrite H. reflexivity.
Qed.

Lemma column_parts_eta n e : (let (sub, key) := column_parts n in Ok (OColumn (mkColumn n e sub key)))
  = Ok (OColumn (mkColumn n e (fst (column_parts n)) (snd (column_parts n)))).
Proof. destruct (column_parts n); reflexivity. Qed.

Lemma mk_column_Ok name ent o : mk_column name ent = Ok o <->
  exists n e, name = OStr n /\ column_name n /\ column_entity_ok n ent
    /\ (ent = ONone /\ e = None \/ exists e', ent = OEntity e' /\ e = Some e')
    /\ o = OColumn (mkColumn n e (fst (column_parts n)) (snd (column_parts n))).
Proof.
  split.
  - intros H. destruct name as [| | | |n| | | | | | | | | | | | | | | | | | | | | | | | | | | | |];
      try discriminate.
    unfold mk_column in H. destruct (re_matches column_name_re n) eqn:En; [|discriminate].
    apply column_name_re_iff in En. apply bind_Ok in H as (e & He & H).
    rewrite column_parts_eta in H. injection H as <-.
    destruct ent as [| | | | | | | | | | | | | | | | | | |e'| | | | | | | | | | | | | |];
      try discriminate.
    + injection He as <-. exists n, None. repeat split; auto. left; reflexivity.
    + apply bind_Ok in He as (u & Hu & He). injection He as <-. destruct u.
      apply column_entity_check_None in Hu as (a & Ha & Hne & Hd).
      exists n, (Some e'). repeat split; auto; [right; exists e', a; auto|right; eauto].
  - intros (n & e & -> & Hn & Hent & He & ->). unfold mk_column.
    apply column_name_re_iff in Hn. rewrite Hn.
    destruct He as [[-> ->]|(e' & -> & ->)].
    + cbn. apply column_parts_eta.
    + destruct Hent as [H|(e2 & a & H & Ha)]; [discriminate|]. injection H as <-.
      assert (E : column_entity_check n None e' = Ok tt)
        by (apply column_entity_check_None; exists a; tauto).
      rewrite E. cbn. apply column_parts_eta.
Qed.

Lemma mk_column_Raise name ent x : mk_column name ent = Raise x -> x = InvalidColumnError.
Proof.
  unfold mk_column. intros H. destruct name; try congruence.
  destruct (re_matches column_name_re s); [|congruence].
  apply bind_Raise in H as [H|(e & _ & H)]; [|destruct (column_parts s); discriminate].
  destruct ent; try congruence.
  apply bind_Raise in H as [H|(u & _ & H)]; [|discriminate].
  unfold column_entity_check, validate_data_model in H.
  destruct (e_alias e) as [[|? ?]|]; try congruence.
  destruct (e_dm e); [|discriminate]. destruct (dm_contains _ _); congruence.
Qed.

(** decomposition of an accepted name *)
Lemma column_name_cases n : column_name n -> exists base nl,
  Forall (fun c => c <> 91%N /\ c <> 93%N /\ c <> 10%N) base /\ base <> [] /\ opt_newline nl /\
  (n = base ++ nl \/ exists key, n = base ++ $"[" ++ key ++ $"]" ++ nl
                                 /\ ~ In 91%N key /\ ~ In 93%N key).
Proof.
  intros (c & body & sub & nl & -> & Hc & Hb & Hs & Hn). exists (c :: body), nl.
  assert (Q : Forall (fun c => c <> 91%N /\ c <> 93%N /\ c <> 10%N) (c :: body)).
  { constructor.
    - unfold ascii_letter in Hc. lia.
    - eapply Forall_impl; [|exact Hb]. intros x [[[Hx [H|[H|H]]]|[Hx _]]|H];
        unfold ascii_letter, ascii_digit in *; try (repeat split; lia).
      cbn in H. intuition (subst; lia). }
  split; [exact Q|]. split; [discriminate|]. split; [exact Hn|].
  destruct Hs as [->|(key & -> & H1 & H2)]; [left; reflexivity|right].
  exists key. split; [|auto]. cbn. rewrite <- !app_assoc. reflexivity.
Qed.

End Facts.
