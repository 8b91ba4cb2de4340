(** Facts about snuba.py and is_aggregate (C60). *)
From Verif Require Import PyBase Objects PyFacts SpecExpr SpecOccurs Exprs Snuba SpecSnuba.

Lemma containsb_iff p s : containsb p s = true <-> exists u v, s = u ++ p ++ v.
Proof.
  induction s as [ | c s IH ]; cbn [containsb].
  - rewrite orb_false_r, prefixb_iff. split.
    + intros (r & H). exists [], r. exact H.
    + intros (u & v & H). destruct u; [ exists v; exact H | discriminate ].
  - rewrite orb_true_iff, prefixb_iff, IH. split.
    + intros [ (r & H) | (u & v & H) ]; [ exists [], r; exact H | exists (c :: u), v; now rewrite H ].
    + intros (u & v & H). destruct u as [ | x u ].
      * left. exists v. exact H.
      * right. injection H as -> ->. exists u, v. reflexivity.
Qed.

Lemma name_char_iff c : is_name_char c = true <-> name_letter c.
Proof.
  unfold is_name_char, is_alpha, is_lower, is_upper, in_range, name_letter, ascii_letter.
  rewrite !orb_true_iff, !andb_true_iff, !N.leb_le, N.eqb_eq. tauto.
Qed.
Lemma paren_not_letter : ~ name_letter 40%N.
Proof. unfold name_letter, ascii_letter. lia. Qed.

Lemma letters_split r w c s' b : Forall name_letter r -> Forall name_letter w -> ~ name_letter c ->
  r ++ c :: s' = w ++ 40%N :: b -> r = w /\ c = 40%N /\ s' = b.
Proof.
  intros Hr. revert w. induction Hr as [ | x r Hx Hr IH ]; intros w Hw Hc E.
  - destruct Hw as [ | y w Hy Hw ]; cbn in E; injection E; intros; subst; auto.
    contradiction.
  - destruct Hw as [ | y w Hy Hw ]; cbn in E; injection E; intros.
    + subst. destruct paren_not_letter. exact Hx.
    + subst. destruct (IH w Hw Hc) as (-> & -> & ->); auto.
Qed.

Lemma called_step cur c s w : Forall name_letter cur -> ~ name_letter c ->
  (called_in w (cur ++ c :: s) <-> (c = 40%N /\ w = cur /\ cur <> []) \/ called_in w s).
Proof.
  intros Hcur Hc. split.
  - intros (a & b & E & Hw & HF & Ha).
    destruct (app_eq_app _ _ _ _ E) as (l & [ (E1 & E2) | (E1 & E2) ]).
    + subst cur. apply Forall_app in Hcur. destruct Hcur as [Fa Fl].
      destruct (letters_split l w c s b Fl HF Hc (eq_sym E2)) as (-> & -> & ->).
      destruct a as [ | x a ]; [ left; auto | ].
      destruct (@exists_last _ (x :: a)) as (a' & y & Ea); [ discriminate | ].
      exfalso. apply (Ha a' y Ea). rewrite Ea, Forall_app in Fa. destruct Fa as [_ Fy].
      inversion Fy; subst; assumption.
    + destruct l as [ | y l ].
      * rewrite app_nil_r in E1. subst a.
        destruct (letters_split [] w c s b (Forall_nil _) HF Hc E2) as (<- & _ & _). now elim Hw.
      * cbn in E2. injection E2 as -> ->. right.
        exists l, b. split; [ reflexivity | ]. repeat split; try assumption.
        intros a' z El. apply (Ha (cur ++ y :: a') z). rewrite E1, El. now rewrite <- app_assoc.
  - intros [ (-> & -> & Hne) | (a & b & -> & Hw & HF & Ha) ].
    + exists [], s. split; [ reflexivity | ]. repeat split; try assumption.
      intros a' z H. destruct a'; discriminate.
    + exists (cur ++ c :: a), b. split; [ now rewrite <- !app_assoc | ]. repeat split; try assumption.
      intros a' z H. destruct a as [ | y a ].
      * apply app_inj_tail in H. destruct H as [_ <-]. exact Hc.
      * destruct (@exists_last _ (y :: a)) as (a2 & z2 & Ea); [ discriminate | ].
        rewrite Ea in H. change (cur ++ c :: a2 ++ [z2]) with (cur ++ (c :: a2) ++ [z2]) in H.
        rewrite app_assoc in H. apply app_inj_tail in H. destruct H as [_ <-]. exact (Ha a2 z2 Ea).
Qed.

Lemma called_words_iff s : forall cur w, Forall name_letter cur ->
  (In w (called_words cur s) <-> called_in w (cur ++ s)).
Proof.
  induction s as [ | c s IH ]; intros cur w Hcur; cbn [called_words].
  - rewrite app_nil_r. split; [ intros [] | ].
    intros (a & b & -> & _ & _ & _). rewrite !Forall_app in Hcur. destruct Hcur as (_ & _ & H & _).
    inversion H; subst. now apply paren_not_letter.
  - destruct (is_name_char c) eqn:Ec.
    + rewrite IH; [ now rewrite <- app_assoc | ].
      apply Forall_app. split; [ exact Hcur | ]. constructor; [ now apply name_char_iff | constructor ].
    + assert (Hc : ~ name_letter c). { intro H. apply name_char_iff in H. congruence. }
      rewrite called_step by assumption. rewrite <- (IH [] w (Forall_nil _)).
      destruct cur as [ | x cur ].
      * split; [ auto | ]. intros [ (_ & _ & H) | H ]; [ now elim H | exact H ].
      * destruct (N.eqb c 40) eqn:E40; [ apply N.eqb_eq in E40 | apply N.eqb_neq in E40 ]; cbn [In].
        -- split; [ intros [ <- | H ]; [ left; repeat split; [ exact E40 | discriminate ] | auto ]
                  | intros [ (_ & -> & _) | H ]; auto ].
        -- split; [ auto | ]. intros [ (H & _) | H ]; [ now elim E40 | exact H ].
Qed.

(** the two lists of names *)
Lemma same_names : (forall x, In x aggregation_base <-> In x base_names)
  /\ (forall x, In x aggregation_suffixes <-> In x combinators).
Proof.
  assert (K : forall l m, forallb (fun x => mem_str x m) l = true -> forall x, In x l -> In x m).
  { intros l m H x Hx. rewrite forallb_forall in H. apply mem_str_In, H, Hx. }
  split; intro x; split; apply K; vm_compute; reflexivity.
Qed.
Lemma aggregation_functions_iff n : mem_str n aggregation_functions = true <-> plain_aggregate n.
Proof.
  rewrite mem_str_In. unfold aggregation_functions, plain_aggregate. rewrite in_flat_map. split.
  - intros (b & Hb & H). apply in_map_iff in H. destruct H as (s & <- & Hs).
    exists b, s. repeat split; [ now apply same_names | now apply same_names ].
  - intros (b & s & Hb & Hs & ->). exists b. split; [ now apply same_names | ].
    apply in_map_iff. exists s. split; [ reflexivity | now apply same_names ].
Qed.

Lemma called_has_paren w n : called_in w n -> In 40%N n.
Proof. intros (a & b & -> & _). rewrite !in_app_iff. right. right. left. now left. Qed.

Lemma aggregation_function_iff n al : is_aggregation_function n al = true <->
  aggregate_name n \/ (In 40%N n /\ exists a, alias_in al a /\ exists u v, n = u ++ a ++ v).
Proof.
  unfold is_aggregation_function, aggregate_name.
  rewrite orb_true_iff, andb_true_iff, orb_true_iff, mem_char_In, aggregation_functions_iff.
  assert (W : existsb (fun w => mem_str w aggregation_functions) (called_words [] n) = true
              <-> exists w, called_in w n /\ plain_aggregate w).
  { rewrite existsb_exists. split; intros (w & A & B); exists w.
    - apply (called_words_iff n [] w (Forall_nil _)) in A. apply aggregation_functions_iff in B. auto.
    - split; [ now apply (called_words_iff n [] w (Forall_nil _)) | now apply aggregation_functions_iff ]. }
  rewrite W.
  assert (A : match al with Some l => existsb (fun a => containsb a n) l | None => false end = true
              <-> exists a, alias_in al a /\ exists u v, n = u ++ a ++ v).
  { unfold alias_in. destruct al as [ l | ].
    - rewrite existsb_exists. split.
      + intros (a & Ha & H). apply containsb_iff in H. exists a. eauto.
      + intros (a & (l' & E & Ha) & H). injection E as <-. exists a. split; [ exact Ha | now apply containsb_iff ].
    - split; [ discriminate | ]. intros (a & (l & E & _) & _). discriminate. }
  rewrite A. split.
  - intros [ (P & [ H | H ]) | H ]; auto.
  - intros [ [ H | H ] | (P & H) ]; auto.
    left. split; [ destruct H as (w & H & _); exact (called_has_paren w n H) | auto ].
Qed.

Lemma plain_name_iff n al : ~ In 40%N n -> (is_aggregation_function n al = true <-> plain_aggregate n).
Proof.
  intro H. rewrite aggregation_function_iff. unfold aggregate_name. split.
  - intros [ [ P | (w & C & _) ] | (P & _) ]; [ exact P | | contradiction ].
    now destruct (H (called_has_paren w n C)).
  - auto.
Qed.

(** nesting *)
Lemma is_aggregate_iff al f : is_aggregate al f = true <->
  (exists g n, nested g f /\ function_named n g /\ is_aggregation_function n al = true)
  \/ (exists g c, nested g f /\ parameter_of (OColumn c) g /\ alias_in al (c_name c)).
Proof.
  induction f using obj_ind'; cbn [is_aggregate].
  17: {
    rewrite orb_true_iff, existsb_exists. split.
    - intros [ H1 | (p & Hp & H1) ].
      + left. exists (OFunc f n ik il pk pl a), n. repeat split; [ constructor | | exact H1 ].
        now exists f, ik, il, pk, pl, a.
      + apply orb_true_iff in H1. destruct H1 as [ H1 | H1 ].
        * right. destruct al as [ l | ]; [ | discriminate ].
          destruct p; try discriminate. exists (OFunc f n ik il pk pl a), c.
          repeat split; [ constructor | | ].
          -- exists f, n, ik, il, pk, pl, a. auto.
          -- exists l. split; [ reflexivity | now apply mem_str_In ].
        * rewrite Forall_forall in H0. apply (H0 p Hp) in H1.
          destruct H1 as [ (g & m & N & R) | (g & c & N & R) ]; [ left; exists g, m | right; exists g, c ];
            (split; [ now apply (ne_param g p f n ik il pk pl a) | exact R ]).
    - intros [ (g & m & N & F & A) | (g & c & N & F & A) ].
      + inversion N; subst.
        * destruct F as (f' & ik' & il' & pk' & pl' & a' & E). injection E as <- <- <- <- <- <- <-. auto.
        * right. exists p. split; [ assumption | ]. apply orb_true_iff. right.
          rewrite Forall_forall in H0. apply H0; [ assumption | ]. left. eauto.
      + inversion N; subst.
        * destruct F as (f' & n' & ik' & il' & pk' & pl' & a' & E & I).
          injection E as <- <- <- <- <- <- <-. right. exists (OColumn c). split; [ exact I | ].
          apply orb_true_iff. left. destruct A as (l & -> & A). cbn. now apply mem_str_In.
        * right. exists p. split; [ assumption | ]. apply orb_true_iff. right.
          rewrite Forall_forall in H0. apply H0; [ assumption | ]. right. eauto. }
  all: split; [ discriminate | ].
  all: intros [ (g & m & N & F & A) | (g & c' & N & F & A) ]; inversion N; subst;
    [ destruct F as (? & ? & ? & ? & ? & ? & E) | destruct F as (? & ? & ? & ? & ? & ? & ? & E & _) ];
    discriminate E.
Qed.

Lemma no_alias a : ~ alias_in None a.
Proof. intros (l & H & _). discriminate. Qed.
Lemma c60_nested f : is_aggregate None f = true <->
  exists g n, nested g f /\ function_named n g /\ aggregate_name n.
Proof.
  rewrite is_aggregate_iff. split.
  - intros [ (g & n & N & F & A) | (g & c & _ & _ & A) ]; [ | now destruct (no_alias _ A) ].
    apply aggregation_function_iff in A. destruct A as [ A | (_ & a & A & _) ]; [ eauto | now destruct (no_alias a A) ].
  - intros (g & n & N & F & A). left. exists g, n. repeat split; try assumption.
    apply aggregation_function_iff. auto.
Qed.

(** find_column_in_function *)
Lemma find_column_iff c f : find_column_in_function c f = true <->
  exists g p, nested g f /\ parameter_of p g /\ py_eq p (OColumn c) = true.
Proof.
  induction f using obj_ind'; cbn [find_column_in_function].
  17: {
    rewrite existsb_exists. split.
    - intros (p & Hp & H1). apply orb_true_iff in H1. destruct H1 as [ H1 | H1 ].
      + exists (OFunc f n ik il pk pl a), p. repeat split; [ constructor | | exact H1 ].
        now exists f, n, ik, il, pk, pl, a.
      + rewrite Forall_forall in H0. apply (H0 p Hp) in H1. destruct H1 as (g & x & N & R).
        exists g, x. split; [ now apply (ne_param g p f n ik il pk pl a) | exact R ].
    - intros (g & x & N & F & A). inversion N; subst.
      + destruct F as (f' & n' & ik' & il' & pk' & pl' & a' & E & I).
        injection E as <- <- <- <- <- <- <-. exists x. split; [ exact I | ]. now rewrite A.
      + exists p. split; [ assumption | ]. apply orb_true_iff. right.
        rewrite Forall_forall in H0. apply H0; [ assumption | ]. eauto. }
  all: split; [ discriminate | ].
  all: intros (g & x & N & F & A); inversion N; subst;
    destruct F as (? & ? & ? & ? & ? & ? & ? & E & _); discriminate E.
Qed.
