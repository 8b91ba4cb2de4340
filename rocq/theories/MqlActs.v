(** Every visit method of the MQL visitor keeps the types of MqlTyping (C64). *)
From Verif Require Import PyBase PyFacts Regex RegexFacts Objects Exprs Translate Query Metrics
  SpecExpr ExprFacts ExprProps SpecMetrics MetricsFacts FormulaFacts SpecMql SpecParsed Peg PegTotal Mql MqlParse
  MqlTokens MqlFilter MqlExpr MqlCall MqlTyping.
From Verif Require MqlBody.

Section Acts.
Context {RT : PyRT}.
Variables K1 K2 : Prop.
Notation good := (good K1 K2).
Notation ty := (ty K1).
Notation sty := (sty K1).
Notation chars_ok := (chars_ok K1 K2).

(** * Texts *)
Lemma mt_ne r x rest : mt r (x ++ rest) rest -> re_nonnull r = true -> x <> [].
Proof. intros M N ->. apply mt_nonnull in M; [cbn in M; lia|exact N]. Qed.
Lemma plus_text f x rest : mt (RPlus (RClass f)) (x ++ rest) rest -> x <> [] /\ Forall (fun c => f c = true) x.
Proof.
  intros M. apply mt_plus_class_iff in M as (p & N & E & F). apply app_inv_tail in E as ->.
  split; [exact N|]. apply Forall_forall. rewrite forallb_forall in F. exact F.
Qed.
Lemma name_text x rest : mt re_name (x ++ rest) rest -> heads is_digit (x ++ rest) = false -> mql_name x.
Proof.
  intros M H. apply plus_text in M as (N & F).
  assert (Forall name_char x) as F' by (eapply Forall_impl; [|exact F]; intros c; apply is_alnum_iff).
  destruct x as [|c x]; [congruence|]. cbn in H. inversion F' as [|? ? C F2]; subst.
  exists c, x. split; [reflexivity|]. split; [|exact F2]. destruct C as [C|[C|C]]; [left; exact C| |right; exact C].
  apply is_digit_iff in C. congruence.
Qed.
Lemma key_text x rest : mt re_key (x ++ rest) rest -> x <> [] /\ Forall key_char x.
Proof.
  intros M. apply plus_text in M as (N & F). split; [exact N|].
  eapply Forall_impl; [|exact F]. intros c. apply key_b_iff.
Qed.
Lemma quoted_text x rest : mt re_quoted (x ++ rest) rest -> exists t, x = 34%N :: t.
Proof.
  intros M. pose proof (mt_ne _ _ _ M eq_refl) as N. apply mt_quoted_scan in M as (t & E & _).
  destruct x as [|c x]; [congruence|]. cbn in E. inversion E; subst. exists x. reflexivity.
Qed.
Lemma digits_text x rest : mt re_digits (x ++ rest) rest -> exists c t, x = c :: t /\ ascii_digit c.
Proof.
  intros M. apply plus_text in M as (N & F). destruct x as [|c x]; [congruence|].
  exists c, x. split; [reflexivity|]. inversion F as [|? ? H ?]; subst. unfold is_digit, in_range in H.
  apply andb_true_iff in H as [H1 H2]. apply N.leb_le in H1, H2. split; assumption.
Qed.
Lemma slice_mid a t b : slice_1_m1 (a :: t ++ [b]) = t.
Proof. unfold slice_1_m1. cbn [List.tl]. apply removelast_last. Qed.
Lemma number_shape x : unfolds 2 Rnumber x -> number_text x.
Proof.
  intros (a & b & -> & (r & M) & b1 & b2 & -> & T & ->). rewrite app_nil_r.
  assert (forall x r, mt re_digits (x ++ r) r -> digits x) as D.
  { intros y r' M'. apply plus_text in M' as (N & F). split; [exact N|].
    eapply Forall_impl; [|exact F]. intros c. apply is_digit_iff. }
  apply D in M. destruct T as [->|(c & d & -> & -> & d1 & d2 & -> & (r' & M') & ->)].
  - left. rewrite app_nil_r. exact M.
  - right. exists a, d1. rewrite app_nil_r. split; [reflexivity|]. split; [exact M|apply D in M'; exact M'].
Qed.
Lemma class_part stop x : x <> [] -> Forall (fun c => negb (one_of stop c) = true) x -> mri_part stop x.
Proof.
  intros N F. split; [exact N|]. eapply Forall_impl; [|exact F]. intros c H I. apply negb_true_iff in H.
  apply one_of_iff in I. congruence.
Qed.
Lemma mri_parts a b c d x rest :
  mt (RSeq (RPlus (RClass a)) (RSeq (RChar 58) (RSeq (RPlus (RClass b)) (RSeq (RChar 47)
     (RSeq (RPlus (RClass c)) (RSeq (RChar 64) (RPlus (RClass d)))))))) (x ++ rest) rest ->
  exists p q r u, x = p ++ $":" ++ q ++ $"/" ++ r ++ $"@" ++ u
    /\ (p <> [] /\ Forall (fun y => a y = true) p) /\ (q <> [] /\ Forall (fun y => b y = true) q)
    /\ (r <> [] /\ Forall (fun y => c y = true) r) /\ (u <> [] /\ Forall (fun y => d y = true) u).
Proof.
  assert (forall f s s', mt (RPlus (RClass f)) s s' -> exists p, s = p ++ s' /\ (p <> [] /\ Forall (fun y => f y = true) p)) as H.
  { intros f s s' M. apply mt_plus_class_iff in M as (p & N & -> & F). exists p. split; [reflexivity|]. split; [exact N|].
    apply Forall_forall. rewrite forallb_forall in F. exact F. }
  rewrite !mt_seq_iff. intros (s1 & M1 & M). rewrite mt_seq_iff in M. destruct M as (s2 & M2 & M).
  rewrite mt_seq_iff in M. destruct M as (s3 & M3 & M). rewrite mt_seq_iff in M. destruct M as (s4 & M4 & M).
  rewrite mt_seq_iff in M. destruct M as (s5 & M5 & M). rewrite mt_seq_iff in M. destruct M as (s6 & M6 & M7).
  apply H in M1 as (p & E1 & P1). apply H in M3 as (q & E3 & P3). apply H in M5 as (r & E5 & P5). apply H in M7 as (u & E7 & P7).
  apply mt_char_iff in M2, M4, M6. subst s6 s5 s4 s3 s2 s1. exists p, q, r, u. split; [|auto].
  assert (x ++ rest = (p ++ $":" ++ q ++ $"/" ++ r ++ $"@" ++ u) ++ rest) as E by (rewrite E1, <- !app_assoc; reflexivity).
  apply app_inv_tail in E. exact E.
Qed.
Lemma lenient_shape x rest : mt re_lenient_mri (x ++ rest) rest -> any_mri x.
Proof.
  intros M. apply mri_parts in M as (p & q & r & u & -> & (P & P') & (Q & Q') & (R & R') & (U & U')).
  exists p, q, r, u. split; [reflexivity|]. split; [|split; [|split]]; apply class_part; assumption.
Qed.
Lemma weaker_part f stop x : x <> [] -> Forall (fun c => f c = true) x ->
  (forall c, f c = true -> negb (one_of stop c) = true) -> mri_part stop x.
Proof. intros N F H. apply class_part; [exact N|]. eapply Forall_impl; [|exact F]. exact H. Qed.
Lemma unquoted_shape x rest : mt re_unquoted_mri (x ++ rest) rest -> any_mri x.
Proof.
  intros M. apply mri_parts in M as (p & q & r & u & -> & (P & P') & (Q & Q') & (R & R') & (U & U')).
  exists p, q, r, u. split; [reflexivity|].
  assert (forall c, mri_char c = true -> N.eqb 96 c = false /\ N.eqb 44 c = false) as K.
  { intros c H. unfold mri_char in H. apply negb_true_iff, orb_false_iff in H as [H _].
    split; apply N.eqb_neq; intros <-; vm_compute in H; discriminate. }
  split; [|split; [|split]].
  - apply (weaker_part _ _ _ P P'). intros c H. apply andb_true_iff in H as [H0 H]. apply negb_true_iff in H0.
    destruct (K c H) as [J1 J2]. apply negb_true_iff. cbn. rewrite ?(N.eqb_sym c) in *. rewrite H0, J1. reflexivity.
  - apply (weaker_part _ _ _ Q Q'). intros c H. apply andb_true_iff in H as [H0 H]. apply negb_true_iff in H0.
    destruct (K c H) as [J1 J2]. apply negb_true_iff. cbn. rewrite ?(N.eqb_sym c) in *. rewrite H0, J1. reflexivity.
  - apply (weaker_part _ _ _ R R'). intros c H. apply andb_true_iff in H as [H0 H]. apply negb_true_iff in H0.
    destruct (K c H) as [J1 J2]. apply negb_true_iff. cbn. rewrite ?(N.eqb_sym c) in *. rewrite H0, J1, J2. reflexivity.
  - apply (weaker_part _ _ _ U U'). intros c H. destruct (K c H) as [J1 J2]. apply negb_true_iff. cbn.
    rewrite ?(N.eqb_sym c) in *. rewrite J1. reflexivity.
Qed.
Lemma public_shape x rest : mt re_public (x ++ rest) rest -> public_name x.
Proof.
  intros M. unfold re_public in M. rewrite mt_seq_iff in M. destruct M as (s1 & M1 & M2).
  apply mt_plus_class_iff in M1 as (p & N & E & F).
  assert (forall w, w <> [] -> forallb public_char w = true ->
            w <> [] /\ Forall (fun c => 97 <= c <= 122 \/ c = 95)%N w) as W.
  { intros w Nw Fw. split; [exact Nw|]. apply Forall_forall. rewrite forallb_forall in Fw. intros c I.
    apply public_iff, Fw, I. }
  assert (forall e s s', mt e s s' -> e = RStar (RSeq (RChar 46) (RPlus (RClass public_char))) ->
            exists ws, s = List.concat (map (fun w => $"." ++ w) ws) ++ s' /\
              Forall (fun w => w <> [] /\ Forall (fun c => 97 <= c <= 122 \/ c = 95)%N w) ws) as St.
  { intros e s s' M. induction M; intros Ee; try discriminate.
    - exists []. split; [reflexivity|constructor].
    - injection Ee as ->. destruct (IHM2 eq_refl) as (ws & -> & Fw).
      rewrite mt_seq_iff in M1. destruct M1 as (y & Y1 & Y2). apply mt_char_iff in Y1. subst s.
      apply mt_plus_class_iff in Y2 as (w & Nw & -> & Fw'). exists (w :: ws). split.
      + cbn. rewrite <- app_assoc. reflexivity.
      + constructor; [apply W; assumption|exact Fw]. }
  destruct (St _ _ _ M2 eq_refl) as (ws & -> & Fw). exists (p :: ws). split; [discriminate|]. split.
  - rewrite app_assoc in E. apply app_inv_tail in E as ->. clear. revert p.
    induction ws as [|w ws IH]; intros p; [apply app_nil_r|]. cbn [map List.concat].
    change (join ($".") (p :: w :: ws)) with (p ++ $"." ++ join ($".") (w :: ws)).
    rewrite <- IH. rewrite <- !app_assoc. reflexivity.
  - constructor; [apply W; assumption|exact Fw].
Qed.
Lemma unquoted_pattern x rest : mt re_unquoted (x ++ rest) rest -> x <> [] /\ Forall pattern_char x.
Proof.
  intros M. apply plus_text in M as (N & F). split; [exact N|]. eapply Forall_impl; [|exact F].
  intros c. apply pattern_unquoted.
Qed.
Lemma qscan_suffix n : forall t r, List.length t <= n -> qscan t = Some r -> exists u, t = u ++ DQ :: r.
Proof.
  induction n as [|n IH]; intros t r L H; destruct t as [|c t]; try discriminate; cbn in L; [lia|].
  cbn [qscan] in H. destruct (N.eqb_spec c DQ) as [->|].
  - inversion H; subst. exists []. reflexivity.
  - destruct (N.eqb c BSL).
    + destruct t as [|d t]; [discriminate|]. destruct (N.eqb d NL); [discriminate|]. cbn in L.
      destruct (IH t r ltac:(lia) H) as (u & ->). exists (c :: d :: u). reflexivity.
    + destruct (IH t r ltac:(lia) H) as (u & ->). exists (c :: u). reflexivity.
Qed.
Lemma qscan_len s r : qscan s = Some r -> List.length r < List.length s.
Proof. intros H. destruct (qscan_suffix _ _ _ (le_n _) H) as (u & ->). rewrite app_length. cbn. lia. Qed.
Lemma qscan_any n : forall u rest rest', List.length u <= n -> qscan (u ++ DQ :: rest) = Some rest -> qscan (u ++ DQ :: rest') = Some rest'.
Proof.
  induction n as [|n IH]; intros u rest rest' L H; destruct u as [|c u]; cbn in L; try lia; try reflexivity.
  cbn [app qscan] in H |- *. destruct (N.eqb_spec c DQ) as [->|].
  - injection H as H. exfalso. apply (f_equal (@List.length N)) in H. rewrite app_length in H. cbn in H. lia.
  - destruct (N.eqb c BSL).
    + destruct u as [|d u]; cbn [app] in H |- *.
      * change (N.eqb DQ NL) with false in *. cbn in H. exfalso. apply qscan_len in H. lia.
      * destruct (N.eqb d NL); [discriminate|]. cbn in L. eapply IH; [|exact H]. lia.
    + eapply IH; [|exact H]. lia.
Qed.
Lemma quoted_any_rest t rest rest' : mt re_quoted (t ++ rest) rest -> mt re_quoted (t ++ rest') rest'.
Proof.
  intros M. apply mt_quoted_scan in M as (u & E & Q). destruct (qscan_suffix _ _ _ (le_n _) Q) as (v & ->).
  assert (t = DQ :: v ++ [DQ]) as ->.
  { apply (app_inv_tail rest). rewrite E. cbn. rewrite <- app_assoc. reflexivity. }
  cbn [app]. rewrite <- app_assoc. cbn [app]. apply scan_mt. eapply qscan_any; [apply le_n|exact Q].
Qed.
Lemma repl_clean s : ~ In DQ (repl [BSL; DQ] [DQ] 0 s) -> repl [BSL; DQ] [DQ] 0 s = s.
Proof.
  induction s as [|c s IH]; [reflexivity|]. cbn [repl]. destruct (prefixb [BSL; DQ] (c :: s)); intros H.
  - exfalso. apply H. left. reflexivity.
  - f_equal. apply IH. intros I. apply H. right. exact I.
Qed.
Lemma quoted_no_wildcard t rest : mt re_quoted (t ++ rest) rest -> no_pattern (t ++ rest) -> ~ wildcard (unquote t).
Proof.
  intros M P (p & E & N & F). apply mt_quoted_scan in M as (u & E1 & Q).
  destruct (qscan_suffix _ _ _ (le_n _) Q) as (v & ->).
  assert (t = DQ :: v ++ [DQ]) as ->.
  { apply (app_inv_tail rest). rewrite E1. cbn. rewrite <- app_assoc. reflexivity. }
  unfold unquote, replace in E. rewrite slice_mid in E.
  assert (v = p ++ $"*") as ->.
  { rewrite <- E. symmetry. apply repl_clean. rewrite E. intros I. apply in_app_or in I as [I|[I|[]]]; [|discriminate].
    rewrite Forall_forall in F. apply F in I. destruct I as (_ & I & _). apply I. reflexivity. }
  apply (P p rest N).
  - apply forallb_forall. rewrite Forall_forall in F. intros c I. apply pattern_unquoted, F, I.
  - cbn. rewrite <- !app_assoc. reflexivity.
Qed.
Lemma column_ty x rest : mt re_key (x ++ rest) rest -> chars_ok x -> good ty_tag (text_column x).
Proof.
  intros M C. apply key_text in M as (N & F). destruct x as [|c x]; [congruence|].
  inversion F as [|? ? Kc F']; subst. inversion C as [|? ? (_ & C2) _]; subst.
  assert (word_start c \/ (ascii_digit c \/ c = 46%N)) as [W|B].
  { unfold word_start. destruct Kc as [[H|[H|H]]|H]; auto. }
  - assert (mql_key (c :: x)) as Kx by (exists c, x; auto). rewrite (column_ok _ Kx). exists (tag (c :: x)).
    split; [reflexivity|]. exists (c :: x). auto.
  - assert (text_column (c :: x) = Raise InvalidColumnError) as ->; [|right; right; auto].
    unfold text_column, mk_column. unfold re_matches, re_match, column_name_re. cbn [mtch].
    replace (is_alpha c || N.eqb c 95)%bool with false; [reflexivity|]. symmetry. apply orb_false_iff.
    split; [|apply N.eqb_neq; unfold ascii_digit in B; lia].
    unfold is_alpha, is_lower, is_upper, in_range. unfold ascii_digit in B.
    repeat match goal with |- context [(?a <=? ?b)%N] => destruct (N.leb_spec a b) end; cbn; try reflexivity; lia.
Qed.

(** * Values *)
Lemma lit_name s : (match lit s with c :: _ => is_alpha c || N.eqb c 95 | [] => false end)%bool = true ->
  forallb is_alnum_ (lit s) = true -> mql_name (lit s).
Proof.
  destruct (lit s) as [|c t]; [discriminate|]. intros H F. exists c, t. split; [reflexivity|].
  split; [apply alpha_us_iff, H|]. cbn in F. apply andb_true_iff in F as [_ F]. apply Forall_forall. intros d I.
  apply is_alnum_iff. revert d I. apply forallb_forall, F.
Qed.
Lemma parsed_filter_cond c : parsed_filter c -> condition_obj c.
Proof. intros H. destruct H; [left|right|right]; eauto 6. Qed.
Lemma parsed_literal_ok o : parsed_literal o -> is_literal o = true.
Proof. intros H. destruct H; reflexivity. Qed.
Lemma parsed_ts_ok t : parsed_ts t -> ts_ok t.
Proof.
  intros H. destruct H as [m a p f g M A P F G]. unfold ts_ok. cbn. split; [|split; [|split]].
  - destruct M; [right|left]; cbn; discriminate.
  - intros l ->. cbn in P. eapply Forall_impl; [|exact P]. exact parsed_literal_ok.
  - intros l ->. destruct F as [F|(l' & F & _ & H)]; inversion F; subst.
    eapply Forall_impl; [|exact H]. exact parsed_filter_cond.
  - intros l ->. destruct G as [G|(l' & G & _ & H)]; inversion G; subst.
    eapply Forall_impl; [|exact H]. intros o (k & _ & ->). left. eexists. reflexivity.
Qed.
Lemma mapM_ob l : mapM as_obj (map POb l) = Ok l.
Proof. induction l as [|o l IH]; [reflexivity|]. cbn. rewrite IH. reflexivity. Qed.
Lemma groupby_list_ok g : ty_tag g \/ ty_tags g ->
  exists l, groupby_list g = Ok l /\ l <> [] /\ Forall plain_tag l.
Proof.
  intros [(c & -> & P)|(l & -> & N & P)].
  - exists [c]. split; [reflexivity|]. split; [discriminate|]. constructor; [exact P|constructor].
  - exists l. split; [apply mapM_ob|auto].
Qed.
Lemma app_ne {A} (l l' : list A) : l <> [] -> l ++ l' <> [].
Proof. destruct l; [congruence|discriminate]. Qed.
Lemma apply_groupby_ty v p : parsed_query v -> p = [] \/ (exists g, p = [g] /\ (ty_tag g \/ ty_tags g)) ->
  exists v', apply_groupby v p = Ok v' /\ parsed_query v'.
Proof.
  intros (Q & V) [->|(g & -> & G)]; [exists v; split; [reflexivity|split; assumption]|].
  destruct (groupby_list_ok g G) as (l & E & N & T). cbn [apply_groupby]. rewrite E. cbn [bind].
  destruct Q as [t|n pk ps a f gr].
  - inversion V as [| |? Pt|]; subst. pose proof (parsed_ts_ok _ Pt) as Ok1.
    destruct Pt as [m a p f gr M A P F G']. cbn [get_groupby bind obj_of_opt ts_groupby].
    assert (exists cur, Forall plain_tag cur /\ extend l (obj_of_opt OList gr) = Ok (l ++ cur)) as (cur & C & ->).
    { destruct G' as [->|(l' & -> & _ & H)]; cbn [obj_of_opt].
      - exists []. rewrite app_nil_r. split; [constructor|reflexivity].
      - exists l'. split; [exact H|apply MqlBody.app_extend]. }
    cbn [bind put_groupby].
    assert (Forall plain_tag (l ++ cur)) as F2 by (apply Forall_app; auto).
    rewrite (proj2 (set_groupby_iff _ (OList (l ++ cur)) (mkTS m a p f (Some (l ++ cur))) Ok1)).
    + eexists. split; [reflexivity|]. split; [constructor|]. constructor. constructor; auto.
      right. exists (l ++ cur). split; [reflexivity|]. split; [apply app_ne, N|exact F2].
    + exists (Some (l ++ cur)). split; [|reflexivity]. split; [reflexivity|]. apply MqlBody.plain_groupable, F2.
  - inversion V as [| | |n' ps' a' f' g' Nn Np Fp Ha Hf Hg]; subst. cbn [get_groupby bind].
    assert (exists cur, Forall plain_tag cur /\ extend l gr = Ok (l ++ cur)) as (cur & C & ->).
    { destruct Hg as [->|(l' & -> & _ & H)].
      - exists []. rewrite app_nil_r. split; [constructor|reflexivity].
      - exists l'. split; [exact H|apply MqlBody.app_extend]. }
    cbn [bind put_groupby].
    assert (Forall plain_tag (l ++ cur)) as F2 by (apply Forall_app; auto).
    rewrite (proj2 (formula_set_groupby_iff (OStr n') (Some KList) ps a f gr (OList (l ++ cur)) _)
       (conj (ex_intro _ (Some (l ++ cur)) (conj eq_refl (MqlBody.plain_groupable _ F2))) eq_refl)).
    eexists. split; [reflexivity|]. split; [constructor|]. constructor; auto.
    right. exists (l ++ cur). split; [reflexivity|]. split; [apply app_ne, N|exact F2].
Qed.
Lemma apply_filters_ty v p : parsed_query v -> p = [] \/ (exists x c y, p = [PList [x; POb c; y]] /\ parsed_filter c) ->
  exists v', apply_filters v p = Ok v' /\ parsed_query v'.
Proof.
  intros (Q & V) [->|(x & c & y & -> & C)]; [exists v; split; [reflexivity|split; assumption]|].
  cbn [apply_filters POb as_obj bind].
  destruct Q as [t|n pk ps a f gr].
  - inversion V as [| |? Pt|]; subst. pose proof (parsed_ts_ok _ Pt) as Ok1.
    destruct Pt as [m a p f gr M A P F G']. cbn [get_filters bind obj_of_opt ts_filters].
    assert (exists cur, Forall parsed_filter cur /\ extend [c] (obj_of_opt OList f) = Ok (c :: cur)) as (cur & Fc & ->).
    { destruct F as [->|(l' & -> & _ & H)]; cbn [obj_of_opt].
      - exists []. split; [constructor|reflexivity].
      - exists l'. split; [exact H|apply MqlBody.app_extend]. }
    cbn [bind put_filters].
    assert (Forall parsed_filter (c :: cur)) as F2 by (constructor; auto).
    rewrite (proj2 (set_filters_iff _ (OList (c :: cur)) (mkTS m a p (Some (c :: cur)) gr) Ok1)).
    + eexists. split; [reflexivity|]. split; [constructor|]. constructor. constructor; auto.
      right. exists (c :: cur). split; [reflexivity|]. split; [discriminate|exact F2].
    + exists (Some (c :: cur)). split; [|reflexivity]. split; [reflexivity|].
      eapply Forall_impl; [|exact F2]. exact parsed_filter_cond.
  - inversion V as [| | |n' ps' a' f' g' Nn Np Fp Ha Hf Hg]; subst. cbn [get_filters bind].
    assert (exists cur, Forall parsed_filter cur /\ extend [c] f = Ok (c :: cur)) as (cur & Fc & ->).
    { destruct Hf as [->|(l' & -> & _ & H)].
      - exists []. split; [constructor|reflexivity].
      - exists l'. split; [exact H|apply MqlBody.app_extend]. }
    cbn [bind put_filters].
    assert (Forall parsed_filter (c :: cur)) as F2 by (constructor; auto).
    assert (Forall condition_obj (c :: cur)) as F3 by (eapply Forall_impl; [|exact F2]; exact parsed_filter_cond).
    rewrite (proj2 (formula_set_filters_iff (OStr n') (Some KList) ps a f gr (OList (c :: cur)) _)
       (conj (ex_intro _ (Some (c :: cur)) (conj eq_refl F3)) eq_refl)).
    eexists. split; [reflexivity|]. split; [constructor|]. constructor; auto.
    right. exists (c :: cur). split; [reflexivity|]. split; [discriminate|exact F2].
Qed.
Lemma placeholder_ok m : parsed_metric m ->
  placeholder_ts (VMetric m) = Ok (mkTS m placeholder None None None)
  /\ parsed_ts (mkTS m placeholder None None None).
Proof.
  intros M. split.
  - apply ts_exact. cbn. repeat split. destruct M; [right|left]; cbn; discriminate.
  - constructor; [exact M| |exact I|left; reflexivity|left; reflexivity].
    apply lit_name; reflexivity.
Qed.
Lemma set_aggregate_ty t n p ps : parsed_ts t -> mql_name n ->
  match p with ONone => ps = None | OList l => ps = Some l /\ Forall parsed_literal l | _ => False end ->
  exists t', set_aggregate t (OStr n) p = Ok t' /\ parsed_ts t'.
Proof.
  intros T N P. pose proof (parsed_ts_ok _ T) as O. destruct T as [m a q f g M A Q F G].
  assert (opt_list literal_obj p ps /\ opt_listed parsed_literal ps) as [P1 P2].
  { destruct p; try contradiction.
    - subst ps. split; [reflexivity|exact I].
    - destruct P as (-> & P). split; [|exact P]. split; [reflexivity|].
      eapply Forall_impl; [|exact P]. exact parsed_literal_ok. }
  exists (mkTS m n ps f g). split; [|constructor; auto].
  apply (set_aggregate_iff _ _ _ _ O). exists n, ps. split; [reflexivity|]. split; [exact P1|reflexivity].
Qed.
Lemma fold_ops_ty others : Forall (sty (PSeq [PRef Rws; PRef Rexpr_op; PRef Rws; PRef Rterm])) others ->
  forall m, parsed_value m -> (mql_query m \/ K1) ->
  exists v, fold_ops m others = Ok v /\ parsed_value v /\ (mql_query v \/ K1).
Proof.
  induction 1 as [|o l S _ IH]; intros m V Q; [exists m; split; [reflexivity|split; assumption]|].
  destruct S as (vs & -> & S). destruct vs as [|x1 [|x2 [|x3 [|x4 [|]]]]]; try (cbn in S; tauto).
  destruct S as (_ & (n & -> & Nn) & _ & (r & -> & Vr & Qr) & _).
  cbn [fold_ops as_mval PStr as_obj bind]. apply IH.
  - constructor; auto; try (left; reflexivity); try discriminate.
  - left. constructor.
Qed.
Lemma operand_is v : parsed_value v -> is_operand (PVal v) = true.
Proof. intros H. destruct H as [o L| | |]; try reflexivity. destruct L; reflexivity. Qed.
Lemma chain_ty (r op : rule) cs : (op = Rexpr_op \/ op = Rterm_op) -> (r = Rterm \/ r = Runary) ->
  sty (PSeq [PRef r; PStar (PSeq [PRef Rws; PRef op; PRef Rws; PRef r])]) (PList cs) ->
  good (ty_operand K1) (visit_chain cs).
Proof.
  intros Ho Hr (vs & E & S). inversion E; subst. clear E.
  destruct vs as [|x1 [|x2 [|]]]; try (cbn in S; tauto). destruct S as (S1 & (l & -> & S2) & _).
  assert (exists m, x1 = PVal m /\ parsed_value m /\ (mql_query m \/ K1)) as (m & -> & V & Q)
    by (destruct Hr as [-> | ->]; exact S1).
  assert (Forall (sty (PSeq [PRef Rws; PRef Rexpr_op; PRef Rws; PRef Rterm])) l) as S3
    by (destruct Ho as [-> | ->], Hr as [-> | ->]; exact S2).
  cbn [visit_chain]. rewrite (operand_is m V). cbn [assert_ bind as_mval].
  destruct (fold_ops_ty l S3 m V Q) as (v & -> & Pv & Qv). cbn. exists v. auto.
Qed.
Lemma fourths_ty (P : pv -> Prop) a b c e l : (forall v, sty e v -> P v) ->
  Forall (sty (PSeq [a; b; c; e])) l ->
  exists vs, fourths l = Ok vs /\ Forall P vs.
Proof.
  intros H F. induction F as [|o l S _ IH]; [exists []; split; [reflexivity|constructor]|].
  destruct S as (vs & -> & S). destruct vs as [|x1 [|x2 [|x3 [|x4 [|]]]]]; try (cbn in S; tauto).
  destruct S as (_ & _ & _ & S4 & _). destruct IH as (ws & E & W). cbn [fourths]. rewrite E. cbn.
  exists (x4 :: ws). split; [reflexivity|]. constructor; [apply H; exact S4|exact W].
Qed.
Lemma filters_objs vs : Forall ty_filter vs -> exists l, vs = map POb l /\ Forall parsed_filter l.
Proof.
  induction 1 as [|v vs (c & -> & P) _ (l & -> & IH)]; [exists []; auto|].
  exists (c :: l). split; [reflexivity|constructor; auto].
Qed.
Lemma tags_objs vs : Forall ty_tag vs -> exists l, vs = map POb l /\ Forall plain_tag l.
Proof.
  induction 1 as [|v vs (c & -> & P) _ (l & -> & IH)]; [exists []; auto|].
  exists (c :: l). split; [reflexivity|constructor; auto].
Qed.
Lemma literals_objs vs : Forall ty_literal vs -> exists l, vs = map POb l /\ Forall parsed_literal l.
Proof.
  induction 1 as [|v vs (c & -> & P) _ (l & -> & IH)]; [exists []; auto|].
  exists (c :: l). split; [reflexivity|constructor; auto].
Qed.
Lemma bool_ty o a b c r cs : (r = Rfilter_term \/ r = Rfilter_factor) ->
  sty (PSeq [PRef r; PStar (PSeq [a; b; c; PRef r])]) (PList cs) -> good ty_filter (visit_bool o cs).
Proof.
  intros Hr (vs & E & S). inversion E; subst. clear E.
  destruct vs as [|x1 [|x2 [|]]]; try (cbn in S; tauto). destruct S as (S1 & (l & -> & S2) & _).
  assert (ty_filter x1) as (f & -> & Pf) by (destruct Hr as [-> | ->]; exact S1).
  destruct (fourths_ty ty_filter a b c (PRef r) l) as (ws & E & W);
    [destruct Hr as [-> | ->]; auto|exact S2|].
  cbn [visit_bool]. rewrite E. cbn [bind]. destruct (filters_objs ws W) as (fs & -> & Pfs).
  destruct fs as [|g fs]; [exists f; auto|]. change (POb f :: map POb (g :: fs)) with (map POb (f :: g :: fs)).
  cbn [map]. change (POb f :: POb g :: map POb fs) with (map POb (f :: g :: fs)). rewrite mapM_ob. cbn [bind].
  assert (Forall parsed_filter (f :: g :: fs)) as F by (constructor; auto).
  assert (forallb is_condition_obj (f :: g :: fs) = true) as B.
  { apply forallb_forall. rewrite Forall_forall in F. intros x I. apply is_condition_iff, parsed_filter_cond, F, I. }
  destruct o; unfold mk_and, mk_or, mk_boolean; cbn [as_list_or_tuple]; unfold check_bool_items;
    rewrite B; cbn; eexists; (split; [reflexivity|]); constructor; (exact F || (cbn; lia)).
Qed.
Lemma factor_test (k : str) negated r w : mql_key k -> ty_factor (PFactor r w) ->
  exists c, mk_condition (tag k) (OOp (factor_op negated w r)) r = Ok c /\ parsed_filter c.
Proof.
  intros Kk F. destruct F as [(s & N & E)|[(s & N & E)|(l & N & E)]]; inversion E; subst.
  - eexists. split; [destruct negated; reflexivity|]. constructor; [exact Kk|]. destruct negated; constructor; exact N.
  - eexists. split; [destruct negated; reflexivity|]. constructor; [exact Kk|]. destruct negated; constructor; exact N.
  - exists (OCond (tag k) (factor_op negated false (OList (map OStr l))) (OList (map OStr l))). split.
    + unfold mk_condition, check_condition. cbn [is_col_or_func tag negb]. rewrite scalar_strings.
      destruct negated; reflexivity.
    + constructor; [exact Kk|]. destruct negated; constructor; exact N.
Qed.
Lemma firsts_ty vs : Forall (fun v => exists x s, v = PList [x] /\ x = PStr s) vs ->
  exists l, firsts vs = Ok (map OStr l) /\ List.length l = List.length vs.
Proof.
  induction 1 as [|v vs (x & s & -> & ->) _ (l & E & L)]; [exists []; split; reflexivity|].
  exists (s :: l). cbn. rewrite E. split; [reflexivity|]. cbn. congruence.
Qed.
Lemma agg_params_ty a b c d x cs : sty (PSeq [a; b; POpt (PRef Raggregate_list); c; d]) (PList cs) -> x = cs ->
  exists l, agg_params_of x = Ok (OList l) /\ Forall parsed_literal l.
Proof.
  intros (vs & E & S) ->. inversion E; subst. clear E.
  destruct vs as [|x1 [|x2 [|x3 [|x4 [|x5 [|]]]]]]; try (cbn in S; tauto). destruct S as (_ & _ & S3 & _).
  destruct S3 as [->|(y & -> & (l & -> & L))].
  - exists []. split; [reflexivity|constructor].
  - exists l. cbn [agg_params_of]. rewrite mapM_ob. split; [reflexivity|exact L].
Qed.
Lemma lasts_ty l : Forall (sty (PSeq [PRef Rws; PRef Rcomma; PRef Rws; PRef Rexpression])) l ->
  exists vs, lasts l = Ok vs /\ Forall parsed_value vs.
Proof.
  induction 1 as [|o l S _ (ws & E & W)]; [exists []; split; [reflexivity|constructor]|].
  destruct S as (vs & -> & S). destruct vs as [|x1 [|x2 [|x3 [|x4 [|]]]]]; try (cbn in S; tauto).
  destruct S as (_ & _ & _ & (m & -> & V & _) & _). cbn [lasts rev app as_mval bind]. rewrite E. cbn.
  exists (m :: ws). split; [reflexivity|constructor; auto].
Qed.
Lemma packed_filters_ty x :
  sty (POpt (PSeq [PRef Ropen_brace; POpt (PSeq [PRef Rws; PRef Rfilter_expr; PRef Rws]); PRef Rclose_brace])) x ->
  exists fs p, x = PList fs /\ packed_filters fs = Ok p
    /\ (p = [] \/ (exists x c y, p = [PList [x; POb c; y]] /\ parsed_filter c)).
Proof.
  intros [->|(y & -> & (vs & -> & S))].
  - exists [], []. auto.
  - destruct vs as [|x1 [|x2 [|x3 [|]]]]; try (cbn in S; tauto). destruct S as (_ & S2 & _ & _).
    destruct S2 as [->|(z & -> & (ws & -> & S))].
    + eexists _, []. split; [reflexivity|]. split; [reflexivity|auto].
    + destruct ws as [|y1 [|y2 [|y3 [|]]]]; try (cbn in S; tauto). destruct S as (_ & (c & -> & C) & _ & _).
      eexists _, _. split; [reflexivity|]. split; [reflexivity|]. right. exists y1, c, y3. auto.
Qed.
Lemma packed_groups_ty x : sty (POpt (PRef Rgroup_by)) x ->
  exists p, x = PList p /\ (p = [] \/ (exists g, p = [g] /\ (ty_tag g \/ ty_tags g))).
Proof. intros [->|(y & -> & S)]; [exists []; auto|]. exists [y]. split; [reflexivity|]. right. exists y. auto. Qed.

Ltac kids S := let vs := fresh "vs" in let E := fresh "E" in
  destruct S as (vs & E & S); first [inversion E; subst; clear E | subst];
  repeat (destruct vs as [|? vs]; try (cbn in S; tauto)).
Lemma one_literal o : parsed_literal o -> is_param_value (POb o) = true.
Proof. intros H. destruct H; reflexivity. Qed.
Lemma name_op (l : list str) x : In x l -> Forall mql_name l -> mql_name x.
Proof. intros I F. rewrite Forall_forall in F. auto. Qed.

Lemma act_expression r t cs : In r [Rexpression; Rterm] -> sty (grammar r) (PList cs) -> good (ty r) (act r t cs).
Proof.
  intros [<-|[<-|[]]] S; cbn [act ty].
  - apply (chain_ty Rterm Rexpr_op); auto.
  - apply (chain_ty Runary Rterm_op); auto.
Qed.
Lemma act_ops r t cs : In r [Rexpr_op; Rterm_op; Runary_op; Rcondition_op] -> unfolds 2 r t -> good (ty r) (act r t cs).
Proof.
  intros [<-|[<-|[<-|[<-|[]]]]] T; cbn in T.
  - destruct T as [->|[->|[]]]; eexists; (split; [reflexivity|]); apply lit_name; reflexivity.
  - destruct T as [->|[->|[]]]; eexists; (split; [reflexivity|]); apply lit_name; reflexivity.
  - subst t. eexists; (split; [reflexivity|]); apply lit_name; reflexivity.
  - subst t. reflexivity.
Qed.
Lemma negated_query v : parsed_query v ->
  parsed_query (VFormula (OStr ($"negate")) (Some KList) [v] ONone ONone ONone).
Proof.
  intros (Q & V). split; [constructor|]. constructor; try (left; reflexivity); try discriminate.
  - apply lit_name; reflexivity.
  - constructor; [exact V|constructor].
Qed.
Lemma act_unary t cs : sty (grammar Runary) (PList cs) -> good (ty Runary) (act Runary t cs).
Proof.
  intros S. cbn [act ty]. kids S. destruct S as (S1 & (m & -> & V) & _).
  destruct S1 as [->|(y & -> & (n & -> & Nn))].
  - exists m. split; [reflexivity|]. destruct V as [(Q & V)|(Kp & o & -> & L)]; [auto|].
    split; [constructor; exact L|right; exact Kp].
  - cbn [visit_unary]. destruct V as [(Q & V)|(Kp & o & -> & L)].
    2:{ destruct L as [f Nf|s]; [|left; reflexivity]. exists (VObj (OFloat (flt_opp (float_of_text f)))).
        split; [reflexivity|]. split; [constructor; exact Nf|right; exact Kp]. }
    destruct V as [o L|t0 Nt|tt T|n' ps a f g Hn Hp Hps Ha Hf Hg].
    + inversion Q.
    + inversion Q.
    + cbn [formula PStr]. eexists. split; [reflexivity|].
      split; [|left; constructor]. constructor; try (left; reflexivity); try discriminate; [exact Nn|].
      constructor; [constructor; exact T|constructor].
    + cbn [formula PStr]. eexists. split; [reflexivity|].
      split; [|left; constructor]. constructor; try (left; reflexivity); try discriminate; [exact Nn|].
      constructor; [constructor; assumption|constructor].
Qed.
Lemma digit_K1 c t : chars_ok (c :: t) -> ascii_digit c -> K1.
Proof. intros C D. inversion C as [|? ? (H & _) _]; subst. auto. Qed.
Lemma quote_K1 t : chars_ok (34%N :: t) -> K1.
Proof. intros C. inversion C as [|? ? (H & _) _]; subst. auto. Qed.
Lemma act_number t cs : unfolds 2 Rnumber t -> chars_ok t -> good (ty Rnumber) (act Rnumber t cs).
Proof.
  intros T C. pose proof (number_shape _ T) as Nt. destruct T as (a & b & -> & (rest & M) & _).
  apply digits_text in M as (c & u & -> & D). split; [eapply digit_K1; [exact C|exact D]|].
  eexists. split; [exact Nt|reflexivity].
Qed.
Lemma act_quoted r t cs : r = Rquoted_string -> unfolds 2 r t -> chars_ok t -> good (ty r) (act r t cs).
Proof.
  intros -> (rest & M) C. apply quoted_text in M as (u & ->). split; [eapply quote_K1; exact C|].
  eexists. reflexivity.
Qed.
Lemma act_coefficient t cs : sty (grammar Rcoefficient) (PList cs) -> good (ty Rcoefficient) (act Rcoefficient t cs).
Proof.
  intros (x & E & S). inversion E; subst. cbn [act ty]. destruct S as [(Kp & f & Nf & ->)|[(Kp & s & ->)|[(m & -> & Q)|[]]]].
  - eexists. split; [reflexivity|]. right. split; [exact Kp|]. eexists. split; [reflexivity|constructor; exact Nf].
  - eexists. split; [reflexivity|]. right. split; [exact Kp|]. eexists. split; [reflexivity|constructor].
  - exists m. auto.
Qed.
Lemma query_is_query v : parsed_query v -> is_query (PVal v) = true.
Proof. intros (Q & _). destruct Q; reflexivity. Qed.
Lemma act_filter t cs : sty (grammar Rfilter) (PList cs) -> good (ty Rfilter) (act Rfilter t cs).
Proof.
  intros S. cbn [act ty]. kids S. destruct S as ((m & -> & Q) & S2 & S3 & _).
  apply packed_filters_ty in S2 as (fs & p & -> & Ep & Hp). apply packed_groups_ty in S3 as (g & -> & Hg).
  cbn [visit_filter]. rewrite Ep. cbn [bind]. rewrite (query_is_query m Q). cbn [assert_ bind as_mval].
  destruct (apply_filters_ty m p Q Hp) as (v1 & -> & Q1). cbn [bind].
  destruct (apply_groupby_ty v1 g Q1 Hg) as (v2 & -> & Q2). cbn. exists v2. auto.
Qed.
Lemma act_inner t cs : sty (grammar Rinner_filter) (PList cs) -> good (ty Rinner_filter) (act Rinner_filter t cs).
Proof.
  intros S. cbn [act ty]. kids S. destruct S as ((m0 & -> & (m & -> & M)) & S2 & S3 & _).
  apply packed_filters_ty in S2 as (fs & p & -> & Ep & Hp). apply packed_groups_ty in S3 as (g & -> & Hg).
  cbn [visit_inner_filter]. rewrite Ep. cbn [bind].
  destruct (placeholder_ok m M) as (-> & T0). cbn [bind].
  set (t0 := mkTS m placeholder None None None) in *.
  assert (exists t1, match p with
                     | [] => Ok t0
                     | PList (_ :: cond :: _) :: _ =>
                         let! c := as_obj cond in set_filters t0 (OList [c])
                     | _ => Raise ValueError
                     end = Ok t1 /\ parsed_ts t1) as (t1 & -> & T1).
  { destruct Hp as [->|(x & c & y & -> & C)]; [eauto|]. cbn [POb as_obj bind].
    exists (mkTS m placeholder None (Some [c]) None). split.
    - apply (set_filters_iff t0 _ _ (parsed_ts_ok _ T0)). exists (Some [c]). split; [|reflexivity].
      split; [reflexivity|]. constructor; [apply parsed_filter_cond, C|constructor].
    - inversion T0; subst. constructor; auto. right. exists [c]. split; [reflexivity|]. split; [discriminate|].
      constructor; [exact C|constructor]. }
  cbn [bind]. destruct Hg as [->|(g0 & -> & G)]; [cbn; eauto|].
  destruct (groupby_list_ok g0 G) as (l & -> & N & L). cbn [bind].
  pose proof (parsed_ts_ok _ T1) as O1. destruct T1 as [m1 a1 p1 f1 g1 M1 A1 P1 F1 G1].
  rewrite (proj2 (set_groupby_iff _ (OList l) (mkTS m1 a1 p1 f1 (Some l)) O1)).
  - cbn. eexists. split; [reflexivity|]. constructor; auto. right. exists l. auto.
  - exists (Some l). split; [|reflexivity]. split; [reflexivity|]. apply MqlBody.plain_groupable, L.
Qed.
Lemma act_filter_factor t cs : sty (grammar Rfilter_factor) (PList cs) -> good (ty Rfilter_factor) (act Rfilter_factor t cs).
Proof.
  intros (x & E & S). inversion E; subst. clear E. cbn [act ty]. destruct S as [S|[(c & -> & C)|[]]].
  - destruct S as (vs & -> & S). repeat (destruct vs as [|? vs]; try (cbn in S; tauto)).
    destruct S as (S1 & (y & -> & S2) & _ & _ & _ & S6 & _).
    destruct S2 as [[]|[(o & -> & (k & Kk & ->))|[]]].
    assert (exists r w, p4 = PFactor r w /\ ty_factor (PFactor r w)) as (r & w & -> & F).
    { cbn [MqlTyping.sty MqlTyping.ty] in S6. destruct S6 as [(s & N & ->)|[(s & N & ->)|(l & N & ->)]]; eexists _, _; (split; [reflexivity|]).
      - left; eauto.
      - right; left; eauto.
      - right; right; eauto. }
    assert (exists cop, p = PList cop) as (cop & ->) by (destruct S1 as [->|(z & -> & _)]; eauto).
    change (act Rfilter_factor t) with visit_filter_factor. unfold visit_filter_factor. cbn [POb as_obj bind].
    destruct (factor_test k (match cop with [PVal (VObj (OOp NOT))] => true | _ => false end) r w Kk F) as (c & E & C).
    unfold POb, tag in *. rewrite E. cbn. exists c. auto.
  - destruct C; eexists; (split; [reflexivity|]); constructor; assumption.
Qed.
Lemma act_string_tuple t cs : sty (grammar Rstring_tuple) (PList cs) -> good (ty Rstring_tuple) (act Rstring_tuple t cs).
Proof.
  intros S. cbn [act ty]. kids S. destruct S as (_ & _ & S3 & (l & -> & S4) & _).
  assert (forall v, sty (PAlt [PRef Rquoted_string; PRef Runquoted_string]) v ->
            exists x s, v = PList [x] /\ x = PStr s) as H.
  { intros v (x & -> & [(_ & s & ->)|[(s & -> & _)|[]]]); eauto. }
  destruct (fourths_ty _ _ _ _ _ l H S4) as (vs' & E & W). cbn [visit_string_tuple]. rewrite E. cbn [bind].
  destruct (firsts_ty (p1 :: vs')) as (ls & -> & L); [constructor; [apply H, S3|exact W]|].
  cbn. right. right. exists ls. split; [|reflexivity]. destruct ls; [discriminate|discriminate].
Qed.
Lemma act_group_tuple t cs : sty (grammar Rgroup_by_name_tuple) (PList cs) ->
  good (ty Rgroup_by_name_tuple) (act Rgroup_by_name_tuple t cs).
Proof.
  intros S. cbn [act ty]. kids S. destruct S as (_ & _ & (c & -> & C) & (l & -> & S4) & _).
  destruct (fourths_ty ty_tag _ _ _ (PRef Rgroup_by_name) l (fun v H => H) S4) as (vs' & E & W). rewrite E. cbn [bind].
  destruct (tags_objs _ W) as (ls & -> & L). cbn. exists (c :: ls). split; [reflexivity|].
  split; [discriminate|constructor; assumption].
Qed.
Lemma act_group t cs : sty (grammar Rgroup_by) (PList cs) -> good (ty Rgroup_by) (act Rgroup_by t cs).
Proof.
  intros S. cbn [act ty]. kids S. destruct S as (_ & _ & _ & (x & -> & S) & _). cbn [rev app].
  destruct S as [S|[S|[]]]; [left|right]; exact S.
Qed.
Lemma act_function t cs : sty (grammar Rfunction) (PList cs) -> good (ty Rfunction) (act Rfunction t cs).
Proof.
  intros S. cbn [act ty]. kids S. destruct S as ((x & -> & S1) & S2 & _).
  assert (ty_query x) as (m & -> & Q) by (destruct S1 as [S1|[S1|[S1|[S1|[]]]]]; exact S1).
  apply packed_groups_ty in S2 as (g & -> & Hg). cbn [visit_function]. rewrite (query_is_query m Q).
  cbn [assert_ bind as_mval]. destruct (apply_groupby_ty m g Q Hg) as (v2 & -> & Q2). cbn. exists v2. auto.
Qed.
Lemma act_target t cs : sty (grammar Rtarget) (PList cs) -> good (ty Rtarget) (act Rtarget t cs).
Proof.
  intros (x & E & S). inversion E; subst. cbn [act ty]. destruct S as [[]|[(m & -> & Q)|[(m & -> & Q)|[(m0 & -> & (m & -> & M))|[]]]]].
  - cbn [visit_target bind]. destruct Q as (Q & V). destruct Q; cbn; eexists; (split; [reflexivity|]); split; (exact V || constructor).
  - cbn [visit_target bind]. destruct Q as (Q & V). destruct Q; cbn; eexists; (split; [reflexivity|]); split; (exact V || constructor).
  - cbn [visit_target bind]. destruct (placeholder_ok m M) as (-> & T0). cbn. eexists. split; [reflexivity|].
    split; [constructor|constructor; exact T0].
Qed.
Lemma act_nested t cs : sty (grammar Rnested_expression) (PList cs) ->
  good (ty Rnested_expression) (act Rnested_expression t cs).
Proof.
  intros S. cbn [act ty]. kids S. destruct S as (_ & _ & (m & -> & V & Q) & _).
  destruct Q as [Q|Kp].
  - destruct Q; cbn; eexists; (split; [reflexivity|]); split; (exact V || constructor).
  - destruct V as [o L|u Nu|t0 T|].
    + destruct L; cbn; right; left; auto.
    + cbn; right; left; auto.
    + cbn. eexists. split; [reflexivity|]. split; constructor. exact T.
    + cbn. eexists. split; [reflexivity|]. split; constructor; assumption.
Qed.
Lemma formula_ty n ps a : mql_name n -> ps <> [] -> Forall parsed_value ps ->
  (a = ONone \/ exists l, a = OList l /\ Forall parsed_literal l) ->
  good ty_query (formula (PStr n) ps a).
Proof.
  intros N Np P A. cbn. eexists. split; [reflexivity|]. split; [constructor|].
  constructor; auto; left; reflexivity.
Qed.
Lemma act_aggregate t cs : sty (grammar Raggregate) (PList cs) -> good (ty Raggregate) (act Raggregate t cs).
Proof.
  intros S. cbn [act ty]. kids S. destruct S as ((n & -> & N) & S2 & _). kids S2.
  destruct S2 as (_ & _ & (t0 & -> & T) & _). cbn [visit_aggregate]. destruct (str_eqb (ts_agg t0) placeholder).
  - cbn [PStr as_obj bind]. destruct (set_aggregate_ty t0 n ONone None T N eq_refl) as (t' & -> & T'). cbn.
    eexists. split; [reflexivity|]. split; constructor. exact T'.
  - apply formula_ty; auto; try discriminate. constructor; [constructor; exact T|constructor].
Qed.
Lemma act_curried_aggregate t cs : sty (grammar Rcurried_aggregate) (PList cs) ->
  good (ty Rcurried_aggregate) (act Rcurried_aggregate t cs).
Proof.
  intros S. cbn [act ty]. kids S. destruct S as ((n & -> & N) & S2 & S3 & _).
  assert (exists l2, p0 = PList l2) as (l2 & ->) by (destruct S2 as (? & -> & _); eauto).
  destruct (agg_params_ty _ _ _ _ _ _ S2 eq_refl) as (l & E & L). kids S3.
  destruct S3 as (_ & _ & (t0 & -> & T) & _). cbn [visit_curried_aggregate]. rewrite E. cbn [PStr as_obj bind].
  destruct (set_aggregate_ty t0 n (OList l) (Some l) T N (conj eq_refl L)) as (t' & -> & T'). cbn.
  eexists. split; [reflexivity|]. split; constructor. exact T'.
Qed.
Lemma placeholder_query v t : has_placeholder v = Some t -> v = VTS t.
Proof. destruct v; try discriminate. cbn. destruct (str_eqb _ _); [|discriminate]. intros H. inversion H; reflexivity. Qed.
Lemma act_arbitrary t cs : sty (grammar Rarbitrary_function) (PList cs) ->
  good (ty Rarbitrary_function) (act Rarbitrary_function t cs).
Proof.
  intros S. cbn [act ty]. kids S. destruct S as ((n & -> & N) & S2 & _). kids S2.
  destruct S2 as (_ & S3 & (l & -> & S4) & _). kids S3. destruct S3 as (_ & (m & -> & V & _) & _).
  destruct (lasts_ty l S4) as (vs & E & W). cbn [visit_arbitrary_function]. rewrite E. cbn [bind as_mval].
  destruct (has_placeholder m); [left; reflexivity|]. apply formula_ty; auto; try discriminate.
Qed.
Lemma act_curried_arbitrary t cs : sty (grammar Rcurried_arbitrary_function) (PList cs) ->
  good (ty Rcurried_arbitrary_function) (act Rcurried_arbitrary_function t cs).
Proof.
  intros S. cbn [act ty]. kids S. destruct S as ((n & -> & N) & S2 & S5 & _).
  assert (exists l2, p0 = PList l2) as (l2 & ->) by (destruct S2 as (? & -> & _); eauto).
  destruct (agg_params_ty _ _ _ _ _ _ S2 eq_refl) as (ap & Ea & La). kids S5.
  destruct S5 as (_ & _ & S3 & (l & -> & S4) & _). kids S3. destruct S3 as (_ & (m & -> & V & _) & _).
  destruct (lasts_ty l S4) as (vs & E & W). cbn [visit_curried_arbitrary_function]. rewrite Ea. cbn [bind].
  rewrite E. cbn [bind as_mval].
  destruct (has_placeholder m) as [t0|] eqn:P.
  - apply placeholder_query in P. subst m. inversion V as [| |? T|]; subst. cbn [PStr as_obj bind].
    destruct (set_aggregate_ty t0 n (OList ap) (Some ap) T N (conj eq_refl La)) as (t' & -> & T'). cbn.
    eexists. split; [reflexivity|]. split; constructor. exact T'.
  - apply formula_ty; eauto; try discriminate.
Qed.
Lemma act_params r t cs : In r [Rparam; Rparam_expression; Raggregate_list] -> sty (grammar r) (PList cs) ->
  good (ty r) (act r t cs).
Proof.
  intros [<-|[<-|[<-|[]]]] S; cbn [act ty].
  - kids S. destruct S as ((o & -> & L) & _). rewrite (one_literal o L). cbn. exists o. auto.
  - destruct S as (x & E & S). inversion E; subst.
    assert (ty_literal x) as (o & -> & L).
    { destruct S as [(_ & f & Nf & ->)|[(_ & s & ->)|[(s & -> & _)|[]]]]; eexists; (split; [reflexivity|constructor]). exact Nf. }
    rewrite (one_literal o L). cbn. exists o. auto.
  - kids S. destruct S as ((l & -> & S1) & (o & -> & L) & _). destruct (literals_objs l S1) as (ls & -> & Ls).
    cbn. exists (ls ++ [o]). rewrite map_app. split; [reflexivity|]. apply Forall_app. auto.
Qed.
Lemma act_names r t rest cs : In r [Raggregate_name; Rcurried_aggregate_name; Rarbitrary_function_name; Rcurried_arbitrary_function_name] ->
  pre r (t ++ rest) -> unfolds 2 r t -> good (ty r) (act r t cs).
Proof.
  intros I P T. assert (exists rest', mt re_name (t ++ rest') rest') as (rest' & M).
  { destruct I as [<-|[<-|[<-|[<-|[]]]]]; exact T. }
  assert (heads is_digit (t ++ rest') = false) as H.
  { pose proof (mt_ne _ _ _ M eq_refl) as N. destruct t; [congruence|].
    destruct I as [<-|[<-|[<-|[<-|[]]]]]; exact P. }
  destruct I as [<-|[<-|[<-|[<-|[]]]]]; exists t; (split; [reflexivity|]); eapply name_text; eassumption.
Qed.
Lemma metric_mri s : any_mri s -> good ty_metric (text_metric ONone (OStr s)).
Proof.
  intros N. assert (s <> []) as Ne by (destruct N as (a & b & c & d & -> & (N0 & _) & _); destruct a; [congruence|discriminate]).
  cbn. eexists. split; [reflexivity|constructor; exact N].
Qed.
Lemma metric_public s : public_name s -> good ty_metric (text_metric (OStr s) ONone).
Proof. intros N. cbn. eexists. split; [reflexivity|constructor; exact N]. Qed.
Lemma act_metrics r t cs : In r [Rlenient_mri; Runquoted_mri; Runquoted_public_name] -> unfolds 2 r t -> good (ty r) (act r t cs).
Proof.
  intros [<-|[<-|[<-|[]]]] (rest & M); cbn [act ty].
  - apply metric_mri. eapply lenient_shape. exact M.
  - apply metric_mri. eapply unquoted_shape. exact M.
  - apply metric_public. eapply public_shape. exact M.
Qed.
Lemma act_quoted_metrics r t cs : In r [Rquoted_mri; Rquoted_public_name] -> unfolds 2 r t -> good (ty r) (act r t cs).
Proof.
  intros [<-|[<-|[]]] T; cbn [unfolds grammar texts] in T;
    destruct T as (a & b & -> & -> & a2 & b2 & -> & (rest & M) & a3 & b3 & -> & -> & ->); cbn [act ty app];
    change ($"`" ++ []) with [96%N]; change ($"`" ++ ?x) with (96%N :: x); rewrite ?app_nil_r; rewrite slice_mid.
  - apply metric_mri. eapply lenient_shape. exact M.
  - apply metric_public. eapply public_shape. exact M.
Qed.
Lemma wildcard_star s : s <> [] -> Forall pattern_char s -> wildcard (s ++ $"*").
Proof. intros N F. exists s. auto. Qed.
Lemma act_tag_values r t rest cs : In r [Rtag_value; Rsuffix_wildcard_tag_value; Rquoted_suffix_wildcard_tag_value; Rquoted_string_filter; Runquoted_string_filter] ->
  pre r (t ++ rest) -> sty (grammar r) (PList cs) -> unfolds 2 r t -> good (ty r) (act r t cs).
Proof.
  intros [<-|[<-|[<-|[<-|[<-|[]]]]]] P S T; cbn [act ty].
  - destruct S as (x & E & S). inversion E; subst. destruct S as [S|[S|[S|[S|[S|[[]|[]]]]]]]; exact S.
  - kids S. destruct S as ((s & -> & N & F) & _). right. left. exists (s ++ $"*"). split; [apply wildcard_star; assumption|reflexivity].
  - kids S. destruct S as (_ & (s & -> & N & F) & _). right. left. exists (s ++ $"*"). split; [apply wildcard_star; assumption|reflexivity].
  - left. eexists. split; [|reflexivity]. destruct T as (rest' & M). eapply quoted_no_wildcard.
    2:{ exact P. } eapply quoted_any_rest. exact M.
  - left. exists t. split; [|reflexivity]. destruct T as (rest' & M). apply unquoted_pattern in M as (_ & F).
    intros (p & -> & _). apply Forall_app in F as [_ F]. inversion F as [|? ? (H & _) _]; subst. apply H. vm_compute. tauto.
Qed.

Theorem acts_typed : acts_ok K1 K2.
Proof.
  intros r t rest cs Pre S T C. destruct r;
    try exact I;
    try (apply act_expression; [cbn; tauto|exact S]); try (apply act_ops; [cbn; tauto|exact T]);
    try (apply act_params; [cbn; tauto|exact S]); try (apply (act_names _ t rest); [cbn; tauto|exact Pre|exact T]);
    try (apply act_metrics; [cbn; tauto|exact T]); try (apply act_quoted_metrics; [cbn; tauto|exact T]);
    try (apply (act_tag_values _ t rest); [cbn; tauto|exact Pre|exact S|exact T]).
  - apply act_unary, S.
  - apply act_coefficient, S.
  - apply act_number; assumption.
  - apply act_filter, S.
  - eapply (bool_ty OR); [left; reflexivity|exact S].
  - eapply (bool_ty AND); [right; reflexivity|exact S].
  - apply act_filter_factor, S.
  - cbn [act]. kids S.

  - destruct T as (rest' & M). exact (column_ty t rest' M C).
  - apply act_string_tuple, S.
  - apply act_quoted; auto.
  - destruct T as (rest' & M). exists t. split; [reflexivity|]. eapply unquoted_pattern. exact M.
  - apply act_target, S.
  - left. reflexivity.
  - apply act_nested, S.
  - apply act_function, S.
  - apply act_aggregate, S.
  - apply act_arbitrary, S.
  - apply act_curried_aggregate, S.
  - apply act_curried_arbitrary, S.
  - apply act_group, S.
  - destruct T as (rest' & M). exact (column_ty t rest' M C).
  - apply act_group_tuple, S.
  - apply act_inner, S.
  - cbn [act ty good]. destruct S as (x & E & S). inversion E; subst. exists x. split; [reflexivity|].
    destruct S as [S|[S|[S|[S|[]]]]]; exact S.
Qed.

(** * parse_mql *)
Lemma lstrip_part f s : exists a, s = a ++ lstrip f s.
Proof.
  induction s as [|c s (a & IH)]; [exists []; reflexivity|]. cbn. destruct (f c); [|exists []; reflexivity].
  exists (c :: a). cbn. rewrite <- IH. reflexivity.
Qed.
Lemma strip_part f s : exists a b, s = a ++ strip f s ++ b.
Proof.
  unfold strip. destruct (lstrip_part f (rstrip f s)) as (a & E). destruct (lstrip_part f (rev s)) as (b & E').
  exists a, (rev b). rewrite app_assoc, <- E. unfold rstrip. rewrite <- rev_app_distr, <- E', rev_involutive. reflexivity.
Qed.
Theorem parse_typed s : chars_ok s ->
  match parse_mql s with
  | Ok v => parsed_query v
  | Raise e => e = InvalidMQLQueryError \/ (K1 /\ e = AssertionError) \/ (K2 /\ e = InvalidColumnError)
  end.
Proof.
  intros C. unfold parse_mql.
  assert (chars_ok (strip is_space s)) as C'.
  { destruct (strip_part is_space s) as (a & b & E). rewrite E in C. apply Forall_app in C as [_ C].
    apply Forall_app in C as [C _]. exact C. }
  destruct (run grammar _ _ _) as [| |nd [|c rest]] eqn:E; try (left; reflexivity).
  pose proof (good_run K1 K2 acts_typed _ _ _ _ _ E C' I) as G.
  destruct (vis nd) as [v|e]; cbn in G |- *; [|exact G].
  destruct G as (m & -> & V & Q). destruct V as [o L|u Nu|t T|n ps a f g Hn Hp Hps Ha Hf Hg].
  - destruct Q as [Q|Kp]; [inversion Q|]. right; left; auto.
  - destruct Q as [Q|Kp]; [inversion Q|]. right; left; auto.
  - split; [constructor|constructor; exact T].
  - split; [constructor|constructor; assumption].
Qed.

End Acts.
