(** Parsing the parts of a call: filters in braces, group-by lists, metrics, aggregate
    parameters (C43-C46). *)
From Verif Require Import PyBase PyFacts Regex RegexFacts Objects Exprs Translate Query Metrics SpecExpr
  ExprFacts ExprProps TextFacts SpecMetrics SpecMql Peg PegTotal Mql MqlParse MqlTokens MqlFilter MqlExpr.

Section Call.
Context {RT : PyRT}.

(** * Braces *)
Definition braces_peg : peg rule :=
  PSeq [PRef Ropen_brace; POpt (PSeq [PRef Rws; PRef Rfilter_expr; PRef Rws]); PRef Rclose_brace].
Definition packed_of (f : option obj) (p : list pv) : Prop :=
  match f with
  | None => p = []
  | Some c => exists x y, p = [PList [x; pvc c; y]] /\ is_condition_obj c = true
  end.
Lemma f_filter_expr_brace s : fails (PRef Rfilter_expr) (125%N :: s).
Proof.
  apply f_ref, f_seq, fs_here, f_ref, f_seq, fs_here, f_factor_char; try discriminate. reflexivity.
Qed.
Lemma p_braces b f rest : braces_text b f -> exists fs p,
  parses (POpt braces_peg) (b ++ rest) (PList fs) rest /\ packed_filters fs = Ok p /\ packed_of f p.
Proof.
  intros H. destruct H as [|w1 e l w2 B1 E B2].
  - do 2 eexists. split.
    + apply p_opt, p_seq. eapply pa_cons; [apply (p_chr Ropen_brace 123%N); reflexivity|].
      eapply pa_cons. { apply p_opt_none, f_seq. eapply fs_later; [apply p_ws0; reflexivity|].
        apply fs_here, f_filter_expr_brace. }
      eapply pa_cons; [apply (p_chr Rclose_brace 125%N); reflexivity|apply pa_nil].
    + split; reflexivity.
  - destruct (expr_reads_parse e l E) as (S & N & C & P).
    do 2 eexists. split.
    + rewrite <- !app_assoc. apply p_opt, p_seq.
      eapply pa_cons; [apply (p_chr Ropen_brace 123%N); reflexivity|].
      eapply pa_cons.
      { apply p_opt, p_seq. eapply pa_cons; [apply p_blank; [exact B1|apply starts_space, S]|].
        eapply pa_cons; [apply P; [apply apart_close|apply ends_close]; (exact B2 || right; reflexivity)|].
        eapply pa_cons; [apply p_blank; [exact B2|reflexivity]|apply pa_nil]. }
      eapply pa_cons; [apply (p_chr Rclose_brace 125%N); reflexivity|apply pa_nil].
    + split; [reflexivity|]. cbn. eauto.
Qed.
Lemma p_no_braces rest : heads (N.eqb 123) rest = false ->
  parses (POpt braces_peg) rest (PList []) rest.
Proof. intros H. apply p_opt_none, f_seq, fs_here, (f_chr _ 123%N); [reflexivity|exact H]. Qed.

(** * Group-by *)
Lemma p_group_name k s : mql_key k -> heads key_b s = false ->
  parses (PRef Rgroup_by_name) (k ++ s) (PVal (VObj (tag k))) s.
Proof.
  intros K H. destruct (mql_key_all k K) as (N & A). eapply p_ref; [reflexivity| |].
  - cbn [grammar]. apply p_plus; [exact N|exact A|exact H].
  - rewrite cut_app. cbn [act]. apply column_ok, K.
Qed.
Lemma blank_heads f w s : white w -> (forall c, space_char c -> f c = false) ->
  heads f s = false -> heads f (w ++ s) = false.
Proof. intros B F H. destruct w as [|c w]; [exact H|]. inversion B; subst. cbn. auto. Qed.
Lemma key_blank c : space_char c -> key_b c = false.
Proof. intros H. apply space_num in H. destruct (key_b c) eqn:E; [|reflexivity]. apply key_b_iff, key_range in E. lia. Qed.
Definition more_keys : peg rule :=
  PSeq [PRef Rws; PRef Rcomma; PRef Rws; PRef Rgroup_by_name].
Definition key_pv (o : obj) : pv := PVal (VObj o).
Definition more_key_pv (o : obj) : pv := PList [PList []; PList []; PList []; key_pv o].
Lemma key_space k s : mql_key k -> heads mql_space (k ++ s) = false.
Proof.
  intros (c & t & -> & W & _). cbn [app heads]. apply space_low.
  apply word_start_range in W. lia.
Qed.
Lemma p_keys t l : keys_text t l -> forall w rest, white w ->
  exists k ks rs, l = tag k :: ks /\ t = k ++ rs /\ mql_key k
  /\ heads key_b (rs ++ w ++ 41%N :: rest) = false
  /\ parses_many more_keys (rs ++ w ++ 41%N :: rest) (map more_key_pv ks) (w ++ 41%N :: rest).
Proof.
  intros H w rest B. induction H as [k K|k w1 w2 t l K B1 B2 H IH].
  - exists k, [], []. split; [reflexivity|]. split; [symmetry; apply app_nil_r|]. split; [exact K|].
    split; [cbn [app]; apply blank_heads; [exact B|apply key_blank|reflexivity]|].
    apply pm_stop, f_seq. eapply fs_later; [apply p_blank; [exact B|reflexivity]|].
    apply fs_here, (f_chr _ 44%N); reflexivity.
  - destruct IH as (k0 & ks & rs & -> & -> & K0 & Hd & P).
    exists k, (tag k0 :: ks), (w1 ++ $"," ++ w2 ++ k0 ++ rs).
    split; [reflexivity|]. split; [reflexivity|]. split; [exact K|]. rewrite <- !app_assoc.
    split; [apply blank_heads; [exact B1|apply key_blank|reflexivity]|].
    eapply pm_next; [| |exact P].
    + apply p_seq. eapply pa_cons; [apply p_blank; [exact B1|reflexivity]|].
      eapply pa_cons; [apply (p_chr Rcomma 44%N); reflexivity|].
      eapply pa_cons; [apply p_blank; [exact B2|apply key_space, K0]|].
      eapply pa_cons; [apply p_group_name; [exact K0|exact Hd]|apply pa_nil].
    + rewrite !app_length. cbn. lia.
Qed.
Lemma fourths_keys ks : fourths (map more_key_pv ks) = Ok (map key_pv ks).
Proof. induction ks as [|s ss IH]; [reflexivity|]. cbn. rewrite IH. reflexivity. Qed.
Lemma mapM_keys ks : mapM as_obj (map key_pv ks) = Ok ks.
Proof. induction ks as [|s ss IH]; [reflexivity|]. cbn. rewrite IH. reflexivity. Qed.
Lemma keys_tags t l : keys_text t l -> Forall plain_tag l /\ l <> [].
Proof.
  induction 1 as [k K|k w1 w2 t l K B1 B2 H (IH & _)]; (split; [|discriminate]); constructor; auto.
  - exists k. auto.
  - exists k. auto.
Qed.
Lemma p_by w1 s x rest : white w1 -> heads mql_space s = false ->
  forall w2, white w2 ->
  parses (PAlt [PRef Rgroup_by_name; PRef Rgroup_by_name_tuple]) s (PList [x]) rest ->
  parses (PRef Rgroup_by) (w1 ++ $"by" ++ w2 ++ s) x rest.
Proof.
  intros B1 H w2 B2 P. eapply p_ref; [reflexivity| |].
  - cbn [grammar]. apply p_seq. eapply pa_cons; [apply p_blank; [exact B1|reflexivity]|].
    eapply pa_cons; [apply (p_lit ($"by"))|].
    eapply pa_cons; [apply p_blank; [exact B2|exact H]|].
    eapply pa_cons; [exact P|apply pa_nil].
  - reflexivity.
Qed.
Lemma p_group g l rest : group_text g l -> heads key_b rest = false ->
  exists x, parses (PRef Rgroup_by) (g ++ rest) x rest /\ groupby_list x = Ok l.
Proof.
  intros H Hd. destruct H as [w1 w2 k B1 _ B2 K|w1 w2 w3 t l w4 B1 _ B2 B3 T B4].
  - eexists. split.
    + rewrite <- !app_assoc. apply p_by; [exact B1|apply key_space, K|exact B2|].
      apply p_alt, pl_here, p_group_name; [exact K|exact Hd].
    + reflexivity.
  - destruct (p_keys t l T w4 rest B4) as (k & ks & rs & -> & -> & K & Hk & P).
    eexists. split.
    + rewrite <- !app_assoc. apply p_by; [exact B1|reflexivity|exact B2|].
      apply p_alt, pl_next; [apply f_ref, f_plus; reflexivity|apply pl_here].
      eapply p_ref; [reflexivity| |].
      * cbn [grammar]. apply p_seq. eapply pa_cons; [apply (p_chr Ropen_paren 40%N); reflexivity|].
        eapply pa_cons; [apply p_blank; [exact B3|apply key_space, K]|].
        eapply pa_cons; [apply p_group_name; [exact K|exact Hk]|].
        eapply pa_cons; [apply p_star, P|].
        eapply pa_cons; [apply p_blank; [exact B4|reflexivity]|].
        eapply pa_cons; [apply (p_chr Rclose_paren 41%N); reflexivity|apply pa_nil].
      * cbn [act]. rewrite fourths_keys. reflexivity.
    + cbn [groupby_list]. change (PVal (VObj (tag k)) :: map key_pv ks) with (map key_pv (tag k :: ks)).
      apply mapM_keys.
Qed.
Lemma group_tags g l : group_text g l -> Forall plain_tag l /\ l <> [].
Proof.
  intros H. destruct H as [w1 w2 k B1 _ B2 K|w1 w2 w3 t l w4 B1 _ B2 B3 T B4].
  - split; [|discriminate]. constructor; [exists k; auto|constructor].
  - eapply keys_tags, T.
Qed.
Definition no_by (rest : str) : Prop := heads (N.eqb 98) (skip mql_space rest) = false.
Lemma f_group rest : no_by rest -> fails (PRef Rgroup_by) rest.
Proof.
  intros H. apply f_ref, f_seq. eapply fs_later; [apply p_ws_skip|]. apply fs_here, f_lit.
  unfold no_by in H. destruct (skip mql_space rest) as [|c t]; [reflexivity|].
  cbn [heads] in H. change (prefixb ($"by") (c :: t)) with (N.eqb 98 c && prefixb ($"y") t)%bool.
  rewrite H. reflexivity.
Qed.
Definition groups_of (l : option (list obj)) (p : list pv) : Prop :=
  match l with
  | None => p = []
  | Some l' => exists x, p = [x] /\ groupby_list x = Ok l' /\ Forall plain_tag l'
  end.
Lemma p_opt_group g l rest : opt_group_text g l -> heads key_b rest = false -> no_by rest ->
  exists p, parses (POpt (PRef Rgroup_by)) (g ++ rest) (PList p) rest /\ groups_of l p.
Proof.
  intros H Hk N. destruct H as [|g l H].
  - exists []. split; [apply p_opt_none, f_group, N|reflexivity].
  - destruct (p_group g l rest H Hk) as (x & P & L). exists [x].
    split; [apply p_opt, P|]. exists x. split; [reflexivity|]. split; [exact L|].
    apply (group_tags g l H).
Qed.

(** * Metrics *)
Lemma plus_char_ok f c r a t k x : a <> [] -> forallb f a = true -> f c = false ->
  mtch r t k = Some x ->
  mtch (RSeq (RPlus (RClass f)) (RSeq (RChar c) r)) (a ++ c :: t) k = Some x.
Proof.
  intros N A C M. destruct a as [|d a]; [congruence|]. cbn in A. apply andb_true_iff in A.
  destruct A as (D & A). cbn [app].
  change (mtch (RSeq (RPlus (RClass f)) (RSeq (RChar c) r)) (d :: a ++ c :: t) k)
    with (mtch (RPlus (RClass f)) (d :: a ++ c :: t) (fun s' => mtch (RSeq (RChar c) r) s' k)).
  apply mtch_plus_class; [exact D|].
  change (snd (span f (a ++ c :: t))) with (skip f (a ++ c :: t)).
  rewrite skip_stop; [|exact A|cbn; exact C]. cbn [mtch RChar]. rewrite N.eqb_refl. exact M.
Qed.
Lemma plus_char_fail f c r s k : f c = false -> heads (N.eqb c) (skip f s) = false ->
  mtch (RSeq (RPlus (RClass f)) (RSeq (RChar c) r)) s k = None.
Proof.
  intros C H. apply mtch_none. intros s' M. exfalso. apply mt_seq_iff in M. destruct M as (m & M1 & M2).
  apply mt_plus_class_iff in M1. destruct M1 as (p & _ & -> & P).
  apply mt_seq_iff in M2. destruct M2 as (m' & M2 & _). apply mt_char_iff in M2. subst m.
  rewrite skip_stop in H; [|exact P|cbn; exact C]. cbn [heads] in H. rewrite N.eqb_refl in H. discriminate.
Qed.
Lemma plus_end_ok f a t : a <> [] -> forallb f a = true -> heads f t = false ->
  mtch (RPlus (RClass f)) (a ++ t) Some = Some t.
Proof.
  intros N A H. change (re_match (RPlus (RClass f)) (a ++ t) = Some t). rewrite re_plus.
  destruct a as [|d a]; [congruence|]. cbn in A. apply andb_true_iff in A. destruct A as (D & A).
  cbn [app heads]. rewrite D. f_equal. apply (skip_stop f (d :: a) t); [|exact H].
  cbn. rewrite D. exact A.
Qed.

Lemma one_of_false chars c : ~ In c (lit chars) -> one_of chars c = false.
Proof. intros H. destruct (one_of chars c) eqn:E; [|reflexivity]. apply one_of_iff in E. contradiction. Qed.
Definition mri1 (c : N) : bool := negb (N.eqb c 58) && mri_char c.
Lemma part_class (stop : string) (f : N -> bool) a : mri_part stop a -> ~ In 34%N a ->
  (forall c, ~ In c (lit stop) -> c <> 34%N -> f c = true) -> a <> [] /\ forallb f a = true.
Proof.
  intros (N & F) D H. split; [exact N|]. apply forallb_forall. intros c I. rewrite Forall_forall in F.
  apply H; [apply F, I|]. intros ->. contradiction.
Qed.
Lemma class_mri (stop : string) c : (forall x, In x ($"(){}[]`,") -> In x (lit stop)) ->
  ~ In c (lit stop) -> c <> 34%N -> mri_char c = true.
Proof.
  intros S H D. unfold mri_char. rewrite one_of_false by (intros I; apply H, S, I).
  replace (N.eqb c DQ) with false by (symmetry; apply N.eqb_neq; exact D). reflexivity.
Qed.
Ltac in_lits := let x := fresh in let H := fresh in intros x H; cbn in H |- *; tauto.
Lemma in_str_app (x : N) a b : ~ In x (a ++ b) -> ~ In x a /\ ~ In x b.
Proof. intros H. split; intros I; apply H, in_or_app; auto. Qed.
Lemma unquoted_mri_ok s rest : mri_text s -> heads mri_char rest = false ->
  re_match re_unquoted_mri (s ++ rest) = Some rest.
Proof.
  intros (a & b & c & d & -> & A & B & C & D & Q & _) H.
  apply in_str_app in Q. destruct Q as (Qa & Q). apply in_str_app in Q. destruct Q as (_ & Q).
  apply in_str_app in Q. destruct Q as (Qb & Q). apply in_str_app in Q. destruct Q as (_ & Q).
  apply in_str_app in Q. destruct Q as (Qc & Q). apply in_str_app in Q. destruct Q as (_ & Qd).
  rewrite <- !app_assoc. cbn [app lit]. unfold re_match, re_unquoted_mri.
  assert (forall (stop : string) x y, In x (lit stop) -> ~ In y (lit stop) -> N.eqb y x = false) as NE.
  { intros stop x y I J. apply N.eqb_neq. intros ->. contradiction. }
  destruct (part_class _ mri1 a A Qa) as (Na & Fa).
  { intros y I J. unfold mri1. rewrite (NE _ 58%N y) with (2 := I) by (cbn; auto).
    apply (class_mri ":(){}[]`,"); [in_lits|exact I|exact J]. }
  destruct (part_class _ (fun c => negb (N.eqb c 47) && mri_char c) b B Qb) as (Nb & Fb).
  { intros y I J. rewrite (NE _ 47%N y) with (2 := I) by (cbn; auto).
    apply (class_mri "/(){}[]`,"); [in_lits|exact I|exact J]. }
  destruct (part_class _ (fun c => negb (N.eqb c 64) && mri_char c) c C Qc) as (Nc & Fc).
  { intros y I J. rewrite (NE _ 64%N y) with (2 := I) by (cbn; auto).
    apply (class_mri "@(){}[]`,"); [in_lits|exact I|exact J]. }
  destruct (part_class _ mri_char d D Qd) as (Nd & Fd).
  { intros y I J. apply (class_mri "(){}[]`,"); [in_lits|exact I|exact J]. }
  apply plus_char_ok; [exact Na|exact Fa|reflexivity|].
  apply plus_char_ok; [exact Nb|exact Fb|reflexivity|].
  apply plus_char_ok; [exact Nc|exact Fc|reflexivity|].
  apply plus_end_ok; [exact Nd|exact Fd|exact H].
Qed.
Lemma lenient_mri_ok s rest : mri_text s ->
  re_match re_lenient_mri (s ++ 96%N :: rest) = Some (96%N :: rest).
Proof.
  intros (a & b & c & d & -> & A & B & C & D & _).
  rewrite <- !app_assoc. cbn [app lit]. unfold re_match, re_lenient_mri.
  assert (forall (stop stop' : string) l, mri_part stop l -> (forall x, In x (lit stop') -> In x (lit stop)) ->
    l <> [] /\ forallb (fun c => negb (one_of stop' c)) l = true) as K.
  { intros stop stop' l (N & F) S. split; [exact N|]. apply forallb_forall. intros x I.
    rewrite Forall_forall in F. rewrite one_of_false; [reflexivity|]. intros J. apply (F x I), S, J. }
  destruct (K _ ":`"%string a A) as (Na & Fa); [in_lits|].
  destruct (K _ "/`"%string b B) as (Nb & Fb); [in_lits|].
  destruct (K _ "@,`"%string c C) as (Nc & Fc); [in_lits|].
  destruct (K _ "`"%string d D) as (Nd & Fd); [in_lits|].
  apply plus_char_ok; [exact Na|exact Fa|reflexivity|].
  apply plus_char_ok; [exact Nb|exact Fb|reflexivity|].
  apply plus_char_ok; [exact Nc|exact Fc|reflexivity|].
  apply plus_end_ok; [exact Nd|exact Fd|reflexivity].
Qed.

(** public names *)
Lemma public_iff c : public_char c = true <-> (97 <= c <= 122 \/ c = 95)%N.
Proof.
  unfold public_char, is_lower, in_range. rewrite orb_true_iff, andb_true_iff, !N.leb_le, N.eqb_eq. reflexivity.
Qed.
Definition dotted (ws : list str) : str := flat_map (fun w => 46%N :: w) ws.
Lemma join_dotted w ws : join ($".") (w :: ws) = w ++ dotted ws.
Proof.
  revert w. induction ws as [|v ws IH]; intros w; [symmetry; apply app_nil_r|].
  change (join ($".") (w :: v :: ws)) with (w ++ $"." ++ join ($".") (v :: ws)). rewrite IH. reflexivity.
Qed.
Definition public_word (w : str) : Prop := w <> [] /\ forallb public_char w = true.
Lemma public_words s : public_name s -> exists w ws, s = w ++ dotted ws /\ public_word w /\ Forall public_word ws.
Proof.
  intros (ws & N & -> & F). destruct ws as [|w ws]; [congruence|]. exists w, ws.
  split; [apply join_dotted|].
  assert (Forall public_word (w :: ws)) as G.
  { eapply Forall_impl; [|exact F]. intros v (Nv & Fv). split; [exact Nv|]. apply forallb_forall.
    intros c I. apply public_iff. rewrite Forall_forall in Fv. auto. }
  inversion G; auto.
Qed.
Definition public_end (rest : str) : Prop := heads public_char rest = false /\ heads (N.eqb 46) rest = false.
Lemma dotted_heads ws rest : public_end rest -> heads public_char (dotted ws ++ rest) = false.
Proof. intros (H & _). destruct ws; [exact H|reflexivity]. Qed.
Lemma public_star ws : Forall public_word ws -> forall rest n, public_end rest ->
  List.length (dotted ws ++ rest) <= n ->
  star_loop (RSeq (RChar 46) (RPlus (RClass public_char))) Some n (dotted ws ++ rest) = Some rest.
Proof.
  induction 1 as [|w ws (Nw & Fw) _ IH]; intros rest n E L.
  - cbn [dotted flat_map app]. destruct n as [|n]; [reflexivity|]. rewrite star_loop_S.
    destruct E as (_ & E). destruct rest as [|c rest]; [reflexivity|]. cbn [mtch RChar].
    cbn [heads] in E. rewrite E. reflexivity.
  - change (dotted (w :: ws)) with ((46%N :: w) ++ dotted ws) in *. rewrite <- app_assoc in *.
    destruct n as [|n]; [cbn in L; lia|]. rewrite star_loop_S.
    destruct w as [|c w]; [congruence|]. cbn in Fw. apply andb_true_iff in Fw. destruct Fw as (Fc & Fw).
    assert (mtch (RSeq (RChar 46) (RPlus (RClass public_char))) ((46%N :: c :: w) ++ dotted ws ++ rest)
      (fun s' => if Nat.ltb (List.length s') (List.length ((46%N :: c :: w) ++ dotted ws ++ rest))
                 then star_loop (RSeq (RChar 46) (RPlus (RClass public_char))) Some n s' else None) = Some rest) as ->;
      [|reflexivity].
    cbn [app]. change (mtch (RSeq (RChar 46) (RPlus (RClass public_char))) (46%N :: c :: w ++ dotted ws ++ rest))
      with (mtch (RPlus (RClass public_char)) (c :: w ++ dotted ws ++ rest)).
    apply mtch_plus_class; [exact Fc|].
    change (snd (span public_char (w ++ dotted ws ++ rest))) with (skip public_char (w ++ dotted ws ++ rest)).
    rewrite skip_stop; [|exact Fw|apply dotted_heads, E].
    replace (Nat.ltb (List.length (dotted ws ++ rest)) _) with true.
    + apply IH; [exact E|]. cbn in L. rewrite !app_length in *. lia.
    + symmetry. apply Nat.ltb_lt. cbn. rewrite !app_length. lia.
Qed.
Lemma public_ok s rest : public_name s -> public_end rest -> re_match re_public (s ++ rest) = Some rest.
Proof.
  intros P E. destruct (public_words s P) as (w & ws & -> & (Nw & Fw) & F). rewrite <- app_assoc.
  unfold re_match, re_public. destruct w as [|c w]; [congruence|]. cbn in Fw. apply andb_true_iff in Fw.
  destruct Fw as (Fc & Fw). cbn [app].
  change (mtch (RSeq (RPlus (RClass public_char)) (RStar (RSeq (RChar 46) (RPlus (RClass public_char)))))
            (c :: w ++ dotted ws ++ rest) Some)
    with (mtch (RPlus (RClass public_char)) (c :: w ++ dotted ws ++ rest)
            (fun s' => mtch (RStar (RSeq (RChar 46) (RPlus (RClass public_char)))) s' Some)).
  apply mtch_plus_class; [exact Fc|].
  change (snd (span public_char (w ++ dotted ws ++ rest))) with (skip public_char (w ++ dotted ws ++ rest)).
  rewrite skip_stop; [|exact Fw|apply dotted_heads, E].
  rewrite mtch_star. apply public_star; [exact F|exact E|apply Nat.le_refl].
Qed.
Lemma public_class (f : N -> bool) s : (forall c, (97 <= c <= 122 \/ c = 95 \/ c = 46)%N -> f c = true) ->
  public_name s -> forallb f s = true /\ s <> [].
Proof.
  intros K P. destruct (public_words s P) as (w & ws & -> & (Nw & Fw) & F).
  assert (forall v, forallb public_char v = true -> forallb f v = true) as L.
  { intros v H. apply forallb_forall. intros c I. rewrite forallb_forall in H. apply K.
    specialize (H c I). apply public_iff in H. lia. }
  split.
  - clear P. rewrite forallb_app. rewrite L by exact Fw. cbn [andb].
    induction F as [|v vs (Nv & Fv) _ IH]; [reflexivity|]. unfold dotted in *. cbn [flat_map].
    rewrite forallb_app. cbn [forallb]. rewrite K by auto. rewrite L by exact Fv. exact IH.
  - destruct w; [congruence|discriminate].
Qed.
Lemma mri1_low c : (97 <= c <= 122 \/ c = 95 \/ c = 46)%N -> mri1 c = true.
Proof.
  intros H. unfold mri1, mri_char. rewrite one_of_false by (cbn; lia).
  replace (N.eqb c 58) with false by (symmetry; apply N.eqb_neq; lia).
  replace (N.eqb c DQ) with false by (symmetry; apply N.eqb_neq; unfold DQ; lia). reflexivity.
Qed.
Definition no_mri (rest : str) : Prop := heads (N.eqb 58) (skip mri1 rest) = false.
Lemma f_unquoted_mri s : no_mri s -> fails (PRef Runquoted_mri) s.
Proof. intros H. apply f_ref, f_re. apply plus_char_fail; [reflexivity|exact H]. Qed.
Lemma f_backtick r l s : grammar r = PSeq (PRef Rbacktick :: l) -> heads (N.eqb 96) s = false ->
  fails (PRef r) s.
Proof. intros G H. apply f_ref. rewrite G. apply f_seq, fs_here, (f_chr _ 96%N); [reflexivity|exact H]. Qed.

Lemma metric_mri s : text_metric ONone (OStr s) = Ok (PVal (VMetric (mkMetric None (Some s) None))).
Proof. reflexivity. Qed.
Lemma slice_ticks s : slice_1_m1 (96%N :: s ++ [96%N]) = s.
Proof. unfold slice_1_m1. cbn [tl]. apply removelast_last. Qed.
Definition metric_end (rest : str) : Prop := public_end rest /\ no_mri rest.
Lemma metric_end_mri rest : heads mri_char rest = false -> metric_end rest.
Proof.
  intros H. destruct rest as [|c t]; [repeat split|]. cbn [heads] in H.
  assert (forall x, mri_char x = true -> N.eqb x c = false) as K.
  { intros x X. apply N.eqb_neq. intros ->. congruence. }
  split; [split|].
  - cbn [heads]. destruct (public_char c) eqn:E; [|reflexivity]. apply public_iff in E.
    assert (mri1 c = true) as M by (apply mri1_low; lia). unfold mri1 in M. rewrite H, andb_false_r in M. discriminate.
  - cbn [heads]. apply K. reflexivity.
  - unfold no_mri. rewrite skip_none; [cbn [heads]; apply K; reflexivity|]. cbn [heads]. unfold mri1.
    rewrite H. apply andb_false_r.
Qed.
Lemma mri_heads s rest : mri_text s -> exists c, ~ In c ($"(){}[]`,") /\ mql_space c = false
   /\ forall f, heads f (s ++ rest) = f c.
Proof.
  intros (a & b & c & d & -> & A & B & C & D & Q & (x & t & -> & S1 & S2)).
  exists x. split.
  - destruct A as (_ & A). inversion A as [|? ? X _]; subst. intros I. apply X. cbn in I |- *. tauto.
  - split; [|reflexivity]. destruct (mql_space x) eqn:E; [|reflexivity]. exfalso.
    unfold mql_space in E. apply orb_true_iff in E. destruct E as [E|E].
    + apply orb_true_iff in E. unfold in_range in E.
      destruct E as [E|E]; [apply andb_true_iff in E; destruct E as (E1 & E2); apply N.leb_le in E1, E2|apply N.eqb_eq in E]; lia.
    + apply andb_true_iff in E. destruct E as (E & U). apply S2. split; [|exact U].
      apply orb_true_iff in E. unfold in_range in E. destruct E as [E|E].
      * apply andb_true_iff in E; destruct E as (E1 & E2); apply N.leb_le in E1, E2. lia.
      * apply negb_true_iff, N.ltb_ge in E. lia.
Qed.
Definition metric_pv (m : metric) : pv := PList [PVal (VMetric m)].
Lemma p_metric_closed s m rest : closed_metric_text s m -> metric_end rest ->
  parses (PRef Rmetric) (s ++ rest) (metric_pv m) rest.
Proof.
  intros H (E & M). destruct H as [s T|s P|s P].
  - eapply p_ref; [reflexivity| |reflexivity]. cbn [grammar]. apply p_alt, pl_here.
    rewrite <- !app_assoc. eapply p_ref; [reflexivity| |].
    + cbn [grammar]. apply p_seq. eapply pa_cons; [apply (p_chr Rbacktick 96%N); reflexivity|].
      eapply pa_cons. { eapply p_ref; [reflexivity|cbn [grammar]; apply p_re, lenient_mri_ok, T|].
        rewrite cut_app. apply metric_mri. }
      eapply pa_cons; [apply (p_chr Rbacktick 96%N); reflexivity|apply pa_nil].
    + rewrite (cut_eq _ (96%N :: s ++ [96%N])).
      * cbn [act]. rewrite slice_ticks. apply metric_mri.
      * cbn. rewrite <- app_assoc. reflexivity.
  - destruct (public_class mri1 s mri1_low P) as (F & N).
    eapply p_ref; [reflexivity| |reflexivity]. cbn [grammar]. apply p_alt, pl_next.
    + rewrite <- !app_assoc. apply f_ref, f_seq. eapply fs_later; [apply (p_chr Rbacktick 96%N); reflexivity|].
      apply fs_here, f_ref, f_re. apply plus_char_fail; [reflexivity|].
      destruct (public_class (fun c => negb (one_of ":`" c)) s) as (F' & _); [|exact P|].
      { intros c H. rewrite one_of_false by (cbn; lia). reflexivity. }
      cbn [lit app]. rewrite skip_stop; [reflexivity|exact F'|reflexivity].
    + apply pl_next; [apply f_unquoted_mri; reflexivity|]. apply pl_here.
      rewrite <- !app_assoc. eapply p_ref; [reflexivity| |].
      * cbn [grammar]. apply p_seq. eapply pa_cons; [apply (p_chr Rbacktick 96%N); reflexivity|].
        eapply pa_cons. { eapply p_ref; [reflexivity|cbn [grammar]; apply p_re, public_ok; [exact P|split; reflexivity]|].
          reflexivity. }
        eapply pa_cons; [apply (p_chr Rbacktick 96%N); reflexivity|apply pa_nil].
      * rewrite (cut_eq _ (96%N :: s ++ [96%N])).
        -- cbn [act]. rewrite slice_ticks. reflexivity.
        -- cbn. rewrite <- app_assoc. reflexivity.
  - destruct (public_class mri1 s mri1_low P) as (F & N).
    assert (heads (N.eqb 96) (s ++ rest) = false) as T.
    { rewrite heads_app_ne by exact N. destruct s as [|c s]; [congruence|]. cbn [heads].
      apply N.eqb_neq. intros <-. cbn in F. discriminate. }
    eapply p_ref; [reflexivity| |reflexivity]. cbn [grammar]. apply p_alt.
    apply pl_next; [eapply f_backtick; [reflexivity|exact T]|].
    apply pl_next; [apply f_unquoted_mri; unfold no_mri; rewrite skip_app by exact F; exact M|].
    apply pl_next; [eapply f_backtick; [reflexivity|exact T]|].
    apply pl_here. eapply p_ref; [reflexivity|cbn [grammar]; apply p_re, public_ok; [exact P|exact E]|].
    rewrite cut_app. reflexivity.
Qed.
Lemma p_metric s m rest : metric_text s m -> heads mri_char rest = false ->
  parses (PRef Rmetric) (s ++ rest) (metric_pv m) rest.
Proof.
  intros H E. destruct H as [s m H|s H].
  - apply p_metric_closed; [exact H|apply metric_end_mri, E].
  - destruct (mri_heads s rest H) as (c & I & _ & Hd).
    eapply p_ref; [reflexivity| |reflexivity]. cbn [grammar]. apply p_alt.
    apply pl_next. { eapply f_backtick; [reflexivity|]. rewrite Hd. apply N.eqb_neq. intros <-. apply I. cbn. tauto. }
    apply pl_here. eapply p_ref; [reflexivity|cbn [grammar]; apply p_re, unquoted_mri_ok; [exact H|exact E]|].
    rewrite cut_app. reflexivity.
Qed.
Lemma closed_heads s m rest : closed_metric_text s m -> heads mql_space (s ++ rest) = false.
Proof.
  intros H. destruct H as [s T|s P|s P]; try reflexivity.
  destruct (public_class (fun c => negb (mql_space c)) s) as (F & N); [|exact P|].
  - intros c H. rewrite space_low by lia. reflexivity.
  - rewrite heads_app_ne by exact N. destruct s as [|c s]; [congruence|]. cbn in F |- *.
    apply andb_true_iff in F. destruct F as (F & _). apply negb_true_iff, F.
Qed.
Lemma metric_heads s m rest : metric_text s m -> heads mql_space (s ++ rest) = false.
Proof.
  intros H. destruct H as [s m H|s H]; [eapply closed_heads, H|].
  destruct (mri_heads s rest H) as (c & _ & S & Hd). rewrite Hd. exact S.
Qed.
End Call.
