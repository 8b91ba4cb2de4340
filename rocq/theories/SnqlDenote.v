(** C63: what the printer writes is the text of the tree the object stands for. *)
From Verif Require Import PyBase PyFacts Regex Utf8 DateTime Objects Exprs Translate Optimizer Query SpecExpr ExprFacts SpecText
  TextFacts SpecTime TimeProps SampleFacts SpecOccurs SpecQuery SpecSetters SpecRefs WfFacts LiteralFacts TextProps PrintProps TameFacts
  DateFacts IsoFacts SpecSnql SnqlFacts.

Section D.
Context {RT : PyRT}.

Definition named (o : obj) : Prop := forall x, occurs x o -> snql_names x.
Lemma named_sub o x : named o -> (forall y, occurs y x -> occurs y o) -> named x.
Proof. intros A H y O. apply A, H, O. Qed.

(** ** words *)
Lemma quiet_ascii c : ascii_word c -> quiet c.
Proof. unfold ascii_word, ascii_letter, ascii_digit, quiet. cbn. intros H X. lia. Qed.
Lemma quiet_word_char c : word_char c -> quiet c.
Proof. intros [[_ H]|[H _]]; [apply quiet_ascii, H|]. unfold quiet. cbn. lia. Qed.
Lemma word_nl s : opt_newline s -> word_text s.
Proof. intros [->| ->]; repeat constructor. intros X. cbn in X. lia. Qed.
Lemma word_app a b : word_text a -> word_text b -> word_text (a ++ b).
Proof. intros A B. apply Forall_app. auto. Qed.
Lemma column_prefix_word p n : word_text p -> column_name n -> a_word (p ++ n).
Proof.
  intros P (first & body & sub & nl & -> & Hf & Hb & Hs & Hn).
  assert (B : word_text (p ++ [first] ++ body)).
  { apply word_app; [exact P|]. apply word_app.
    - constructor; [|constructor]. destruct Hf as [Hf| ->]; [apply quiet_ascii; left; exact Hf|intros X; cbn in X; lia].
    - eapply Forall_impl; [|exact Hb]. intros c [H|H]; [apply quiet_word_char, H|]. cbn in H. cbn. lia. }
  assert (N : p ++ [first] ++ body <> []) by (destruct p; discriminate).
  destruct Hs as [->|(key & -> & K1 & K2)].
  - left. split; [destruct p; discriminate|]. cbn [app]. change (first :: body ++ nl) with ([first] ++ body ++ nl).
    rewrite (app_assoc [first]), app_assoc. apply word_app; [exact B|apply word_nl, Hn].
  - right. exists (p ++ [first] ++ body), key, nl. split; [rewrite <- !app_assoc; reflexivity|]. repeat split; auto using word_nl.
Qed.
Lemma dec_word n : word_text (dec_of_N n).
Proof.
  pose proof (dec_of_N_digits n) as D. unfold is_dec in D. eapply Forall_impl; [|exact D].
  intros c H. apply is_digit_range in H. cbn. lia.
Qed.
Lemma decZ_word z : a_word (dec_of_Z z).
Proof.
  left. destruct (dec_of_Z_cases z) as [(n & -> & _)|(p & -> & _)].
  - split; [apply dec_of_N_nonempty|apply dec_word].
  - split; [discriminate|]. constructor; [cbn; lia|apply dec_word].
Qed.
Lemma lit_word (s : str) : s <> [] -> forallb (fun c => negb (existsb (N.eqb c) [39; 96; 91; 93; 40; 41; 32; 44]%N)) s = true -> a_word s.
Proof.
  intros N H. left. split; [exact N|]. apply Forall_forall. intros c I X. rewrite forallb_forall in H. specialize (H c I).
  apply negb_true_iff in H. enough (existsb (N.eqb c) [39; 96; 91; 93; 40; 41; 32; 44]%N = true) by congruence.
  apply existsb_exists. exists c. split; [exact X|apply N.eqb_refl].
Qed.
Lemma wf_column_word al c : wf_column c -> named (OColumn c) -> column_word al c (tr_column al c) /\ a_word (tr_column al c).
Proof.
  intros (N & _ & W) A. unfold column_word, tr_column. destruct (c_entity c) as [e|] eqn:E.
  - destruct al; [|split; [reflexivity|apply (column_prefix_word []); [constructor|exact N]]].
    destruct (W e eq_refl) as (_ & NA & _). destruct (e_alias e) as [a|] eqn:EA; [|congruence]. split.
    + exists a. split; [reflexivity|]. rewrite <- app_assoc. reflexivity.
    + apply column_prefix_word; [|exact N]. apply word_app; [|repeat constructor; intros X; cbn in X; lia].
      exact (proj1 (A (OEntity e) (oc_entity _ _ _ E (oc_self _)) a EA)).
  - destruct al; (split; [reflexivity|apply (column_prefix_word []); [constructor|exact N]]).
Qed.
Lemma alias_name_bq a : alias_name a -> no_backquote a.
Proof.
  intros (_ & body & nl & -> & B & N) I. apply in_app_or in I as [I|I].
  - rewrite Forall_forall in B. destruct (B _ I) as [H|H]; [unfold ascii_word, ascii_letter, ascii_digit in H; lia|cbn in H; lia].
  - destruct N as [->| ->]; [destruct I|cbn in I; lia].
Qed.
Lemma identifier_bq a : identifier_name a -> no_backquote a.
Proof.
  intros (f & body & nl & -> & F & B & N) I. cbn [app] in I. destruct I as [I|I].
  - subst f. unfold ascii_letter in F. lia.
  - apply in_app_or in I as [I|I].
    + rewrite Forall_forall in B. specialize (B _ I). unfold ascii_word, ascii_letter, ascii_digit in B. lia.
    + destruct N as [->| ->]; [destruct I|cbn in I; lia].
Qed.
Lemma wf_alias_bq a : wf_alias a -> forall s, a = Some s -> no_backquote s.
Proof. intros W s E. apply alias_name_bq, (W s E). Qed.
Lemma text_of_alias_suffix a : text_of_alias a = alias_suffix a.
Proof. destruct a; reflexivity. Qed.
Lemma iso_escape iso : Forall iso_char iso -> escaped iso = iso.
Proof.
  intros H. rewrite escaped_escape, escape_flat. induction H as [|c l Hc _ IH]; [reflexivity|]. cbn [flat_map].
  apply iso_char_range in Hc as (N1 & N2 & N3). unfold esc1 at 1.
  apply N.eqb_neq in N1, N2, N3. rewrite N2. change (quote_char false) with 39%N in *. rewrite N1, N3. cbn. f_equal. exact IH.
Qed.
Lemma to_datetime_text iso : Forall iso_char iso ->
  text_of (EWord ($"toDateTime") [[EText iso]] None) = $"toDateTime('" ++ iso ++ $"')".
Proof.
  intros H. cbn [text_of map List.concat text_of_alias]. unfold listing, text_of_string. rewrite iso_escape by exact H.
  cbn [join]. rewrite !app_nil_r, <- !app_assoc. reflexivity.
Qed.
Lemma good_datetime iso : good_expr (EWord ($"toDateTime") [[EText iso]] None).
Proof. constructor; [apply lit_word; [discriminate|reflexivity]|repeat constructor|discriminate]. Qed.
Lemma good_plain w : a_word w -> good_expr (EWord w [] None).
Proof. intros W. constructor; [exact W|constructor|discriminate]. Qed.
Lemma text_plain w : text_of (EWord w [] None) = w.
Proof. cbn. apply app_nil_r. Qed.

(** ** expressions *)
Definition shows al (o : obj) (s : str) : Prop := exists e, denotes al o e /\ good_expr e /\ text_of e = s.
Lemma shows_all al l ss : Forall2 (shows al) l ss ->
  exists es, Forall2 (denotes al) l es /\ Forall good_expr es /\ map text_of es = ss.
Proof.
  induction 1 as [|o s l ss (e & D & G & <-) _ (es & A & B & <-)]; [exists []; auto|].
  exists (e :: es). split; [constructor; assumption|]. split; [constructor; assumption|reflexivity].
Qed.
Lemma shows_items al l ss : Forall (fun x => forall s, visit false al x = Ok s -> shows al x s) l ->
  mapM (visit false al) l = Ok ss -> Forall2 (shows al) l ss.
Proof.
  intros F E. apply mapM_Ok in E. revert F. induction E; intros F; constructor; inversion F; auto.
Qed.
Lemma filter_all {A} (f : A -> bool) l : Forall (fun x => f x = true) l -> filter f l = l.
Proof. induction 1 as [|x l H _ IH]; [reflexivity|]. cbn. rewrite H, IH. reflexivity. Qed.
Lemma visit_params_all al l : Forall param_ok l -> visit_params false al l = mapM (visit false al) l.
Proof.
  induction 1 as [|x l H _ IH]; [reflexivity|]. cbn [visit_params mapM].
  assert ((if is_param_expr x then Ok true else is_scalar x) = Ok true) as ->.
  { destruct (is_param_expr x) eqn:E; [reflexivity|]. destruct H as [H|H]; [apply is_param_expr_iff in H; congruence|].
    apply is_scalar_true, H. }
  cbn [bind]. rewrite IH. reflexivity.
Qed.
Lemma param_sayable x : param_ok x -> sayable x.
Proof.
  intros [H|H]; [apply sy_param, H|]. inversion H; subst; [apply sy_literal; assumption|apply sy_list|apply sy_tuple].
Qed.
Lemma init_sayable x : init_ok x = true -> sayable x.
Proof.
  intros H. destruct x; try discriminate H; try (apply sy_literal; constructor; fail). apply sy_param. constructor. constructor.
Qed.
Lemma func_sayable x : is_func x = true -> sayable x.
Proof. destruct x; try discriminate. intros _. apply sy_param, pe_function. constructor. Qed.
Lemma col_or_func_sayable x : is_col_or_func x = true -> sayable x.
Proof. destruct x; try discriminate; intros _; apply sy_param; [apply pe_column|apply pe_function]; constructor. Qed.
Lemma given_text (k : seqk) l ic es : match k with
      | KNone => Ok []
      | _ => Ok ($"(" ++ join ($", ") l ++ $")")
      end = Ok ic -> map text_of es = l ->
  List.concat (map (fun g => listing (map text_of g)) (given k es)) = ic.
Proof.
  intros E <-. destruct k; injection E as <-; cbn [given map List.concat]; try reflexivity; unfold listing; rewrite app_nil_r; reflexivity.
Qed.
Lemma visit_shows al o : forall s, wf o -> sayable o -> named o -> visit false al o = Ok s -> shows al o s.
Proof.
  induction o using obj_ind'; intros s0 W S A E; inversion W; subst;
    try (exfalso; inversion S as [? L|?|?|? L|? ?]; subst; inversion L; try (match goal with H : a_column _ |- _ => inversion H | H : a_function _ |- _ => inversion H end); fail).
  - apply Ok_inj in E. subst s0. eexists. split; [constructor|]. split; [apply good_plain, lit_word; [discriminate|reflexivity]|reflexivity].
  - apply Ok_inj in E. subst s0. destruct b; eexists; (split; [constructor|]); (split; [apply good_plain, lit_word; [discriminate|reflexivity]|reflexivity]).
  - apply Ok_inj in E. subst s0. eexists. split; [constructor|]. split; [apply good_plain, decZ_word|apply text_plain].
  - apply Ok_inj in E. subst s0. eexists. split; [constructor|]. split; [|apply text_plain].
    apply good_plain. left. exact (A _ (oc_self _)).
  - apply Ok_inj in E. subst s0. eexists. split; [constructor|]. split; [constructor|]. apply text_of_string_quoted.
  - cbn [visit stringify_literal] in E. destruct (utf8_decode b) as [t|] eqn:U; [|discriminate]. apply Ok_inj in E. subst s0.
    apply utf8_sound in U as [-> U]. eexists. split; [constructor; exact U|]. split; [constructor|]. apply text_of_string_quoted.
  - destruct (c15_date false al d) as (iso & V & I); [apply real_date_iff; assumption|].
    rewrite V in E. apply Ok_inj in E. subst s0. eexists. split; [econstructor; exact I|]. split; [apply good_datetime|].
    apply to_datetime_text. eapply iso_date_chars, I.
  - assert (R : real_datetime t) by (apply real_datetime_iff; assumption).
    destruct (dt_tz t) as [off|] eqn:Z.
    + destruct (c15_aware false al t off R Z) as [(u & i & iso & R' & Z' & I1 & I2 & I & V)|(V & _)]; rewrite V in E; [|discriminate].
      apply Ok_inj in E. subst s0. eexists. split; [econstructor; eassumption|]. split; [apply good_datetime|].
      apply to_datetime_text. eapply iso_chars, I.
    + destruct (c15_naive false al t R Z) as (iso & V & I). rewrite V in E. apply Ok_inj in E. subst s0.
      destruct (c15_instant t R) as (i & Hi & _).
      eexists. split; [econstructor; [exact Hi|exact R|exact Z|exact Hi|exact I]|]. split; [apply good_datetime|].
      apply to_datetime_text. eapply iso_chars, I.
  - rewrite visit_list in E. apply bind_Ok in E as (b & _ & E). apply bind_Ok in E as (ss & Es & E). apply Ok_inj in E. subst s0.
    apply shows_items in Es.
    + apply shows_all in Es as (es & D & G & <-). eexists. split; [constructor; exact D|]. split.
      * constructor; [apply lit_word; [discriminate|reflexivity]|repeat constructor; exact G|discriminate].
      * cbn [text_of map List.concat text_of_alias]. unfold listing. rewrite !app_nil_r. reflexivity.
    + rewrite Forall_forall in *. intros x Hx s Hs. pose proof (A _ (oc_self _)) as B. cbn in B. rewrite Forall_forall in B.
      apply H; auto. apply (named_sub _ _ A). intros; econstructor; eassumption.
  - rewrite visit_tuple in E. apply bind_Ok in E as (b & _ & E). apply bind_Ok in E as (ss & Es & E). apply Ok_inj in E. subst s0.
    apply shows_items in Es.
    + apply shows_all in Es as (es & D & G & <-). eexists. split; [constructor; exact D|]. split.
      * constructor; [apply lit_word; [discriminate|reflexivity]|repeat constructor; exact G|discriminate].
      * cbn [text_of map List.concat text_of_alias]. unfold listing. rewrite !app_nil_r. reflexivity.
    + rewrite Forall_forall in *. intros x Hx s Hs. pose proof (A _ (oc_self _)) as B. cbn in B. rewrite Forall_forall in B.
      apply H; auto. apply (named_sub _ _ A). intros; econstructor; eassumption.
  - apply Ok_inj in E. subst s0. destruct (wf_column_word al c) as [C G]; auto.
    eexists. split; [constructor; exact C|]. split; [apply good_plain, G|apply text_plain].
  - apply Ok_inj in E. subst s0. destruct (wf_column_word al c) as [C G]; auto.
    { apply (named_sub _ _ A). intros; constructor; assumption. }
    eexists. split; [constructor; exact C|]. split; [constructor; [exact G|constructor|apply wf_alias_bq; assumption]|].
    cbn [text_of map List.concat app]. rewrite text_of_alias_suffix. reflexivity.
  - rewrite visit_func in E. rewrite filter_all in E by assumption. rewrite visit_params_all in E by assumption.
    apply bind_Ok in E as (ic & Ei & E). apply bind_Ok in E as (pc & Ep & E). apply Ok_inj in E. subst s0.
    assert (HI : exists is, Forall2 (denotes al) il is /\ Forall good_expr is
                 /\ List.concat (map (fun g => listing (map text_of g)) (given ik is)) = ic).
    { assert (D : (ik = KNone /\ ic = []) \/ exists ss, mapM (visit false al) il = Ok ss /\ ic = listing ss /\ ik <> KNone).
      { destruct ik; [injection Ei as <-; auto|right; apply bind_Ok in Ei as (ss & Es & Ei); apply Ok_inj in Ei; exists ss;
          split; [exact Es|]; split; [symmetry; exact Ei|discriminate]..]. }
      destruct D as [[-> ->]|(ss & Es & -> & K)].
      - assert (il = []) as -> by auto. exists []. repeat split; constructor.
      - apply shows_items in Es.
        + apply shows_all in Es as (es & D & G & <-). exists es. repeat split; auto.
          destruct ik; [congruence|cbn [given map List.concat]; apply app_nil_r..].
        + rewrite Forall_forall in *. intros x Hx s Hs. match goal with IH : forall x, In x il -> forall s, wf x -> _ |- _ => apply IH end; auto using init_sayable.
          apply (named_sub _ _ A). intros; eapply oc_init; eassumption. }
    assert (HP : exists is, Forall2 (denotes al) pl is /\ Forall good_expr is
                 /\ List.concat (map (fun g => listing (map text_of g)) (given pk is)) = pc).
    { assert (D : (pk = KNone /\ pc = []) \/ exists ss, mapM (visit false al) pl = Ok ss /\ pc = listing ss /\ pk <> KNone).
      { destruct pk; [injection Ep as <-; auto|right; apply bind_Ok in Ep as (ss & Es & Ep); apply Ok_inj in Ep; exists ss;
          split; [exact Es|]; split; [symmetry; exact Ep|discriminate]..]. }
      destruct D as [[-> ->]|(ss & Es & -> & K)].
      - assert (pl = []) as -> by auto. exists []. repeat split; constructor.
      - apply shows_items in Es.
        + apply shows_all in Es as (es & D & G & <-). exists es. repeat split; auto.
          destruct pk; [congruence|cbn [given map List.concat]; apply app_nil_r..].
        + rewrite Forall_forall in *. intros x Hx s Hs. match goal with IH : forall x, In x pl -> forall s, wf x -> _ |- _ => apply IH end; auto using param_sayable.
          apply (named_sub _ _ A). intros; eapply oc_param; eassumption. }
    destruct HI as (is & D1 & G1 & <-). destruct HP as (ps & D2 & G2 & <-).
    eexists. split; [constructor; [exact D1|exact D2]|]. split.
    + constructor.
      * left. split; [|exact (A _ (oc_self _))]. match goal with F : function_name n |- _ => destruct F as (f0 & b0 & n0 & -> & _) end. discriminate.
      * apply Forall_app. split; [destruct ik|destruct pk]; repeat constructor; assumption.
      * apply wf_alias_bq. assumption.
    + cbn [text_of]. rewrite map_app, concat_app, <- !app_assoc, text_of_alias_suffix. reflexivity.
  - apply Ok_inj in E. subst s0. eexists. split; [constructor|]. split; [constructor; apply identifier_bq; assumption|reflexivity].
  - cbn [visit] in E. apply bind_Ok in E as (t & Et & E). apply Ok_inj in E. subst s0.
    apply IHo in Et as (e & D & G & <-); auto using func_sayable.
    2:{ apply (named_sub _ _ A). intros; constructor; assumption. }
    eexists. split; [constructor; exact D|]. split.
    + constructor; [|exact G]. eapply Forall_impl; [|eassumption]. apply identifier_bq.
    + cbn [text_of]. unfold listing. rewrite <- !app_assoc. reflexivity.
Qed.

(** ** conditions *)
Lemma F2_length {A B} (R : A -> B -> Prop) l m : Forall2 R l m -> List.length l = List.length m.
Proof. induction 1; cbn; congruence. Qed.
Definition cshows al (o : obj) (s : str) : Prop := exists t, denotes_cond al o t /\ good_cond t /\ text_of_cond t = s.
Lemma col_or_func_tree al l e : is_col_or_func l = true -> denotes al l e -> exists w gs a, e = EWord w gs a.
Proof. intros C D. destruct D; try discriminate C; eauto. Qed.
Lemma visit_cshows al o : forall s, wf o -> a_condition o -> named o -> visit false al o = Ok s -> cshows al o s.
Proof.
  induction o using obj_ind'; intros s0 W C A E; inversion C; subst.
  - inversion W as [| | | | | | | | | | | | | | | | | | | | | | | | |? ? ? CC WL WR| | | | | | | |]; subst.
    rewrite visit_cond in E. apply bind_Ok in E as (rs & Er & E). apply bind_Ok in E as (ls & El & E). apply Ok_inj in E; subst s0.
    assert (L : is_col_or_func o1 = true /\ (is_unary o2 = false -> is_col_or_func o3 = false -> scalar o3)).
    { unfold check_condition in CC. destruct (is_col_or_func o1); [|discriminate]. split; [reflexivity|].
      intros U N. cbn [negb] in CC. rewrite U, N in CC. cbn [andb] in CC.
      apply bind_Ok in CC as (b & E1 & CC). destruct b; [|discriminate]. apply is_scalar_true, E1. }
    destruct L as [L R].
    apply visit_shows in El as (e & D & G & <-); auto using col_or_func_sayable.
    2:{ apply (named_sub _ _ A). intros; constructor; assumption. }
    destruct (col_or_func_tree _ _ _ L D) as (w & gs & a & ->).
    assert (X : is_unary o2 = true \/ (is_unary o2 = false /\ exists s, visit false al o3 = Ok s /\ rs = $" " ++ s /\ sayable o3)).
    { destruct (is_unary o2); [auto|]. right. split; [reflexivity|]. destruct (is_col_or_func o3) eqn:K.
      - apply bind_Ok in Er as (s & Es & Er). apply Ok_inj in Er. exists s. auto using col_or_func_sayable.
      - apply bind_Ok in Er as (b & _ & Er). destruct b; [|discriminate].
        apply bind_Ok in Er as (s & Es & Er). apply Ok_inj in Er. exists s. repeat split; auto.
        apply param_sayable. right. auto. }
    destruct X as [U|(U & s & Es & -> & SY)].
    + rewrite U in Er. apply Ok_inj in Er. subst rs.
      assert (UU : o2 = IS_NULL \/ o2 = IS_NOT_NULL) by (destruct o2; try discriminate U; auto).
      eexists. split; [apply dc_unary; eassumption|]. split; [constructor; [exact G|tauto|discriminate]|reflexivity].
    + apply visit_shows in Es as (e' & D' & G' & <-); auto.
      2:{ apply (named_sub _ _ A). intros; apply oc_rhs; assumption. }
      eexists. split; [apply dc_binary; [exact D| | |exact D']; intros ->; discriminate U|].
      split; [|reflexivity]. constructor; [exact G| |intros e0 Q; injection Q as <-; exact G'].
      split; [discriminate|]. intros [-> | ->]; discriminate U.
  - inversion W as [| | | | | | | | | | | | | | | | | | | | | | | | | |? ? ? ? N F FW| | | | | | |]; subst.
    rewrite visit_bool in E. apply bind_Ok in E as (ss & Es & E). apply Ok_inj in E; subst s0.
    assert (T : exists ts, Forall2 (denotes_cond al) l ts /\ Forall good_cond ts /\ map text_of_cond ts = ss).
    { apply mapM_Ok in Es. assert (O : forall x, In x l -> forall y, occurs y x -> occurs y (OBoolC c o k l)).
      { intros x Hx y Hy. econstructor; eassumption. }
      assert (B : Forall (fun x => forall s, visit false al x = Ok s -> cshows al x s) l).
      { rewrite Forall_forall in *. intros x Hx s Hs. apply H; auto.
        - specialize (F x Hx). destruct x; try discriminate F; constructor.
        - apply (named_sub _ _ A). eauto. }
      clear -B Es. induction Es as [|x s l ss V _ IH]; [exists []; auto|]. inversion B as [|? ? B1 B2]; subst.
      destruct (B1 _ V) as (t & D & G & <-). destruct (IH B2) as (ts & A1 & A2 & <-).
      exists (t :: ts). split; [constructor; assumption|]. split; [constructor; assumption|reflexivity]. }
    destruct T as (ts & D & G & <-). eexists. split; [constructor; exact D|]. split; [|reflexivity].
    constructor; [|exact G]. rewrite <- (F2_length _ _ _ D). exact N.
Qed.

(** ** clauses *)
Lemma conds_shows al l ss : Forall wf l -> Forall a_condition l -> Forall named l -> mapM (visit false al) l = Ok ss ->
  exists ts, Forall2 (denotes_cond al) l ts /\ Forall good_cond ts /\ map text_of_cond ts = ss.
Proof.
  intros W C N E. apply mapM_Ok in E. revert W C N. induction E as [|x s l ss V _ IH]; intros W C N; [exists []; auto|].
  inversion W; inversion C; inversion N; subst. destruct IH as (ts & A1 & A2 & <-); auto.
  apply visit_cshows in V as (t & D & G & <-); auto.
  exists (t :: ts). split; [constructor; assumption|]. split; [constructor; assumption|reflexivity].
Qed.
Lemma exprs_shows al l ss : Forall wf l -> Forall sayable l -> Forall named l -> mapM (visit false al) l = Ok ss ->
  exists es, Forall2 (denotes al) l es /\ Forall good_expr es /\ map text_of es = ss.
Proof.
  intros W C N E. apply shows_all. eapply shows_items; [|exact E]. rewrite Forall_forall in *. intros x Hx s V.
  apply visit_shows; auto.
Qed.
Lemma orders_shows al l ss : Forall wf l -> Forall an_orderby l -> Forall named l -> mapM (visit false al) l = Ok ss ->
  exists xs, Forall2 (denotes_order al) l xs /\ Forall (fun x => good_expr (fst x)) xs /\ map text_of_order xs = ss.
Proof.
  intros W C N E. apply mapM_Ok in E. revert W C N. induction E as [|x s l ss V _ IH]; intros W C N; [exists []; auto|].
  inversion W as [|? ? W1 W2]; inversion C as [|? ? C1 C2]; inversion N as [|? ? N1 N2]; subst. destruct IH as (ts & A1 & A2 & <-); auto.
  destruct C1 as [e d]. inversion W1; subst. cbn [visit] in V. apply bind_Ok in V as (t & V & E1). apply Ok_inj in E1. subst s.
  apply visit_shows in V as (t' & D & G & <-); auto using col_or_func_sayable.
  2:{ apply (named_sub _ _ N1). intros; constructor; assumption. }
  exists ((t', d) :: ts). split; [constructor; [constructor|]; assumption|]. split; [constructor; assumption|reflexivity].
Qed.
Lemma selectable_sayable x : selectable x -> sayable x.
Proof. destruct 1; [apply sy_param, pe_column; constructor|apply sy_aliased|apply sy_param, pe_function; constructor]. Qed.
Lemma column_sayable x : a_column x -> sayable x.
Proof. intros H. apply sy_param, pe_column, H. Qed.
Lemma number_word_Z n : number_word n = dec_of_Z (pyint_Z n).
Proof. destruct n as [z|[]]; reflexivity. Qed.
Definition items_named (k : clause) (o : obj) : Prop := forall x, clause_item k o x -> named x.
Lemma keyword_snql k : keyword k = snql_keyword k. Proof. destruct k; reflexivity. Qed.
Lemma part_shows al k o t : wf o ->
  (o = ONone \/ match snql_separator k with
    | Some _ => exists l, list_or_tuple o l /\ Forall (item_class k) l
    | None => item_class k o end) ->
  items_named k o -> print_clause al k o = Ok t ->
  exists p, denotes_part al k o p /\ (forall x, p = Some x -> good_part k x)
    /\ t = match p with Some x => keyword k ++ $" " ++ text_of_part x | None => [] end.
Proof.
  intros W T N E. destruct T as [->|T].
  { exists None. split; [constructor|]. split; [discriminate|]. unfold print_clause in E. cbn in E. destruct (is_list_clause k); injection E as <-; reflexivity. }
  unfold print_clause in E. rewrite listed_sep in E. unfold items_named, clause_item in N.
  destruct (snql_separator k) as [sep|] eqn:SEP.
  - destruct T as (l & L & C). destruct (lt_iter o l L) as [I TR]. rewrite TR, I in E. pose proof (lt_wf o l L W) as WL.
    destruct l as [|x l]. { injection E as <-. exists None. split; [apply dp_empty, L|]. split; [discriminate|reflexivity]. }
    cbn [bind] in E. apply bind_Ok in E as (ss & Es & E). apply Ok_inj in E. subst t.
    assert (NL : Forall named (x :: l)). { apply Forall_forall. intros y Hy. apply N. exists (x :: l). auto. }
    rewrite kw_eq, <- keyword_snql, (sep_eq _ _ SEP), <- app_assoc.
    assert (NE : forall A B (R : A -> B -> Prop) y u v, Forall2 R (y :: u) v -> v <> []).
    { intros A B R y u v H. inversion H; discriminate. }
    destruct k; try discriminate SEP; injection SEP as <-.
    + apply exprs_shows in Es as (es & D & G & <-); auto; [|eapply Forall_impl; [|exact C]; apply selectable_sayable].
      exists (Some (PExprs es)). split; [eapply dp_exprs; eauto; cbn; tauto|]. split; [|reflexivity].
      intros ? [= <-]. constructor; eauto. cbn; tauto.
    + apply exprs_shows in Es as (es & D & G & <-); auto; [|eapply Forall_impl; [|exact C]; apply selectable_sayable].
      exists (Some (PExprs es)). split; [eapply dp_exprs; eauto; cbn; tauto|]. split; [|reflexivity].
      intros ? [= <-]. constructor; eauto. cbn; tauto.
    + apply exprs_shows in Es as (es & D & G & <-); auto; [|eapply Forall_impl; [|exact C]; apply column_sayable].
      exists (Some (PExprs es)). split; [eapply dp_exprs; eauto; cbn; tauto|]. split; [|reflexivity].
      intros ? [= <-]. constructor; eauto. cbn; tauto.
    + apply conds_shows in Es as (es & D & G & <-); auto.
      exists (Some (PConds es)). split; [eapply dp_conds; eauto; cbn; tauto|]. split; [|reflexivity].
      intros ? [= <-]. constructor; eauto. cbn; tauto.
    + apply conds_shows in Es as (es & D & G & <-); auto.
      exists (Some (PConds es)). split; [eapply dp_conds; eauto; cbn; tauto|]. split; [|reflexivity].
      intros ? [= <-]. constructor; eauto. cbn; tauto.
    + apply orders_shows in Es as (es & D & G & <-); auto.
      exists (Some (POrders es)). split; [eapply dp_orders; eauto|]. split; [|reflexivity].
      intros ? [= <-]. constructor; eauto.
  - specialize (N o eq_refl). rewrite kw_eq, <- keyword_snql in E.
    assert (V : is_none o = false) by (destruct k; try discriminate SEP; cbn [item_class] in T; decompose [ex] T; subst; reflexivity).
    rewrite V in E. apply bind_Ok in E as (s & Es & E). apply Ok_inj in E. subst t. rewrite <- app_assoc. clear V.
    destruct k; try discriminate SEP; cbn [item_class] in T.
    + destruct T as (sk & cols & n & ->). apply Ok_inj in Es. subst s.
      inversion W as [| | | | | | | | | | | | | | | | | | | | | | | | | | | |kk ll nn NE WC RG| | | | |]; subst.
      assert (O : forall c, In c cols -> column_word al c (tr_column al c) /\ a_word (tr_column al c)).
      { intros c Hc. rewrite Forall_forall in WC. apply wf_column_word; [auto|].
        apply (named_sub _ _ N). intros; eapply oc_limitby; eassumption. }
      exists (Some (PLimitBy (count_word n) (map (tr_column al) cols))). split.
      { apply dp_limitby. clear -O. induction cols as [|c l IH]; constructor; [apply O; left; reflexivity|].
        apply IH. intros; apply O; right; assumption. }
      split.
      * intros ? [= <-]. constructor.
        -- destruct n as [z|[]]; [apply decZ_word|apply lit_word; [discriminate|reflexivity]..].
        -- destruct cols; [congruence|discriminate].
        -- apply Forall_forall. intros w Hw. apply in_map_iff in Hw as (c & <- & Hc). apply O, Hc.
      * cbn [text_of_part]. unfold count_word, pyint_str, bool_word, py_bool_str. reflexivity.
    + destruct T as (n & ->). apply Ok_inj in Es. subst s. eexists. split; [apply dp_limit|]. split; [|cbn [text_of_part]; rewrite number_word_Z; reflexivity].
      intros ? [= <-]. constructor; [cbn; tauto|]. rewrite number_word_Z. apply decZ_word.
    + destruct T as (n & ->). apply Ok_inj in Es. subst s. eexists. split; [apply dp_offset|]. split; [|cbn [text_of_part]; rewrite number_word_Z; reflexivity].
      intros ? [= <-]. constructor; [cbn; tauto|]. rewrite number_word_Z. apply decZ_word.
    + destruct T as (n & ->). apply Ok_inj in Es. subst s. eexists. split; [apply dp_granularity|]. split; [|cbn [text_of_part]; rewrite number_word_Z; reflexivity].
      intros ? [= <-]. constructor; [cbn; tauto|]. rewrite number_word_Z. apply decZ_word.
    + destruct T as (b & ->). apply Ok_inj in Es. subst s. eexists. split; [apply dp_totals|]. split; [|reflexivity].
      intros ? [= <-]. constructor; [cbn; tauto|]. destruct b; apply lit_word; try discriminate; reflexivity.
Qed.
Lemma choose {A} (P : clause -> A -> Prop) : (forall k, exists p, P k p) -> exists f, forall k, P k (f k).
Proof.
  intros H.
  destruct (H CSelect) as (a1 & H1), (H CGroupby) as (a2 & H2), (H CArrayJoin) as (a3 & H3), (H CWhere) as (a4 & H4),
    (H CHaving) as (a5 & H5), (H COrderby) as (a6 & H6), (H CLimitby) as (a7 & H7), (H CLimit) as (a8 & H8),
    (H COffset) as (a9 & H9), (H CGranularity) as (a10 & H10), (H CTotals) as (a11 & H11).
  exists (fun k => match k with CSelect => a1 | CGroupby => a2 | CArrayJoin => a3 | CWhere => a4 | CHaving => a5 | COrderby => a6
    | CLimitby => a7 | CLimit => a8 | COffset => a9 | CGranularity => a10 | CTotals => a11 end). intros []; assumption.
Qed.
Lemma join_filter x cs : join ($" ") (x :: filter nonempty cs) = x ++ List.concat (map (fun c => if nonempty c then $" " ++ c else []) cs).
Proof.
  revert x. induction cs as [|c cs IH]; intros x; [cbn; rewrite app_nil_r; reflexivity|].
  cbn [filter map List.concat]. destruct (nonempty c).
  - change (join ($" ") (x :: c :: filter nonempty cs)) with (x ++ $" " ++ join ($" ") (c :: filter nonempty cs)).
    rewrite IH. rewrite <- !app_assoc. reflexivity.
  - cbn [app]. apply IH.
Qed.
Lemma parts_shows al cl cs x : (forall k, wf (get k cl)) -> class_typed cl -> (forall k, items_named k (get k cl)) ->
  mapM (fun k => print_clause al k (get k cl)) all_clauses = Ok cs ->
  exists parts, (forall k, denotes_part al k (get k cl) (parts k)) /\ good_parts parts
    /\ join ($" ") (x :: filter nonempty cs) = x ++ text_of_parts parts order.
Proof.
  intros W T N E.
  assert (A : forall k, exists t, print_clause al k (get k cl) = Ok t).
  { apply mapM_Ok in E. intros k. assert (I : In k all_clauses) by (destruct k; cbn; tauto). clear -E I.
    induction E as [|y t ks ts H _ IH]; [destruct I|]. destruct I as [<-|I]; eauto. }
  destruct (choose (fun k p => denotes_part al k (get k cl) p /\ (forall x, p = Some x -> good_part k x) /\
      print_clause al k (get k cl) = Ok (match p with Some x => keyword k ++ $" " ++ text_of_part x | None => [] end))) as (parts & P).
  { intros k. destruct (A k) as (t & Et). destruct (part_shows al k _ t (W k) (T k) (N k) Et) as (p & D & G & ->). eauto. }
  exists parts. split; [intros k; apply P|]. split; [intros k p; apply P|].
  rewrite join_filter. f_equal. unfold text_of_parts. change order with all_clauses. f_equal.
  apply mapM_Ok in E. clear -E P. induction E as [|k t ks ts H _ IH]; [reflexivity|]. cbn [map]. rewrite IH. f_equal.
  destruct (P k) as (_ & _ & E2). rewrite E2 in H. apply Ok_inj in H. subst t. destruct (parts k); [|reflexivity].
  destruct k; reflexivity.
Qed.
End D.
