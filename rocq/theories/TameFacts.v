(** C17: conditions with plain names print as atoms the reader of SpecBool understands. *)
From Verif Require Import PyBase PyFacts Regex Utf8 DateTime Objects Exprs Translate SpecExpr ExprFacts SpecText
  TextFacts SpecTime TimeProps SampleFacts SpecBool SpecOccurs BoolFacts WfFacts LiteralFacts.

Definition plain_char (c : N) : Prop := ~ In c ([39; 96; 91; 93; 40; 41; 32]%N).
Definition plain_text (s : str) : Prop := Forall plain_char s.
Lemma plain_step d c : plain_char c -> step (d, Plain) c = Some (d, Plain).
Proof.
  unfold plain_char. cbn [In]. intros H. cbn [step].
  destruct (N.eqb_spec c 39); [exfalso; apply H; auto 9|]. destruct (N.eqb_spec c 96); [exfalso; apply H; auto 9|].
  destruct (N.eqb_spec c 91); [exfalso; apply H; auto 9|]. destruct (N.eqb_spec c 40); [exfalso; apply H; auto 9|].
  destruct (N.eqb_spec c 41); [exfalso; apply H; auto 9|]. reflexivity.
Qed.
Lemma plain_run s : forall d, plain_text s -> run (d, Plain) s = Some (d, Plain).
Proof.
  induction s as [|c s IH]; intros d H; [reflexivity|]. inversion H; subst. cbn [run].
  rewrite plain_step by assumption. auto.
Qed.
Lemma plain_closed s : plain_text s -> closed s.
Proof. apply plain_run. Qed.

(** no space outside of quotes and parentheses *)
Definition quiet (s : str) : Prop := closed s /\ forall u v, s = u ++ v -> closed u -> forall v', v <> 32%N :: v'.
Lemma quiet_plain s : plain_text s -> quiet s.
Proof.
  intros H. split; [apply plain_closed, H|]. intros u v -> _ v' ->.
  apply Forall_app in H as [_ H]. inversion H as [|? ? P _]; subst. apply P. cbn. auto 9.
Qed.
(** text in parentheses, quotes etc: a proper non-empty prefix is never closed *)
Definition wrapped (s : str) : Prop := closed s /\ forall u v, s = u ++ v -> u <> [] -> v <> [] -> ~ closed u.
Lemma wrapped_quiet s c s' : wrapped s -> s = c :: s' -> c <> 32%N -> quiet s.
Proof.
  intros [C W] E Hc. split; [exact C|]. intros u v Es Cu v' ->. destruct u as [|x u].
  - rewrite Es in E. cbn in E. congruence.
  - apply (W (x :: u) (32%N :: v')); auto; discriminate.
Qed.
Lemma quiet_app s t : quiet s -> quiet t -> quiet (s ++ t).
Proof.
  intros [C1 Q1] [C2 Q2]. split; [apply closed_app; assumption|].
  intros u v E Cu v' ->. apply app_eq_split in E as [(w & -> & E)|(w & -> & E)].
  - unfold closed in *. rewrite run_app, C1 in Cu. apply (Q2 w (32%N :: v') E Cu v'). reflexivity.
  - destruct w as [|x w].
    + rewrite app_nil_r in *. apply (Q2 [] t eq_refl eq_refl v'). symmetry; exact E.
    + injection E as <- E. apply (Q1 u (32%N :: w) eq_refl Cu w). reflexivity.
Qed.
Lemma paren_wrapped body : closed body -> wrapped ($"(" ++ body ++ $")").
Proof.
  intros H. split; [apply node_closed, H|]. intros u v E Hu Hv C.
  destruct u as [|c u]; [contradiction|].
  destruct v as [|c' v] using rev_ind; [contradiction|]. clear IHv Hv.
  cbn in E. injection E as <- E. rewrite app_assoc in E. apply app_inj_tail in E as [E _].
  unfold closed in C. cbn [run] in C. change (step (O, Plain) 40%N) with (Some (1%nat, Plain)) in C. cbv beta iota in C.
  unfold closed in H. rewrite E, run_app in H. destruct (run (O, Plain) u) as [[d m]|] eqn:R; [|discriminate].
  apply (run_shift u _ _ _ _ 1) in R. cbn [Nat.add] in R. rewrite R in C.
  injection C as C _. lia.
Qed.
Lemma paren_quiet body : closed body -> quiet ($"(" ++ body ++ $")").
Proof. intros H. eapply wrapped_quiet; [apply paren_wrapped, H|reflexivity|discriminate]. Qed.

(** delimited text: opening character, a body on which the reader stays in mode [m], a
    closing character *)
Lemma quoted_mode op cl m body :
  step (O, Plain) op = Some (O, m) -> step (O, m) cl = Some (O, Plain) -> m <> Plain ->
  (forall u v, body = u ++ v -> exists m', run (O, m) u = Some (O, m') /\ m' <> Plain) ->
  run (O, m) body = Some (O, m) -> wrapped (op :: body ++ [cl]).
Proof.
  intros H1 H2 Hm HB HR. split.
  - unfold closed. cbn [run]. rewrite H1, run_app, HR. cbn [run]. rewrite H2. reflexivity.
  - intros u v E Hu Hv C. destruct u as [|c u]; [contradiction|].
    destruct v as [|c' v] using rev_ind; [contradiction|]. clear IHv Hv.
    cbn in E. injection E as <- E. rewrite app_assoc in E. apply app_inj_tail in E as [E _].
    unfold closed in C. cbn [run] in C. rewrite H1 in C.
    destruct (HB u v E) as (m' & R & N). rewrite R in C. congruence.
Qed.
Lemma run_in_body d m c : (forall x, x <> c -> step (d, m) x = Some (d, m)) ->
  forall s, ~ In c s -> run (d, m) s = Some (d, m).
Proof.
  intros H s. induction s as [|x s IH]; intros N; [reflexivity|]. cbn [run].
  rewrite H; [apply IH; intros I; apply N; right; exact I|]. intros ->. apply N. left. reflexivity.
Qed.
Lemma bracket_wrapped s : ~ In 93%N s -> wrapped (91%N :: s ++ [93%N]).
Proof.
  assert (R : forall t, ~ In 93%N t -> run (O, InBracket) t = Some (O, InBracket)).
  { intros t. apply run_in_body. intros x Hx. cbn. apply N.eqb_neq in Hx. rewrite Hx. reflexivity. }
  intros N. apply (quoted_mode _ _ InBracket); try reflexivity; try discriminate; [|apply R, N].
  intros u v ->. exists InBracket. split; [apply R|discriminate]. intros I. apply N, in_or_app. auto.
Qed.
Lemma backquote_wrapped s : ~ In 96%N s -> wrapped (96%N :: s ++ [96%N]).
Proof.
  assert (R : forall t, ~ In 96%N t -> run (O, InBackquote) t = Some (O, InBackquote)).
  { intros t. apply run_in_body. intros x Hx. cbn. apply N.eqb_neq in Hx. rewrite Hx. reflexivity. }
  intros N. apply (quoted_mode _ _ InBackquote); try reflexivity; try discriminate; [|apply R, N].
  intros u v ->. exists InBackquote. split; [apply R|discriminate]. intros I. apply N, in_or_app. auto.
Qed.
Lemma backquoted_quiet s : ~ In 96%N s -> quiet (backquoted s).
Proof.
  intros H. change (backquoted s) with (96%N :: s ++ [96%N]).
  eapply wrapped_quiet; [apply backquote_wrapped, H|reflexivity|discriminate].
Qed.
Lemma escape_run s : run (O, InString) (escape false s) = Some (O, InString) /\
  forall u v, escape false s = u ++ v -> exists m, run (O, InString) u = Some (O, m) /\ m <> Plain.
Proof.
  rewrite escape_flat. change (quote_char false) with 39%N.
  induction s as [|c s [IH1 IH2]]; cbn [flat_map].
  - split; [reflexivity|]. intros u v E. symmetry in E. apply app_eq_nil in E as [-> ->].
    exists InString. split; [reflexivity|discriminate].
  - assert (P : forall e, esc1 39%N c = [92%N; e] \/ (esc1 39%N c = [c] /\ c <> 39%N /\ c <> 92%N) \/ True) by auto.
    clear P.
    assert (D : (exists e, esc1 39%N c = [92%N; e]) \/ (esc1 39%N c = [c] /\ c <> 39%N /\ c <> 92%N)).
    { unfold esc1. destruct (N.eqb_spec c 92); [left; eauto|]. destruct (N.eqb_spec c 39); [left; eauto|].
      destruct (N.eqb_spec c 10); [left; eauto|]. right; auto. }
    destruct D as [(e & ->)|(-> & N1 & N2)].
    + split; [cbn; exact IH1|]. intros u v E. destruct u as [|x u]; [exists InString; split; [reflexivity|discriminate]|].
      injection E as <- E. destruct u as [|y u]; [exists InEscape; split; [reflexivity|discriminate]|].
      injection E as <- E. cbn. apply (IH2 _ _ E).
    + apply N.eqb_neq in N1, N2.
      split; [cbn; rewrite N1, N2; exact IH1|].
      intros u v E. destruct u as [|x u]; [exists InString; split; [reflexivity|discriminate]|].
      injection E as <- E. cbn. rewrite N1, N2. apply (IH2 _ _ E).
Qed.
Lemma quoted_quiet s : quiet (quoted false s).
Proof.
  change (quoted false s) with (39%N :: escape false s ++ [39%N]).
  eapply wrapped_quiet; [|reflexivity|discriminate]. destruct (escape_run s).
  apply (quoted_mode _ _ InString); auto; discriminate.
Qed.
Definition iso_char (c : N) : Prop := (48 <= c <= 57 \/ In c ($"-T:."))%N.
Lemma iso_char_range c : iso_char c -> c <> 39%N /\ c <> 92%N /\ c <> 10%N.
Proof. unfold iso_char. cbn. lia. Qed.
Lemma numeral_chars w z s : numeral w z s -> Forall iso_char s.
Proof. intros (_ & H & _). eapply Forall_impl; [|exact H]. intros c Hc. left. exact Hc. Qed.
Lemma iso_date_chars d s : iso_date_text d s -> Forall iso_char s.
Proof.
  intros (y & m & dd & -> & H1 & H2 & H3). apply numeral_chars in H1, H2, H3.
  repeat (apply Forall_app; split); auto; constructor; auto; right; cbn; auto.
Qed.
Lemma iso_chars t s : iso_text t s -> Forall iso_char s.
Proof.
  intros (y & m & dd & h & mi & se & fr & -> & H1 & H2 & H3 & H4 & H5 & H6 & H7).
  apply numeral_chars in H1, H2, H3, H4, H5, H6.
  assert (F : Forall iso_char fr).
  { destruct H7 as [(_ & ->)|(_ & u & -> & Hu)]; [constructor|]. constructor; [right; cbn; auto|].
    apply numeral_chars in Hu. exact Hu. }
  repeat (apply Forall_app; split); auto; constructor; auto; right; cbn; auto.
Qed.
Lemma to_datetime_quiet iso : Forall iso_char iso -> quiet (to_datetime iso).
Proof.
  intros H. unfold to_datetime.
  change ($"toDateTime('") with ($"toDateTime" ++ $"(" ++ $"'"). change ($"')") with ($"'" ++ $")").
  rewrite <- !app_assoc. apply quiet_app; [apply quiet_plain; repeat constructor; intros X; cbn in X; lia|].
  replace ($"(" ++ $"'" ++ iso ++ $"'" ++ $")") with ($"(" ++ ($"'" ++ iso ++ $"'") ++ $")")
    by (rewrite <- !app_assoc; reflexivity).
  apply paren_quiet.
  change ($"'" ++ iso ++ $"'") with ([39%N] ++ iso ++ [39%N]).
  assert (E : escape false iso = iso).
  { rewrite escape_flat. induction H as [|c l Hc _ IH]; [reflexivity|]. cbn [flat_map].
    apply iso_char_range in Hc as (N1 & N2 & N3). unfold esc1 at 1.
    apply N.eqb_neq in N1, N2, N3. rewrite N2. change (quote_char false) with 39%N in *. rewrite N1, N3. cbn. f_equal. exact IH. }
  rewrite <- E at 1. apply (proj1 (quoted_quiet iso)).
Qed.

Section Tame.
Context {RT : PyRT}.

Lemma plain_ascii_word c : ascii_word c -> plain_char c.
Proof. unfold ascii_word, ascii_letter, ascii_digit, plain_char. cbn. intros H X. lia. Qed.
Lemma plain_word_char c : word_char c -> plain_char c.
Proof.
  intros [[_ H]|[H _]]; [apply plain_ascii_word, H|]. unfold plain_char. cbn. lia.
Qed.
Lemma plain_nl s : opt_newline s -> plain_text s.
Proof. intros [->| ->]; repeat constructor. intros X. cbn in X. lia. Qed.
Lemma column_name_quiet n : column_name n -> quiet n.
Proof.
  intros (first & body & sub & nl & -> & Hf & Hb & Hs & Hn).
  apply quiet_app; [apply quiet_plain; repeat constructor; destruct Hf as [Hf | ->];
    [apply plain_ascii_word; left; exact Hf|intros X; cbn in X; lia]|].
  apply quiet_app.
  { apply quiet_plain. eapply Forall_impl; [|exact Hb]. intros c [H|H]; [apply plain_word_char, H|].
    cbn in H. unfold plain_char. cbn. lia. }
  apply quiet_app; [|apply quiet_plain, plain_nl, Hn].
  destruct Hs as [->|(key & -> & _ & N)]; [apply quiet_plain; constructor|].
  change (quiet (91%N :: key ++ [93%N])).
  eapply wrapped_quiet; [apply bracket_wrapped, N|reflexivity|discriminate].
Qed.

Definition tame (o : obj) : Prop := wf o /\ forall x, occurs x o -> plain_names x.
Definition worded (t : str) : Prop := exists segs, segs <> [] /\ t = join ($" ") segs
  /\ Forall (fun s => quiet s /\ s <> $"AND" /\ s <> $"OR") segs.

Lemma join_app sep a b : a <> [] -> b <> [] -> join sep (a ++ b) = join sep a ++ sep ++ join sep b.
Proof.
  intros Ha Hb. induction a as [|x a IH]; [contradiction|]. destruct a as [|y a].
  - cbn [app]. destruct b; [contradiction|]. reflexivity.
  - change ((x :: y :: a) ++ b) with (x :: y :: (a ++ b)). rewrite !join_cons2.
    change (y :: (a ++ b)) with ((y :: a) ++ b). rewrite IH by discriminate. rewrite <- !app_assoc. reflexivity.
Qed.
Lemma worded_app a b : worded a -> worded b -> worded (a ++ $" " ++ b).
Proof.
  intros (s1 & N1 & -> & F1) (s2 & N2 & -> & F2). exists (s1 ++ s2).
  split; [destruct s1; [contradiction|discriminate]|].
  split; [symmetry; apply join_app; assumption|apply Forall_app; auto].
Qed.
Lemma worded_nil s : worded s -> worded (s ++ []).
Proof. rewrite app_nil_r. auto. Qed.
Lemma worded_one s : quiet s -> s <> $"AND" -> s <> $"OR" -> worded s.
Proof. intros. exists [s]. repeat split; try discriminate; repeat constructor; auto; apply H. Qed.
Lemma worded_closed t : worded t -> closed t.
Proof.
  intros (segs & _ & -> & F). apply closed_join; [reflexivity|].
  eapply Forall_impl; [|exact F]. intros s Hs. apply Hs.
Qed.
Lemma worded_no_conn t : worded t -> no_connective t.
Proof.
  intros (segs & _ & -> & F). induction F as [|s segs (Q & A & O) F IH].
  - intros u v E C (o & rest & S). symmetry in E. apply app_eq_nil in E as [-> ->]. destruct o; discriminate.
  - destruct segs as [|s2 segs].
    + cbn [join]. intros u v E C (o & rest & S). destruct v as [|c v]; [destruct o; discriminate|].
      injection S as -> _. exact (proj2 Q u _ E C _ eq_refl).
    + rewrite join_cons2. intros u v E C (o & rest & S).
      apply app_eq_split in E as [(w & -> & E)|(w & -> & E)].
      * (* u = s ++ w *)
        destruct w as [|c w].
        -- (* the word after the space is s2 *)
           cbn [app] in E. subst v. inversion F as [|? ? (Q2 & A2 & O2) F2]; subst.
           apply (f_equal (@tl N)) in S.
           change (join ($" ") (s2 :: segs) ++ $" " = boolop_value o ++ $" " ++ rest) in S.
           assert (X : exists r, s2 ++ $" " ++ r = boolop_value o ++ $" " ++ rest).
           { destruct segs as [|s3 segs]; [exists []; exact S|].
             rewrite join_cons2 in S. rewrite <- !app_assoc in S. eexists. exact S. }
           destruct X as (r & X).
           apply app_eq_split in X as [(x & X1 & X2)|(x & X1 & X2)].
           ++ destruct x as [|y x]; [rewrite app_nil_r in X1; exfalso; destruct o; [apply A2|apply O2]; auto|].
              cbn in X2. injection X2 as <- _.
              assert (I : In 32%N (boolop_value o)) by (rewrite X1; apply in_or_app; right; left; reflexivity).
              destruct o; cbn in I; lia.
           ++ destruct x as [|y x]; [rewrite app_nil_r in X1; exfalso; destruct o; [apply A2|apply O2]; auto|].
              cbn in X2. injection X2 as <- _.
              refine (proj2 Q2 (boolop_value o) (32%N :: x) X1 _ _ eq_refl). destruct o; reflexivity.
        -- cbn in E. injection E as <- E. apply (IH w v E); [|exists o, rest; exact S].
           unfold closed in *. rewrite run_app, (proj1 Q) in C. cbn [run] in C. exact C.
      * (* the word starts inside s *)
        destruct w as [|c w].
        -- rewrite app_nil_r in *. cbn [app] in E. subst v.
           inversion F as [|? ? (Q2 & A2 & O2) F2]; subst.
           apply (f_equal (@tl N)) in S.
           change (join ($" ") (s2 :: segs) ++ $" " = boolop_value o ++ $" " ++ rest) in S.
           assert (X : exists r, s2 ++ $" " ++ r = boolop_value o ++ $" " ++ rest).
           { destruct segs as [|s3 segs]; [exists []; exact S|].
             rewrite join_cons2 in S. rewrite <- !app_assoc in S. eexists. exact S. }
           destruct X as (r & X).
           apply app_eq_split in X as [(x & X1 & X2)|(x & X1 & X2)].
           ++ destruct x as [|y x]; [rewrite app_nil_r in X1; exfalso; destruct o; [apply A2|apply O2]; auto|].
              cbn in X2. injection X2 as <- _.
              assert (I : In 32%N (boolop_value o)) by (rewrite X1; apply in_or_app; right; left; reflexivity).
              destruct o; cbn in I; lia.
           ++ destruct x as [|y x]; [rewrite app_nil_r in X1; exfalso; destruct o; [apply A2|apply O2]; auto|].
              cbn in X2. injection X2 as <- _.
              refine (proj2 Q2 (boolop_value o) (32%N :: x) X1 _ _ eq_refl). destruct o; reflexivity.
        -- subst v. cbn in S. injection S as -> _. exact (proj2 Q u _ eq_refl C _ eq_refl).
Qed.

Lemma tame_sub o x : tame o -> wf x -> (forall y, occurs y x -> occurs y o) -> tame x.
Proof. intros [_ T] W H. split; [exact W|]. intros y Hy. apply T, H, Hy. Qed.
Lemma plain_word_quiet s : plain_word s -> quiet s.
Proof. intros (H & _). apply quiet_plain, H. Qed.

Lemma tr_column_quiet al c : tame (OColumn c) -> quiet (tr_column al c).
Proof.
  intros [W T]. inversion W as [| | | | | | | | | | | | | | | |? (CN & _ & CE)| | | | | | | | | | | | | | | | |]; subst.
  unfold tr_column. destruct (c_entity c) as [e|] eqn:Ee; [|cbn [app]; apply column_name_quiet, CN].
  destruct al; [|cbn [app]; apply column_name_quiet, CN].
  destruct (CE e eq_refl) as (_ & NA & _). destruct (e_alias e) as [a|] eqn:Ea; [|congruence].
  apply quiet_app; [|apply column_name_quiet, CN].
  apply quiet_app; [|apply quiet_plain; repeat constructor; intros X; cbn in X; lia].
  apply plain_word_quiet. apply (T (OEntity e)); [|exact Ea]. econstructor; [exact Ee|constructor].
Qed.
Lemma tr_column_word al c : tame (OColumn c) -> tr_column al c <> $"AND" /\ tr_column al c <> $"OR".
Proof.
  intros T. pose proof (proj2 T _ (oc_self _)) as [A O]. unfold tr_column.
  destruct (c_entity c) as [e|]; [|cbn [app]; auto]. destruct al; [|cbn [app]; auto].
  assert (D : forall p q : str, ~ In 46%N q -> p ++ $"." ++ c_name c <> q).
  { intros p q N <-. apply N, in_or_app. right. left. reflexivity. }
  rewrite <- app_assoc. split; apply D; cbn; lia.
Qed.


Lemma alias_no_bq a : alias_name a -> ~ In 96%N a.
Proof.
  intros (_ & b & nl & -> & F & N) I. apply in_app_or in I as [I|I].
  - rewrite Forall_forall in F. destruct (F _ I) as [H|H]; [unfold ascii_word, ascii_letter, ascii_digit in H; lia|].
    cbn in H. lia.
  - destruct N as [->| ->]; cbn in I; [contradiction|lia].
Qed.
Lemma ident_no_bq n : identifier_name n -> ~ In 96%N n.
Proof.
  intros (f & b & nl & -> & Hf & F & N) I. apply in_app_or in I as [I|I]; [|apply in_app_or in I as [I|I]].
  - cbn in I. unfold ascii_letter in Hf. lia.
  - rewrite Forall_forall in F. specialize (F _ I). unfold ascii_word, ascii_letter, ascii_digit in F. lia.
  - destruct N as [->| ->]; cbn in I; [contradiction|lia].
Qed.
Lemma alias_suffix_closed a : wf_alias a -> closed (alias_suffix a).
Proof.
  intros W. destruct a as [a|]; [|reflexivity]. cbn [alias_suffix].
  change (closed ($" AS " ++ backquoted a)). apply closed_app; [reflexivity|].
  apply backquoted_quiet, alias_no_bq, W. reflexivity.
Qed.
Lemma entity_name_plain n : entity_name n -> plain_text n.
Proof.
  intros (b & nl & -> & _ & F & N). apply Forall_app. split; [|apply plain_nl, N].
  eapply Forall_impl; [|exact F]. intros c [H| ->]; [apply plain_ascii_word; left; exact H|].
  intros X; cbn in X; lia.
Qed.
Lemma dec_plain s : is_dec s -> plain_text s.
Proof.
  intros H. eapply Forall_impl; [|exact H]. intros c Hc. apply is_digit_range in Hc.
  unfold plain_char. cbn. lia.
Qed.
Lemma decZ_plain z : plain_text (dec_of_Z z).
Proof.
  destruct (Z.neg_nonneg_cases z) as [H|H].
  - rewrite dec_of_Z_neg by exact H. constructor; [intros X; cbn in X; lia|apply dec_plain, dec_of_N_digits].
  - rewrite dec_of_Z_nonneg by exact H. apply dec_plain, dec_of_N_digits.
Qed.
Lemma pad_plain w s : plain_text s -> plain_text (pad_left w s).
Proof.
  intros H. apply Forall_app. split; [|exact H]. apply Forall_forall. intros c Hc. apply repeat_spec in Hc. subst.
  intros X; cbn in X; lia.
Qed.
Lemma fixed_plain p f : plain_text (fmt_fixed p f).
Proof.
  destruct f as [|[]|neg m e]; cbn [fmt_fixed]; [repeat constructor; intros X; cbn in X; lia..|].
  apply Forall_app. split; [destruct neg; repeat constructor; intros X; cbn in X; lia|].
  unfold fixed_digits. apply Forall_app. split; [apply dec_plain, dec_of_N_digits|].
  apply Forall_app. split; [repeat constructor; intros X; cbn in X; lia|].
  apply pad_plain, dec_plain, dec_of_N_digits.
Qed.
Lemma sample_closed s : closed (sample_clause s).
Proof.
  destruct s as [f|]; [|reflexivity]. cbn [sample_clause]. apply closed_app; [reflexivity|].
  destruct (flt_is_int f); apply plain_closed, fixed_plain.
Qed.
Lemma tr_entity_closed al e : tame (OEntity e) -> closed (tr_entity al e).
Proof.
  intros [W T]. inversion W as [| | | | | | | | | | | | | | | | | | | | |? (EN & _)| | | | | | | | | | | |]; subst.
  unfold tr_entity.
  replace ($"(" ++ match e_alias e with Some a => if al then a ++ $": " else [] | None => [] end
     ++ e_name e ++ sample_clause (e_sample e) ++ $")")
    with ($"(" ++ (match e_alias e with Some a => if al then a ++ $": " else [] | None => [] end
     ++ e_name e ++ sample_clause (e_sample e)) ++ $")") by (rewrite <- !app_assoc; reflexivity).
  apply node_closed. apply closed_app; [|apply closed_app; [apply plain_closed, entity_name_plain, EN|apply sample_closed]].
  destruct (e_alias e) as [a|] eqn:Ea; [|reflexivity]. destruct al; [|reflexivity].
  apply closed_app; [|reflexivity]. apply plain_word_quiet. apply (T _ (oc_self _) _ Ea).
Qed.
Lemma tr_rel_closed al r : tame (ORel r) -> closed (tr_rel al r).
Proof.
  intros T. pose proof (proj2 T _ (oc_self _)) as PN. cbn in PN.
  pose proof (proj1 T) as W. inversion W as [| | | | | | | | | | | | | | | | | | | | | | |? (W1 & W2 & _)| | | | | | | | | |]; subst.
  unfold tr_rel. apply closed_app; [apply tr_entity_closed; apply (tame_sub _ _ T); [constructor; exact W1|intros; constructor; assumption]|].
  replace ($" -[" ++ r_name r ++ $"]-> " ++ tr_entity al (r_rhs r))
    with ($" -" ++ ($"[" ++ r_name r ++ $"]") ++ $"-> " ++ tr_entity al (r_rhs r)) by (rewrite <- !app_assoc; reflexivity).
  apply closed_app; [reflexivity|]. apply closed_app.
  - apply bracket_wrapped. destruct PN as [PN _]. intros I. rewrite Forall_forall in PN.
    apply (PN _ I). cbn. auto 9.
  - apply closed_app; [reflexivity|]. apply tr_entity_closed; apply (tame_sub _ _ T); [constructor; exact W2|].
    intros; apply oc_rel_r; assumption.
Qed.

Lemma mapM_Forall {A B} (f : A -> result B) (P : B -> Prop) l r :
  mapM f l = Ok r -> (forall x y, In x l -> f x = Ok y -> P y) -> Forall P r.
Proof.
  revert r. induction l as [|x l IH]; cbn; intros r E H; [injection E as <-; constructor|].
  apply bind_Ok in E as (y & E1 & E). apply bind_Ok in E as (ys & E2 & E). injection E as <-.
  constructor; eauto.
Qed.
Lemma visit_params_Forall mql al (P : str -> Prop) l r :
  visit_params mql al l = Ok r -> (forall x y, In x l -> visit mql al x = Ok y -> P y) -> Forall P r.
Proof.
  revert r. induction l as [|x l IH]; cbn; intros r E H; [injection E as <-; constructor|].
  apply bind_Ok in E as (b & Eb & E). destruct b.
  - apply bind_Ok in E as (y & E1 & E). apply bind_Ok in E as (ys & E2 & E). injection E as <-.
    constructor; eauto.
  - eauto.
Qed.

Lemma visit_closed al o : forall t, tame o -> visit false al o = Ok t -> closed t.
Proof.
  assert (J : forall sep ss, closed sep -> Forall closed ss -> closed ($"(" ++ join sep ss ++ $")")).
  { intros. apply node_closed, closed_join; assumption. }
  induction o using obj_ind'; intros t0 T E; pose proof T as [W _]; inversion W; subst;
    try (cbn [visit stringify_literal] in E; discriminate E).
  - apply Ok_inj in E; subst t0; reflexivity.
  - apply Ok_inj in E; subst t0; destruct b; reflexivity.
  - apply Ok_inj in E; subst t0; apply plain_closed, decZ_plain.
  - apply Ok_inj in E; subst t0. apply plain_word_quiet. apply (proj2 T _ (oc_self _)).
  - apply Ok_inj in E; subst t0. apply quoted_quiet.
  - cbn [visit stringify_literal] in E. destruct (utf8_decode b); [|discriminate]. apply Ok_inj in E; subst t0. apply quoted_quiet.
  - apply Ok_inj in E; subst t0. apply to_datetime_quiet, (iso_date_chars d), date_iso_text.
    apply DateFacts.real_date_iff. assumption.
  - cbn [visit stringify_literal] in E. apply bind_Ok in E as (u & Eu & E). apply Ok_inj in E; subst t0.
    apply to_datetime_quiet, (iso_chars u).
    assert (V : valid_datetime u /\ dt_tz u = None).
    { unfold to_naive_utc in Eu. destruct (dt_tz t) as [off|] eqn:Z; [|injection Eu as <-; auto].
      destruct (sub_offset_ok t off H0 Z) as [(u' & E' & V & N & _)|(E' & _)]; rewrite E' in Eu; [|discriminate].
      injection Eu as <-. auto. }
    apply datetime_iso_text; [apply real_datetime_iff|]; apply V.
  - rewrite visit_list in E. apply bind_Ok in E as (b & _ & E). apply bind_Ok in E as (ss & Es & E). apply Ok_inj in E; subst t0.
    change (closed ($"array" ++ $"(" ++ join ($", ") ss ++ $")")). apply closed_app; [reflexivity|].
    apply J; [reflexivity|]. eapply mapM_Forall; [exact Es|]. intros x y Hx Hy.
    rewrite Forall_forall in H, H1. eapply H; [exact Hx| |exact Hy].
    apply (tame_sub _ _ T); [auto|]. intros; econstructor; eassumption.
  - rewrite visit_tuple in E. apply bind_Ok in E as (b & _ & E). apply bind_Ok in E as (ss & Es & E). apply Ok_inj in E; subst t0.
    change (closed ($"tuple" ++ $"(" ++ join ($", ") ss ++ $")")). apply closed_app; [reflexivity|].
    apply J; [reflexivity|]. eapply mapM_Forall; [exact Es|]. intros x y Hx Hy.
    rewrite Forall_forall in H, H1. eapply H; [exact Hx| |exact Hy].
    apply (tame_sub _ _ T); [auto|]. intros; econstructor; eassumption.
  - apply Ok_inj in E; subst t0. apply tr_column_quiet. exact T.
  - apply Ok_inj in E; subst t0. apply closed_app; [|apply alias_suffix_closed; assumption].
    apply tr_column_quiet. apply (tame_sub _ _ T); [constructor; assumption|]. intros; constructor; assumption.
  - rewrite visit_func in E. apply bind_Ok in E as (ic & Ei & E). apply bind_Ok in E as (pc & Ep & E). apply Ok_inj in E; subst t0.
    apply closed_app; [apply plain_word_quiet, (proj2 T _ (oc_self _))|].
    apply closed_app; [|apply closed_app; [|apply alias_suffix_closed; assumption]].
    + destruct ik; [injection Ei as <-; reflexivity|..];
        (apply bind_Ok in Ei as (ss & Es & Ei); injection Ei as <-; apply J; [reflexivity|];
         eapply mapM_Forall; [exact Es|]; intros x y Hx Hy; apply filter_In in Hx as [Hx _];
         rewrite Forall_forall in H; eapply H; [exact Hx| |exact Hy]; apply (tame_sub _ _ T);
         [match goal with F : Forall wf il |- _ => rewrite Forall_forall in F; auto end|];
         intros z Hz; eapply oc_init; eassumption).
    + destruct pk; [injection Ep as <-; reflexivity|..];
        (apply bind_Ok in Ep as (ss & Es & Ep); injection Ep as <-; apply J; [reflexivity|];
         eapply visit_params_Forall; [exact Es|]; intros x y Hx Hy;
         rewrite Forall_forall in H0; eapply H0; [exact Hx| |exact Hy]; apply (tame_sub _ _ T);
         [match goal with F : Forall wf pl |- _ => rewrite Forall_forall in F; auto end|];
         intros z Hz; eapply oc_param; eassumption).
  - apply Ok_inj in E; subst t0. apply backquoted_quiet, ident_no_bq. assumption.
  - cbn [visit] in E. apply bind_Ok in E as (s & Es & E). apply Ok_inj in E; subst t0.
    replace ($"(" ++ join ($", ") (map backquoted ids) ++ $") -> " ++ s)
      with (($"(" ++ join ($", ") (map backquoted ids) ++ $")") ++ $" -> " ++ s) by (rewrite <- !app_assoc; reflexivity).
    apply closed_app.
    + apply J; [reflexivity|]. apply Forall_forall. intros x Hx. apply in_map_iff in Hx as (i & <- & Hi).
      apply backquoted_quiet, ident_no_bq. match goal with F : Forall identifier_name ids |- _ => rewrite Forall_forall in F; auto end.
    + apply closed_app; [reflexivity|]. apply IHo; [|exact Es]. apply (tame_sub _ _ T); [assumption|].
      intros; constructor; assumption.
  - apply Ok_inj in E; subst t0. apply tr_entity_closed. exact T.
  - apply Ok_inj in E; subst t0. unfold tr_storage. change ($"STORAGE(") with ($"STORAGE" ++ $"(").
    replace (($"STORAGE" ++ $"(") ++ st_name s ++ sample_clause (st_sample s) ++ $")")
      with ($"STORAGE" ++ $"(" ++ (st_name s ++ sample_clause (st_sample s)) ++ $")") by (rewrite <- !app_assoc; reflexivity).
    apply closed_app; [reflexivity|]. apply node_closed, closed_app; [|apply sample_closed].
    apply plain_closed, entity_name_plain. apply H0.
  - apply Ok_inj in E; subst t0. apply tr_rel_closed. exact T.
  - apply Ok_inj in E; subst t0. unfold tr_join. apply closed_join; [reflexivity|]. apply Forall_forall.
    intros x Hx. apply in_map_iff in Hx as (r & <- & Hr). apply tr_rel_closed.
    destruct H0 as (_ & F & _). rewrite Forall_forall in F.
    apply (tame_sub _ _ T); [constructor; auto|]. intros; econstructor; eassumption.
  - rewrite visit_cond in E. apply bind_Ok in E as (rs & Er & E). apply bind_Ok in E as (ls & El & E). apply Ok_inj in E; subst t0.
    apply closed_app; [apply IHo1; [|exact El]; apply (tame_sub _ _ T); [assumption|]; intros; constructor; assumption|].
    apply closed_app; [reflexivity|]. apply closed_app; [destruct o2; reflexivity|].
    assert (R : forall s, visit false al o3 = Ok s -> closed ($" " ++ s)).
    { intros s Hs. apply closed_app; [reflexivity|]. apply IHo2; [|exact Hs].
      apply (tame_sub _ _ T); [assumption|]. intros; apply oc_rhs; assumption. }
    destruct (is_unary o2); [injection Er as <-; reflexivity|]. destruct (is_col_or_func o3).
    + apply bind_Ok in Er as (s & Hs & Er). apply Ok_inj in Er; subst rs. auto.
    + apply bind_Ok in Er as (b & _ & Er). destruct b; [|discriminate].
      apply bind_Ok in Er as (s & Hs & Er). apply Ok_inj in Er; subst rs. auto.
  - rewrite visit_bool in E. apply bind_Ok in E as (ss & Es & E). apply Ok_inj in E; subst t0.
    apply J; [apply sep_closed|]. eapply mapM_Forall; [exact Es|]. intros x y Hx Hy.
    rewrite Forall_forall in H. eapply H; [exact Hx| |exact Hy].
    apply (tame_sub _ _ T); [match goal with F : Forall wf l |- _ => rewrite Forall_forall in F; auto end|].
    intros; econstructor; eassumption.
  - cbn [visit] in E. apply bind_Ok in E as (s & Es & E). apply Ok_inj in E; subst t0.
    apply closed_app; [|apply closed_app; [reflexivity|destruct d; reflexivity]].
    apply IHo; [|exact Es]. apply (tame_sub _ _ T); [assumption|]. intros; constructor; assumption.
  - apply Ok_inj in E; subst t0. apply closed_app.
    { destruct n as [z|[]]; cbn [pyint_str]; [apply plain_closed, decZ_plain|reflexivity|reflexivity]. }
    apply closed_app; [reflexivity|]. apply closed_join; [reflexivity|]. apply Forall_forall.
    intros x Hx. apply in_map_iff in Hx as (c & <- & Hc). apply tr_column_quiet.
    apply (tame_sub _ _ T); [constructor; match goal with F : Forall wf_column l |- _ => rewrite Forall_forall in F; auto end|].
    intros; eapply oc_limitby; eassumption.
  - apply Ok_inj in E; subst t0. apply plain_closed, decZ_plain.
  - apply Ok_inj in E; subst t0. apply plain_closed, decZ_plain.
  - apply Ok_inj in E; subst t0. apply plain_closed, decZ_plain.
  - apply Ok_inj in E; subst t0. destruct b; reflexivity.
Qed.


(** text that cannot be one of the words AND, OR: it contains a character they do not have *)
Lemma not_word c t : In c t -> ~ In c ($"ANDOR") -> t <> $"AND" /\ t <> $"OR".
Proof. intros I N. split; intros ->; apply N; cbn in *; intuition. Qed.
Lemma visit_worded al o t : tame o -> is_col_or_func o = true \/ scalar o -> visit false al o = Ok t -> worded t.
Proof.
  intros T K E. pose proof T as [W _].
  assert (CL : forall ss, Forall closed ss -> quiet ($"(" ++ join ($", ") ss ++ $")")).
  { intros ss F. apply paren_quiet, closed_join; [reflexivity|exact F]. }
  assert (NQ : forall q, In 40%N q -> quiet q -> worded q).
  { intros q I Q. destruct (not_word 40%N q I) as [A O]; [cbn; lia|]. apply worded_one; assumption. }
  assert (PL : forall x r, visit_params false al x = Ok r -> Forall wf x -> (forall y z, In y x -> occurs z y -> occurs z o) -> Forall closed r).
  { intros x r Ex Fx Hx. eapply visit_params_Forall; [exact Ex|]. intros y z Hy Hz. eapply visit_closed; [|exact Hz].
    apply (tame_sub _ _ T); [rewrite Forall_forall in Fx; auto|]. intros; eapply Hx; eassumption. }
  assert (IL : forall x r, mapM (visit false al) x = Ok r -> Forall wf x -> (forall y z, In y x -> occurs z y -> occurs z o) -> Forall closed r).
  { intros x r Ex Fx Hx. eapply mapM_Forall; [exact Ex|]. intros y z Hy Hz. eapply visit_closed; [|exact Hz].
    apply (tame_sub _ _ T); [rewrite Forall_forall in Fx; auto|]. intros; eapply Hx; eassumption. }
  destruct K as [K|K].
  - destruct o; try discriminate.
    + apply Ok_inj in E; subst t. destruct (tr_column_word al c T). apply worded_one; auto. apply tr_column_quiet, T.
    + rewrite visit_func in E. apply bind_Ok in E as (ic & Ei & E). apply bind_Ok in E as (pc & Ep & E). apply Ok_inj in E; subst t.
      inversion W; subst. pose proof (proj2 T _ (oc_self _)) as (PN & A & O). cbn in PN, A, O.
      assert (Qi : quiet ic /\ (ic <> [] -> In 40%N ic)).
      { assert (D : ic = [] \/ exists r, mapM (visit false al) (filter init_ok inits) = Ok r /\ ic = $"(" ++ join ($", ") r ++ $")").
        { destruct ik; [injection Ei as <-; auto|..]; right; apply bind_Ok in Ei as (r & Er & Ei); apply Ok_inj in Ei; subst; eauto. }
        destruct D as [->|(r & Er & ->)].
        - split; [apply quiet_plain; constructor|congruence].
        - split; [|intros _; left; reflexivity]. apply CL. eapply IL; [exact Er| |].
          + apply Forall_forall. intros x Hx. apply filter_In in Hx as [Hx _]. rewrite Forall_forall in *. auto.
          + intros y z Hy Hz. apply filter_In in Hy as [Hy _]. eapply oc_init; eassumption. }
      assert (Qp : quiet pc /\ (pc <> [] -> In 40%N pc)).
      { assert (D : pc = [] \/ exists r, visit_params false al params = Ok r /\ pc = $"(" ++ join ($", ") r ++ $")").
        { destruct pk; [injection Ep as <-; auto|..]; right; apply bind_Ok in Ep as (r & Er & Ep); apply Ok_inj in Ep; subst; eauto. }
        destruct D as [->|(r & Er & ->)].
        - split; [apply quiet_plain; constructor|congruence].
        - split; [|intros _; left; reflexivity]. apply CL. eapply PL; [exact Er|assumption|].
          intros y z Hy Hz. eapply oc_param; eassumption. }
      assert (WH : worded (name ++ ic ++ pc)).
      { assert (Q : quiet (name ++ ic ++ pc)) by (apply quiet_app; [apply quiet_plain, PN|apply quiet_app; [apply Qi|apply Qp]]).
        destruct ic as [|x ic]; [destruct pc as [|y pc]|].
        - rewrite !app_nil_r. apply worded_one; auto. apply quiet_plain, PN.
        - apply NQ; [|exact Q]. apply in_or_app. right. apply in_or_app. right. apply Qp. discriminate.
        - apply NQ; [|exact Q]. apply in_or_app. right. apply in_or_app. left. apply Qi. discriminate. }
      destruct alias as [a|]; cbn [alias_suffix]; [|rewrite app_nil_r; exact WH].
      replace (name ++ ic ++ pc ++ $" AS `" ++ a ++ $"`") with ((name ++ ic ++ pc) ++ $" " ++ $"AS" ++ $" " ++ backquoted a)
        by (unfold backquoted; rewrite <- !app_assoc; reflexivity).
      apply worded_app; [exact WH|]. apply worded_app.
      * apply worded_one; try discriminate. apply quiet_plain. repeat constructor; intros X; cbn in X; lia.
      * destruct (not_word 96%N (backquoted a)) as [A1 O1]; [left; reflexivity|cbn; lia|].
        apply worded_one; auto. apply backquoted_quiet, alias_no_bq.
        match goal with F : wf_alias (Some a) |- _ => apply F; reflexivity end.
  - assert (NW : forall q c, quiet q -> In c q -> ~ In c ($"ANDOR") -> worded q).
    { intros q c Q I N. destruct (not_word c q I N). apply worded_one; assumption. }
    inversion K as [? L|l F|l F]; subst.
    + inversion L; subst; cbn [visit stringify_literal] in E.
      * apply Ok_inj in E; subst t. apply worded_one; try discriminate. apply quiet_plain. repeat constructor; intros X; cbn in X; lia.
      * apply Ok_inj in E; subst t. destruct b; (apply worded_one; try discriminate; apply quiet_plain; repeat constructor; intros X; cbn in X; lia).
      * apply Ok_inj in E; subst t. destruct (dec_of_Z z) as [|c s] eqn:D.
        { exfalso. destruct z as [|q|q]; [discriminate| |discriminate]. exact (dec_of_N_nonempty (N.pos q) D). }
        assert (Hc : (45 <= c <= 57)%N).
        { destruct (Z.neg_nonneg_cases z) as [Hz|Hz].
          - rewrite dec_of_Z_neg in D by exact Hz. injection D as <- _. lia.
          - rewrite dec_of_Z_nonneg in D by exact Hz. pose proof (dec_of_N_digits (Z.to_N z)) as DD. rewrite D in DD.
            inversion DD as [|? ? D1 _]; subst. apply is_digit_range in D1. lia. }
        apply (NW _ c); [rewrite <- D; apply quiet_plain, decZ_plain|left; reflexivity|cbn; lia].
      * apply Ok_inj in E; subst t. destruct (proj2 T _ (oc_self _)) as (PN & A & O). apply worded_one; auto. apply quiet_plain, PN.
      * apply Ok_inj in E; subst t. apply (NW _ 39%N); [apply quoted_quiet|left; reflexivity|cbn; lia].
      * destruct (utf8_decode b); [|discriminate]. apply Ok_inj in E; subst t.
        apply (NW _ 39%N); [apply quoted_quiet|left; reflexivity|cbn; lia].
      * apply Ok_inj in E; subst t. apply NQ; [cbn; auto 20|].
        apply to_datetime_quiet, (iso_date_chars d), date_iso_text. apply DateFacts.real_date_iff. inversion W; assumption.
      * apply bind_Ok in E as (u & Eu & E). apply Ok_inj in E; subst t. apply NQ; [cbn; auto 20|].
        apply to_datetime_quiet, (iso_chars u). inversion W as [| | | | | | |? VT| | | | | | | | | | | | | | | | | | | | | | | | | |]; subst.
        assert (V : valid_datetime u /\ dt_tz u = None).
        { unfold to_naive_utc in Eu. destruct (dt_tz t0) as [off|] eqn:Z; [|injection Eu as <-; auto].
          destruct (sub_offset_ok t0 off VT Z) as [(u' & E' & V & N & _)|(E' & _)]; rewrite E' in Eu; [|discriminate].
          injection Eu as <-. auto. }
        apply datetime_iso_text; [apply real_datetime_iff|]; apply V.
    + rewrite visit_list in E. apply bind_Ok in E as (b & _ & E). apply bind_Ok in E as (ss & Es & E). apply Ok_inj in E; subst t.
      change (worded ($"array" ++ $"(" ++ join ($", ") ss ++ $")")). inversion W; subst. apply NQ; [cbn; auto 20|].
      apply quiet_app; [apply quiet_plain; repeat constructor; intros X; cbn in X; lia|]. apply CL. eapply IL; [exact Es|assumption|].
      intros; eapply oc_list; eassumption.
    + rewrite visit_tuple in E. apply bind_Ok in E as (b & _ & E). apply bind_Ok in E as (ss & Es & E). apply Ok_inj in E; subst t.
      change (worded ($"tuple" ++ $"(" ++ join ($", ") ss ++ $")")). inversion W; subst. apply NQ; [cbn; auto 20|].
      apply quiet_app; [apply quiet_plain; repeat constructor; intros X; cbn in X; lia|]. apply CL. eapply IL; [exact Es|assumption|].
      intros; eapply oc_tuple; eassumption.
Qed.

Lemma plain_start s c r : plain_text s -> s <> [] -> forall t, s ++ r = c :: t -> c <> 40%N.
Proof.
  intros P N t E ->. destruct s as [|x s]; [contradiction|]. injection E as -> _. inversion P as [|? ? H _]; subst.
  apply H. cbn. auto 9.
Qed.
Lemma lhs_start al o t : tame o -> is_col_or_func o = true -> visit false al o = Ok t ->
  t <> [] /\ forall t', t <> 40%N :: t'.
Proof.
  intros T K E. pose proof T as [W _].
  assert (S : forall p q : str, plain_text p -> p <> [] -> t = p ++ q -> t <> [] /\ forall t', t <> 40%N :: t').
  { intros p q P N ->. split; [destruct p; [contradiction|discriminate]|].
    intros t' E'. eapply plain_start in E'; eauto. }
  destruct o; try discriminate.
  - apply Ok_inj in E. inversion W as [| | | | | | | | | | | | | | | |? (CN & _ & CE)| | | | | | | | | | | | | | | | |]; subst c0.
    assert (ST : forall q, t = c_name c ++ q -> t <> [] /\ forall t', t <> 40%N :: t').
    { intros q Eq. destruct CN as (first & body & sub & nl & En & Hf & _).
      rewrite En in Eq. apply (S [first] ((body ++ sub ++ nl) ++ q)).
      - repeat constructor. destruct Hf as [Hf| ->]; [apply plain_ascii_word; left; exact Hf|intros X; cbn in X; lia].
      - discriminate.
      - rewrite Eq, <- !app_assoc. reflexivity. }
    unfold tr_column in E. destruct (c_entity c) as [e|] eqn:Ee.
    + destruct al.
      * destruct (CE e eq_refl) as ((_ & NA & _) & NA' & _). destruct (e_alias e) as [a|] eqn:Ea; [|congruence].
        apply (S a ($"." ++ c_name c)).
        -- assert (X : plain_word a) by (apply (proj2 T (OEntity e)); [econstructor; [exact Ee|constructor]|exact Ea]).
           apply X.
        -- intros ->. apply NA. first [exact Ea|reflexivity].
        -- rewrite <- E, <- app_assoc. reflexivity.
      * apply (ST []). rewrite <- E, app_nil_r. reflexivity.
    + apply (ST []). rewrite <- E, app_nil_r. reflexivity.
  - rewrite visit_func in E. apply bind_Ok in E as (ic & Ei & E). apply bind_Ok in E as (pc & Ep & E). apply Ok_inj in E.
    apply (S name (ic ++ pc ++ alias_suffix alias)); [apply (proj2 T _ (oc_self _))| |auto].
    inversion W; subst. match goal with F : function_name name |- _ => destruct F as (f & b & nl & -> & _) end. discriminate.
Qed.

Lemma op_worded p : worded (op_value p).
Proof.
  destruct p; try (apply worded_one; try discriminate; apply quiet_plain; repeat constructor; intros X; cbn in X; lia).
  - change (worded ($"NOT" ++ $" " ++ $"IN")). apply worded_app;
      (apply worded_one; try discriminate; apply quiet_plain; repeat constructor; intros X; cbn in X; lia).
  - change (worded ($"NOT" ++ $" " ++ $"LIKE")). apply worded_app;
      (apply worded_one; try discriminate; apply quiet_plain; repeat constructor; intros X; cbn in X; lia).
  - change (worded ($"IS" ++ $" " ++ $"NULL")). apply worded_app;
      (apply worded_one; try discriminate; apply quiet_plain; repeat constructor; intros X; cbn in X; lia).
  - change (worded ($"IS" ++ $" " ++ $"NOT" ++ $" " ++ $"NULL")). apply worded_app; [|apply worded_app];
      (apply worded_one; try discriminate; apply quiet_plain; repeat constructor; intros X; cbn in X; lia).
Qed.
Lemma tame_atom al l p r t : tame (OCond l p r) -> visit false al (OCond l p r) = Ok t -> atom_text t.
Proof.
  intros T E. pose proof T as [W _]. inversion W as [| | | | | | | | | | | | | | | | | | | | | | | | |? ? ? CC W1 W2| | | | | | | |]; subst.
  rewrite visit_cond in E. apply bind_Ok in E as (rs & Er & E). apply bind_Ok in E as (ls & El & E). apply Ok_inj in E; subst t.
  assert (T1 : tame l) by (apply (tame_sub _ _ T); [assumption|]; intros; constructor; assumption).
  assert (T2 : tame r) by (apply (tame_sub _ _ T); [assumption|]; intros; apply oc_rhs; assumption).
  assert (K1 : is_col_or_func l = true).
  { unfold check_condition in CC. destruct (is_col_or_func l); [reflexivity|discriminate]. }
  assert (WD : worded (ls ++ $" " ++ op_value p ++ rs)).
  { apply (worded_app ls (op_value p ++ rs)); [exact (visit_worded al l ls T1 (or_introl K1) El)|].
    destruct (is_unary p); [apply Ok_inj in Er; subst rs; apply worded_nil, op_worded|].
    destruct (is_col_or_func r) eqn:K2.
    - apply bind_Ok in Er as (s & Hs & Er). apply Ok_inj in Er; subst rs.
      apply worded_app; [apply op_worded|exact (visit_worded al r s T2 (or_introl K2) Hs)].
    - apply bind_Ok in Er as (b & Hb & Er). destruct b; [|discriminate]. apply is_scalar_true in Hb.
      apply bind_Ok in Er as (s & Hs & Er). apply Ok_inj in Er; subst rs.
      apply worded_app; [apply op_worded|exact (visit_worded al r s T2 (or_intror Hb) Hs)]. }
  split; [apply worded_closed, WD|]. split; [apply worded_no_conn, WD|].
  intros s' E. destruct (lhs_start _ _ _ T1 K1 El) as [N S]. destruct ls as [|c ls]; [contradiction|].
  injection E as -> _. eapply S. reflexivity.
Qed.
Lemma atom_occurs a c : atom_in a c -> occurs a c.
Proof. induction 1; [constructor|econstructor; eassumption]. Qed.
Lemma occurs_trans a b c : occurs a b -> occurs b c -> occurs a c.
Proof. intros H1 H2. induction H2; eauto using occurs. Qed.
Lemma wf_bool_ok o : wf o -> is_condition_obj o = true -> bool_ok o.
Proof.
  induction o using obj_ind'; intros W C; try discriminate C; [constructor|].
  inversion W; subst. constructor; [assumption|]. rewrite Forall_forall in *. intros x Hx.
  apply H; [exact Hx|auto|]. match goal with F : forall x, In x l -> is_condition_obj x = true |- _ => auto end.
Qed.
Lemma wf_atom a c : wf c -> atom_in a c -> wf a.
Proof.
  intros W H. induction H; [exact W|]. apply IHatom_in. inversion W; subst.
  match goal with F : Forall wf l |- _ => rewrite Forall_forall in F; auto end.
Qed.

(** C17 for conditions with plain names *)
Lemma c17_plain al c s : api c -> a_condition c -> (forall x, occurs x c -> plain_names x) ->
  visit false al c = Ok s -> exists t, shape (prints al) c t /\ reads s t.
Proof.
  intros A C P E. apply api_wf in A. apply is_condition_obj_iff in C.
  apply print_reads; [apply wf_bool_ok; assumption| |exact E].
  intros a t Ha Ht.
  assert (T : tame a).
  { split; [eapply wf_atom; eauto|]. intros x Hx. apply P. eapply occurs_trans; [exact Hx|]. apply atom_occurs, Ha. }
  assert (X : exists l p r, a = OCond l p r) by (clear - Ha; induction Ha; eauto).
  destruct X as (l & p & r & ->). eapply tame_atom; eauto.
Qed.
Lemma c17_general al c s : api c -> a_condition c ->
  (forall a t, atom_in a c -> visit false al a = Ok t -> atom_text t) ->
  visit false al c = Ok s -> exists t, shape (prints al) c t /\ reads s t.
Proof.
  intros A C P E. apply api_wf in A. apply is_condition_obj_iff in C.
  apply print_reads; [apply wf_bool_ok; assumption|exact P|exact E].
Qed.

End Tame.
