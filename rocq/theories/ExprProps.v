(** Constructor properties C01-C11, as lemmas. *)
From Verif Require Import PyBase PyFacts Regex RegexFacts DateTime Objects Exprs SpecExpr ExprFacts
  Translate.

Section Props.
Context {RT : PyRT}.

(** * C02, C03 *)
Lemma strip_key key : ~ In 93%N key -> strip (N.eqb RBR) (key ++ [93%N]) = key.
Proof.
  intros H. unfold strip, rstrip. rewrite rev_app_distr. cbn [rev app lstrip].
  replace (N.eqb RBR 93) with true by reflexivity.
  assert (A : forall l, ~ In 93%N l -> lstrip (N.eqb RBR) l = l).
  { intros l Hl. apply lstrip_id. destruct l as [|c l]; [exact I|].
    destruct (N.eqb_spec RBR c) as [<-|Hn]; [elim Hl; left; reflexivity|reflexivity]. }
  rewrite (A (rev key)) by (intros Hi; apply H, in_rev; exact Hi). rewrite rev_involutive. apply A, H.
Qed.

Lemma column_parts_sub base key rest : ~ In 91%N base ->
  column_parts (base ++ $"[" ++ key ++ rest)
  = (Some base, Some (strip (N.eqb RBR) (key ++ rest))).
Proof.
  intros H. unfold column_parts.
  change (base ++ $"[" ++ key ++ rest) with (base ++ LBR :: (key ++ rest)).
  rewrite split_once_app by exact H. reflexivity.
Qed.
Lemma column_parts_plain n : ~ In 91%N n -> column_parts n = (None, None).
Proof. intros H. unfold column_parts. apply split_once_None in H. unfold LBR. rewrite H. reflexivity. Qed.

Lemma not_in_app (c : N) (a b : str) : ~ In c a -> ~ In c b -> ~ In c (a ++ b).
Proof. intros Ha Hb H. apply in_app_or in H as [H|H]; auto. Qed.
Lemma Forall_not_in (P : N -> Prop) c l : Forall P l -> (P c -> False) -> ~ In c l.
Proof. intros H Hc Hi. rewrite Forall_forall in H. exact (Hc (H c Hi)). Qed.

Lemma c02_lemma name ent c : mk_column name ent = Ok (OColumn c) ->
  (forall p, c_name c <> p ++ [10%N]) -> decomposed c.
Proof.
  intros H Hnl. apply mk_column_Ok in H as (n & e & -> & Hn & _ & _ & H). injection H as ->.
  cbn [c_name c_sub c_key] in *.
  apply column_name_cases in Hn as (base & nl & Hb & Hne & Ho & Hcase).
  assert (nl = []) as ->.
  { destruct Ho as [Ho|Ho]; [exact Ho|]. exfalso. subst nl.
    destruct Hcase as [->|(key & -> & _)]; [exact (Hnl base eq_refl)|].
    apply (Hnl (base ++ $"[" ++ key ++ $"]")). rewrite <- !app_assoc. reflexivity. }
  assert (B1 : ~ In 91%N base) by (apply (Forall_not_in _ _ _ Hb); intros (H & _); congruence).
  assert (B2 : ~ In 93%N base) by (apply (Forall_not_in _ _ _ Hb); intros (_ & H & _); congruence).
  destruct Hcase as [->|(key & -> & K1 & K2)].
  - rewrite app_nil_r in *. rewrite column_parts_plain by exact B1. left. auto.
  - right. exists base, key. rewrite column_parts_sub by exact B1. cbn [fst snd].
    rewrite app_nil_r. cbn. change [93%N] with [93%N]. rewrite strip_key by exact K2.
    repeat split; auto.
Qed.

(** the shape for names with a final newline: the key keeps the bracket and the newline *)
Lemma c02_witness : exists c,
  mk_column (OStr ($"a[b]" ++ [10%N])) ONone = Ok (OColumn c) /\ ~ decomposed c.
Proof.
  exists (mkColumn ($"a[b]" ++ [10%N]) None (Some ($"a")) (Some ($"b]" ++ [10%N]))).
  split; [vm_compute; reflexivity|].
  intros [(H & _)|(s & k & H1 & H2 & H3 & _)]; [discriminate|].
  injection H1 as <-. injection H2 as <-. vm_compute in H3. discriminate.
Qed.

(** acceptance of a subscripted column: the schema must list the full bracketed text *)
Lemma c03_exact base key e a d :
  column_name (sub_name base key) -> e_alias e = Some a -> a <> [] -> e_dm e = Some d ->
  (exists o, mk_column (OStr (sub_name base key)) (OEntity e) = Ok o)
  <-> In (sub_name base key) (map sc_name (dm_columns d)).
Proof.
  intros Hn Ha Hne Hd. split.
  - intros (o & H). apply mk_column_Ok in H as (n & e' & E & _ & Hent & _).
    injection E as <-. destruct Hent as [H|(e2 & a2 & H & _ & _ & Hdm)]; [discriminate|].
    injection H as <-. apply (Hdm d Hd).
  - intros H. eexists. apply mk_column_Ok. exists (sub_name base key), (Some e).
    repeat split; auto; [|right; eauto].
    right. exists e, a. repeat split; auto. intros d' Hd'. congruence.
Qed.

Definition tags_model : data_model :=
  mkDM [mkSC ($"tags") false; mkSC ($"timestamp") false] (mkSC ($"timestamp") false).
Lemma c03_witness :
  let e := mkEntity ($"events") (Some ($"e")) None (Some tags_model) in
  schema_has e ($"tags")
  /\ mk_column (OStr ($"tags")) (OEntity e) <> Raise InvalidColumnError
  /\ mk_column (OStr (sub_name ($"tags") ($"k"))) (OEntity e) = Raise InvalidColumnError.
Proof.
  cbn zeta. split; [|split].
  - exists tags_model. split; [reflexivity|left; reflexivity].
  - vm_compute. discriminate.
  - vm_compute. reflexivity.
Qed.

(** * Aliases (C04) *)
Lemma check_alias_Ok alias e r : check_alias alias e = Ok r <->
  (alias = ONone /\ r = None) \/ exists s, alias = OStr s /\ alias_name s /\ r = Some s.
Proof.
  unfold check_alias, alias_name. split.
  - intros H. destruct alias as [| | | |[|c s]| | | | | | | | | | | | | | | | | | | | | | | | | | | | |];
      try discriminate.
    + injection H as <-. auto.
    + destruct (re_matches alias_re (c :: s)) eqn:E; [|discriminate]. injection H as <-.
      right. exists (c :: s). repeat split; [discriminate|]. apply alias_re_iff, E.
  - intros [[-> ->]|(s & -> & (Hne & Hs) & ->)]; [reflexivity|].
    destruct s as [|c s]; [elim Hne; reflexivity|].
    apply alias_re_iff in Hs. rewrite Hs. reflexivity.
Qed.
Lemma check_alias_Raise alias e x : check_alias alias e = Raise x -> x = e.
Proof.
  unfold check_alias. intros H.
  destruct alias as [| | | |[|c s]| | | | | | | | | | | | | | | | | | | | | | | | | | | | |]; try congruence.
  destruct (re_matches alias_re (c :: s)); congruence.
Qed.
Lemma check_alias_opt alias e : (exists r, check_alias alias e = Ok r) <-> opt_alias alias.
Proof.
  unfold opt_alias. split.
  - intros (r & H). apply check_alias_Ok in H as [[-> _]|(s & -> & H & _)]; eauto.
  - intros [->|(s & -> & H)]; [exists None; reflexivity|].
    exists (Some s). apply check_alias_Ok. right; eauto.
Qed.

Lemma alias_name_safe a c : alias_name a -> In c a ->
  c <> 96%N /\ c <> 39%N /\ c <> 34%N /\ c <> 92%N /\ c <> 32%N.
Proof.
  intros (_ & body & nl & -> & Hb & Hn) Hi. apply in_app_or in Hi as [Hi|Hi].
  - rewrite Forall_forall in Hb. destruct (Hb c Hi) as [H|H].
    + unfold ascii_word, ascii_letter, ascii_digit in H. lia.
    + cbn in H. intuition (subst; lia).
  - destruct Hn as [->| ->]; cbn in Hi; [contradiction|]. intuition (subst; lia).
Qed.

Lemma read_until_backquote_app a rest : ~ In 96%N a ->
  read_until_backquote (a ++ 96%N :: rest) = Some (a, rest).
Proof.
  induction a as [|c a IH]; cbn; intros H; [reflexivity|].
  destruct (N.eqb_spec c 96) as [->|Hc]; [elim H; left; reflexivity|].
  rewrite IH by auto. reflexivity.
Qed.

Lemma mk_func_Ok isf f i p a o : mk_func isf f i p a = Ok o <->
  exists n ik il pk pl al,
    check_function_name f = Ok n /\ check_inits i = Ok (ik, il)
    /\ check_alias a InvalidFunctionError = Ok al /\ check_params p = Ok (pk, pl)
    /\ o = OFunc isf n ik il pk pl al.
Proof.
  unfold mk_func. split.
  - intros H. apply bind_Ok in H as (n & H1 & H). apply bind_Ok in H as ([ik il] & H2 & H).
    apply bind_Ok in H as (al & H3 & H). apply bind_Ok in H as ([pk pl] & H4 & H).
    injection H as <-. exists n, ik, il, pk, pl, al. auto.
  - intros (n & ik & il & pk & pl & al & -> & -> & -> & -> & ->). reflexivity.
Qed.

Lemma c04_name_func isf f i p a o s :
  mk_func isf f i p a = Ok o -> alias_of o = Some s -> alias_name s.
Proof.
  intros H Ha. apply mk_func_Ok in H as (n & ik & il & pk & pl & al & _ & _ & H & _ & ->).
  cbn in Ha. subst al. apply check_alias_Ok in H as [[_ H]|(s' & _ & Hs & H)]; [discriminate|].
  injection H as <-. exact Hs.
Qed.
Lemma c04_name_aliased e a o s :
  mk_aliased e a = Ok o -> alias_of o = Some s -> alias_name s.
Proof.
  intros H Ha. destruct e; try discriminate. cbn in H. apply bind_Ok in H as (al & H & E).
  injection E as <-. cbn in Ha. subst al.
  apply check_alias_Ok in H as [[_ H]|(s' & _ & Hs & H)]; [discriminate|].
  injection H as <-. exact Hs.
Qed.

(** printed text ends with the alias clause *)
Lemma alias_suffix_printed mql al o s text : alias_of o = Some s ->
  visit mql al o = Ok text -> exists body, text = body ++ $" AS `" ++ s ++ $"`".
Proof.
  intros Ha H. destruct o; try discriminate; cbn in Ha; subst alias.
  - cbn in H. injection H as <-. eexists. reflexivity.
  - cbn [visit] in H. apply bind_Ok in H as (x & _ & H). apply bind_Ok in H as (y & _ & H).
    injection H as <-. exists (name ++ x ++ y). rewrite <- !app_assoc. reflexivity.
Qed.

Lemma c04_lemma mql al o s text rest :
  (exists e a, mk_aliased e a = Ok o) \/ (exists isf f i p a, mk_func isf f i p a = Ok o) ->
  alias_of o = Some s -> visit mql al o = Ok text ->
  alias_name s /\ exists body, text ++ rest = body ++ $" AS `" ++ s ++ $"`" ++ rest
    /\ read_until_backquote (s ++ $"`" ++ rest) = Some (s, rest).
Proof.
  intros Hmk Ha Ht.
  assert (Hs : alias_name s).
  { destruct Hmk as [(e & a & H)|(isf & f & i & p & a & H)];
      [eapply c04_name_aliased|eapply c04_name_func]; eassumption. }
  split; [exact Hs|]. destruct (alias_suffix_printed _ _ _ _ _ Ha Ht) as (body & ->).
  exists body. split; [rewrite <- !app_assoc; reflexivity|].
  apply read_until_backquote_app. intros Hi. apply (alias_name_safe s 96%N Hs) in Hi. lia.
Qed.

Lemma c04_aliased_iff e a : (exists o, mk_aliased e a = Ok o) <-> a_column e /\ opt_alias a.
Proof.
  rewrite <- (check_alias_opt a InvalidExpressionError). split.
  - intros (o & H). destruct e; try discriminate. cbn in H. apply bind_Ok in H as (r & H & _).
    split; [constructor|eauto].
  - intros [H (r & Hr)]. inversion H; subst. eexists. cbn. rewrite Hr. reflexivity.
Qed.

(** * C05: functions *)
Lemma check_function_name_Ok f n : check_function_name f = Ok n <-> f = OStr n /\ function_name n.
Proof.
  rewrite <- function_name_re_iff. unfold check_function_name. split.
  - destruct f as [| | | |[|c s]| | | | | | | | | | | | | | | | | | | | | | | | | | | | |]; try discriminate.
    destruct (re_matches function_name_re (c :: s)) eqn:E; [|discriminate].
    intros H; injection H as <-. auto.
  - intros [-> H]. destruct n as [|c n]; [discriminate|]. rewrite H. reflexivity.
Qed.
Lemma init_ok_iff o : init_ok o = true <-> a_column o \/ literal o.
Proof.
  rewrite <- is_literal_iff. split.
  - destruct o; try discriminate; intros H; try (right; exact H). left; constructor.
  - intros [H|H]; [inversion H; reflexivity|]. destruct o; try discriminate; reflexivity.
Qed.
Lemma forallb_Forall {A} (f : A -> bool) (P : A -> Prop) l :
  (forall x, f x = true <-> P x) -> forallb f l = true <-> Forall P l.
Proof.
  intros H. rewrite forallb_forall, Forall_forall.
  split; intros G x Hx; apply H, G, Hx.
Qed.
Lemma check_inits_iff i : (exists r, check_inits i = Ok r) <-> inits_ok i.
Proof.
  unfold inits_ok. split.
  - intros ([k l] & H).
    destruct (match i with ONone => true | _ => false end) eqn:En.
    + left. destruct i; try discriminate; reflexivity.
    + right. assert (E : check_inits i = match as_seq i with
         | None => Raise InvalidFunctionError
         | Some (k, l) => if forallb init_ok l then Ok (k, l) else Raise InvalidFunctionError
         end) by (destruct i; try discriminate; reflexivity).
      rewrite E in H. destruct (as_seq i) as [[k' l']|] eqn:Es; [|discriminate].
      destruct (forallb init_ok l') eqn:Ef; [|discriminate]. injection H as -> ->.
      exists l. split; [eapply as_seq_iff, Es|]. apply (forallb_Forall init_ok _ l init_ok_iff), Ef.
  - intros [->|(l & Hs & Hf)]; [eexists; reflexivity|].
    apply (forallb_Forall init_ok _ l init_ok_iff) in Hf.
    inversion Hs; subst; unfold check_inits, as_seq; rewrite Hf; eexists; reflexivity.
Qed.
Lemma check_inits_raise i e : check_inits i = Raise e -> e = InvalidFunctionError.
Proof.
  intros H. destruct i; cbn in H; try congruence;
    match type of H with context [if ?b then _ else _] => destruct b; congruence end.
Qed.

Lemma check_param_items_iff l : check_param_items l = Ok tt <-> Forall param_ok l.
Proof.
  induction l as [|p l IH]; cbn; [split; auto|].
  destruct (is_param_expr p) eqn:Ep.
  - rewrite IH. split; intros H; [|inversion H; auto].
    constructor; [left; apply is_param_expr_iff, Ep|exact H].
  - assert (Np : param_ok p <-> scalar p).
    { unfold param_ok. rewrite <- is_param_expr_iff, Ep. split; [intros [?|?]; [discriminate|auto]|auto]. }
    rewrite bind_Ok. split.
    + intros (b & Hb & H). destruct b; [|discriminate].
      constructor; [apply Np, is_scalar_true, Hb|apply IH, H].
    + intros H. inversion H; subst. exists true. split; [apply is_scalar_true, Np; assumption|].
      apply IH; assumption.
Qed.
Lemma check_param_items_raise l e : check_param_items l = Raise e ->
  e = InvalidFunctionError \/ e = InvalidExpressionError.
Proof.
  induction l as [|p l IH]; cbn; [discriminate|]. destruct (is_param_expr p); [exact IH|].
  intros H. apply bind_Raise in H as [H|(b & _ & H)].
  - right. eapply is_scalar_raise, H.
  - destruct b; [exact (IH H)|left; congruence].
Qed.
Lemma check_params_eq p : p <> ONone -> check_params p =
  match as_seq p with
  | None => Raise InvalidFunctionError
  | Some (k, l) => check_param_items l ;! Ok (k, l)
  end.
Proof. intros H. destruct p; try reflexivity. elim H; reflexivity. Qed.
Lemma obj_none_dec (o : obj) : o = ONone \/ o <> ONone.
Proof. destruct o; try (right; discriminate). left; reflexivity. Qed.
Lemma check_params_iff p : (exists r, check_params p = Ok r) <-> params_ok p.
Proof.
  unfold params_ok. split.
  - intros (r & H). destruct (obj_none_dec p) as [->|Hn]; [left; reflexivity|right].
    rewrite check_params_eq in H by exact Hn.
    destruct (as_seq p) as [[k l]|] eqn:Es; [|discriminate].
    apply bind_Ok in H as ([] & H & _). exists l.
    split; [eapply as_seq_iff, Es|apply check_param_items_iff, H].
  - intros [->|(l & Hs & Hf)]; [eexists; reflexivity|].
    apply check_param_items_iff in Hf. destruct (as_seq_complete _ _ Hs) as (k & Ek).
    rewrite check_params_eq by (intros ->; inversion Hs). rewrite Ek, Hf. eexists; reflexivity.
Qed.

Lemma c05_accept isf f i p a : (exists o, mk_func isf f i p a = Ok o) <->
  (exists n, f = OStr n /\ function_name n) /\ inits_ok i /\ opt_alias a /\ params_ok p.
Proof.
  rewrite <- check_inits_iff, <- check_params_iff, <- (check_alias_opt a InvalidFunctionError). split.
  - intros (o & H). apply mk_func_Ok in H as (n & ik & il & pk & pl & al & H1 & H2 & H3 & H4 & _).
    apply check_function_name_Ok in H1. eauto 10.
  - intros ((n & H1) & ([ik il] & H2) & (al & H3) & ([pk pl] & H4)).
    apply check_function_name_Ok in H1. eexists. apply mk_func_Ok.
    exists n, ik, il, pk, pl, al. eauto 8.
Qed.
Lemma c05_raise isf f i p a e : mk_func isf f i p a = Raise e ->
  e = InvalidFunctionError \/ e = InvalidExpressionError.
Proof.
  unfold mk_func. intros H. apply bind_Raise in H as [H|(n & _ & H)].
  { left. unfold check_function_name in H.
    destruct f as [| | | |[|c s]| | | | | | | | | | | | | | | | | | | | | | | | | | | | |]; try congruence.
    destruct (re_matches function_name_re (c :: s)); congruence. }
  apply bind_Raise in H as [H|([ik il] & _ & H)]; [left; eapply check_inits_raise, H|].
  apply bind_Raise in H as [H|(al & _ & H)]; [left; eapply check_alias_Raise, H|].
  apply bind_Raise in H as [H|([pk pl] & _ & H)]; [|discriminate].
  destruct (obj_none_dec p) as [->|Hn]; [discriminate|].
  rewrite check_params_eq in H by exact Hn.
  destruct (as_seq p) as [[k l]|]; [|left; congruence].
  apply bind_Raise in H as [H|(u & _ & H)]; [|discriminate].
  eapply check_param_items_raise, H.
Qed.

(** * C06 *)
Lemma check_word_Ok n e s : check_word n e = Ok s <-> n = OStr s /\ entity_name s.
Proof.
  rewrite <- word_name_re_iff. unfold check_word. split.
  - destruct n; try discriminate. destruct (re_matches word_name_re s0) eqn:E; [|discriminate].
    intros H; injection H as <-. auto.
  - intros [-> H]. rewrite H. reflexivity.
Qed.
Lemma flt_le0_iff f : flt_le0 f = false <-> not_le_zero f.
Proof.
  destruct f as [|neg|neg m ex]; cbn; [tauto|tauto|].
  destruct neg; cbn; [intuition discriminate|]. rewrite N.eqb_neq. tauto.
Qed.
Lemma check_sample_Ok s e : (exists r, check_sample s e = Ok r) <-> sample_arg_ok s.
Proof.
  unfold check_sample, sample_arg_ok. split.
  - intros (r & H). destruct s; try discriminate; [auto|].
    destruct (flt_le0 f) eqn:E; [discriminate|]. right. apply flt_le0_iff in E. eauto.
  - intros [->|(f & -> & H)]; [|apply flt_le0_iff in H; rewrite H]; eexists; reflexivity.
Qed.
Lemma check_dm_Ok d e : (exists r, check_dm d e = Ok r) <-> dm_arg_ok d.
Proof.
  unfold check_dm, dm_arg_ok. split.
  - intros (r & H). destruct d; try discriminate; eauto.
  - intros [->|(m & ->)]; eexists; reflexivity.
Qed.
Lemma c06_entity n a s d : (exists o, mk_entity n a s d = Ok o) <->
  (exists w, n = OStr w /\ entity_name w) /\ entity_alias_ok a /\ sample_arg_ok s /\ dm_arg_ok d.
Proof.
  rewrite <- (check_sample_Ok s InvalidEntityError), <- (check_dm_Ok d InvalidEntityError).
  unfold mk_entity, entity_alias_ok. split.
  - intros (o & H). apply bind_Ok in H as (w & H1 & H). apply bind_Ok in H as (f & H2 & H).
    apply bind_Ok in H as (al & H3 & H). apply bind_Ok in H as (m & H4 & H).
    apply check_word_Ok in H1. split; [eauto|]. split; [|eauto].
    destruct a as [| | | |[|x a]| | | | | | | | | | | | | | | | | | | | | | | | | | | | |]; try discriminate;
      [auto|]. right. exists (x :: a). split; [reflexivity|discriminate].
  - intros ((w & H1) & Ha & (f & H2) & (m & H4)). apply (check_word_Ok n InvalidEntityError) in H1.
    rewrite H1. cbn. rewrite H2. cbn. destruct Ha as [->|(al & -> & Hne)]; cbn.
    + rewrite H4. cbn. eauto.
    + destruct al as [|x al]; [elim Hne; reflexivity|]. cbn. rewrite H4. cbn. eauto.
Qed.
Lemma c06_storage n s d : (exists o, mk_storage n s d = Ok o) <->
  (exists w, n = OStr w /\ entity_name w) /\ sample_arg_ok s /\ dm_arg_ok d.
Proof.
  rewrite <- (check_sample_Ok s InvalidStorageError), <- (check_dm_Ok d InvalidStorageError).
  unfold mk_storage. split.
  - intros (o & H). apply bind_Ok in H as (w & H1 & H). apply bind_Ok in H as (f & H2 & H).
    apply bind_Ok in H as (m & H4 & H). apply check_word_Ok in H1. eauto 6.
  - intros ((w & H1) & (f & H2) & (m & H4)). apply (check_word_Ok n InvalidStorageError) in H1.
    rewrite H1. cbn. rewrite H2. cbn. rewrite H4. cbn. eauto.
Qed.
Lemma c06_identifier n : (exists o, mk_identifier n = Ok o) <->
  exists w, n = OStr w /\ identifier_name w.
Proof.
  unfold mk_identifier. split.
  - intros (o & H). destruct n; try discriminate.
    destruct (re_matches identifier_re s) eqn:E; [|discriminate].
    exists s. split; [reflexivity|apply identifier_re_iff, E].
  - intros (w & -> & H). apply identifier_re_iff in H. rewrite H. eauto.
Qed.
Lemma check_idents_iff l r : check_idents l = Ok r <->
  l = map OStr r /\ Forall identifier_name r.
Proof.
  revert r; induction l as [|x l IH]; intros r; cbn.
  - split.
    + intros H; injection H as <-. auto.
    + intros [H _]. destruct r; [reflexivity|discriminate].
  - split.
    + intros H. destruct x; try discriminate.
      destruct (re_matches identifier_re s) eqn:E; [|discriminate].
      apply bind_Ok in H as (r' & H & E'). injection E' as <-. apply IH in H as [-> H].
      split; [reflexivity|]. constructor; [apply identifier_re_iff, E|exact H].
    + intros [H F]. destruct r as [|w r]; [discriminate|]. injection H as -> ->.
      inversion F as [|? ? Hw Hr]; subst. apply identifier_re_iff in Hw. rewrite Hw.
      assert (E : check_idents (map OStr r) = Ok r) by (apply IH; auto). rewrite E. reflexivity.
Qed.
Lemma c06_lambda ids b : (exists o, mk_lambda ids b = Ok o) <->
  (exists l, list_or_tuple ids (map OStr l) /\ Forall identifier_name l) /\ a_function b.
Proof.
  unfold mk_lambda. rewrite <- is_func_iff. split.
  - intros (o & H). destruct (as_list_or_tuple ids) as [[k l]|] eqn:E; [|discriminate].
    apply bind_Ok in H as (names & H1 & H). destruct (is_func b) eqn:Eb; [|discriminate].
    apply check_idents_iff in H1 as [-> Hf]. split; [|reflexivity].
    exists names. split; [eapply as_lt_iff, E|exact Hf].
  - intros ((l & Hl & Hf) & ->). apply as_lt_complete in Hl as (k & ->).
    assert (E : check_idents (map OStr l) = Ok l) by (apply check_idents_iff; auto).
    rewrite E. cbn. eauto.
Qed.
Lemma c06_relationship l n r : (exists o, mk_relationship l n r = Ok o) <->
  (exists e a, l = OEntity e /\ e_alias e = Some a) /\
  (exists e a, r = OEntity e /\ e_alias e = Some a) /\
  exists s, n = OStr s /\ s <> [].
Proof.
  unfold mk_relationship. split.
  - intros (o & H). apply bind_Ok in H as (el & H1 & H). apply bind_Ok in H as (er & H2 & H).
    assert (Q : forall o e, match o with
        | OEntity e => match e_alias e with None => Raise InvalidExpressionError | _ => Ok e end
        | _ => Raise InvalidExpressionError end = Ok e ->
        exists e a, o = OEntity e /\ e_alias e = Some a).
    { intros o' e' Ho. destruct o'; try discriminate.
      destruct (e_alias e) eqn:E; [eauto|discriminate]. }
    split; [eapply Q, H1|]. split; [eapply Q, H2|].
    destruct n as [| | | |[|x n]| | | | | | | | | | | | | | | | | | | | | | | | | | | | |]; try discriminate.
    exists (x :: n). split; [reflexivity|discriminate].
  - intros ((e & a & -> & Ha) & (e2 & a2 & -> & Ha2) & (s & -> & Hs)).
    rewrite Ha, Ha2. cbn. destruct s; [elim Hs; reflexivity|]. eauto.
Qed.

(** * C07 *)
Lemma int_clause_iff o lo hi k : (exists r, int_clause o lo hi k = Ok r) <->
  exists z, int_value o z /\ (match lo with Some m => m <= z | None => True end)%Z
            /\ (match hi with Some m => z <= m | None => True end)%Z.
Proof.
  unfold int_clause, validate_int_literal. split.
  - intros (r & H). destruct (as_int o) as [i|] eqn:Ei; [|discriminate].
    apply as_int_iff in Ei. exists (pyint_Z i). split; [exact Ei|].
    apply bind_Ok in H as (u & H & _).
    destruct lo as [m|], hi as [m'|];
      repeat match type of H with context [if ?b then _ else _] => destruct b eqn:?; try discriminate end;
      split; try exact I; lia.
  - intros (z & Hz & Hlo & Hhi). apply as_int_complete in Hz as (i & -> & <-).
    exists (k i).
    destruct lo as [m|], hi as [m'|];
      repeat match goal with |- context [if ?b then _ else _] => destruct b eqn:? end;
      try reflexivity; exfalso; lia.
Qed.
Lemma int_clause_Ok o lo hi k r : int_clause o lo hi k = Ok r ->
  exists i z, r = k i /\ int_value o z /\ pyint_Z i = z.
Proof.
  unfold int_clause. destruct (as_int o) as [i|] eqn:Ei; [|discriminate].
  intros H. apply bind_Ok in H as (u & _ & H). injection H as <-.
  exists i, (pyint_Z i). split; [reflexivity|]. split; [apply as_int_iff, Ei|reflexivity].
Qed.
Lemma int_value_fun o a b : int_value o a -> int_value o b -> a = b.
Proof. intros H1 H2; inversion H1; subst; inversion H2; reflexivity. Qed.

Lemma c07_print_limit o r z : mk_limit o = Ok r -> int_value o z -> forall mql al, visit mql al r = Ok (dec_of_Z z).
Proof.
  intros H Hz mql al. apply int_clause_Ok in H as (i & z' & -> & Hz' & <-).
  rewrite (int_value_fun _ _ _ Hz Hz'). reflexivity.
Qed.
Lemma c07_print_offset o r z : mk_offset o = Ok r -> int_value o z -> forall mql al, visit mql al r = Ok (dec_of_Z z).
Proof.
  intros H Hz mql al. apply int_clause_Ok in H as (i & z' & -> & Hz' & <-).
  rewrite (int_value_fun _ _ _ Hz Hz'). reflexivity.
Qed.
Lemma c07_print_granularity o r z : mk_granularity o = Ok r -> int_value o z -> forall mql al, visit mql al r = Ok (dec_of_Z z).
Proof.
  intros H Hz mql al. apply int_clause_Ok in H as (i & z' & -> & Hz' & <-).
  rewrite (int_value_fun _ _ _ Hz Hz'). reflexivity.
Qed.

Lemma all_columns_iff l cs : all_columns l = Some cs <-> l = map OColumn cs.
Proof.
  revert cs; induction l as [|x l IH]; intros cs; cbn.
  - split; [intros H; injection H as <-; reflexivity|]. destruct cs; [reflexivity|discriminate].
  - split.
    + destruct x; try discriminate. destruct (all_columns l) as [r|]; [|discriminate].
      intros H; injection H as <-. cbn. f_equal. apply IH. reflexivity.
    + destruct cs as [|c' cs]; [discriminate|]. cbn. intros H. injection H as -> ->.
      assert (E : all_columns (map OColumn cs) = Some cs) by (apply IH; reflexivity).
      rewrite E. reflexivity.
Qed.
Lemma c07_limitby cols n : (exists o, mk_limitby cols n = Ok o) <->
  (exists cs, sequence cols (map OColumn cs) /\ cs <> []) /\
  (exists z, int_value n z /\ (1 <= z <= 10000)%Z).
Proof.
  unfold mk_limitby. split.
  - intros (o & H). destruct (as_seq cols) as [[k l]|] eqn:Es; [|discriminate].
    destruct (Nat.ltb_spec (List.length l) 1) as [Hl|Hl]; [discriminate|].
    destruct (all_columns l) as [cs|] eqn:Ec; [|discriminate].
    destruct (as_int n) as [i|] eqn:Ei; [|discriminate].
    destruct ((pyint_Z i <=? 0)%Z || (pyint_Z i >? 10000)%Z) eqn:Eb; [discriminate|].
    apply orb_false_iff in Eb as [E1 E2]. apply all_columns_iff in Ec as ->. split.
    + exists cs. split; [eapply as_seq_iff, Es|]. intros ->. cbn in Hl; lia.
    + exists (pyint_Z i). split; [apply as_int_iff, Ei|lia].
  - intros ((cs & Hs & Hne) & (z & Hz & Hb)).
    apply as_seq_complete in Hs as (k & ->). apply as_int_complete in Hz as (i & -> & <-).
    assert (E : all_columns (map OColumn cs) = Some cs) by (apply all_columns_iff; reflexivity).
    rewrite E. destruct (Nat.ltb_spec (List.length (map OColumn cs)) 1) as [Hl|Hl].
    { destruct cs; [elim Hne; reflexivity|cbn in Hl; lia]. }
    replace ((pyint_Z i <=? 0)%Z || (pyint_Z i >? 10000)%Z) with false by lia. eauto.
Qed.
(** the printed LIMIT BY clause starts with the numeral, provided the count was an int *)
Lemma c07_print_limitby cols z o mql al text :
  mk_limitby cols (OInt z) = Ok o -> visit mql al o = Ok text ->
  exists rest, text = dec_of_Z z ++ $" BY " ++ rest.
Proof.
  unfold mk_limitby. intros H Ht. destruct (as_seq cols) as [[k l]|]; [|discriminate].
  destruct (Nat.ltb _ _); [discriminate|]. destruct (all_columns l) as [cs|]; [|discriminate].
  cbn in H. destruct ((z <=? 0)%Z || (z >? 10000)%Z); [discriminate|]. injection H as <-.
  cbn in Ht. injection Ht as <-. eexists; reflexivity.
Qed.
Lemma c07_witness : exists o text,
  mk_limitby (OList [OColumn (mkColumn ($"a") None None None)]) (OBool true) = Ok o
  /\ int_value (OBool true) 1 /\ visit false false o = Ok text /\ text = $"True BY a"
  /\ ~ exists rest, text = dec_of_Z 1 ++ rest.
Proof.
  eexists. eexists. split; [reflexivity|]. split; [constructor|].
  split; [reflexivity|]. split; [reflexivity|].
  intros (rest & H). vm_compute in H. discriminate.
Qed.

(** * C08, C09 *)
Lemma is_unary_iff o : is_unary o = true <-> o = IS_NULL \/ o = IS_NOT_NULL.
Proof. destruct o; cbn; intuition congruence. Qed.
Lemma check_condition_Ok lhs o rhs : check_condition lhs o rhs = Ok tt <->
  (a_column lhs \/ a_function lhs) /\ ((o = IS_NULL \/ o = IS_NOT_NULL) -> rhs = ONone)
  /\ (a_column rhs \/ a_function rhs \/ scalar rhs).
Proof.
  unfold check_condition. rewrite <- is_unary_iff, <- is_col_or_func_iff, <- is_scalar_true.
  rewrite <- or_assoc. rewrite <- is_col_or_func_iff.
  destruct (is_col_or_func lhs) eqn:El; cbn [negb]; [|intuition discriminate].
  destruct (is_unary o) eqn:Eu; cbn [andb].
  - destruct (obj_none_dec rhs) as [->|Hn].
    + cbn. intuition.
    + assert (negb match rhs with ONone => true | _ => false end = true) as ->
        by (destruct rhs; try reflexivity; elim Hn; reflexivity).
      split; [discriminate|]. intros (_ & H & _). elim Hn. auto.
  - destruct (is_col_or_func rhs) eqn:Er; [intuition discriminate|].
    rewrite bind_Ok. split.
    + intros (b & Hb & H). destruct b; [|discriminate]. intuition discriminate.
    + intros (_ & _ & [H|H]); [discriminate|]. exists true. auto.
Qed.
Lemma check_condition_raise lhs o rhs e : check_condition lhs o rhs = Raise e ->
  e = InvalidConditionError \/ e = InvalidExpressionError.
Proof.
  unfold check_condition. intros H.
  destruct (negb (is_col_or_func lhs)); [left; congruence|].
  destruct (is_unary o && _); [left; congruence|].
  destruct (is_col_or_func rhs); [discriminate|].
  apply bind_Raise in H as [H|(b & _ & H)]; [right; eapply is_scalar_raise, H|].
  destruct b; [discriminate|left; congruence].
Qed.
Lemma mk_condition_Ok lhs p rhs o : mk_condition lhs p rhs = Ok o <->
  exists q, p = OOp q /\ check_condition lhs q rhs = Ok tt /\ o = OCond lhs q rhs.
Proof.
  unfold mk_condition. split.
  - destruct (is_col_or_func lhs) eqn:E; [|discriminate]. cbn [negb].
    destruct p; try discriminate. intros H. apply bind_Ok in H as ([] & H1 & H).
    injection H as <-. eauto.
  - intros (q & -> & H & ->). assert (is_col_or_func lhs = true) as ->.
    { unfold check_condition in H. destruct (is_col_or_func lhs); [reflexivity|discriminate]. }
    cbn [negb]. rewrite H. reflexivity.
Qed.
Lemma c08_accept lhs p rhs : (exists o, mk_condition lhs p rhs = Ok o) <-> condition_ok lhs p rhs.
Proof.
  unfold condition_ok. split.
  - intros (o & H). apply mk_condition_Ok in H as (q & -> & H & _).
    apply check_condition_Ok in H as (H1 & H2 & H3). split; [exact H1|]. eauto.
  - intros (H1 & q & -> & H2 & H3). eexists. apply mk_condition_Ok. exists q.
    split; [reflexivity|]. split; [|reflexivity]. apply check_condition_Ok; auto.
Qed.
Lemma c08_raise lhs p rhs e : mk_condition lhs p rhs = Raise e ->
  e = InvalidConditionError \/ e = InvalidExpressionError.
Proof.
  unfold mk_condition. destruct (negb (is_col_or_func lhs)); [left; congruence|].
  destruct p; try (left; congruence). intros H.
  apply bind_Raise in H as [H|(u & _ & H)]; [|discriminate].
  eapply check_condition_raise, H.
Qed.

Lemma check_bool_items_iff l : check_bool_items l = Ok tt <->
  (2 <= List.length l)%nat /\ Forall a_condition l.
Proof.
  unfold check_bool_items. destruct (Nat.ltb_spec (List.length l) 2) as [H|H].
  - split; [discriminate|lia].
  - rewrite assert_Ok. rewrite (forallb_Forall _ _ l is_condition_obj_iff). tauto.
Qed.
Lemma check_bool_items_raise l e : check_bool_items l = Raise e -> e = InvalidConditionError.
Proof.
  unfold check_bool_items. destruct (Nat.ltb _ _); [congruence|]. intros H.
  apply assert_Raise in H. tauto.
Qed.
Lemma mk_boolean_Ok cls p conds o : mk_boolean cls p conds = Ok o <->
  exists q k l, p = OBoolOp q /\ as_list_or_tuple conds = Some (k, l)
    /\ 2 <= List.length l /\ Forall a_condition l /\ o = OBoolC cls q k l.
Proof.
  unfold mk_boolean. split.
  - destruct p; try discriminate. destruct (as_list_or_tuple conds) as [[k l]|]; [|discriminate].
    intros H. apply bind_Ok in H as ([] & H1 & H). injection H as <-.
    apply check_bool_items_iff in H1 as []. eauto 10.
  - intros (q & k & l & -> & -> & H1 & H2 & ->).
    assert (E : check_bool_items l = Ok tt) by (apply check_bool_items_iff; auto).
    rewrite E. reflexivity.
Qed.
Lemma c09_accept cls p conds : (exists o, mk_boolean cls p conds = Ok o) <->
  (exists q, p = OBoolOp q) /\
  exists l, list_or_tuple conds l /\ 2 <= List.length l /\ Forall a_condition l.
Proof.
  split.
  - intros (o & H). apply mk_boolean_Ok in H as (q & k & l & -> & H & H1 & H2 & _).
    apply as_lt_iff in H. eauto 6.
  - intros ((q & ->) & l & Hl & H1 & H2). apply as_lt_complete in Hl as (k & E).
    eexists. apply mk_boolean_Ok. eauto 12.
Qed.
Lemma c09_raise cls p conds e : mk_boolean cls p conds = Raise e -> e = InvalidConditionError.
Proof.
  unfold mk_boolean. destruct p; try congruence.
  destruct (as_list_or_tuple conds) as [[k l]|]; [|congruence].
  intros H. apply bind_Raise in H as [H|(u & _ & H)]; [|discriminate].
  eapply check_bool_items_raise, H.
Qed.

(** * Forms used in Properties1.v *)
Lemma c01_accept name ent : (exists o, mk_column name ent = Ok o) <->
  exists n, name = OStr n /\ column_name n /\ column_entity_ok n ent.
Proof.
  split.
  - intros (o & H). apply mk_column_Ok in H as (n & e & H1 & H2 & H3 & _). eauto.
  - intros (n & H1 & H2 & H3).
    destruct H3 as [->|(e & a & -> & H4)].
    + eexists. apply mk_column_Ok. exists n, None. repeat split; auto. left; reflexivity.
    + eexists. apply mk_column_Ok. exists n, (Some e). repeat split; eauto.
      right. exists e, a. auto.
Qed.
Lemma c01_stores name ent o : mk_column name ent = Ok o ->
  exists c, o = OColumn c /\ name = OStr (c_name c)
    /\ ent = match c_entity c with Some e => OEntity e | None => ONone end.
Proof.
  intros H. apply mk_column_Ok in H as (n & e & -> & _ & _ & He & ->).
  eexists; split; [reflexivity|]. cbn. split; [reflexivity|].
  destruct He as [[-> ->]|(e' & -> & ->)]; reflexivity.
Qed.
Lemma c03_refuted : exists base key e a,
  column_name (sub_name base key) /\ e_alias e = Some a /\ a <> [] /\ schema_has e base
  /\ mk_column (OStr (sub_name base key)) (OEntity e) = Raise InvalidColumnError.
Proof.
  pose proof c03_witness as H. cbv zeta in H.
  exists ($"tags"), ($"k"), (mkEntity ($"events") (Some ($"e")) None (Some tags_model)), ($"e").
  split. { apply column_name_re_iff. reflexivity. }
  split; [reflexivity|]. split; [discriminate|]. split; apply H.
Qed.
Lemma c05_stores isf f i p a o : mk_func isf f i p a = Ok o ->
  exists n ik il pk pl al, o = OFunc isf n ik il pk pl al
    /\ f = OStr n /\ a = match al with Some s => OStr s | None => ONone end
    /\ (i = ONone /\ ik = KNone /\ il = [] \/ sequence i il)
    /\ (p = ONone /\ pk = KNone /\ pl = [] \/ sequence p pl).
Proof.
  intros H. apply mk_func_Ok in H as (n & ik & il & pk & pl & al & H1 & H2 & H3 & H4 & ->).
  exists n, ik, il, pk, pl, al. split; [reflexivity|].
  apply check_function_name_Ok in H1 as [-> _]. split; [reflexivity|].
  split. { apply check_alias_Ok in H3 as [[-> ->]|(s & -> & _ & ->)]; reflexivity. }
  split.
  - destruct (obj_none_dec i) as [->|Hi]; [cbn in H2; injection H2 as <- <-; auto|].
    right. assert (E : exists kl, as_seq i = Some kl /\ kl = (ik, il)).
    { unfold check_inits in H2. destruct i; try (elim Hi; reflexivity); cbn [as_seq] in *;
        try discriminate; destruct (forallb _ _); try discriminate; injection H2 as <- <-; eauto. }
    destruct E as (? & E & ->). apply as_seq_iff in E. exact E.
  - destruct (obj_none_dec p) as [->|Hp]; [cbn in H4; injection H4 as <- <-; auto|].
    right. rewrite check_params_eq in H4 by exact Hp.
    destruct (as_seq p) as [[k l]|] eqn:E; [|discriminate].
    apply bind_Ok in H4 as (u & _ & H4). injection H4 as <- <-.
    apply as_seq_iff in E. exact E.
Qed.
Lemma c07_limit o : (exists r, mk_limit o = Ok r) <-> exists z, int_value o z /\ (1 <= z <= 10000)%Z.
Proof. apply int_clause_iff. Qed.
Lemma c07_offset o : (exists r, mk_offset o = Ok r) <-> exists z, int_value o z /\ (0 <= z)%Z.
Proof.
  unfold mk_offset. rewrite int_clause_iff. split; intros (z & H); exists z; tauto.
Qed.
Lemma c07_granularity o : (exists r, mk_granularity o = Ok r) <-> exists z, int_value o z /\ (1 <= z)%Z.
Proof.
  unfold mk_granularity. rewrite int_clause_iff. split; intros (z & H); exists z; tauto.
Qed.
Lemma c07_print o r z :
  mk_limit o = Ok r \/ mk_offset o = Ok r \/ mk_granularity o = Ok r ->
  int_value o z -> forall mql al, visit mql al r = Ok (dec_of_Z z).
Proof.
  intros [H|[H|H]]; [apply (c07_print_limit _ _ _ H)|apply (c07_print_offset _ _ _ H)
    |apply (c07_print_granularity _ _ _ H)].
Qed.
Lemma c07_refuted : exists cols n o z text,
  mk_limitby cols n = Ok o /\ int_value n z /\ visit false false o = Ok text
  /\ text = $"True BY a" /\ ~ exists rest, text = dec_of_Z z ++ rest.
Proof.
  destruct c07_witness as (o & text & H1 & H2 & H3 & H4 & H5).
  exists (OList [OColumn (mkColumn ($"a") None None None)]), (OBool true), o, 1%Z, text. auto.
Qed.
Lemma c08_stores lhs p rhs o : mk_condition lhs p rhs = Ok o ->
  exists q, p = OOp q /\ o = OCond lhs q rhs.
Proof. intros H. apply mk_condition_Ok in H as (q & -> & _ & ->). eauto. Qed.
Lemma c09_and_or conds :
  ((exists o, mk_and conds = Ok o) <->
     exists l, list_or_tuple conds l /\ 2 <= List.length l /\ Forall a_condition l)
  /\ ((exists o, mk_or conds = Ok o) <->
     exists l, list_or_tuple conds l /\ 2 <= List.length l /\ Forall a_condition l)
  /\ (forall o, mk_and conds = Ok o -> exists k l, o = OBoolC BAnd AND k l /\ list_or_tuple conds l)
  /\ (forall o, mk_or conds = Ok o -> exists k l, o = OBoolC BOr OR k l /\ list_or_tuple conds l).
Proof.
  unfold mk_and, mk_or. rewrite !c09_accept. repeat split.
  - intros [_ H]; exact H.
  - eauto.
  - exact H.
  - intros [_ H]; exact H.
  - eauto.
  - exact H.
  - intros o H. apply mk_boolean_Ok in H as (q & k & l & Hq & Hl & _ & _ & ->).
    injection Hq as <-. apply as_lt_iff in Hl. eauto.
  - intros o H. apply mk_boolean_Ok in H as (q & k & l & Hq & Hl & _ & _ & ->).
    injection Hq as <-. apply as_lt_iff in Hl. eauto.
Qed.
Lemma c10_exact o :
  (is_scalar o = Ok true <-> scalar o)
  /\ (is_scalar o = Raise InvalidExpressionError <-> (exists l, list_or_tuple o l) /\ ~ scalar o)
  /\ (is_scalar o = Ok false <-> ~ scalar o /\ ~ exists l, list_or_tuple o l).
Proof.
  destruct (is_scalar_spec o) as [(E & H)|[(E & H & H2)|(E & H & H2)]]; rewrite E;
    (split; [|split]); split; try tauto; try discriminate.
Qed.

End Props.
