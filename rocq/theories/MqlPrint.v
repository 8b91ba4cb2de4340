(** Printing a value of the MQL fragment gives a text that stands for it (C43, C44); printing
    other values gives a text that stands for what SpecArrive says (C71). *)
From Verif Require Import PyBase PyFacts Regex RegexFacts Objects PyEqFacts Exprs Translate Query Metrics SpecExpr
  ExprFacts ExprProps TextFacts SpecMetrics MetricsFacts FormulaFacts SpecText LiteralFacts SpecMql SpecArrive Peg PegTotal Mql MqlParse
  MqlTokens MqlFilter MqlExpr MqlCall MqlParams MqlBody MqlText MqlRead.

Section Print.
Context {RT : PyRT} {ST : PyStr}.

Lemma join_cons2 sep a b l : join sep (a :: b :: l) = a ++ sep ++ join sep (b :: l).
Proof. reflexivity. Qed.
Lemma join_one sep a : join sep [a] = a.
Proof. reflexivity. Qed.
Lemma blank_nil : white [].
Proof. constructor. Qed.
Lemma blank_sp : white [32%N].
Proof. constructor; [left; right; reflexivity|constructor]. Qed.
Lemma mapM_app_ok {A B} (f : A -> result B) (R : A -> B -> Prop) l :
  Forall (fun x => exists y, f x = Ok y /\ R x y) l -> exists ys, mapM f l = Ok ys /\ Forall2 R l ys.
Proof.
  induction 1 as [|x l (y & E & Ry) _ (ys & Es & Rs)]; [exists []; split; [reflexivity|constructor]|].
  exists (y :: ys). cbn. rewrite E. cbn. rewrite Es. split; [reflexivity|constructor; assumption].
Qed.

(** * Filters *)
Lemma seen_unq s : mql_seen s = flat_map unq1 s.
Proof. reflexivity. Qed.
Lemma seen_same s : mql_string s -> mql_seen s = s.
Proof. intros H. rewrite seen_unq, <- unquote_quoted. apply unquote_same, H. Qed.
Lemma quoted_seen s : quoted_said (quoted true s) (mql_seen s).
Proof.
  exists (escape true s). split; [reflexivity|]. rewrite escape_flat. change (quote_char true) with DQ.
  induction s as [|c s IH]; [constructor|]. unfold mql_seen. cbn [flat_map]. unfold esc1 at 1.
  destruct (N.eqb_spec c 92) as [->|H1]; [apply qb_escape; [discriminate|discriminate|exact IH]|].
  destruct (N.eqb_spec c DQ) as [->|H2]; [apply qb_quote; exact IH|].
  destruct (N.eqb_spec c 10) as [->|H3]; [apply qb_escape; [discriminate|discriminate|exact IH]|].
  cbn [app]. apply qb_char; [exact H2|exact H1|exact IH].
Qed.
(** what a value in quotes and a value without quotes are printed as *)
Lemma text_print r s : text_of r s -> is_literal r = true /\ exists t, visit true false r = Ok t /\ quoted_said t s.
Proof.
  intros [x|x S].
  - split; [reflexivity|]. exists (quoted true x). split; [reflexivity|apply quoted_seen].
  - split; [reflexivity|]. exists (quoted true x). split; [|apply quoted_seen]. rewrite c14_text by exact S. reflexivity.
Qed.
Lemma pattern_low c : (33 <= c < 127)%N -> c <> 34%N -> ~ In c ($",[]}{()*") -> pattern_char c.
Proof. intros H1 H2 H3. split; [exact H3|]. split; [exact H2|]. split; lia. Qed.
Lemma dec_of_Z_chars z : dec_of_Z z <> [] /\ Forall (fun c => 48 <= c <= 57 \/ c = 45)%N (dec_of_Z z).
Proof.
  assert (forall n, dec_of_N n <> [] /\ Forall (fun c => 48 <= c <= 57 \/ c = 45)%N (dec_of_N n)) as D.
  { intros n. split; [apply dec_of_N_nonempty|]. eapply Forall_impl; [|apply dec_of_N_digits]. cbv beta. intros c H.
    left. apply is_digit_range, H. }
  destruct (dec_of_Z_cases z) as [(n & -> & _)|(p & -> & _)]; [apply D|]. split; [discriminate|].
  constructor; [right; reflexivity|apply D].
Qed.
Lemma word_print r s : word_of r s -> is_literal r = true /\ visit true false r = Ok s /\ word s.
Proof.
  assert (forall c, (48 <= c <= 57 \/ 65 <= c <= 90 \/ c = 45)%N -> pattern_char c) as L.
  { intros c H. apply pattern_low; [lia|lia|]. cbn. lia. }
  intros [z|f W|b|]; (split; [reflexivity|]); (split; [reflexivity|]).
  - destruct (dec_of_Z_chars z) as (N & F). split; [exact N|]. rewrite Forall_forall in *. intros c I. apply L. destruct (F c I); lia.
  - exact W.
  - destruct b; (split; [discriminate|]); cbn; repeat (apply Forall_cons; [apply L; lia|]); constructor.
  - split; [discriminate|]. cbn. repeat (apply Forall_cons; [apply L; lia|]); constructor.
Qed.
Lemma key_word k : mql_key k -> word k.
Proof.
  intros (c & t & -> & W & F). split; [discriminate|].
  assert (forall x, key_char x -> pattern_char x) as L.
  { intros x H. unfold key_char, ascii_word, ascii_letter, ascii_digit in H. apply pattern_low; [lia|lia|]. cbn. lia. }
  constructor; [|eapply Forall_impl; [exact L|exact F]].
  apply L. left. destruct W as [W|W]; [left; exact W|right; right; exact W].
Qed.
Lemma quoted_pattern t s : quoted_said t s -> wildcard s -> exists p, word p /\ t = [34%N] ++ p ++ $"*" ++ [34%N] /\ s = p ++ $"*".
Proof.
  intros (b & -> & B) (p & -> & N & F). exists p. split; [split; assumption|]. split; [|reflexivity].
  assert (~ In 34%N (p ++ $"*")) as Q.
  { intros I. apply in_app_or in I. destruct I as [I|[I|[]]]; [|discriminate I]. rewrite Forall_forall in F.
    destruct (F _ I) as (_ & X & _). congruence. }
  assert (b = p ++ $"*") as ->; [|rewrite <- app_assoc; reflexivity].
  clear N F. revert B Q. generalize (p ++ $"*"). clear p. intros s B.
  induction B as [|c t s _ _ _ IH|t s _ _|c t s _ _ _ IH]; intros Q; cbn [In] in Q; [reflexivity| |exfalso; tauto|];
    rewrite IH by tauto; reflexivity.
Qed.
Lemma list_items l ss : Forall2 (fun x s => text_of x s \/ word_of x s) l ss -> exists ts,
  (fix items (l : list obj) : result (list str) :=
    match l with
    | [] => Ok []
    | x :: l' => let! s := visit true false x in let! r := items l' in Ok (s :: r)
    end) l = Ok ts /\ Forall2 string_said ts ss
  /\ (fix all (l : list obj) : result bool :=
    match l with
    | [] => Ok true
    | v :: l' =>
        let! b := is_scalar v in
        if b || is_expression v then all l' else Raise InvalidExpressionError
    end) l = Ok true.
Proof.
  induction 1 as [|x s l ss H _ (ts & E & F & S)]; [exists []; repeat split; constructor|].
  assert (is_literal x = true /\ exists t, visit true false x = Ok t /\ string_said t s) as (L & t & Et & St).
  { destruct H as [H|H].
    - destruct (text_print x s H) as (L & t & Et & Q). split; [exact L|]. exists t. split; [exact Et|left; exact Q].
    - destruct (word_print x s H) as (L & Et & W). split; [exact L|]. exists s. split; [exact Et|right; auto]. }
  exists (t :: ts). rewrite Et. cbn [bind]. rewrite E. cbn [bind]. split; [reflexivity|]. split; [constructor; assumption|].
  assert (is_scalar x = Ok true) as -> by (destruct x; cbn in L |- *; try discriminate L; reflexivity).
  cbn [bind orb]. exact S.
Qed.
Lemma strings_join ts ss : Forall2 string_said ts ss -> ss <> [] -> strings_said (join ($", ") ts) ss.
Proof.
  intros F N. induction F as [|t s ts ss H F IH]; [congruence|]. destruct F as [|t' s' ts ss H' F]; [apply ss_one, H|].
  rewrite join_cons2. apply (ss_more t s [] [32%N]); [exact H|constructor| |apply IH; discriminate].
  constructor; [left; right; reflexivity|constructor].
Qed.
(** the right side of a condition *)
Definition rhs_print (o : op) (r : obj) : result str :=
    if is_unary o then Ok []
    else match r with
         | OFunc _ _ _ _ _ _ _ => Raise InvalidExpressionError
         | OColumn _ => visit true false r
         | _ => let! b := is_scalar r in
                if b then visit true false r else Raise AssertionError
         end.
Lemma literal_rhs o r t : is_unary o = false -> is_literal r = true -> visit true false r = Ok t -> rhs_print o r = Ok t.
Proof. intros U L E. unfold rhs_print. rewrite U. destruct r; try discriminate L; cbn [is_scalar is_literal bind]; exact E. Qed.
Lemma comparand_print neg o r o' r' : is_unary o = false -> comparand neg r o' r' -> exists v,
  rhs_print o r = Ok v /\ value_said neg v o' r'.
Proof.
  intros U [r0 s T NW|r0 s T W|r0 s W|k K|r0 l ss L N F].
  - destruct (text_print r0 s T) as (L & t & E & Q). exists t. split; [apply literal_rhs; assumption|apply vs_quoted; assumption].
  - destruct (text_print r0 s T) as (L & t & E & Q). destruct (quoted_pattern t s Q W) as (p & Wp & -> & ->).
    eexists. split; [apply literal_rhs; eassumption|apply vs_quoted_pattern, Wp].
  - destruct (word_print r0 s W) as (L & E & Ws). exists s. split; [apply literal_rhs; assumption|apply vs_word, Ws].
  - exists k. split; [unfold rhs_print; rewrite U; reflexivity|apply vs_word, key_word, K].
  - destruct (list_items l ss F) as (ts & E & S & Sc).
    assert (ss <> []) as Ns by (intros ->; inversion F; subst; congruence).
    exists ($"[" ++ join ($", ") ts ++ $"]"). split.
    + unfold rhs_print. rewrite U. destruct L as [->| ->].
      * cbn [visit is_scalar is_literal]. rewrite Sc. cbn [bind seq]. rewrite E. reflexivity.
      * cbn [visit is_scalar is_literal]. rewrite Sc. cbn [bind seq]. rewrite E. reflexivity.
    + apply (vs_list neg [] (join ($", ") ts) ss []); [constructor|apply strings_join; assumption|constructor].
Qed.
Lemma apart_space f t : apart f (32%N :: t).
Proof. right. exists 32%N, t. split; [reflexivity|]. split; [|discriminate]. intros (_ & _ & H & _). lia. Qed.
Lemma ands_join ss l : Forall2 factor_reads ss l -> l <> [] -> term_reads (join ($" AND ") ss) l.
Proof.
  intros F N. induction F as [|s c ss l H F IH]; [congruence|]. destruct F as [|s' c' ss l H' F]; [apply tr_one, H|].
  rewrite join_cons2. apply tr_and; [exact H| |apply apart_space|apply IH; discriminate].
  exists [32%N], ($"AND"), [32%N]. repeat split; try apply blank_sp. left; reflexivity.
Qed.
Lemma ors_join ss l : Forall2 factor_reads ss l -> l <> [] -> expr_reads (join ($" OR ") ss) l.
Proof.
  intros F N. induction F as [|s c ss l H F IH]; [congruence|].
  destruct F as [|s' c' ss l H' F]; [apply (er_one s [c]), tr_one, H|].
  rewrite join_cons2. apply (er_or s [c]); [apply tr_one, H| |apply apart_space|apply IH; discriminate].
  exists [32%N], ($"OR"), [32%N]. repeat split; try apply blank_sp; [discriminate|left; reflexivity].
Qed.
Lemma denies_negated o neg : denies o neg -> is_unary o = false /\ negated_op o = neg.
Proof. destruct neg; cbn; intuition (subst; auto). Qed.
Lemma condition_print k o neg r o' r' : denies o neg -> comparand neg r o' r' -> exists v,
  visit_condition_mql true false (tag k) o r = Ok ((if neg then $"!" else []) ++ k ++ $":" ++ v) /\ value_said neg v o' r'.
Proof.
  intros D C. destruct (denies_negated o neg D) as (U & E). destruct (comparand_print neg o r o' r' U C) as (v & Ev & V).
  exists v. split; [|exact V].
  change (visit_condition_mql true false (tag k) o r) with
    (let! rhs_s := rhs_print o r in let! l := visit true false (tag k) in
     Ok ((if negated_op o then $"!" else []) ++ l ++ $":" ++ rhs_s)).
  rewrite Ev, E. reflexivity.
Qed.
Definition prints_filter (c c' : obj) : Prop :=
  exists s, visit_filter_mql true false c = Ok [s] /\ factor_reads s c'.
Lemma filters_all l l' : Forall2 prints_filter l l' -> exists ss,
  (fix all (l : list obj) : result (list str) :=
    match l with
    | [] => Ok []
    | x :: l' => let! s := visit_filter_mql true false x in let! r := all l' in Ok (s ++ r)
    end) l = Ok ss /\ Forall2 factor_reads ss l'.
Proof.
  induction 1 as [|c c' l l' (s & E & R) _ (ss & Es & Rs)]; [exists []; split; [reflexivity|constructor]|].
  exists (s :: ss). rewrite E. cbn [bind]. rewrite Es. split; [reflexivity|constructor; assumption].
Qed.
Lemma Forall2_len {A B} (P : A -> B -> Prop) l m : Forall2 P l m -> List.length l = List.length m.
Proof. induction 1; cbn; congruence. Qed.
Lemma Forall2_imp_in {A B} (P Q : A -> B -> Prop) l m : Forall (fun x => forall y, P x y -> Q x y) l -> Forall2 P l m -> Forall2 Q l m.
Proof. intros F H. induction H; constructor; inversion F; subst; auto. Qed.
Lemma filter_prints c : forall c', arrives c c' -> prints_filter c c'.
Proof.
  induction c using obj_ind'; intros c' HF; inversion HF; subst.
  - match goal with K : mql_key ?k, D : denies _ ?n, C : comparand _ _ _ _ |- _ =>
      destruct (condition_print k _ n _ _ _ D C) as (v & E & V); pose proof (fr_test n k _ _ v [] [] K blank_nil blank_nil V) as R end.
    eexists. split; [cbn [visit_filter_mql]; rewrite E; reflexivity|exact R].
  - match goal with F : Forall2 arrives ?x ?m, IH : Forall _ ?x |- _ => pose proof (Forall2_imp_in _ _ _ _ IH F) as G;
      pose proof (Forall2_len _ _ _ F) as Len end.
    destruct (filters_all l l' G) as (ss & E & R).
    eexists. split; [cbn [visit_filter_mql]; rewrite E; reflexivity|].
    assert (l' <> []) as N by (destruct l'; [cbn in *; lia|discriminate]).
    pose proof (fr_paren (join ($" AND ") ss) [all_of l'] [] [] (er_one _ _ (ands_join ss l' R N)) blank_nil blank_nil) as P.
    cbn [any_of app] in P. replace (all_of l') with (OBoolC BAnd AND KList l') in P; [exact P|].
    destruct l' as [|a [|b l']]; cbn in *; try lia. reflexivity.
  - match goal with F : Forall2 arrives ?x ?m, IH : Forall _ ?x |- _ => pose proof (Forall2_imp_in _ _ _ _ IH F) as G;
      pose proof (Forall2_len _ _ _ F) as Len end.
    destruct (filters_all l l' G) as (ss & E & R).
    eexists. split; [cbn [visit_filter_mql]; rewrite E; reflexivity|].
    assert (l' <> []) as N by (destruct l'; [cbn in *; lia|discriminate]).
    pose proof (fr_paren (join ($" OR ") ss) l' [] [] (ors_join ss l' R N) blank_nil blank_nil) as P.
    replace (any_of l') with (OBoolC BOr OR KList l') in P; [exact P|].
    destruct l' as [|a [|b l']]; cbn in *; try lia. reflexivity.
Qed.
Lemma listed_print f l : listed f l -> print_filters f = print_filters (OList l) /\ print_groupby f = print_groupby (OList l).
Proof. intros [->| ->]; split; reflexivity. Qed.
Lemma filters_print f l l' : listed f l -> l <> [] -> Forall2 arrives l l' ->
  exists b, print_filters f = Ok b /\ braces_text b (Some (all_of l')).
Proof.
  intros L N F. rewrite (proj1 (listed_print f l L)). clear L.
  assert (exists ss, mapM (visit_filter_mql true false) l = Ok (map (fun s => [s]) ss) /\ Forall2 factor_reads ss l')
    as (ss & E & R).
  { clear N. induction F as [|c c' l l' H _ (ss & E & R)]; [exists []; split; [reflexivity|constructor]|].
    destruct (filter_prints c c' H) as (s & Ec & Rc). exists (s :: ss). cbn. rewrite Ec. cbn. rewrite E.
    split; [reflexivity|constructor; assumption]. }
  assert (l' <> []) as N' by (intros ->; inversion F; subst; congruence).
  eexists. split; [cbn [print_filters iter bind]; rewrite E; reflexivity|].
  assert (List.concat (map (fun s => [s]) ss) = ss) as -> by (clear; induction ss; cbn; congruence).
  apply (bt_filter [] (join ($" AND ") ss) [all_of l'] []); [apply blank_nil|apply er_one, ands_join; assumption|apply blank_nil].
Qed.

(** * Group-by *)
Lemma tags_map l : Forall plain_tag l -> exists ks, l = map tag ks /\ Forall mql_key ks.
Proof.
  induction 1 as [|c l (k & K & ->) _ (ks & -> & F)]; [exists []; split; [reflexivity|constructor]|].
  exists (k :: ks). split; [reflexivity|constructor; assumption].
Qed.
Lemma keys_text_join ks : ks <> [] -> Forall mql_key ks -> keys_text (join ($", ") ks) (map tag ks).
Proof.
  intros N F. induction F as [|k ks K F IH]; [congruence|]. destruct ks as [|k' ks]; [apply kt_one, K|].
  rewrite join_cons2. apply (kt_more k [] [32%N]); [exact K|apply blank_nil|apply blank_sp|apply IH; discriminate].
Qed.
Lemma keys_join l : l <> [] -> Forall plain_tag l -> exists ks, mapM (visit true false) l = Ok ks
  /\ keys_text (join ($", ") ks) l.
Proof.
  intros N F. destruct (tags_map l F) as (ks & -> & K). exists ks. split.
  - clear. induction ks as [|k ks IH]; [reflexivity|]. cbn [map mapM]. rewrite IH. reflexivity.
  - apply keys_text_join; [|exact K]. intros ->. apply N. reflexivity.
Qed.
Lemma groupby_print l : l <> [] -> Forall plain_tag l ->
  exists g, print_groupby (OList l) = Ok g /\ group_text g l.
Proof.
  intros N F. destruct (keys_join l N F) as (ks & E & T). eexists.
  split; [cbn [print_groupby iter bind]; rewrite E; reflexivity|].
  apply (gt_many [32%N] [32%N] [] (join ($", ") ks) l []);
    [apply blank_sp|discriminate|apply blank_sp|apply blank_nil|exact T|apply blank_nil].
Qed.

(** * Parts after a call or a parenthesis *)
Definition opt_braces (b : str) (f : option obj) : Prop := b = [] /\ f = None \/ braces_text b f.
Lemma opt_filters_print f f' : filters_arrive f f' ->
  exists b c, print_filters f = Ok b /\ opt_braces b c
    /\ conj_obj f' = match c with Some x => OList [x] | None => ONone end.
Proof.
  intros [([->|[->| ->]] & ->)|(l & l' & L & -> & N & F)].
  - exists [], None. repeat split. left; auto.
  - exists ($"{}"), None. repeat split. right; apply bt_empty.
  - exists ($"{}"), None. repeat split. right; apply bt_empty.
  - destruct (filters_print f l l' L N F) as (b & E & B). exists b, (Some (all_of l')).
    split; [exact E|]. split; [right; exact B|].
    cbn. destruct l' as [|x [|y l']]; [inversion F; subst; congruence|reflexivity|reflexivity].
Qed.
Lemma opt_groupby_print g g' : group_arrives g g' ->
  exists t l, print_groupby g = Ok t /\ opt_group_text t l /\ g' = match l with Some x => OList x | None => ONone end.
Proof.
  intros [(-> & ->)|(l & L & -> & N & F)].
  - exists [], None. repeat split. apply og_none.
  - destruct (groupby_print l N F) as (t & E & T). exists t, (Some l). rewrite (proj2 (listed_print g l L)).
    split; [exact E|]. split; [apply og_some, T|reflexivity].
Qed.
Lemma coef_suffix s v b f g l : call_text s v -> opt_braces b f -> opt_group_text g l ->
  coef_text (s ++ b ++ g) (with_groupby l (with_filter f v)).
Proof.
  intros C [(-> & ->)|B] G; [rewrite p_no_filter; apply cf_call; assumption|].
  rewrite <- (p_no_group v). apply (cf_call_filter s v [] None b f g l); [exact C|apply og_none|exact B|exact G].
Qed.
Lemma coef_paren_suffix e v b f g l : sum_text e v -> mql_query v -> opt_braces b f -> opt_group_text g l ->
  coef_text (($"(" ++ e ++ $")") ++ b ++ g) (with_groupby l (with_filter f v)).
Proof.
  intros S Q [(-> & ->)|B] G; rewrite <- !app_assoc.
  - rewrite p_no_filter. apply (cf_paren [] e v []); [apply blank_nil|exact S|apply blank_nil|exact Q|exact G].
  - apply (cf_paren_filter [] e v []); [apply blank_nil|exact S|apply blank_nil|exact Q|exact B|exact G].
Qed.

(** * Parameters *)
Lemma number_print n t : number_str n t -> visit true false n = Ok t /\ py_str (VObj n) = t.
Proof. intros [(z & -> & ->)|(f & -> & ->)]; split; reflexivity. Qed.
Lemma param_print p p0 : param_arrives p p0 -> exists t p', visit true false p = Ok t /\ param_text t p' /\ py_eq p' p0 = true.
Proof.
  intros [n t (S & T & E)|r s H|r c s H D].
  - exists t, (OFloat (float_of_text t)). split; [apply number_print, S|]. split; [apply pt_number, T|exact E].
  - destruct (text_print r s H) as (_ & t & E & Q). exists t, (OStr s). split; [exact E|]. split; [apply pt_string, Q|apply str_eqb_refl].
  - destruct (word_print r _ H) as (_ & E & (_ & W)). exists (c :: s), (OStr (c :: s)). split; [exact E|].
    split; [inversion W; subst; apply pt_word; assumption|apply str_eqb_refl].
Qed.
Lemma bare_str p s : bare_text p s -> py_str (VObj p) = s.
Proof. intros [| | |[]|]; reflexivity. Qed.
Lemma fparam_print p p0 : fparam_arrives p p0 -> exists p', param_text (py_str (VObj p)) p' /\ py_eq p' p0 = true.
Proof.
  intros [n t (S & T & E)|q c s B W D].
  - exists (OFloat (float_of_text t)). destruct (number_print n t S) as (_ & ->). split; [apply pt_number, T|exact E].
  - exists (OStr (c :: s)). rewrite (bare_str _ _ B). destruct W as (_ & W). inversion W; subst.
    split; [apply pt_word; assumption|apply str_eqb_refl].
Qed.
Lemma params_join ts ps : Forall2 param_text ts ps -> ps <> [] -> params_text (join ($", ") ts) ps.
Proof.
  intros F N. induction F as [|t p ts ps H F IH]; [congruence|]. destruct F as [|t' p' ts ps H' F]; [apply pst_one, H|].
  rewrite join_cons2. apply (pst_more t p [] [32%N]); [exact H|apply blank_nil|apply blank_sp|apply IH; discriminate].
Qed.
Lemma eq_list_2 l m : Forall2 (fun x y => py_eq x y = true) l m -> py_eq (OList l) (OList m) = true.
Proof.
  induction 1 as [|x y l m H _ IH]; [reflexivity|]. cbn [py_eq]. cbn [py_eq] in IH. rewrite H. exact IH.
Qed.
Lemma params_print l l0 : l <> [] -> Forall2 param_arrives l l0 -> exists ts ps, mapM (visit true false) l = Ok ts
  /\ params_text (join ($", ") ts) ps /\ py_eq (OList ps) (OList l0) = true.
Proof.
  intros N F.
  assert (exists ts ps, mapM (visit true false) l = Ok ts /\ Forall2 param_text ts ps /\ Forall2 (fun x y => py_eq x y = true) ps l0)
    as (ts & ps & E & T & Q).
  { clear N. induction F as [|p p0 l l0 H _ (ts & ps & E & T & Q)]; [exists [], []; repeat split; constructor|].
    destruct (param_print p p0 H) as (t & p' & Ep & Tp & Qp). exists (t :: ts), (p' :: ps). cbn. rewrite Ep. cbn. rewrite E.
    repeat split; constructor; assumption. }
  exists ts, ps. split; [exact E|]. split; [apply params_join; [exact T|]|apply eq_list_2, Q].
  intros ->. inversion Q; subst. inversion F; subst. congruence.
Qed.
Lemma fparams_print l l0 : l <> [] -> Forall2 fparam_arrives l l0 -> exists ps,
  params_text (join ($", ") (map (fun p => py_str (VObj p)) l)) ps /\ py_eq (OList ps) (OList l0) = true.
Proof.
  intros N F.
  assert (exists ps, Forall2 param_text (map (fun p => py_str (VObj p)) l) ps /\ Forall2 (fun x y => py_eq x y = true) ps l0)
    as (ps & T & Q).
  { clear N. induction F as [|p p0 l l0 H _ (ps & T & Q)]; [exists []; repeat split; constructor|].
    destruct (fparam_print p p0 H) as (p' & Tp & Qp). exists (p' :: ps). split; constructor; assumption. }
  exists ps. split; [apply params_join; [exact T|]|apply eq_list_2, Q].
  intros ->. inversion Q; subst. inversion F; subst. congruence.
Qed.

(** * Reflexivity on the fragment *)
Lemma filter_nan c : forall c', arrives c c' -> nan_free c' = true.
Proof.
  induction c using obj_ind'; intros c' HF; inversion HF; subst.
  - match goal with H : comparand _ _ _ _ |- _ => destruct H end; try reflexivity;
      cbn; apply forallb_forall; intros x I; apply in_map_iff in I; destruct I as (s & <- & _); reflexivity.
  - cbn [nan_free]. apply forallb_forall. intros x I.
    match goal with F : Forall2 arrives l _ |- _ => clear - H F I; induction F as [|y y' l l' A _ IH]; [destruct I|] end.
    inversion H; subst. destruct I as [<-|I]; auto.
  - cbn [nan_free]. apply forallb_forall. intros x I.
    match goal with F : Forall2 arrives l _ |- _ => clear - H F I; induction F as [|y y' l l' A _ IH]; [destruct I|] end.
    inversion H; subst. destruct I as [<-|I]; auto.
Qed.
Lemma filters_nan l l' : Forall2 arrives l l' -> forallb nan_free l' = true.
Proof. induction 1 as [|c c' l l' H _ IH]; [reflexivity|]. cbn. rewrite (filter_nan c c' H), IH. reflexivity. Qed.
Lemma tags_nan l : Forall plain_tag l -> nan_free (OList l) = true.
Proof. intros F. cbn. apply forallb_forall. intros x I. rewrite Forall_forall in F. destruct (F x I) as (k & _ & ->). reflexivity. Qed.
Lemma conj_nan f f' : filters_arrive f f' -> py_eq (conj_obj f') (conj_obj f') = true.
Proof.
  intros [(_ & ->)|(l & l' & _ & -> & _ & F)]; [reflexivity|]. apply py_eq_refl. apply filters_nan in F.
  destruct l' as [|x [|y l']]; [reflexivity|exact F|]. cbn [conj_obj conj_filters nan_free forallb] in F |- *. rewrite F. reflexivity.
Qed.
Lemma group_eq g g' : group_arrives g g' -> py_eq g' g' = true.
Proof. intros [(_ & ->)|(l & _ & -> & _ & F)]; [reflexivity|]. apply py_eq_refl, tags_nan, F. Qed.

(** * Timeseries *)
Lemma opt_group g : opt_nonempty plain_tag g -> group_arrives (obj_of_opt OList g) (obj_of_opt OList g).
Proof. intros [->|(l & -> & N & F)]; [left; auto|right; exists l; cbn; unfold listed; auto]. Qed.
Lemma metric_arrives_mql m m' : metric_arrives m m' -> mql_metric m'.
Proof. intros [n s i H|s i H]; constructor; exact H. Qed.
Lemma metric_arrives_same m : mql_metric m -> metric_arrives m m.
Proof. intros [s H|s H]; constructor; exact H. Qed.
Lemma metric_print m m' : metric_arrives m m' -> exists s, print_metric m = Ok s /\ body_text s m' None None.
Proof.
  intros [n s i H|s i H]; exists s; (split; [reflexivity|]).
  - apply bx_mri, H.
  - pose proof (bx_metric s _ [] None [] (cm_public s H) og_none blank_nil) as B. cbn [app] in B.
    rewrite app_nil_r in B. exact B.
Qed.
Lemma metric_eqb_refl m : mql_metric m -> metric_eqb m m = true.
Proof. intros [s H|s H]; unfold metric_eqb; cbn; rewrite str_eqb_refl; reflexivity. Qed.
Lemma ts_arrival t t0 : ts_arrives t t0 -> exists s t', print_ts t = Ok s /\ coef_text s (VTS t')
  /\ ts_eqb t' (conj_timeseries t0) = true.
Proof.
  intros (A & Np & G & m' & p' & f' & -> & M' & P & F). pose proof (metric_arrives_mql _ _ M') as M.
  assert (filters_arrive (obj_of_opt OList (ts_filters t)) (obj_of_opt OList f')) as F'.
  { destruct F as [([->| ->] & ->)|(l & l' & -> & -> & N & F)].
    - left. auto.
    - left. split; [right; left; reflexivity|reflexivity].
    - right. exists l, l'. cbn. unfold listed. auto. }
  destruct (metric_print _ _ M') as (sm & Em & Bm).
  destruct (opt_filters_print _ _ F') as (b & c & Ef & Bf & Cf).
  destruct (opt_groupby_print _ _ (opt_group _ G)) as (g & l & Eg & Bg & Cg).
  pose proof (conj_nan _ _ F') as Rf. pose proof (group_eq _ _ (opt_group _ G)) as Rg.
  assert (nonempty (ts_agg t) = true) as Ne by (destruct A as (x & u & -> & _); reflexivity).
  assert (exists cs ps, (exists a, match ts_params t with
            | Some (p :: ps) =>
                let! l := mapM (visit true false) (p :: ps) in
                Ok (ts_agg t ++ $"(" ++ join ($", ") l ++ $")")
            | _ => Ok (ts_agg t)
            end = Ok a /\ nonempty a = true /\ cs = a ++ $"(" ++ sm ++ $")")
       /\ call_text cs (VTS (mkTS m' (ts_agg t) ps None None)) /\ opt_list_eqb ps p' = true)
    as (cs & ps & (a & Ea & Na & ->) & C & Eq).
  { destruct P as [(E & ->)|(lp & lp' & E & -> & Nl & Fl)].
    - replace (match ts_params t with Some (p :: ps) => let! l := mapM (visit true false) (p :: ps) in
         Ok (ts_agg t ++ $"(" ++ join ($", ") l ++ $")") | _ => Ok (ts_agg t) end) with (@Ok str (ts_agg t))
        by (destruct E as [-> | ->]; reflexivity).
      eexists; exists None. split; [eexists; split; [reflexivity|split; [exact Ne|reflexivity]]|]. split; [|reflexivity].
      apply (ct_aggregate (ts_agg t) [] sm); [exact A|exact Np|apply blank_nil|exact Bm].
    - rewrite E. destruct (params_print lp lp' Nl Fl) as (ts & ps & Ep & Tp & Qp). destruct lp as [|p0 lp]; [congruence|].
      eexists; exists (Some ps). split; [eexists; split; [rewrite Ep; reflexivity|split]|].
      + destruct A as (x & u & -> & _). reflexivity.
      + reflexivity.
      + split; [|exact Qp]. rewrite <- !app_assoc.
        apply (ct_aggregate_params (ts_agg t) [] (join ($", ") ts) ps [] [] sm);
          [exact A|exact Np|apply blank_nil|right; exact Tp|apply blank_nil|apply blank_nil|exact Bm]. }
  exists ((a ++ $"(" ++ sm ++ $")") ++ b ++ g).
  exists (mkTS m' (ts_agg t) ps (option_map (fun x => [x]) c) l).
  split; [|split].
  - unfold print_ts. rewrite Em. cbn [bind]. rewrite Ea. cbn [bind]. rewrite Ef. cbn [bind]. rewrite Eg. cbn [bind].
    rewrite Na. reflexivity.
  - pose proof (coef_suffix _ _ b c g l C Bf Bg) as K.
    destruct c as [c|], l as [l|]; cbn in K |- *; rewrite ?app_nil_r in K; exact K.
  - unfold ts_eqb, conj_timeseries. cbn [ts_metric ts_agg ts_params ts_filters ts_groupby].
    rewrite metric_eqb_refl, str_eqb_refl, Eq by exact M. cbn [andb].
    replace (option_map (fun x => [x]) c) with (option_map conj_filters f').
    + replace l with (ts_groupby t).
      * apply andb_true_iff. split.
        -- destruct f'; [exact Rf|reflexivity].
        -- destruct (ts_groupby t); [exact Rg|reflexivity].
      * destruct (ts_groupby t), l; cbn in Cg; congruence.
    + destruct f', c; cbn in Cf; try discriminate; [injection Cf as Cf; cbn; rewrite Cf; reflexivity|reflexivity].
Qed.
(** values of the fragment arrive as they are *)
Lemma test_arrives o r : mql_test o r -> exists neg, denies o neg /\ comparand neg r o r.
Proof.
  assert (forall s, mql_string s -> text_of (OStr s) s) as T.
  { intros s H. rewrite <- (seen_same s H) at 2. constructor. }
  assert (forall l, Forall mql_string l -> Forall2 (fun x s => text_of x s \/ word_of x s) (map OStr l) l) as L.
  { induction 1; constructor; auto. }
  intros [s M W|s M W|s M W|s M W|l N F|l N F].
  - exists false. split; [cbn; auto|]. apply (cd_text false); auto.
  - exists true. split; [cbn; auto|]. apply (cd_text true); auto.
  - exists false. split; [cbn; auto 10|]. apply (cd_pattern false); auto.
  - exists true. split; [cbn; auto|]. apply (cd_pattern true); auto.
  - exists false. split; [cbn; auto 10|]. apply (cd_list false _ (map OStr l)); [left; reflexivity| |apply L, F].
    destruct l; [congruence|discriminate].
  - exists true. split; [cbn; auto|]. apply (cd_list true _ (map OStr l)); [left; reflexivity| |apply L, F].
    destruct l; [congruence|discriminate].
Qed.
Lemma Forall2_diag {A} (P : A -> A -> Prop) l : Forall (fun x => P x x) l -> Forall2 P l l.
Proof. induction 1; constructor; auto. Qed.
Lemma filter_arrives c : mql_filter c -> arrives c c.
Proof.
  induction c using obj_ind'; intros HF; inversion HF; subst.
  - match goal with T : mql_test _ _ |- _ => destruct (test_arrives _ _ T) as (neg & D & C) end. eapply ar_test; eassumption.
  - apply ar_and; [assumption|]. apply Forall2_diag. rewrite Forall_forall in *. auto.
  - apply ar_or; [assumption|]. apply Forall2_diag. rewrite Forall_forall in *. auto.
Qed.
Lemma filters_arrives l : Forall mql_filter l -> Forall2 arrives l l.
Proof. intros F. apply Forall2_diag. eapply Forall_impl; [|exact F]. exact filter_arrives. Qed.
Lemma opt_arrives f : opt_nonempty_obj mql_filter f -> filters_arrive f f.
Proof.
  intros [->|(l & -> & N & F)]; [left; auto|right]. exists l, l. unfold listed. auto using filters_arrives.
Qed.
Lemma opt_tags g : opt_nonempty_obj plain_tag g -> group_arrives g g.
Proof. intros [->|(l & -> & N & F)]; [left; auto|right]. exists l. unfold listed. auto. Qed.
Lemma param_arrives_same p : mql_param p -> param_arrives p p.
Proof.
  intros [n t H|s H]; [eapply pa_number; exact H|]. apply pa_text. rewrite <- (seen_same s H) at 2. constructor.
Qed.
Lemma fparam_arrives_same p : mql_fparam p -> fparam_arrives p p.
Proof.
  intros [n t H|c s H1 H2 H3]; [eapply fa_number; exact H|]. apply fa_word; [constructor| |exact H2].
  split; [discriminate|constructor; assumption].
Qed.
Lemma fparams_same a : opt_nonempty_obj mql_fparam a -> fparams_arrive a a.
Proof.
  intros [->|(l & -> & N & F)]; [left; auto|right]. exists l, l. unfold listed. do 3 (split; [auto|]).
  apply Forall2_diag. eapply Forall_impl; [|exact F]. exact fparam_arrives_same.
Qed.
Lemma ts_arrives_same t : mql_timeseries t -> ts_arrives t t.
Proof.
  intros (M & A & Np & P & F & G). do 3 (split; [assumption|]). exists (ts_metric t), (ts_params t), (ts_filters t).
  split; [destruct t; reflexivity|]. split; [apply metric_arrives_same, M|]. split.
  - destruct P as [->|(l & -> & N & P)]; [left; auto|right]. exists l, l. do 3 (split; [auto|]).
    apply Forall2_diag. eapply Forall_impl; [|exact P]. exact param_arrives_same.
  - destruct F as [->|(l & -> & N & F)]; [left; auto|right]. exists l, l. auto using filters_arrives.
Qed.
Lemma ts_print t : mql_timeseries t -> exists s t', print_ts t = Ok s /\ coef_text s (VTS t')
  /\ ts_eqb t' (conj_timeseries t) = true.
Proof. intros H. apply ts_arrival, ts_arrives_same, H. Qed.

(** * Formulas *)
Fixpoint mv_eq_list (l m : list mval) : bool :=
  match l, m with
  | [], [] => true
  | x :: l', y :: m' => mv_eq x y && mv_eq_list l' m'
  | _, _ => false
  end.
Lemma mv_eq_formula n k ps ag f g n' k' ps' ag' f' g' :
  mv_eq (VFormula n k ps ag f g) (VFormula n' k' ps' ag' f' g')
  = py_eq n n' && option_eqb seqk_eqb k k' && mv_eq_list ps ps' && py_eq ag ag' && py_eq f f' && py_eq g g'.
Proof. reflexivity. Qed.
Fixpoint print_all (l : list mval) : result (list str) :=
  match l with
  | [] => Ok []
  | x :: l' => let! s := print_mval x in let! r := print_all l' in Ok (s :: r)
  end.
Lemma print_formula n pk ps a f g : print_mval (VFormula n pk ps a f g) =
      match pk with
      | Some KNone => Raise AssertionError
      | None => Raise TypeError
      | Some _ =>
          let! l := print_all ps in
          let! head :=
            match n with
            | OStr name =>
                match infix_of name with
                | Some o => Ok ($"(" ++ join ($" " ++ o ++ $" ") l ++ $")")
                | None => let! ap := print_aggp a in
                          Ok (prefix_of name ++ ap ++ $"(" ++ join ($", ") l ++ $")")
                end
            | _ => if hashable n
                   then let! ap := print_aggp a in
                        Ok (py_str (VObj n) ++ ap ++ $"(" ++ join ($", ") l ++ $")")
                   else Raise TypeError
            end in
          let! fs := print_filters f in
          let! gs := print_groupby g in
          Ok (head ++ fs ++ gs)
      end.
Proof. reflexivity. Qed.
Definition prints (v w : mval) : Prop := exists s v', print_mval v = Ok s /\ unary_text s v'
  /\ mv_eq v' (conj_value w) = true /\ (mql_query v -> mql_query v').
Lemma print_all_ok ps ws : Forall2 prints ps ws -> exists ss vs, print_all ps = Ok ss /\ Forall2 unary_text ss vs
  /\ Forall2 (fun v w => mv_eq v (conj_value w) = true) vs ws.
Proof.
  induction 1 as [|v w ps ws (s & v' & E & T & Q & _) _ (ss & vs & Es & Ts & Qs)]; [exists [], []; repeat split; constructor|].
  exists (s :: ss), (v' :: vs). cbn [print_all]. rewrite E. cbn [bind]. rewrite Es. cbn [bind].
  split; [reflexivity|]. split; constructor; assumption.
Qed.
Lemma eq_list_map vs ws : Forall2 (fun v w => mv_eq v (conj_value w) = true) vs ws -> mv_eq_list vs (map conj_value ws) = true.
Proof. induction 1 as [|v w vs ws H _ IH]; [reflexivity|]. cbn [map mv_eq_list]. rewrite H. exact IH. Qed.
Lemma more_join ss vs : Forall2 unary_text ss vs -> vs <> [] -> more_args ($", " ++ join ($", ") ss) vs.
Proof.
  intros F N. induction F as [|s v ss vs H F IH]; [congruence|]. apply pr_one, sm_one in H.
  destruct F as [|s' v' ss vs H' F].
  - rewrite join_one. apply (ma_one [] [32%N]); [apply blank_nil|apply blank_sp|exact H].
  - rewrite join_cons2. apply (ma_more [] [32%N]); [apply blank_nil|apply blank_sp|exact H|apply IH; discriminate].
Qed.
Lemma args_join ss vs : Forall2 unary_text ss vs -> vs <> [] -> args_text (join ($", ") ss) vs.
Proof.
  intros F N. destruct F as [|s v ss vs H F]; [congruence|]. apply pr_one, sm_one in H. destruct F as [|s' v' ss vs H' F].
  - rewrite join_one. pose proof (at_one [] s [] v blank_nil H blank_nil) as A. cbn [app] in A. rewrite app_nil_r in A. exact A.
  - rewrite join_cons2. apply (at_more [] s v); [apply blank_nil|exact H|]. apply more_join; [constructor; assumption|discriminate].
Qed.
Definition infix_pair (name : str) (a b : mval) : mval := function name [a; b] ONone.
Lemma infix_text name sa a ss vs : infix_name name -> unary_text sa a -> Forall2 unary_text ss vs -> exists o,
  infix_of name = Some o /\ sum_text (join ($" " ++ o ++ $" ") (sa :: ss)) (fold_left (infix_pair name) vs a).
Proof.
  intros I A B.
  assert (forall o ss vs, Forall2 unary_text ss vs -> In (o, name) [($"+", $"plus"); ($"-", $"minus")] -> forall sa a,
    sum_text sa a -> sum_text (join ($" " ++ o ++ $" ") (sa :: ss)) (fold_left (infix_pair name) vs a)) as SUM.
  { clear. intros o ss vs B I. induction B as [|s v ss vs H B IH]; intros sa a A; [exact A|].
    rewrite join_cons2. cbn [fold_left].
    pose proof (sm_op sa a [32%N] o name [32%N] s v A blank_sp I blank_sp (pr_one _ _ H)) as S. specialize (IH _ _ S).
    destruct ss as [|s2 ss]; [rewrite !join_one in *|rewrite !join_cons2 in *]; rewrite <- ?app_assoc in *; exact IH. }
  assert (forall o ss vs, Forall2 unary_text ss vs -> In (o, name) [($"*", $"multiply"); ($"/", $"divide")] -> forall sa a,
    product_text sa a -> product_text (join ($" " ++ o ++ $" ") (sa :: ss)) (fold_left (infix_pair name) vs a)) as PROD.
  { clear. intros o ss vs B I. induction B as [|s v ss vs H B IH]; intros sa a A; [exact A|].
    rewrite join_cons2. cbn [fold_left].
    pose proof (pr_op sa a [32%N] o name [32%N] s v A blank_sp I blank_sp H) as S. specialize (IH _ _ S).
    destruct ss as [|s2 ss]; [rewrite !join_one in *|rewrite !join_cons2 in *]; rewrite <- ?app_assoc in *; exact IH. }
  destruct I as [<-|[<-|[<-|[<-|[]]]]]; eexists; (split; [reflexivity|]).
  - apply (SUM ($"+")); [exact B|cbn; auto|apply sm_one, pr_one, A].
  - apply (SUM ($"-")); [exact B|cbn; auto|apply sm_one, pr_one, A].
  - apply sm_one, (PROD ($"*")); [exact B|cbn; auto|apply pr_one, A].
  - apply sm_one, (PROD ($"/")); [exact B|cbn; auto|apply pr_one, A].
Qed.
Lemma not_infix name : ~ infix_name name -> infix_of name = None.
Proof.
  intros H. unfold infix_of.
  destruct (str_eqb name ($"plus")) eqn:E1; [apply str_eqb_eq in E1; subst; elim H; cbn; auto|].
  destruct (str_eqb name ($"minus")) eqn:E2; [apply str_eqb_eq in E2; subst; elim H; cbn; auto|].
  destruct (str_eqb name ($"multiply")) eqn:E3; [apply str_eqb_eq in E3; subst; elim H; cbn; auto|].
  destruct (str_eqb name ($"divide")) eqn:E4; [apply str_eqb_eq in E4; subst; elim H; cbn; auto|]. reflexivity.
Qed.
Lemma suffix_value n ps a c l : with_groupby l (with_filter c (function n ps a))
  = VFormula (OStr n) (Some KList) ps a (match c with Some x => OList [x] | None => ONone end)
      (match l with Some x => OList x | None => ONone end).
Proof. destruct c, l; cbn; rewrite ?app_nil_r; reflexivity. Qed.
Lemma fold_eq name vs ws : Forall2 (fun v w => mv_eq v (conj_value w) = true) vs ws -> forall a b,
  mv_eq a (conj_value b) = true -> mv_eq (fold_left (infix_pair name) vs a) (conj_value (fold_left (pair name) ws b)) = true.
Proof.
  induction 1 as [|v w vs ws H _ IH]; intros a b E; [exact E|]. cbn [fold_left]. apply IH.
  unfold infix_pair, pair, function. cbn [conj_value map conj_obj]. rewrite mv_eq_formula. cbn [mv_eq_list]. rewrite E, H.
  rewrite (str_eqb_refl name : py_eq (OStr name) (OStr name) = true). reflexivity.
Qed.
Lemma value_arrival v : forall w, value_arrives v w -> prints v w.
Proof.
  induction v as [o|m|t|r|sc|n pk ps a f g IH] using mval_ind'; intros w H; inversion H; subst.
  - match goal with N : mql_number _ ?x |- _ => rename x into t; destruct N as (S & T & E) end.
    exists t, (VObj (OFloat (float_of_text t))). split; [cbn [print_mval]; f_equal; apply number_print, S|].
    split; [apply ut_coef, cf_number, T|]. split; [exact E|]. intros Q; inversion Q.
  - match goal with N : mql_neg_number _ ?x |- _ => rename x into t; destruct N as (S & T & E) end.
    exists ($"-" ++ t), (VObj (OFloat (flt_opp (float_of_text t)))).
    split; [cbn [print_mval]; f_equal; apply number_print, S|].
    split; [apply ut_minus, T|]. split; [exact E|]. intros Q; inversion Q.
  - match goal with N : ts_arrives _ ?x |- _ => destruct (ts_arrival t x N) as (s & t'' & E & C & Q) end.
    exists s, (VTS t''). split; [exact E|]. split; [apply ut_coef, C|]. split; [exact Q|]. intros; constructor.
  - match goal with Hl : Forall2 value_arrives ?x ?y, Ha : value_arrives ?z ?a', Hb : value_arrives b ?b' |- _ =>
      rename Hl into Vl; rename Hb into Vb; rename Ha into Va; rename x into l; rename y into l'; rename z into a1 end.
    match goal with Hf : filters_arrive f ?x, Hg : group_arrives g ?y |- _ =>
      rename Hf into Vf; rename Hg into Vg; rename x into f'; rename y into g' end.
    assert (Forall2 value_arrives (a1 :: l ++ [b]) (a' :: l' ++ [b'])) as All.
    { constructor; [exact Va|]. apply Forall2_app; [exact Vl|]. constructor; [exact Vb|constructor]. }
    apply (Forall2_imp_in _ _ _ _ IH) in All. inversion All as [|? ? ? ? Pa Pl]; subst. clear All.
    destruct Pa as (sa & va & Ea & Ta & Qa & _).
    destruct (print_all_ok _ _ Pl) as (ss & vs & Es & Ts & Qs).
    destruct (infix_text name sa va ss vs) as (o & Io & So); [assumption|exact Ta|exact Ts|].
    destruct (opt_filters_print f f' Vf) as (fb & c & Ef & Bf & Cf).
    destruct (opt_groupby_print g g' Vg) as (gb & lg & Eg & Bg & Cg).
    apply Forall2_app_inv_r in Qs. destruct Qs as (v1 & v2 & Q1 & Q2 & ->). inversion Q2 as [|vb ? ? ? Qb Q3]; subst. inversion Q3; subst.
    rewrite fold_left_app in So. cbn [fold_left] in So.
    exists (($"(" ++ join ($" " ++ o ++ $" ") (sa :: ss) ++ $")") ++ fb ++ gb).
    eexists. split; [|split; [apply ut_coef, coef_paren_suffix; [exact So|constructor|exact Bf|exact Bg]|]].
    + rewrite print_formula. assert (forall A (x y : A), match k with KNone => x | _ => y end = y) as Kk
        by (intros; match goal with K : sequence _ |- _ => destruct K as [->| ->]; reflexivity end).
      rewrite Kk. cbn [print_all]. rewrite Ea. cbn [bind]. rewrite Es. cbn [bind]. rewrite Io. cbn [bind].
      rewrite Ef. cbn [bind]. rewrite Eg. cbn [bind]. reflexivity.
    + unfold infix_pair at 1 3. fold (infix_pair name). rewrite suffix_value, <- Cf. split; [|intros; constructor].
      unfold SpecArrive.chain. cbn [conj_value map]. rewrite mv_eq_formula. cbn [mv_eq_list option_eqb seqk_eqb].
      rewrite (fold_eq name _ _ Q1 _ _ Qa), Qb, (str_eqb_refl name : py_eq (OStr name) (OStr name) = true).
      rewrite (conj_nan f f' Vf), (group_eq g _ Vg). reflexivity.
  - match goal with Hv : value_arrives v ?x |- _ => rename Hv into Vv; rename x into v0 end. inversion IH as [|? ? Pv _]; subst.
    destruct (Pv _ Vv) as (s & v' & E & T & Q & Qq).
    exists (($"-" ++ $"(" ++ s ++ $")")), (function ($"negate") [v'] ONone). split; [|split; [|split]].
    + rewrite print_formula. match goal with K : sequence _ |- _ => destruct K as [->| ->] end;
      cbn [print_all]; rewrite E; cbn [bind]; change (infix_of ($"negate")) with (@None str);
      cbn [print_aggp truthy bind print_filters print_groupby join]; rewrite !app_nil_r; reflexivity.
    + apply ut_negate; [|apply Qq; assumption]. rewrite <- (p_no_group v').
      pose proof (cf_paren [] s v' [] [] None blank_nil (sm_one _ _ (pr_one _ _ T)) blank_nil) as K.
      cbn [app] in K. rewrite app_nil_r in K. apply K; [apply Qq; assumption|apply og_none].
    + unfold function; cbn [conj_value map conj_obj]. rewrite mv_eq_formula. cbn [mv_eq_list]. rewrite Q. reflexivity.
    + intros; constructor.
  - match goal with Hv : Forall2 value_arrives ps ?x |- _ => rename Hv into Vp; rename x into ps' end.
    match goal with Hf : filters_arrive f ?x, Hg : group_arrives g ?y |- _ =>
      rename Hf into Vf; rename Hg into Vg; rename x into f'; rename y into g' end.
    apply (Forall2_imp_in _ _ _ _ IH) in Vp.
    destruct (print_all_ok ps ps' Vp) as (ss & vs & Es & Ts & Qs). apply eq_list_map in Qs.
    destruct (opt_filters_print f f' Vf) as (fb & c & Ef & Bf & Cf).
    destruct (opt_groupby_print g g' Vg) as (gb & l & Eg & Bg & Cg).
    assert (vs <> []) as Nv.
    { intros ->. inversion Ts; subst. destruct ps as [|p0 ps0]; [congruence|]. cbn [print_all] in Es.
      destruct (print_mval p0); [|discriminate]. cbn [bind] in Es. destruct (print_all ps0); discriminate. }
    pose proof (args_join ss vs Ts Nv) as Ar.
    match goal with A : fparams_arrive a ?x |- _ => rename x into a0 end.
    assert (exists ap a', print_aggp a = Ok ap /\ py_eq a' a0 = true
       /\ call_text (name ++ ap ++ $"(" ++ join ($", ") ss ++ $")") (function name vs a')) as (ap & a' & Ea & Qa & C).
    { match goal with A : fparams_arrive a _ |- _ => destruct A as [(L & ->)|(la & la' & L & -> & Nl & Fl)] end.
      - exists [], ONone. split; [destruct L as [->|[->| ->]]; reflexivity|]. split; [reflexivity|]. apply ct_function; assumption.
      - destruct (fparams_print la la' Nl Fl) as (pl & Tp & Qp).
        exists ($"(" ++ join ($", ") (map (fun p => py_str (VObj p)) la) ++ $")"), (OList pl).
        split; [destruct la; [congruence|]; destruct L as [->| ->]; reflexivity|]. split; [exact Qp|]. rewrite <- !app_assoc.
        apply (ct_function_params name [] _ pl []); [assumption|apply blank_nil|right; exact Tp|apply blank_nil|exact Ar]. }
    exists ((name ++ ap ++ $"(" ++ join ($", ") ss ++ $")") ++ fb ++ gb).
    eexists. split; [|split; [apply ut_coef, coef_suffix; [exact C|exact Bf|exact Bg]|]].
    + rewrite print_formula, Es. match goal with K : sequence _ |- _ => destruct K as [->| ->] end;
      cbn [bind]; rewrite not_infix by assumption; rewrite Ea; cbn [bind]; rewrite Ef; cbn [bind];
      rewrite Eg; cbn [bind]; unfold prefix_of; (destruct (str_eqb name ($"negate")) eqn:En; [|reflexivity]);
      apply str_eqb_eq in En; contradiction.
    + rewrite suffix_value, <- Cf, <- Cg. split; [|intros; constructor].
      cbn [conj_value]. rewrite mv_eq_formula. cbn [option_eqb seqk_eqb].
      rewrite (str_eqb_refl name : py_eq (OStr name) (OStr name) = true), Qs, Qa, (conj_nan f f' Vf), (group_eq g g' Vg). reflexivity.
Qed.
Lemma value_arrives_same v : mql_value v -> value_arrives v v.
Proof.
  induction v as [o|m|t|r|sc|n pk ps a f g IH] using mval_ind'; intros H; inversion H; subst.
  - eapply va_number; eassumption.
  - eapply va_negative; eassumption.
  - apply va_ts, ts_arrives_same. assumption.
  - inversion IH as [|? ? Pa IH']; subst. inversion IH' as [|? ? Pb _]; subst.
    apply (va_infix name KList a0 [] b ONone f g a0 [] b f g); auto using opt_arrives, opt_tags. left; reflexivity.
  - inversion IH as [|? ? Pv _]; subst. apply va_negate; auto. left; reflexivity.
  - apply va_function; auto using opt_arrives, opt_tags, fparams_same; [left; reflexivity|].
    apply Forall2_diag. rewrite Forall_forall in *. auto.
Qed.
Lemma value_prints v : mql_value v -> prints v v.
Proof. intros H. apply value_arrival, value_arrives_same, H. Qed.
End Print.
