(** C63: the SnQL grammar of SpecSnql.v is unambiguous. *)
From Verif Require Import PyBase PyFacts DateTime SpecTime Objects Exprs Translate SpecExpr SpecText TextFacts Query SpecRefs SpecSnql.

(** induction over trees *)
Section Ind.
Variable P : expr -> Prop.
Hypothesis H1 : forall w gs a, Forall (Forall P) gs -> P (EWord w gs a).
Hypothesis H2 : forall s, P (EText s).
Hypothesis H3 : forall n, P (EIdent n).
Hypothesis H4 : forall ids b, P b -> P (ELambda ids b).
Fixpoint expr_ind' (e : expr) : P e :=
  match e with
  | EWord w gs a => H1 w gs a
      ((fix fs gs : Forall (Forall P) gs :=
          match gs with
          | [] => Forall_nil _
          | g :: gs' => Forall_cons g ((fix f l : Forall P l := match l with [] => Forall_nil _ | x :: l' => Forall_cons x (expr_ind' x) (f l') end) g) (fs gs')
          end) gs)
  | EText s => H2 s
  | EIdent n => H3 n
  | ELambda ids b => H4 ids b (expr_ind' b)
  end.
End Ind.
Section CInd.
Variable P : cond -> Prop.
Hypothesis H1 : forall l o r, P (CAtom l o r).
Hypothesis H2 : forall o cs, Forall P cs -> P (CNode o cs).
Fixpoint cond_ind' (c : cond) : P c :=
  match c with
  | CAtom l o r => H1 l o r
  | CNode o cs => H2 o cs ((fix f l : Forall P l := match l with [] => Forall_nil _ | x :: l' => Forall_cons x (cond_ind' x) (f l') end) cs)
  end.
End CInd.

(** ** Words *)
Definition stop_char (c : N) : bool := existsb (N.eqb c) [40; 41; 32; 44]%N.
Definition ends (r : str) : Prop := match r with [] => True | c :: _ => stop_char c = true end.
(** the word at the start of a text *)
Fixpoint wcut (inside : bool) (s : str) : str * str :=
  match s with
  | [] => ([], [])
  | c :: s' =>
      if negb inside && stop_char c then ([], s)
      else let (a, b) := wcut (if inside then negb (N.eqb c 93) else N.eqb c 91) s' in (c :: a, b)
  end.
Lemma wcut_plain a s : word_text a -> wcut false (a ++ s) = (a ++ fst (wcut false s), snd (wcut false s)).
Proof.
  induction 1 as [|c a H _ IH]; cbn [app]; [destruct (wcut false s); reflexivity|].
  cbn [wcut]. assert (stop_char c = false) as ->.
  { unfold stop_char. destruct (existsb _ _) eqn:E; [|reflexivity]. apply existsb_exists in E as (x & Hx & E).
    apply N.eqb_eq in E. subst x. elim H. cbn in Hx |- *. tauto. }
  assert (N.eqb c 91 = false) as -> by (apply N.eqb_neq; intros ->; apply H; cbn; tauto).
  cbn. rewrite IH. reflexivity.
Qed.
Lemma wcut_inside k s : ~ In 93%N k -> wcut true (k ++ $"]" ++ s) = (k ++ $"]" ++ fst (wcut false s), snd (wcut false s)).
Proof.
  induction k as [|c k IH]; intros H.
  - cbn. destruct (wcut false s); reflexivity.
  - cbn [app wcut]. cbn [negb andb]. assert (N.eqb c 93 = false) as -> by (apply N.eqb_neq; intros ->; apply H; left; reflexivity).
    cbn [negb]. change (k ++ 93%N :: s) with (k ++ $"]" ++ s). rewrite IH by (intros I; apply H; right; exact I). reflexivity.
Qed.
Lemma wcut_ends r : ends r -> wcut false r = ([], r).
Proof. destruct r as [|c r]; [reflexivity|]. cbn. intros ->. reflexivity. Qed.
Lemma wcut_word w r : a_word w -> ends r -> wcut false (w ++ r) = (w, r).
Proof.
  intros [[_ H]|(a & k & b & -> & _ & Ha & Hb & _ & Hk)] E.
  - rewrite wcut_plain, wcut_ends by assumption. cbn. rewrite app_nil_r. reflexivity.
  - rewrite <- !app_assoc. rewrite wcut_plain by exact Ha. change ($"[" ++ k ++ $"]" ++ b ++ r) with (91%N :: (k ++ $"]" ++ (b ++ r))).
    cbn [wcut negb andb]. change (stop_char 91) with false. change (N.eqb 91 91) with true. cbv iota. rewrite wcut_inside by exact Hk.
    rewrite wcut_plain, wcut_ends by assumption. cbn. rewrite app_nil_r. reflexivity.
Qed.
Lemma word_split w w' r r' : a_word w -> a_word w' -> ends r -> ends r' -> w ++ r = w' ++ r' -> w = w' /\ r = r'.
Proof.
  intros W W' E E' H. pose proof (wcut_word w r W E) as H1. rewrite H, wcut_word in H1 by assumption.
  injection H1 as -> ->. auto.
Qed.
Definition quiet (c : N) : Prop := ~ In c [39; 96; 91; 93; 40; 41; 32; 44]%N.
Lemma word_head w : a_word w -> exists c t, w = c :: t /\ quiet c.
Proof.
  intros [[N H]|(a & k & b & -> & N & H & _)].
  - destruct w as [|c w]; [congruence|]. inversion H; subst. eauto.
  - destruct a as [|c a]; [congruence|]. inversion H; subst. exists c. eexists. split; [reflexivity|assumption].
Qed.

(** text up to a character *)
Lemma upto_split (d : N) (a a' r r' : str) : ~ In d a -> ~ In d a' -> a ++ d :: r = a' ++ d :: r' -> a = a' /\ r = r'.
Proof.
  revert a'. induction a as [|c a IH]; intros [|c' a'] H H' E; cbn in E.
  - injection E as ->. auto.
  - injection E as <- _. elim H'. left. reflexivity.
  - injection E as -> _. elim H. left. reflexivity.
  - injection E as -> E. destruct (IH a') as [-> ->]; auto; intros I; [apply H|apply H']; right; exact I.
Qed.
Lemma ident_split n n' r r' : no_backquote n -> no_backquote n' ->
  text_of_ident n ++ r = text_of_ident n' ++ r' -> n = n' /\ r = r'.
Proof.
  unfold text_of_ident. intros H H' E. rewrite <- !app_assoc in E. cbn [app lit map] in E.
  assert (E1 : n ++ 96%N :: r = n' ++ 96%N :: r') by (cbn in E; injection E as E; exact E).
  eapply upto_split; eassumption.
Qed.
Lemma escaped_escape s : escaped s = escape false s.
Proof.
  rewrite escape_flat, flat_map_concat_map. unfold escaped. f_equal. apply map_ext. intros c. unfold esc1. cbn [quote_char].
  unfold BSL, SQ. destruct (N.eqb c 92) eqn:E1; [apply N.eqb_eq in E1; subst; reflexivity|].
  destruct (N.eqb c 39) eqn:E2; [apply N.eqb_eq in E2; subst; reflexivity|].
  cbn [orb]. destruct (N.eqb c 10); reflexivity.
Qed.
Lemma text_of_string_quoted s : text_of_string s = quoted false s.
Proof. unfold text_of_string. rewrite escaped_escape. reflexivity. Qed.

(** ** Lists of texts *)
Lemma join_split {A} (f : A -> str) (good : A -> Prop) (sep : str) (ok fin : str -> Prop) l :
  Forall (fun x => forall x' r r', good x -> good x' -> ok r -> ok r' -> f x ++ r = f x' ++ r' -> x = x' /\ r = r') l ->
  (forall s, ok (sep ++ s)) -> (forall r, fin r -> ok r) -> (forall r s, fin r -> r <> sep ++ s) ->
  forall l' r r', Forall good l -> Forall good l' -> l <> [] -> l' <> [] -> fin r -> fin r' ->
  join sep (map f l) ++ r = join sep (map f l') ++ r' -> l = l' /\ r = r'.
Proof.
  intros H HS HF HN. induction H as [|x l Hx Hl IH]; intros l' r r' G G' N N' F F' E; [congruence|].
  destruct l' as [|x' l']; [congruence|]. inversion G as [|? ? Gx Gl]; subst. inversion G' as [|? ? Gx' Gl']; subst.
  destruct l as [|y l]; destruct l' as [|y' l'].
  - cbn [map join] in E. destruct (Hx x' r r') as [-> ->]; auto.
  - exfalso. change (f x ++ r = (f x' ++ sep ++ join sep (map f (y' :: l'))) ++ r') in E. rewrite <- !app_assoc in E.
    destruct (Hx x' r (sep ++ join sep (map f (y' :: l')) ++ r')) as [_ E']; auto. exact (HN _ _ F E').
  - exfalso. change ((f x ++ sep ++ join sep (map f (y :: l))) ++ r = f x' ++ r') in E. rewrite <- !app_assoc in E.
    destruct (Hx x' (sep ++ join sep (map f (y :: l)) ++ r) r') as [_ E']; auto. symmetry in E'. exact (HN _ _ F' E').
  - change ((f x ++ sep ++ join sep (map f (y :: l))) ++ r = (f x' ++ sep ++ join sep (map f (y' :: l'))) ++ r') in E.
    rewrite <- !app_assoc in E.
    destruct (Hx x' (sep ++ join sep (map f (y :: l)) ++ r) (sep ++ join sep (map f (y' :: l')) ++ r')) as [-> E']; auto.
    apply app_inv_head in E'. destruct (IH (y' :: l') r r') as [-> ->]; auto; discriminate.
Qed.

(** ** Expressions *)
(** what may follow an expression: the end, a comma, a closing parenthesis, a space that does
    not begin an alias *)
Definition as_text : str := $" AS `".
Definition stops (r : str) : Prop :=
  match r with [] => True | c :: _ => c = 44%N \/ c = 41%N \/ (c = 32%N /\ forall s, r <> as_text ++ s) end.
Lemma stops_ends r : stops r -> ends r.
Proof. destruct r as [|c r]; [exact (fun x => x)|]. cbn. intros [->|[->|[-> _]]]; reflexivity. Qed.
Lemma stops_comma s : stops ($", " ++ s). Proof. left. reflexivity. Qed.
Lemma stops_close s : stops ($")" ++ s). Proof. right. left. reflexivity. Qed.

Lemma text_head e : good_expr e -> exists c t, text_of e = c :: t /\ c <> 41%N /\
  match e with EWord _ _ _ => quiet c | EText _ => c = 39%N | EIdent _ => c = 96%N | ELambda _ _ => c = 40%N end.
Proof.
  destruct 1 as [w gs a W _ _|s|n _|ids b _ _]; cbn [text_of].
  - apply word_head in W as (c & t & -> & Q). eexists c, _. split; [reflexivity|]. split; [|exact Q].
    intros ->. apply Q. cbn. tauto.
  - eexists _, _. split; [reflexivity|]. split; [discriminate|reflexivity].
  - eexists _, _. split; [reflexivity|]. split; [discriminate|reflexivity].
  - eexists _, _. split; [reflexivity|]. split; [discriminate|reflexivity].
Qed.
Lemma alias_split a a' r r' : (forall s, a = Some s -> no_backquote s) -> (forall s, a' = Some s -> no_backquote s) ->
  stops r -> stops r' -> text_of_alias a ++ r = text_of_alias a' ++ r' -> a = a' /\ r = r'.
Proof.
  intros G G' S S' E. destruct a as [s|], a' as [s'|]; cbn [text_of_alias app] in E.
  - rewrite <- !app_assoc in E. apply app_inv_head in E. apply ident_split in E as [-> ->]; auto.
  - exfalso. assert (N : forall t, r' <> as_text ++ t).
    { intros t ->. cbn in S'. destruct S' as [S'|[S'|[_ S']]]; try discriminate. exact (S' t eq_refl). }
    apply (N ((s ++ $"`") ++ r)). rewrite <- E. unfold text_of_ident, as_text. rewrite <- !app_assoc. reflexivity.
  - exfalso. assert (N : forall t, r <> as_text ++ t).
    { intros t ->. cbn in S. destruct S as [S|[S|[_ S]]]; try discriminate. exact (S t eq_refl). }
    apply (N ((s' ++ $"`") ++ r')). rewrite E. unfold text_of_ident, as_text. rewrite <- !app_assoc. reflexivity.
  - auto.
Qed.
Definition det (e : expr) : Prop := forall e' r r', good_expr e -> good_expr e' -> stops r -> stops r' ->
  text_of e ++ r = text_of e' ++ r' -> e = e' /\ r = r'.
Lemma list_split l : Forall det l -> forall l' r r', Forall good_expr l -> Forall good_expr l' ->
  listing (map text_of l) ++ r = listing (map text_of l') ++ r' -> l = l' /\ r = r'.
Proof.
  intros D l' r r' G G' E. unfold listing in E. rewrite <- !app_assoc in E. apply app_inv_head in E.
  assert (FST : forall y u v, Forall good_expr (y :: u) -> $")" ++ v <> join ($", ") (map text_of (y :: u)) ++ $")" ++ v -> True) by (intros; exact I).
  clear FST.
  assert (HD : forall y u v v', Forall good_expr (y :: u) -> $")" ++ v <> join ($", ") (map text_of (y :: u)) ++ v').
  { intros y u v v' H. inversion H as [|? ? Hy _]; subst. destruct (text_head y Hy) as (c & t & E1 & N & _).
    intros E2. destruct u; cbn [map join] in E2; rewrite E1 in E2; cbn in E2; injection E2 as E2 _; congruence. }
  destruct l as [|x l], l' as [|x' l'].
  - cbn in E. injection E as ->. auto.
  - exfalso. exact (HD x' l' r _ G' E).
  - exfalso. symmetry in E. exact (HD x l r' _ G E).
  - destruct (join_split text_of good_expr ($", ") stops (fun r => exists s, r = $")" ++ s) (x :: l)) with (l' := x' :: l') (r := $")" ++ r) (r' := $")" ++ r')
      as [-> E']; auto; try discriminate; eauto using stops_comma.
    + intros q (s & ->). apply stops_close.
    + intros q s (t & ->). discriminate.
    + split; [reflexivity|]. exact (app_inv_head _ _ _ E').
Qed.
Lemma groups_split gs : Forall (Forall det) gs -> forall gs' r r', Forall (Forall good_expr) gs -> Forall (Forall good_expr) gs' ->
  (forall s, r <> $"(" ++ s) -> (forall s, r' <> $"(" ++ s) ->
  List.concat (map (fun g => listing (map text_of g)) gs) ++ r = List.concat (map (fun g => listing (map text_of g)) gs') ++ r' ->
  gs = gs' /\ r = r'.
Proof.
  induction 1 as [|g gs Hg _ IH]; intros gs' r r' G G' N N' E.
  - destruct gs' as [|g' gs']; [auto|]. exfalso. cbn [map List.concat app] in E.
    apply (N ((join ($", ") (map text_of g') ++ $")") ++ List.concat (map (fun g => listing (map text_of g)) gs') ++ r')).
    cbn [app] in E. rewrite E. unfold listing. rewrite <- !app_assoc. reflexivity.
  - destruct gs' as [|g' gs'].
    + exfalso. cbn [map List.concat] in E.
      apply (N' ((join ($", ") (map text_of g) ++ $")") ++ List.concat (map (fun g => listing (map text_of g)) gs) ++ r)).
      cbn [app] in E. rewrite <- E. unfold listing. rewrite <- !app_assoc. reflexivity.
    + cbn [map List.concat] in E. rewrite <- !app_assoc in E. inversion G; subst. inversion G'; subst.
      apply list_split in E as [-> E]; auto. apply IH in E as [-> ->]; auto.
Qed.
Lemma listing_idents ids : listing (map text_of_ident ids) = listing (map text_of (map EIdent ids)).
Proof. rewrite map_map. reflexivity. Qed.
Lemma ident_det n : det (EIdent n).
Proof.
  intros e' r r' G G' S S' E. destruct (text_head e' G') as (c & t & Et & _ & Hc).
  assert (c = 96%N). { rewrite Et in E. cbn in E. injection E as E _. auto. }
  destruct e'; try (exfalso; congruence); subst c.
  - exfalso. apply Hc. cbn. tauto.
  - inversion G; inversion G'; subst. apply ident_split in E as [-> ->]; auto.
Qed.
Lemma alias_no_group a r : stops r -> forall s, text_of_alias a ++ r <> $"(" ++ s.
Proof.
  intros S s E. destruct a; [discriminate E|]. cbn [text_of_alias app] in E. subst r. cbn in S.
  destruct S as [S|[S|[S _]]]; discriminate.
Qed.
Lemma groups_ends gs a r : stops r -> ends (List.concat (map (fun g => listing (map text_of g)) gs) ++ text_of_alias a ++ r).
Proof.
  intros S. destruct gs as [|g gs]; [|reflexivity]. destruct a; [reflexivity|]. apply stops_ends, S.
Qed.
Theorem expr_det e : det e.
Proof.
  induction e as [w gs a IH|s|n|ids b IH] using expr_ind'.
  - intros e' r r' G G' S S' E. destruct (text_head e' G') as (c & t & Et & _ & Hc).
    destruct (text_head _ G) as (c0 & t0 & Et0 & _ & Hc0). assert (c0 = c). { rewrite Et, Et0 in E. cbn in E. injection E as E _. auto. }
    destruct e'; subst; try (exfalso; apply Hc0; cbn; tauto).
    clear Hc Hc0 Et Et0. inversion G; inversion G'; subst. cbn [text_of] in E. rewrite <- !app_assoc in E.
    apply word_split in E as [-> E]; auto using groups_ends.
    apply groups_split in E as [-> E]; auto using alias_no_group.
    apply alias_split in E as [-> ->]; auto.
  - intros e' r r' G G' S S' E. destruct (text_head e' G') as (c & t & Et & _ & Hc).
    assert (c = 39%N). { rewrite Et in E. cbn in E. injection E as E _. auto. }
    destruct e'; try (exfalso; congruence); subst c; [exfalso; apply Hc; cbn; tauto|].
    cbn [text_of] in E. rewrite !text_of_string_quoted in E. apply quoted_inj in E as [-> ->]. auto.
  - apply ident_det.
  - intros e' r r' G G' S S' E. destruct (text_head e' G') as (c & t & Et & _ & Hc).
    assert (c = 40%N). { rewrite Et in E. cbn in E. injection E as E _. auto. }
    destruct e'; try (exfalso; congruence); subst c; [exfalso; apply Hc; cbn; tauto|].
    cbn [text_of] in E. inversion G as [| | |? ? Gi Gb]; inversion G' as [| | |? ? Gi' Gb']; subst.
    rewrite <- !app_assoc, !listing_idents in E.
    assert (K : forall l, Forall no_backquote l -> Forall good_expr (map EIdent l)).
    { intros l0 HH. induction HH; constructor; auto. constructor. assumption. }
    apply list_split in E as [E1 E]; auto.
    + apply app_inv_head in E. apply IH in E as [-> ->]; auto. split; [|reflexivity]. f_equal.
      clear -E1. revert ids0 E1. induction ids as [|x l IH]; intros [|y m] E; try discriminate; [reflexivity|].
      cbn in E. injection E as -> E. f_equal. auto.
    + clear. induction ids; constructor; auto using ident_det.
Qed.
Lemma expr_split e e' r r' : good_expr e -> good_expr e' -> stops r -> stops r' ->
  text_of e ++ r = text_of e' ++ r' -> e = e' /\ r = r'.
Proof. apply expr_det. Qed.
Theorem expr_unique e e' : good_expr e -> good_expr e' -> text_of e = text_of e' -> e = e'.
Proof. intros G G' E. apply (expr_split e e' [] []); auto; try exact I. rewrite !app_nil_r. exact E. Qed.

(** ** Conditions *)
Lemma op_stops o s : stops ($" " ++ op_value o ++ s).
Proof. right. right. split; [reflexivity|]. intros t E. destruct o; discriminate. Qed.
Definition unary (o : op) : Prop := o = IS_NULL \/ o = IS_NOT_NULL.
Definition operand (r : option expr) : str := match r with Some e => $" " ++ text_of e | None => [] end.
Lemma op_split o o' x x' r r' : (x = None <-> unary o) -> (x' = None <-> unary o') ->
  op_value o ++ operand x ++ r = op_value o' ++ operand x' ++ r' -> o = o' /\ operand x ++ r = operand x' ++ r'.
Proof.
  intros U U' E.
  assert (D : o = o'). 2:{ subst o'. split; [reflexivity|]. exact (app_inv_head _ _ _ E). }
  destruct x as [e|], x' as [e'|].
  - destruct o, o'; try reflexivity; discriminate E.
  - assert (unary o') as [-> | ->] by (apply U'; reflexivity); destruct o; try discriminate E;
      assert (X : Some e = None) by (apply U; unfold unary; tauto); discriminate X.
  - assert (unary o) as [-> | ->] by (apply U; reflexivity); destruct o'; try discriminate E;
      assert (X : Some e' = None) by (apply U'; unfold unary; tauto); discriminate X.
  - assert (unary o) as [-> | ->] by (apply U; reflexivity); assert (unary o') as [-> | ->] by (apply U'; reflexivity);
      try reflexivity; discriminate E.
Qed.
Lemma cond_head c : good_cond c -> exists x t, text_of_cond c = x :: t /\
  match c with CAtom _ _ _ => quiet x | CNode _ _ => x = 40%N end.
Proof.
  destruct 1 as [w gs a o r G _ _|o cs _ _]; cbn [text_of_cond].
  - apply text_head in G as (x & t & E & _ & Q). rewrite E. eexists x, _. split; [reflexivity|exact Q].
  - eexists _, _. split; reflexivity.
Qed.
Definition cdet (c : cond) : Prop := forall c' r r', good_cond c -> good_cond c' -> stops r -> stops r' ->
  text_of_cond c ++ r = text_of_cond c' ++ r' -> c = c' /\ r = r'.
Definition connective (o : boolop) : str := $" " ++ boolop_value o ++ $" ".
Lemma connective_stops o s : stops (connective o ++ s).
Proof. right. right. split; [reflexivity|]. intros t E. destruct o; discriminate. Qed.
Theorem cond_det c : cdet c.
Proof.
  induction c as [l o x|o cs IH] using cond_ind'; intros c' r r' G G' S S' E;
    destruct (cond_head _ G) as (h & t & Eh & Hh); destruct (cond_head _ G') as (h' & t' & Eh' & Hh');
    assert (h = h') by (rewrite Eh, Eh' in E; cbn in E; injection E as E _; exact E); subst h';
    destruct c' as [l' o' x'|o' cs']; try (exfalso; subst h; apply Hh; cbn; tauto);
    try (exfalso; subst h; apply Hh'; cbn; tauto); clear Eh Eh' Hh Hh' h t t'.
  - inversion G as [w gs a ? ? Ge U Gr|]; subst. inversion G' as [w' gs' a' ? ? Ge' U' Gr'|]; subst.
    cbn [text_of_cond] in E. rewrite <- !app_assoc in E.
    change (text_of (EWord w gs a) ++ $" " ++ op_value o ++ operand x ++ r
            = text_of (EWord w' gs' a') ++ $" " ++ op_value o' ++ operand x' ++ r') in E.
    apply expr_split in E as [E1 E]; auto using op_stops. rewrite E1. clear E1.
    apply app_inv_head in E. apply op_split in E as [-> E]; auto.
    destruct x as [e|], x' as [e'|]; cbn [operand] in E.
    + rewrite <- !app_assoc in E. apply app_inv_head in E. apply expr_split in E as [-> ->]; auto.
    + assert (X : Some e = None) by (apply U, U'; reflexivity). discriminate X.
    + assert (X : Some e' = None) by (apply U', U; reflexivity). discriminate X.
    + cbn [app] in E. subst. auto.
  - inversion G as [|? ? N Gc]; subst. inversion G' as [|? ? N' Gc']; subst.
    cbn [text_of_cond] in E. rewrite <- !app_assoc in E. apply app_inv_head in E. fold (connective o) (connective o') in E.
    assert (o = o').
    { destruct cs as [|c1 [|c2 cs]]; cbn in N; try lia. destruct cs' as [|d1 [|d2 cs']]; cbn in N'; try lia.
      change (map text_of_cond (c1 :: c2 :: cs)) with (text_of_cond c1 :: map text_of_cond (c2 :: cs)) in E.
      change (map text_of_cond (d1 :: d2 :: cs')) with (text_of_cond d1 :: map text_of_cond (d2 :: cs')) in E.
      change ((text_of_cond c1 ++ connective o ++ join (connective o) (map text_of_cond (c2 :: cs))) ++ $")" ++ r
            = (text_of_cond d1 ++ connective o' ++ join (connective o') (map text_of_cond (d2 :: cs'))) ++ $")" ++ r') in E.
      rewrite <- !app_assoc in E. inversion IH as [|? ? I1 _]; inversion Gc; inversion Gc'; subst.
      apply I1 in E as [_ E]; auto using connective_stops. destruct o, o'; try reflexivity; discriminate E. }
    subst o'.
    destruct (join_split text_of_cond good_cond (connective o) stops (fun r => exists s, r = $")" ++ s) cs)
      with (l' := cs') (r := $")" ++ r) (r' := $")" ++ r') as [-> E']; auto using connective_stops; eauto.
    + intros q (s & ->). apply stops_close.
    + intros q s (u & ->). discriminate.
    + intros ->. cbn in N. lia.
    + intros ->. cbn in N'. lia.
    + split; [reflexivity|]. exact (app_inv_head _ _ _ E').
Qed.
Theorem cond_unique c c' : good_cond c -> good_cond c' -> text_of_cond c = text_of_cond c' -> c = c'.
Proof. intros G G' E. apply (cond_det c c' [] []); auto; try exact I. rewrite !app_nil_r. exact E. Qed.

(** ** Clauses *)
(** what follows a query, and what may follow when only the clauses [ks] are left *)
Definition fin (r : str) : Prop := r = [] \/ exists s, r = $" }" ++ s.
Definition tail (ks : list clause) (r : str) : Prop :=
  fin r \/ exists k s, In k ks /\ r = $" " ++ keyword k ++ $" " ++ s.
Lemma tail_stops ks r : tail ks r -> stops r.
Proof.
  intros [[->|(s & ->)]|(k & s & _ & ->)]; [exact I| |]; right; right; (split; [reflexivity|]).
  - intros t E. discriminate.
  - intros t E. destruct k; discriminate.
Qed.
Lemma tail_ends ks r : tail ks r -> ends r. Proof. intros H. apply stops_ends, (tail_stops ks), H. Qed.
Lemma tail_not_and ks r s : tail ks r -> r <> $" AND " ++ s.
Proof. intros [[->|(t & ->)]|(k & t & _ & ->)] E; [discriminate..|]. destruct k; discriminate. Qed.
Lemma tail_not_comma ks r s : tail ks r -> r <> $"," ++ s.
Proof. intros [[->|(t & ->)]|(k & t & _ & ->)] E; discriminate. Qed.
Lemma tail_not_comma2 ks r s : tail ks r -> r <> $", " ++ s.
Proof. intros [[->|(t & ->)]|(k & t & _ & ->)] E; discriminate. Qed.
Lemma dir_stops d s : stops ($" " ++ direction_value d ++ s).
Proof. right. right. split; [reflexivity|]. intros t E. destruct d; discriminate. Qed.
Lemma all_det {A} (P : A -> Prop) l : (forall x, P x) -> Forall P l.
Proof. intros H. induction l; constructor; auto. Qed.
Lemma part_split ks k p p' r r' : good_part k p -> good_part k p' -> tail ks r -> tail ks r' ->
  text_of_part p ++ r = text_of_part p' ++ r' -> p = p' /\ r = r'.
Proof.
  intros G G' T T' E.
  destruct G as [k l K N G|k l K N G|l N G|n cols W N G|k n K W];
    inversion G' as [? l' K' N' G2|? l' K' N' G2|l' N' G2|n' cols' W' N' G2|? n' K' W']; subst;
    try (exfalso; cbn in K; cbn in K'; intuition congruence); try (exfalso; cbn in K; intuition congruence);
    try (exfalso; cbn in K'; intuition congruence); cbn [text_of_part] in E.
  - destruct (join_split text_of good_expr ($", ") stops (tail ks) l) with (l' := l') (r := r) (r' := r')
      as [-> ->]; auto using stops_comma, all_det, expr_det; eauto using tail_stops, tail_not_comma2.
    apply all_det. intros x. exact (expr_det x).
  - destruct (join_split text_of_cond good_cond ($" AND ") stops (tail ks) l) with (l' := l') (r := r) (r' := r')
      as [-> ->]; auto; eauto using tail_stops, tail_not_and.
    + apply all_det. intros x. exact (cond_det x).
    + exact (connective_stops AND).
  - destruct (join_split text_of_order (fun x => good_expr (fst x)) ($", ") (fun _ => True) (tail ks) l)
      with (l' := l') (r := r) (r' := r') as [-> ->]; auto; eauto using tail_not_comma2.
    apply all_det. clear. intros [e d] [e' d'] r r' G G' _ _ E. unfold text_of_order in E. cbn [fst snd] in *.
    rewrite <- !app_assoc in E. apply expr_split in E as [-> E]; auto using dir_stops.
    apply app_inv_head in E. destruct d, d'; try discriminate E; apply app_inv_head in E; auto.
  - rewrite <- !app_assoc in E. apply word_split in E as [-> E]; auto; try reflexivity. apply app_inv_head in E.
    destruct (join_split (fun x : str => x) a_word ($",") ends (tail ks) cols) with (l' := cols') (r := r) (r' := r')
      as [-> ->]; auto; eauto using tail_ends, tail_not_comma.
    + apply all_det. intros x x' q q' A A' B B'. apply word_split; assumption.
    + intros s. reflexivity.
    + rewrite !map_id. exact E.
  - apply word_split in E as [-> ->]; eauto using tail_ends.
Qed.

Definition shown (parts : clause -> option part) (k : clause) : str :=
  match parts k with Some p => $" " ++ keyword k ++ $" " ++ text_of_part p | None => [] end.
Lemma text_of_parts_cons parts k ks : text_of_parts parts (k :: ks) = shown parts k ++ text_of_parts parts ks.
Proof. reflexivity. Qed.
Lemma parts_tail parts ks r : fin r -> tail ks (text_of_parts parts ks ++ r).
Proof.
  intros F. induction ks as [|k ks IH]; [left; exact F|].
  rewrite text_of_parts_cons, <- app_assoc. unfold shown. destruct (parts k) as [p|].
  - right. exists k, (text_of_part p ++ text_of_parts parts ks ++ r). split; [left; reflexivity|].
    rewrite <- !app_assoc. reflexivity.
  - destruct IH as [F'|(k' & s & H & E)]; [left; exact F'|]. right. exists k', s. split; [right; exact H|exact E].
Qed.
Lemma keyword_split k k' s s' : $" " ++ keyword k ++ $" " ++ s = $" " ++ keyword k' ++ $" " ++ s' ->
  (k = k' \/ (k = CLimitby /\ k' = CLimit) \/ (k = CLimit /\ k' = CLimitby)) /\ s = s'.
Proof.
  intros E. destruct k, k'; try discriminate E; (split; [auto|]); cbn in E;
    repeat (injection E as E); exact E.
Qed.
Fixpoint ordered (ks : list clause) : Prop :=
  match ks with
  | [] => True
  | k :: ks' => ~ In k ks' /\ (k = CLimit -> ~ In CLimitby ks')
                /\ (k = CLimitby -> ~ In CGroupby ks') /\ ordered ks'
  end.
Lemma order_ordered : ordered order.
Proof. cbn. repeat (split; [intuition discriminate|]). exact I. Qed.
(** one of two queries has clause k, the other has not *)
Lemma not_shown parts parts' k ks r r' p : ordered (k :: ks) -> good_parts parts -> good_parts parts' -> fin r -> fin r' ->
  parts k = Some p -> parts' k = None ->
  text_of_parts parts (k :: ks) ++ r <> text_of_parts parts' (k :: ks) ++ r'.
Proof.
  intros (N1 & N2 & N3 & O) G G' F F' P P' E. rewrite !text_of_parts_cons in E. unfold shown in E. rewrite P, P' in E.
  cbn [app] in E. rewrite <- !app_assoc in E.
  destruct (parts_tail parts' ks r' F') as [[E2|(s & E2)]|(k' & s & K & E2)]; rewrite E2 in E; try discriminate E.
  - destruct k; discriminate E.
  - apply keyword_split in E as [[<-|[[-> ->]|[-> ->]]] E]; [contradiction| |elim (N2 eq_refl K)].
    (* LIMIT n BY against LIMIT n *)
    rewrite <- E in E2. clear E s.
    specialize (G _ _ P). inversion G as [? ? H|? ? H| |n cols W NN A|? ? H]; subst;
      try (cbn in H; intuition discriminate).
    clear G N1 N2. remember (text_of_parts parts ks ++ r) as rest eqn:Q. clear Q. induction ks as [|k2 ks IH]; [destruct K|].
    destruct O as (M1 & M2 & M3 & O). rewrite text_of_parts_cons in E2. unfold shown in E2.
    destruct (parts' k2) as [p2|] eqn:P2.
    + rewrite <- !app_assoc in E2. apply keyword_split in E2 as [D E]. symmetry in E.
      assert (k2 = CLimit).
      { destruct D as [D|[[D1 D2]|[D1 D2]]]; auto; congruence. }
      subst k2. specialize (G' _ _ P2). inversion G' as [? ? H|? ? H| | |? n' H W']; subst;
        try (cbn in H; intuition discriminate).
      cbn [text_of_part] in E. rewrite <- !app_assoc in E.
      apply word_split in E as [-> E]; auto; [|reflexivity|apply (tail_ends ks), parts_tail, F'].
      destruct (parts_tail parts' ks r' F') as [[E3|(t & E3)]|(k3 & t & K3 & E3)]; rewrite E3 in E; try discriminate E.
      destruct k3; try discriminate E. exact (N3 eq_refl (or_intror K3)).
    + apply IH; auto.
      * intros _ I. apply N3; [reflexivity|right; exact I].
      * destruct K as [->|K]; [|exact K]. exfalso.
        destruct (parts_tail parts' ks r' F') as [[E3|(t & E3)]|(k3 & t & K3 & E3)]; cbn [app] in E2; rewrite E3 in E2;
          try discriminate E2. apply keyword_split in E2 as [[->|[[-> D]|[-> D]]] _]; try discriminate D; [contradiction|].
        exact (M2 eq_refl K3).
Qed.
Lemma parts_split ks parts parts' r r' : ordered ks -> good_parts parts -> good_parts parts' -> fin r -> fin r' ->
  text_of_parts parts ks ++ r = text_of_parts parts' ks ++ r' -> (forall k, In k ks -> parts k = parts' k) /\ r = r'.
Proof.
  intros O G G' F F'. induction ks as [|k ks IH]; intros E; [split; [intros k []|exact E]|].
  destruct (parts k) as [p|] eqn:P, (parts' k) as [p'|] eqn:P'.
  - rewrite !text_of_parts_cons in E. unfold shown in E. rewrite P, P' in E. rewrite <- !app_assoc in E.
    do 3 apply app_inv_head in E. apply (part_split ks k) in E as [-> E]; [|exact (G _ _ P)|exact (G' _ _ P')|apply parts_tail; assumption..].
    destruct IH as [IH ->]; [apply O|exact E|]. split; [|reflexivity]. intros k' [<-|H]; [congruence|auto].
  - exfalso. exact (not_shown parts parts' k ks r r' p O G G' F F' P P' E).
  - exfalso. symmetry in E. exact (not_shown parts' parts k ks r' r p' O G' G F' F P' P E).
  - rewrite !text_of_parts_cons in E. unfold shown in E. rewrite P, P' in E.
    destruct IH as [IH ->]; [apply O|exact E|]. split; [|reflexivity]. intros k' [<-|H]; [congruence|auto].
Qed.
Lemma in_order k : In k order. Proof. destruct k; cbn; tauto. Qed.

(** ** Queries *)
Lemma name_text_not c s : In c [32; 40; 41; 58]%N -> name_text s -> ~ In c s.
Proof. unfold name_text. rewrite Forall_forall. intros H G I. exact (G c I H). Qed.
Lemma sample_split n n' s s' : name_text n -> name_text n' -> (forall x, s = Some x -> name_text x) ->
  (forall x, s' = Some x -> name_text x) -> n ++ text_of_sample s = n' ++ text_of_sample s' -> n = n' /\ s = s'.
Proof.
  intros N N' S S' E. apply (name_text_not 32) in N, N'; try (cbn; tauto).
  destruct s as [x|], s' as [x'|]; cbn [text_of_sample] in E.
  - change ($" SAMPLE " ++ x) with (32%N :: ($"SAMPLE " ++ x)) in E. change ($" SAMPLE " ++ x') with (32%N :: ($"SAMPLE " ++ x')) in E.
    apply upto_split in E as [-> E]; auto. apply app_inv_head in E. subst. auto.
  - exfalso. apply N'. rewrite app_nil_r in E. rewrite <- E. apply in_or_app. right. left. reflexivity.
  - exfalso. apply N. rewrite app_nil_r in E. rewrite E. apply in_or_app. right. left. reflexivity.
  - rewrite !app_nil_r in E. auto.
Qed.
Lemma sample_no c s : In c [40; 41; 58]%N -> (forall x, s = Some x -> name_text x) -> ~ In c (text_of_sample s).
Proof.
  intros H S I. destruct s as [x|]; [|destruct I]. cbn [text_of_sample] in I. apply in_app_or in I as [I|I].
  - cbn in H, I. intuition (subst; discriminate).
  - apply (name_text_not c) in I; auto. cbn in *. tauto.
Qed.
Definition prefix_of (a : option str) : str := match a with Some x => x ++ $": " | None => [] end.
Lemma ent_split e e' r r' : good_ent e -> good_ent e' -> text_of_ent e ++ r = text_of_ent e' ++ r' -> e = e' /\ r = r'.
Proof.
  destruct e as [a n s], e' as [a' n' s']. intros (A & N & S) (A' & N' & S') E. unfold text_of_ent in E.
  change (($"(" ++ prefix_of a ++ n ++ text_of_sample s ++ $")") ++ r = ($"(" ++ prefix_of a' ++ n' ++ text_of_sample s' ++ $")") ++ r') in E.
  assert (K : forall a n s, (forall x, a = Some x -> name_text x) -> name_text n -> (forall x, s = Some x -> name_text x) ->
    ~ In 41%N (prefix_of a ++ n ++ text_of_sample s)).
  { clear. intros a n s A N S I. apply in_app_or in I as [I|I]; [|apply in_app_or in I as [I|I]].
    - destruct a as [x|]; [|destruct I]. cbn in I. apply in_app_or in I as [I|I]; [|cbn in I; intuition discriminate].
      apply (name_text_not 41) in I; auto. cbn; tauto.
    - apply (name_text_not 41) in I; auto. cbn; tauto.
    - apply sample_no in I; auto. cbn; tauto. }
  assert (E1 : (prefix_of a ++ n ++ text_of_sample s) ++ 41%N :: r = (prefix_of a' ++ n' ++ text_of_sample s') ++ 41%N :: r').
  { apply (app_inv_head ($"(")). rewrite <- !app_assoc in E. rewrite <- !app_assoc. exact E. }
  apply upto_split in E1 as [E1 ->]; auto. split; [|reflexivity].
  assert (C : forall n s, name_text n -> (forall x, s = Some x -> name_text x) -> ~ In 58%N (n ++ text_of_sample s)).
  { clear. intros n s N S I. apply in_app_or in I as [I|I]; [apply (name_text_not 58) in I; auto; cbn; tauto|].
    apply sample_no in I; auto. cbn; tauto. }
  destruct a as [x|], a' as [x'|]; cbn [prefix_of] in E1.
  - rewrite <- !app_assoc in E1. change ($": " ++ n ++ text_of_sample s) with (58%N :: ($" " ++ n ++ text_of_sample s)) in E1.
    change ($": " ++ n' ++ text_of_sample s') with (58%N :: ($" " ++ n' ++ text_of_sample s')) in E1.
    apply upto_split in E1 as [-> E1]; [|apply name_text_not; [cbn; tauto|auto]..]. apply app_inv_head in E1.
    apply sample_split in E1 as [-> ->]; auto.
  - exfalso. cbn [app] in E1. apply (C n' s'); auto. rewrite <- E1. apply in_or_app. left. apply in_or_app. right. left. reflexivity.
  - exfalso. cbn [app] in E1. apply (C n s); auto. rewrite E1. apply in_or_app. left. apply in_or_app. right. left. reflexivity.
  - cbn [app] in E1. apply sample_split in E1 as [-> ->]; auto.
Qed.
Lemma rel_split x x' r r' : good_rel x -> good_rel x' -> text_of_rel x ++ r = text_of_rel x' ++ r' -> x = x' /\ r = r'.
Proof.
  destruct x as [[a n] b], x' as [[a' n'] b']. intros (A & B & N) (A' & B' & N') E. unfold text_of_rel in E.
  rewrite <- !app_assoc in E. apply ent_split in E as [-> E]; auto. apply app_inv_head in E.
  change ($"]-> " ++ text_of_ent b ++ r) with (93%N :: ($"-> " ++ text_of_ent b ++ r)) in E.
  change ($"]-> " ++ text_of_ent b' ++ r') with (93%N :: ($"-> " ++ text_of_ent b' ++ r')) in E.
  apply upto_split in E as [-> E]; auto. apply app_inv_head in E. apply ent_split in E as [-> ->]; auto.
Qed.
Lemma rels_split l l' r r' : l <> [] -> l' <> [] -> Forall good_rel l -> Forall good_rel l' -> tail order r -> tail order r' ->
  join ($", ") (map text_of_rel l) ++ r = join ($", ") (map text_of_rel l') ++ r' -> l = l' /\ r = r'.
Proof.
  intros N N' G G' T T' E.
  apply (join_split text_of_rel good_rel ($", ") (fun _ => True) (tail order) l); auto; eauto using tail_not_comma2.
  apply all_det. intros x x' q q' A A' _ _. apply rel_split; assumption.
Qed.
(** a join is not a single entity *)
Lemma ent_not_rels e l r r' : good_ent e -> l <> [] -> Forall good_rel l -> tail order r ->
  text_of_ent e ++ r <> join ($", ") (map text_of_rel l) ++ r'.
Proof.
  intros G N GL T E. destruct l as [|[[a n] b] l]; [congruence|]. inversion GL as [|? ? GA _]; subst. destruct GA as (A & _ & _).
  assert (X : exists s, join ($", ") (map text_of_rel ((a, n, b) :: l)) = text_of_ent a ++ $" -[" ++ s).
  { destruct l; cbn [map join text_of_rel]; eexists; rewrite <- ?app_assoc; reflexivity. }
  destruct X as (s & X). rewrite X in E. rewrite <- !app_assoc in E. apply ent_split in E as [_ E]; auto.
  destruct T as [[->|(t & ->)]|(k & t & _ & ->)]; try discriminate E. destruct k; discriminate E.
Qed.
Lemma ent_head e : exists t, text_of_ent e = 40%N :: t.
Proof. destruct e. eexists. reflexivity. Qed.
Lemma rels_head l : l <> [] -> exists t, join ($", ") (map text_of_rel l) = 40%N :: t.
Proof.
  destruct l as [|[[a n] b] l]; [congruence|]. intros _. destruct (ent_head a) as [t E].
  destruct l; cbn [map join text_of_rel]; rewrite E; eexists; reflexivity.
Qed.
Theorem query_split t : good_query t -> forall t' r r', good_query t' -> fin r -> fin r' ->
  text_of_query t ++ r = text_of_query t' ++ r' -> same_query t t' /\ r = r'.
Proof.
  assert (PS : forall parts parts' r r', good_parts parts -> good_parts parts' -> fin r -> fin r' ->
    text_of_parts parts order ++ r = text_of_parts parts' order ++ r' -> (forall k, parts k = parts' k) /\ r = r').
  { intros parts parts' r r' P P' F F' E. apply parts_split in E as [E ->]; auto using order_ordered, in_order. }
  induction 1 as [n s p E P|n s p E P|rels p N R P|i p I IH P]; intros t' r r' G' F F' EQ;
    destruct G' as [n' s' p' E' P'|n' s' p' E' P'|rels' p' N' R' P'|i' p' I' P'];
    cbn [text_of_query] in EQ; rewrite <- !app_assoc in EQ; apply app_inv_head in EQ;
    try (exfalso; discriminate EQ);
    try (exfalso; destruct (rels_head _ N) as [u Hu]; rewrite Hu in EQ; discriminate EQ);
    try (exfalso; destruct (rels_head _ N') as [u Hu]; rewrite Hu in EQ; discriminate EQ).
  - apply ent_split in EQ as [Q EQ]; auto. injection Q as -> ->. apply PS in EQ as [Q ->]; auto. split; [constructor; exact Q|reflexivity].
  - exfalso. eapply (ent_not_rels _ _ _ _ E N' R'); [|exact EQ]. apply parts_tail, F.
  - apply app_inv_head in EQ. apply ent_split in EQ as [Q EQ]; auto. injection Q as -> ->. apply PS in EQ as [Q ->]; auto.
    split; [constructor; exact Q|reflexivity].
  - exfalso. symmetry in EQ. eapply (ent_not_rels _ _ _ _ E' N R); [|exact EQ]. apply parts_tail, F'.
  - apply rels_split in EQ as [-> EQ]; auto using parts_tail. apply PS in EQ as [Q ->]; auto. split; [constructor; exact Q|reflexivity].
  - apply app_inv_head in EQ. apply IH in EQ as [Q EQ]; auto; [|right; eexists; reflexivity..].
    apply app_inv_head in EQ. apply PS in EQ as [Q' ->]; auto. split; [constructor; assumption|reflexivity].
Qed.
Theorem query_unique t t' : good_query t -> good_query t' -> text_of_query t = text_of_query t' -> same_query t t'.
Proof.
  intros G G' E. apply (query_split t G t' [] []); auto; try (left; reflexivity). rewrite !app_nil_r. exact E.
Qed.
