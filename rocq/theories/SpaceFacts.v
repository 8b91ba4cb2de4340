(** Reading MQL texts that differ in their white space only (C85). *)
From Verif Require Import PyBase PyFacts Regex RegexFacts Objects Exprs Translate Query Metrics ExprFacts
  SpecMql Peg PegTotal Mql MqlParse MqlTokens MqlExpr MqlRead Extend SpecSpaces.

Section Spaces.
Context {RT : PyRT}.

(** * Characters *)
(** outside quotes and backticks; no white space, no at sign *)
Definition solid (c : N) : Prop := mql_space c = false /\ c <> DQ /\ c <> 96%N /\ c <> 64%N.
Lemma space_chars c : mql_space c = true -> (9 <= c <= 13 \/ c = 32 \/ 28 <= c <= 31 \/ 128 <= c)%N.
Proof. intros H. apply mql_space_iff in H. apply space_num, H. Qed.
Lemma space_mri c : mql_space c = true -> mri_char c = true.
Proof.
  intros H. apply space_chars in H. destruct (mri_char c) eqn:E; [reflexivity|]. exfalso.
  unfold mri_char in E. apply negb_false_iff, orb_true_iff in E. unfold one_of, DQ in E.
  destruct E as [E|E]; [|apply N.eqb_eq in E; lia].
  cbn in E. repeat (apply orb_true_iff in E; destruct E as [E|E]; [apply N.eqb_eq in E; lia|]). discriminate E.
Qed.
Lemma space_not_unquoted c : mql_space c = true -> unquoted_char c = false.
Proof. intros H. unfold unquoted_char. rewrite H, orb_true_r. reflexivity. Qed.
Lemma at_unquoted : unquoted_char 64 = true.
Proof. unfold unquoted_char. rewrite space_low by lia. reflexivity. Qed.

(** * The relation between positions of the two texts *)
Definition mris (y : str) : Prop := Forall (fun c => mri_char c = true) y.
Definition ends (t : str) : Prop := heads mri_char t = false.
Definition noat (s : str) : Prop := forall y t, s = y ++ t -> mris y -> ~ In 64%N y.
Inductive rsp : str -> str -> Prop :=
| z_nil : rsp [] []
| z_char c s s' : solid c -> rsp s s' -> rsp (c :: s) (c :: s')
| z_at y t t' : mris y -> ends t -> ends t' -> rsp t t' -> rsp (64%N :: y ++ t) (64%N :: y ++ t')
| z_space c s s' : mql_space c = true -> rsp s s' -> rsp (c :: s) (c :: s')
| z_gap w w' s s' : forallb mql_space w = true -> forallb mql_space w' = true -> w <> [] -> w' <> [] ->
    noat s -> rsp s s' -> rsp (w ++ s) (w' ++ s')
| z_quoted b s s' : (forall r, qscan (b ++ DQ :: r) = Some r) -> rsp s s' ->
    rsp (DQ :: b ++ DQ :: s) (DQ :: b ++ DQ :: s')
| z_ticks m s s' : forallb unquoted_char m = true -> ~ In 96%N m -> rsp s s' ->
    rsp (96%N :: m ++ 96%N :: s) (96%N :: m ++ 96%N :: s').

Lemma mri_solid c : mri_char c = true -> mql_space c = false -> c <> 64%N -> solid c.
Proof.
  intros M S A. repeat split; try assumption; intros ->; vm_compute in M; discriminate M.
Qed.
(** an unchanged stretch *)
Lemma rsp_same y t t' : mris y -> ends t -> ends t' -> rsp t t' -> rsp (y ++ t) (y ++ t').
Proof.
  intros Y E E' R. induction Y as [|c y M Y IH]; [exact R|]. cbn [app].
  destruct (N.eqb_spec c 64) as [->|N].
  - apply z_at; assumption.
  - destruct (mql_space c) eqn:S; [apply z_space; assumption|]. apply z_char; [apply mri_solid; assumption|exact IH].
Qed.
Lemma rsp_solid p t t' : Forall solid p -> rsp t t' -> rsp (p ++ t) (p ++ t').
Proof. intros P R. induction P; [exact R|]. cbn [app]. apply z_char; assumption. Qed.

(** the head of a gap *)
Lemma gap_head w (s : str) : forallb mql_space w = true -> w <> [] ->
  exists c r, w ++ s = c :: r /\ mql_space c = true.
Proof.
  intros W N. destruct w as [|c w]; [congruence|]. cbn in W. apply andb_true_iff in W. destruct W as (C & _).
  exists c, (w ++ s). auto.
Qed.

(** * White space *)
Lemma skip_all f w s : forallb f w = true -> skip f (w ++ s) = skip f s.
Proof.
  intros W. unfold skip. induction w as [|c w IH]; [reflexivity|]. cbn in *. apply andb_true_iff in W. destruct W as (C & W).
  rewrite C. specialize (IH W). destruct (span f (w ++ s)). exact IH.
Qed.
Lemma skip_no f s : heads f s = false -> skip f s = s.
Proof. intros H. unfold skip. destruct s as [|c s]; [reflexivity|]. cbn in *. rewrite H. reflexivity. Qed.
Lemma skip_cons f c s : f c = true -> skip f (c :: s) = skip f s.
Proof. intros H. apply (skip_all f [c] s). cbn. rewrite H. reflexivity. Qed.
Lemma skip_rsp u u' : rsp u u' -> rsp (skip mql_space u) (skip mql_space u').
Proof.
  intros R. induction R as [|c s s' C R IH|y t t' Y E E' R IH|c s s' C R IH|w w' s s' W W' N N' A R IH|b s s' B R IH|m s s' M I R IH].
  - constructor.
  - rewrite !skip_no by exact (proj1 C). apply z_char; assumption.
  - rewrite !skip_no by (apply space_low; lia). apply z_at; assumption.
  - rewrite !skip_cons by exact C. exact IH.
  - rewrite !skip_all by assumption. exact IH.
  - rewrite !skip_no by (apply space_low; unfold DQ; lia). apply z_quoted; assumption.
  - rewrite !skip_no by (apply space_low; lia). apply z_ticks; assumption.
Qed.

(** what a token reads: nothing on both sides, or related rests; [b]: the same text *)
Definition good (b : bool) (r : re) : Prop := forall u u', rsp u u' ->
  match re_match r u, re_match r u' with
  | None, None => True
  | Some v, Some v' => rsp v v' /\ exists x x', u = x ++ v /\ u' = x' ++ v' /\ (x = [] <-> x' = []) /\ (b = true -> x = x')
  | _, _ => False
  end.
Lemma good_less b r : good true r -> good b r.
Proof.
  intros G u u' R. specialize (G u u' R). destruct (re_match r u) as [v|], (re_match r u') as [v'|]; try exact G.
  destruct G as (G & x & x' & E1 & E2 & E3 & E4). split; [exact G|]. exists x, x'. auto.
Qed.
Lemma skip_split f s : exists x, s = x ++ skip f s /\ (x = [] <-> heads f s = false).
Proof.
  exists (fst (span f s)). split; [symmetry; apply span_app|]. destruct s as [|c s]; [cbn; tauto|]. cbn.
  destruct (f c); [|cbn; tauto]. destruct (span f s). cbn. split; discriminate.
Qed.
Lemma space_heads u u' : rsp u u' -> heads mql_space u = heads mql_space u'.
Proof.
  intros R. destruct R as [|c s s' C R|y t t' Y E E' R|c s s' C R|w w' s s' W W' N N' A R|b s s' B R|m s s' M I R]; try reflexivity.
  destruct (gap_head w s W N) as (c & r & E & C), (gap_head w' s' W' N') as (c' & r' & E' & C').
  rewrite E, E'. cbn. congruence.
Qed.
Lemma good_ws : good false re_ws.
Proof.
  intros u u' R. unfold re_ws. rewrite !re_star. split; [apply skip_rsp, R|].
  destruct (skip_split mql_space u) as (x & E & X), (skip_split mql_space u') as (x' & E' & X').
  exists x, x'. split; [exact E|]. split; [exact E'|]. split; [|discriminate].
  rewrite X, X', (space_heads u u' R). tauto.
Qed.

(** * Tokens made of solid characters *)
Lemma solid_split u u' : rsp u u' -> exists p v v', u = p ++ v /\ u' = p ++ v' /\ Forall solid p /\ rsp v v'
  /\ (forall c t, v = c :: t -> ~ solid c) /\ (forall c t, v' = c :: t -> ~ solid c) /\ (v = [] <-> v' = []).
Proof.
  assert (forall c, mql_space c = true -> ~ solid c) as NS by (intros c C (S & _); congruence).
  intros R. induction R as [|c s s' C R IH|y t t' Y E E' R IH|c s s' C R IH|w w' s s' W W' N N' A R IH|b s s' B R IH|m s s' M I R IH].
  - exists [], [], []. repeat split; try constructor; try discriminate; auto.
  - destruct IH as (p & v & v' & -> & -> & P & V). exists (c :: p), v, v'.
    repeat split; try reflexivity; try apply V. constructor; assumption.
  - exists [], (64%N :: y ++ t), (64%N :: y ++ t'). repeat split; try discriminate; try (constructor; assumption); try constructor.
    + intros c r X (_ & _ & _ & S). congruence.
    + intros c r X (_ & _ & _ & S). congruence.
  - exists [], (c :: s), (c :: s'). repeat split; try discriminate; try (apply z_space; assumption); try constructor.
    + intros d r X. inversion X; subst. auto.
    + intros d r X. inversion X; subst. auto.
  - destruct (gap_head w s W N) as (c & r & E & C), (gap_head w' s' W' N') as (c' & r' & E' & C').
    exists [], (w ++ s), (w' ++ s'). split; [reflexivity|]. split; [reflexivity|]. split; [constructor|].
    split; [apply z_gap; assumption|]. rewrite E, E'. repeat split; try discriminate.
    + intros d q X. inversion X; subst. auto.
    + intros d q X. inversion X; subst. auto.
  - exists [], (DQ :: b ++ DQ :: s), (DQ :: b ++ DQ :: s'). repeat split; try discriminate; try (apply z_quoted; assumption); try constructor.
    + intros c r X (_ & S & _). congruence.
    + intros c r X (_ & S & _). congruence.
  - exists [], (96%N :: m ++ 96%N :: s), (96%N :: m ++ 96%N :: s'). repeat split; try discriminate; try (apply z_ticks; assumption); try constructor.
    + intros c r X (_ & _ & S & _). congruence.
    + intros c r X (_ & _ & S & _). congruence.
Qed.
Lemma match_before r p (v : str) (P : N -> Prop) : (forall c, ~ P c -> avoid c r) ->
  (forall c t, v = c :: t -> ~ P c) -> re_match r (p ++ v) = option_map (fun m => m ++ v) (re_match r p).
Proof.
  intros A V. destruct v as [|c t].
  - rewrite app_nil_r. destruct (re_match r p); cbn; [rewrite app_nil_r|]; reflexivity.
  - apply match_avoid, A. eapply V. reflexivity.
Qed.
Lemma good_solid r : (forall c, ~ solid c -> avoid c r) -> good true r.
Proof.
  intros A u u' R. destruct (solid_split u u' R) as (p & v & v' & -> & -> & P & V & S & S' & _).
  rewrite !(match_before r p _ solid A) by assumption. destruct (re_match r p) as [m|] eqn:M; [|exact I]. cbn.
  destruct (match_suffix _ _ _ M) as (x & ->). apply Forall_app in P as (_ & P).
  split; [apply rsp_solid; assumption|]. exists x, x. rewrite <- !app_assoc. tauto.
Qed.
Lemma alnum_solid c : ~ solid c -> is_alnum_ c = false /\ is_digit c = false /\ public_char c = false /\ c <> 46%N.
Proof.
  intros S.
  assert ((46 <= c < 123)%N -> c <> 64%N -> c <> 96%N -> False) as K.
  { intros C N1 N2. apply S. repeat split; [apply space_low; lia|unfold DQ; lia|exact N2|exact N1]. }
  repeat split.
  - destruct (is_alnum_ c) eqn:E; [|reflexivity]. exfalso. apply K; [|intros ->; discriminate E|intros ->; discriminate E].
    apply key_range. apply key_b_iff. unfold key_b. rewrite E. reflexivity.
  - destruct (is_digit c) eqn:E; [|reflexivity]. exfalso. unfold is_digit, in_range in E. apply andb_true_iff in E.
    rewrite !N.leb_le in E. apply K; lia.
  - destruct (public_char c) eqn:E; [|reflexivity]. exfalso. unfold public_char, is_lower, in_range in E.
    apply orb_true_iff in E. rewrite andb_true_iff, !N.leb_le, N.eqb_eq in E. apply K; lia.
  - intros ->. apply K; lia.
Qed.
Lemma good_key : good true re_key.
Proof.
  apply good_solid. intros c S. destruct (alnum_solid c S) as (A & _ & _ & N). apply N.eqb_neq in N. cbn. rewrite A, N. auto.
Qed.
Lemma good_name : good true re_name.
Proof. apply good_solid. intros c S. destruct (alnum_solid c S) as (A & _). cbn. auto. Qed.
Lemma good_digits : good true re_digits.
Proof. apply good_solid. intros c S. destruct (alnum_solid c S) as (_ & A & _). cbn. auto. Qed.
Lemma good_public : good true re_public.
Proof.
  apply good_solid. intros c S. destruct (alnum_solid c S) as (_ & _ & A & N). apply N.eqb_neq in N. cbn -[N.eqb].
  repeat split; try exact A; first [exact N|rewrite N.eqb_sym; exact N].
Qed.

(** * Bare words *)
Lemma unquoted_split u u' : rsp u u' -> exists x v v', u = x ++ v /\ u' = x ++ v' /\ forallb unquoted_char x = true
  /\ heads unquoted_char v = false /\ heads unquoted_char v' = false /\ rsp v v'.
Proof.
  intros R. induction R as [|c s s' C R IH|y t t' Y E E' R IH|c s s' C R IH|w w' s s' W W' N N' A R IH|b s s' B R IH|m s s' M I R IH].
  - exists [], [], []. repeat split; constructor.
  - destruct (unquoted_char c) eqn:U.
    + destruct IH as (x & v & v' & -> & -> & X & V). exists (c :: x), v, v'. cbn. rewrite U, X. repeat split; apply V.
    + exists [], (c :: s), (c :: s'). cbn. rewrite U. repeat split. apply z_char; assumption.
  - pose proof (span_app unquoted_char y) as Ey. pose proof (RegexFacts.span_all unquoted_char y) as F.
    pose proof (skip_heads unquoted_char y) as H. unfold skip in H.
    set (y1 := fst (span unquoted_char y)) in *. set (y2 := snd (span unquoted_char y)) in *. clearbody y1 y2.
    assert (forallb unquoted_char (64%N :: y1) = true) as F' by (cbn [forallb]; rewrite at_unquoted; exact F).
    destruct y2 as [|d y2].
    + rewrite app_nil_r in Ey. subst y1. destruct IH as (x & v & v' & -> & -> & X & V).
      exists (64%N :: y ++ x), v, v'. cbn [app]. rewrite <- !app_assoc. split; [reflexivity|]. split; [reflexivity|].
      split; [|exact V]. change (64%N :: y ++ x) with ((64%N :: y) ++ x). rewrite forallb_app, F', X. reflexivity.
    + exists (64%N :: y1), ((d :: y2) ++ t), ((d :: y2) ++ t'). cbn [app heads] in *.
      split; [rewrite <- Ey, <- app_assoc; reflexivity|]. split; [rewrite <- Ey, <- app_assoc; reflexivity|].
      split; [exact F'|]. split; [exact H|]. split; [exact H|].
      apply (rsp_same (d :: y2) t t'); try assumption. unfold mris in Y. rewrite <- Ey in Y. apply Forall_app in Y. apply Y.
  - exists [], (c :: s), (c :: s'). cbn. rewrite space_not_unquoted by exact C. repeat split. apply z_space; assumption.
  - destruct (gap_head w s W N) as (c & r & E & C), (gap_head w' s' W' N') as (c' & r' & E' & C').
    exists [], (w ++ s), (w' ++ s'). split; [reflexivity|]. split; [reflexivity|]. split; [reflexivity|].
    split; [rewrite E; apply space_not_unquoted, C|]. split; [rewrite E'; apply space_not_unquoted, C'|]. apply z_gap; assumption.
  - exists [], (DQ :: b ++ DQ :: s), (DQ :: b ++ DQ :: s'). repeat split. apply z_quoted; assumption.
  - destruct IH as (x & v & v' & -> & -> & X & V). exists (96%N :: m ++ 96%N :: x), v, v'.
    cbn [app]. rewrite <- !app_assoc. split; [reflexivity|]. split; [reflexivity|]. split; [|exact V].
    cbn [forallb]. rewrite tick_unquoted, forallb_app, M. cbn [forallb andb]. rewrite ?tick_unquoted, X. reflexivity.
Qed.
Lemma heads_all f x (v : str) : forallb f x = true -> heads f v = false ->
  heads f (x ++ v) = match x with [] => false | _ => true end.
Proof. destruct x as [|c x]; [auto|]. cbn. intros H _. apply andb_true_iff in H. apply H. Qed.
Lemma good_unquoted : good true re_unquoted.
Proof.
  intros u u' R. destruct (unquoted_split u u' R) as (x & v & v' & -> & -> & X & H & H' & V).
  unfold re_unquoted. rewrite !re_plus, !heads_all, !skip_all, !skip_no by assumption.
  destruct x as [|c x]; [exact I|]. split; [exact V|]. exists (c :: x), (c :: x). repeat split; auto.
Qed.

(** * Quoted strings *)
Lemma good_quoted : good true re_quoted.
Proof.
  assert (forall c r r', c <> DQ -> match re_match re_quoted (c :: r), re_match re_quoted (c :: r') with
    | None, None => True | _, _ => False end) as K.
  { intros c r r' N. rewrite !re_quoted_scan. apply N.eqb_neq in N. rewrite N. exact I. }
  assert (forall c r, c <> DQ -> re_match re_quoted (c :: r) = None) as K1.
  { intros c r N. rewrite re_quoted_scan. apply N.eqb_neq in N. rewrite N. reflexivity. }
  intros u u' R. destruct R as [|c s s' C R|y t t' Y E E' R|c s s' C R|w w' s s' W W' N N' A R|b s s' B R|m s s' M I R].
  - exact I.
  - rewrite !K1 by apply C. exact I.
  - rewrite !K1 by discriminate. exact I.
  - apply space_chars in C. rewrite !K1 by (unfold DQ; lia). exact I.
  - destruct (gap_head w s W N) as (c & r & E & C), (gap_head w' s' W' N') as (c' & r' & E' & C'). rewrite E, E'.
    apply space_chars in C, C'. rewrite !K1 by (unfold DQ; lia). exact I.
  - rewrite !re_quoted_scan. change (N.eqb DQ DQ) with true. cbv iota. rewrite !B. split; [exact R|].
    exists (DQ :: b ++ [DQ]), (DQ :: b ++ [DQ]). cbn [app]. rewrite <- !app_assoc. repeat split; auto; discriminate.
  - rewrite !K1 by discriminate. exact Logic.I.
Qed.

(** * Unquoted metric identifiers *)
Lemma mri_split u u' : rsp u u' -> exists y y' t t', u = y ++ t /\ u' = y' ++ t' /\ mris y /\ mris y'
  /\ ends t /\ ends t' /\ rsp t t' /\ (In 64%N y \/ In 64%N y' -> y = y').
Proof.
  intros R. induction R as [|c s s' C R IH|y t t' Y E E' R IH|c s s' C R IH|w w' s s' W W' N N' A R IH|b s s' B R IH|m s s' M I R IH].
  - exists [], [], [], []. repeat split; constructor.
  - destruct (mri_char c) eqn:U.
    + destruct IH as (y & y' & t & t' & -> & -> & Y & Y' & E & E' & T & K). exists (c :: y), (c :: y'), t, t'.
      split; [reflexivity|]. split; [reflexivity|]. split; [constructor; assumption|]. split; [constructor; assumption|].
      split; [exact E|]. split; [exact E'|]. split; [exact T|]. destruct C as (_ & _ & _ & C).
      intros H. f_equal. apply K. cbn in H. destruct H as [[H|H]|[H|H]]; try congruence; auto.
    + exists [], [], (c :: s), (c :: s'). repeat split; try constructor; try assumption.
  - exists (64%N :: y), (64%N :: y), t, t'. repeat split; try assumption; try (constructor; [reflexivity|assumption]).
  - apply space_mri in C as U.
    destruct IH as (y & y' & t & t' & -> & -> & Y & Y' & E & E' & T & K). exists (c :: y), (c :: y'), t, t'.
    split; [reflexivity|]. split; [reflexivity|]. split; [constructor; assumption|]. split; [constructor; assumption|].
    split; [exact E|]. split; [exact E'|]. split; [exact T|]. apply space_chars in C.
    intros H. f_equal. apply K. cbn in H. destruct H as [[H|H]|[H|H]]; try lia; auto.
  - destruct IH as (y & y' & t & t' & -> & -> & Y & Y' & E & E' & T & K).
    assert (~ In 64%N y) as A1 by (apply (A y t); auto).
    assert (~ In 64%N y') as A2 by (intros H; apply A1; rewrite (K (or_intror H)); exact H).
    assert (forall w, forallb mql_space w = true -> mris w /\ ~ In 64%N w) as WM.
    { intros w0 F. rewrite forallb_forall in F. split.
      - apply Forall_forall. intros c Hc. apply space_mri, F, Hc.
      - intros H. apply F, space_chars in H. lia. }
    destruct (WM w W) as (M1 & N1), (WM w' W') as (M2 & N2).
    exists (w ++ y), (w' ++ y'), t, t'. rewrite !app_assoc.
    split; [reflexivity|]. split; [reflexivity|]. split; [apply Forall_app; auto|]. split; [apply Forall_app; auto|].
    split; [exact E|]. split; [exact E'|]. split; [exact T|]. rewrite !in_app_iff. tauto.
  - exists [], [], (DQ :: b ++ DQ :: s), (DQ :: b ++ DQ :: s'). repeat split; try constructor; assumption.
  - exists [], [], (96%N :: m ++ 96%N :: s), (96%N :: m ++ 96%N :: s'). repeat split; try constructor; assumption.
Qed.
Lemma mri_has_at s r : re_match re_unquoted_mri s = Some r -> exists x, s = x ++ r /\ In 64%N x.
Proof.
  intros M. apply re_match_mt in M. unfold re_unquoted_mri in M.
  assert (forall a s r, mt a s r -> exists x, s = x ++ r) as SX.
  { intros a s0 r0 M0. destruct (mt_only (fun _ => True) a s0 r0 M0) as (x & E & _); [|eauto]. clear. induction a; cbn; auto. }
  repeat match goal with H : mt (RSeq _ _) _ _ |- _ => inversion H; subst; clear H end.
  match goal with H : mt (RChar 64) ?a ?b |- _ => rename H into A; rename a into a1; rename b into b1 end.
  match goal with H : mt (RPlus (RClass mri_char)) b1 r |- _ => apply SX in H; destruct H as (z & ->) end.
  assert (exists y, s = y ++ a1) as (y & ->).
  { clear A. repeat match goal with H : mt _ _ _ |- _ => apply SX in H; destruct H as (? & ?) end. subst.
    rewrite ?app_assoc. eexists; reflexivity. }
  inversion A; subst. match goal with H : N.eqb _ _ = true |- _ => apply N.eqb_eq in H; subst end.
  exists (y ++ 64%N :: z). rewrite <- app_assoc. split; [reflexivity|]. apply in_or_app. right. left. reflexivity.
Qed.
Lemma avoid_mri c : mri_char c = false -> avoid c re_unquoted_mri.
Proof.
  intros M. assert (N.eqb 58 c = false /\ N.eqb 47 c = false /\ N.eqb 64 c = false) as (N1 & N2 & N3).
  { repeat split; apply N.eqb_neq; intros <-; vm_compute in M; discriminate M. }
  pose proof N1 as N1'. pose proof N2 as N2'. pose proof N3 as N3'. rewrite N.eqb_sym in N1', N2', N3'.
  cbn -[N.eqb mri_char]. rewrite ?N1, ?N2, ?N3, ?N1', ?N2', ?N3', M. cbn [negb andb]. tauto.
Qed.
Lemma good_mri : good true re_unquoted_mri.
Proof.
  intros u u' R. destruct (mri_split u u' R) as (y & y' & t & t' & -> & -> & Y & Y' & E & E' & T & K).
  assert (forall y t, ends t -> re_match re_unquoted_mri (y ++ t) = option_map (fun m => m ++ t) (re_match re_unquoted_mri y)) as MB.
  { intros y0 t0 E0. apply (match_before _ _ _ (fun c => mri_char c = true)).
    - intros c C. apply avoid_mri. destruct (mri_char c); congruence.
    - intros c r ->. cbn in E0. unfold ends in E0. cbn in E0. congruence. }
  rewrite !MB by assumption.
  destruct (in_dec N.eq_dec 64%N y) as [I|I].
  - rewrite <- K by auto. destruct (re_match re_unquoted_mri y) as [m|] eqn:M; [|exact Logic.I]. cbn.
    destruct (match_suffix _ _ _ M) as (x & ->). apply Forall_app in Y as (_ & Y).
    split; [apply rsp_same; assumption|]. exists x, x. rewrite <- !app_assoc. tauto.
  - assert (~ In 64%N y') as I' by (intros H; apply I; rewrite K by auto; exact H).
    destruct (re_match re_unquoted_mri y) as [m|] eqn:M.
    { destruct (mri_has_at _ _ M) as (x & -> & X). exfalso. apply I, in_or_app. auto. }
    destruct (re_match re_unquoted_mri y') as [m|] eqn:M'.
    { destruct (mri_has_at _ _ M') as (x & -> & X). exfalso. apply I', in_or_app. auto. }
    exact Logic.I.
Qed.

(** * Literals *)
Lemma lit_split l : Forall solid l -> forall u u', rsp u u' ->
  (exists s s', u = l ++ s /\ u' = l ++ s' /\ rsp s s') \/ (prefixb l u = false /\ prefixb l u' = false).
Proof.
  induction 1 as [|c l C L IH]; intros u u' R; [left; exists u, u'; auto|].
  assert (forall d (r : str), c <> d -> prefixb (c :: l) (d :: r) = false) as K.
  { intros d r N. cbn. apply N.eqb_neq in N. rewrite N. reflexivity. }
  assert (forall d, mql_space d = true -> c <> d) as KS by (intros d D ->; destruct C; congruence).
  destruct R as [|d s s' D R|y t t' Y E E' R|d s s' D R|w w' s s' W W' N N' A R|b s s' B R|m s s' M I R].
  - right. auto.
  - destruct (N.eq_dec c d) as [<-|N]; [|right; auto].
    destruct (IH s s' R) as [(r & r' & -> & -> & R')|(P & P')]; [left; exists r, r'; auto|].
    right. cbn. rewrite N.eqb_refl. auto.
  - right. destruct C as (_ & _ & _ & C). auto.
  - right. auto.
  - right. destruct (gap_head w s W N) as (d & r & E & D), (gap_head w' s' W' N') as (d' & r' & E' & D'). rewrite E, E'. auto.
  - right. destruct C as (_ & C & _ & _). auto.
  - right. destruct C as (_ & _ & C & _). auto.
Qed.

(** * Trees that differ in the texts of nodes whose methods do not read them *)
(** the methods of mql.py that read node.text *)
Definition token (r : rule) : bool :=
  match r with
  | Rexpr_op | Rterm_op | Runary_op | Rnumber | Rcondition_op | Rtag_key | Rgroup_by_name
  | Rquoted_string_filter | Runquoted_string_filter | Runquoted_string | Rquoted_string
  | Raggregate_name | Rcurried_aggregate_name | Rarbitrary_function_name
  | Rcurried_arbitrary_function_name | Rquoted_mri | Rlenient_mri | Runquoted_mri
  | Rquoted_public_name | Runquoted_public_name => true
  | _ => false
  end.
Inductive same_node : node rule -> node rule -> Prop :=
| sn o t t' ch ch' : match o with Some r => token r = true -> t = t' | None => True end ->
    same_nodes ch ch' -> same_node (Node o t ch) (Node o t' ch')
with same_nodes : list (node rule) -> list (node rule) -> Prop :=
| sn_nil : same_nodes [] []
| sn_cons x x' l l' : same_node x x' -> same_nodes l l' -> same_nodes (x :: l) (x' :: l').
Scheme same_node_mind := Induction for same_node Sort Prop
  with same_nodes_mind := Induction for same_nodes Sort Prop.
Definition vis_all : list (node rule) -> result (list pv) :=
  fix all (l : list (node rule)) : result (list pv) :=
    match l with
    | [] => Ok []
    | x :: l' => let! v := vis x in let! r := all l' in Ok (v :: r)
    end.
Lemma act_text r t t' cs : token r = false -> act r t cs = act r t' cs.
Proof. destruct r; intros T; try discriminate T; reflexivity. Qed.
Lemma same_vis nd nd' : same_node nd nd' -> vis nd = vis nd'.
Proof.
  intros S. induction S as [o t t' ch ch' T S IH| |x x' l l' S1 IH1 S2 IH2] using same_node_mind
    with (P0 := fun l l' _ => vis_all l = vis_all l').
  - change (vis (Node o t ch)) with (let! cs := vis_all ch in match o with Some r => act r t cs | None => Ok (PList cs) end).
    change (vis (Node o t' ch')) with (let! cs := vis_all ch' in match o with Some r => act r t' cs | None => Ok (PList cs) end).
    rewrite IH. destruct (vis_all ch') as [cs|]; [|reflexivity]. cbn [bind]. destruct o as [r|]; [|reflexivity].
    destruct (token r) eqn:E; [rewrite T by reflexivity; reflexivity|apply act_text, E].
  - reflexivity.
  - cbn [vis_all]. fold vis_all. rewrite IH1, IH2. reflexivity.
Qed.

(** * Expressions of the grammar *)
Inductive bal : bool -> peg rule -> Prop :=
| b_lit b l : Forall solid l -> bal b (PLit l)
| b_re b r : good b r -> bal b (PRe r)
| b_seq b l : Forall (bal b) l -> bal b (PSeq l)
| b_tick b r re : grammar r = PRe re -> avoid 96 re -> bal b (PSeq [PRef Rbacktick; PRef r; PRef Rbacktick])
| b_wild b : bal b (PSeq [PRef Rquote; PRef Runquoted_string; PRef Rwildcard; PRef Rquote])
| b_alt b l : Forall (bal b) l -> bal b (PAlt l)
| b_opt b e : bal b e -> bal b (POpt e)
| b_star b e : bal b e -> bal b (PStar e)
| b_ref b r : plain_rule r = true \/ r = Ropen_paren \/ r = Rclose_paren -> implb b (token r) = true -> bal b (PRef r).
Lemma solid_low c : (33 <= c < 128)%N -> c <> 34%N -> c <> 96%N -> c <> 64%N -> solid c.
Proof. intros C N1 N2 N3. repeat split; [apply space_low; lia|exact N1|exact N2|exact N3]. Qed.
Lemma solid_lit l : forallb (fun c => ((33 <=? c) && (c <? 128) && negb (N.eqb c 34) && negb (N.eqb c 96) && negb (N.eqb c 64))%N) l = true ->
  Forall solid l.
Proof.
  intros H. apply Forall_forall. intros c I. rewrite forallb_forall in H. specialize (H c I).
  rewrite !andb_true_iff, !negb_true_iff, !N.eqb_neq, N.leb_le, N.ltb_lt in H. apply solid_low; tauto.
Qed.
Lemma bal_grammar r : plain_rule r = true \/ r = Ropen_paren \/ r = Rclose_paren -> bal (token r) (grammar r).
Proof.
  pose proof (fun b => good_less b _ good_key). pose proof (fun b => good_less b _ good_name).
  pose proof (fun b => good_less b _ good_digits). pose proof good_ws.
  pose proof (fun b => good_less b _ good_public). pose proof (fun b => good_less b _ good_mri).
  pose proof (fun b => good_less b _ good_quoted). pose proof (fun b => good_less b _ good_unquoted).
  assert (avoid 96 re_public) by (cbn; auto 10). assert (avoid 96 re_lenient_mri) by (cbn; auto 20).
  intros P. destruct r; cbn [plain_rule] in P; try (destruct P as [P|[P|P]]; discriminate P); cbn [grammar token]; clear P.
  all: try (eapply b_tick; [reflexivity|assumption]).
  all: try apply b_wild.
  all: repeat first
    [ assumption | reflexivity | apply b_opt | apply b_star
    | (apply b_ref; [(left; reflexivity) || (right; left; reflexivity) || (right; right; reflexivity)|])
    | (apply b_re; auto; fail) | apply b_alt | apply b_seq
    | (apply b_lit, solid_lit; vm_compute; reflexivity)
    | apply Forall_cons | apply Forall_nil ].
Qed.

(** * Running the grammar on both texts *)
Definition ntext (nd : node rule) : str := match nd with Node _ t _ => t end.
Definition steps (b : bool) (u u' r r' : str) : Prop :=
  exists x x', u = x ++ r /\ u' = x' ++ r' /\ (x = [] <-> x' = []) /\ (b = true -> x = x').
Definition ext (b : bool) (u u' : str) (p p' : pres rule) : Prop :=
  match p, p' with
  | Stuck, Stuck | Fail, Fail => True
  | Done nd r, Done nd' r' => rsp r r' /\ steps b u u' r r' /\ same_node nd nd' /\ (b = true -> ntext nd = ntext nd')
  | _, _ => False
  end.
Definition sext (b : bool) (u u' : str) (p p' : sres rule) : Prop :=
  match p, p' with
  | SStuck, SStuck | SFail, SFail => True
  | SDone ch r, SDone ch' r' => rsp r r' /\ steps b u u' r r' /\ same_nodes ch ch'
  | _, _ => False
  end.
Lemma steps_refl b u u' : steps b u u' u u'.
Proof. exists [], []. repeat split; auto. Qed.
Lemma steps_app b u u' v v' r r' : steps b u u' v v' -> steps b v v' r r' -> steps b u u' r r'.
Proof.
  intros (x & x' & -> & -> & N & E) (y & y' & -> & -> & N' & E'). exists (x ++ y), (x' ++ y').
  rewrite !app_assoc. split; [reflexivity|]. split; [reflexivity|]. split.
  - split; intros K; apply app_eq_nil in K; destruct K as (K1 & K2); rewrite (proj1 N K1) + rewrite (proj2 N K1);
      rewrite (proj1 N' K2) + rewrite (proj2 N' K2); reflexivity.
  - intros B. rewrite E, E' by exact B. reflexivity.
Qed.
Lemma steps_cut b u u' r r' : steps b u u' r r' -> b = true -> cut u r = cut u' r'.
Proof. intros (x & x' & -> & -> & _ & E) B. rewrite !cut_app. apply E, B. Qed.
Lemma steps_less b u u' r r' : steps b u u' r r' ->
  Nat.ltb (List.length r) (List.length u) = Nat.ltb (List.length r') (List.length u').
Proof.
  assert (forall (x r : str), Nat.ltb (List.length r) (List.length (x ++ r)) = match x with [] => false | _ => true end) as K.
  { intros x s. rewrite app_length. destruct x as [|c x]; [apply Nat.ltb_irrefl|]. apply Nat.ltb_lt. cbn. lia. }
  intros (x & x' & -> & -> & N & _). rewrite !K. destruct x, x'; try reflexivity.
  - pose proof (proj1 N eq_refl). discriminate.
  - pose proof (proj2 N eq_refl). discriminate.
Qed.
Notation grun := (run grammar).
Section Step.
Variable n : nat.
Hypothesis IH : forall b e u u', bal b e -> rsp u u' -> ext b u u' (grun n e u) (grun n e u').

Lemma seq_ext b l : Forall (bal b) l -> forall u u', rsp u u' ->
  sext b u u' (run_seq _ (grun n) l u) (run_seq _ (grun n) l u').
Proof.
  induction 1 as [|e l B _ IHl]; intros u u' R.
  - cbn. split; [exact R|]. split; [apply steps_refl|constructor].
  - cbn [run_seq]. fold (run_seq rule (grun n)). pose proof (IH b e u u' B R) as E. unfold ext in E.
    destruct (grun n e u) as [| |nd r], (grun n e u') as [| |nd' r']; try contradiction; try exact I.
    destruct E as (R' & S & N & _). specialize (IHl r r' R'). unfold sext in *.
    destruct (run_seq rule (grun n) l r) as [| |ch v], (run_seq rule (grun n) l r') as [| |ch' v']; try contradiction; try exact I.
    destruct IHl as (R2 & S2 & N2). split; [exact R2|]. split; [eapply steps_app; eassumption|]. constructor; assumption.
Qed.
Lemma alt_ext b l : Forall (bal b) l -> forall u u', rsp u u' ->
  ext b u u' (run_alt _ (grun n) l u) (run_alt _ (grun n) l u').
Proof.
  induction 1 as [|e l B _ IHl]; intros u u' R; [exact I|].
  cbn [run_alt]. fold (run_alt rule (grun n)). pose proof (IH b e u u' B R) as E. unfold ext in E.
  destruct (grun n e u) as [| |nd r], (grun n e u') as [| |nd' r']; try contradiction; try exact I; [|exact E].
  apply IHl, R.
Qed.

Lemma tick_head u u' : rsp u u' ->
  (exists m s s', u = 96%N :: m ++ 96%N :: s /\ u' = 96%N :: m ++ 96%N :: s' /\ ~ In 96%N m /\ rsp s s')
  \/ (forall r, lit1 r 96 u = Fail) /\ (forall r, lit1 r 96 u' = Fail).
Proof.
  assert (forall d (s : str), 96%N <> d -> forall r, lit1 r 96 (d :: s) = Fail) as K.
  { intros d s N r. cbn [lit1]. apply N.eqb_neq in N. rewrite N. reflexivity. }
  intros R. destruct R as [|d s s' D R|y t t' Y E E' R|d s s' D R|w w' s s' W W' N N' A R|b s s' B R|m s s' M I R].
  - right. auto.
  - right. destruct D as (_ & _ & D & _). auto.
  - right. split; apply K; discriminate.
  - right. apply space_chars in D. split; apply K; lia.
  - right. destruct (gap_head w s W N) as (d & r & E & D), (gap_head w' s' W' N') as (d' & r' & E' & D'). rewrite E, E'.
    apply space_chars in D, D'. split; apply K; lia.
  - right. split; apply K; discriminate.
  - left. exists m, s, s'. auto.
Qed.
Lemma tick_ext b r re u u' : grammar r = PRe re -> avoid 96 re -> rsp u u' ->
  sext b u u' (run_seq _ (grun n) [PRef Rbacktick; PRef r; PRef Rbacktick] u)
              (run_seq _ (grun n) [PRef Rbacktick; PRef r; PRef Rbacktick] u').
Proof.
  intros G A R. cbn [run_seq].
  destruct (char_cases Rbacktick 96 n eq_refl) as [S|S]; rewrite !S; [exact I|].
  destruct (tick_head u u' R) as [(m & z & z' & -> & -> & NI & Z)|(F & F')]; [|rewrite F, F'; exact I].
  cbn [lit1]. change (N.eqb 96 96) with true. cbv iota.
  destruct (re_cases r re n G) as [T|T]; rewrite !T; [exact I|].
  rewrite !match_avoid by exact A.
  destruct (re_match re m) as [m'|] eqn:M; cbn [option_map]; [|exact I].
  destruct (match_suffix _ _ _ M) as (y & ->). rewrite !S.
  rewrite <- !app_assoc, !cut_app.
  destruct m' as [|c m'].
  - cbn [app lit1]. change (N.eqb 96 96) with true. cbv iota. unfold sext. split; [exact Z|]. split.
    + exists (96%N :: y ++ [96%N]), (96%N :: y ++ [96%N]). cbn [app]. rewrite <- !app_assoc. repeat split; auto.
    + repeat constructor; intros; reflexivity.
  - cbn [app lit1]. destruct (N.eqb_spec 96 c) as [<-|]; [|exact I].
    exfalso. apply NI, in_or_app. right. left. reflexivity.
Qed.
(** a quoted pattern *)
Lemma scan_span rest k : forall x, List.length x <= k -> forallb unquoted_char x = true ->
  qscan (x ++ 42%N :: DQ :: rest) = Some rest.
Proof.
  induction k as [|k IHk]; intros x L F; (destruct x as [|c x]; [reflexivity|]); [cbn in L; lia|].
  cbn [forallb] in F. apply andb_true_iff in F. destruct F as (C & F).
  destruct (unquoted_not c C) as (_ & _ & N3 & _). apply N.eqb_neq in N3. cbn [app qscan]. rewrite N3. cbn in L.
  destruct (N.eqb c BSL); [|apply IHk; [lia|exact F]].
  destruct x as [|d x]; [reflexivity|]. cbn [forallb] in F. apply andb_true_iff in F. destruct F as (D & F).
  destruct (unquoted_not d D) as (_ & _ & _ & N4 & _). apply N.eqb_neq in N4. cbn [app]. rewrite N4.
  apply IHk; [cbn in L; lia|exact F].
Qed.
Lemma quote_head u u' : rsp u u' ->
  (exists b s s', u = DQ :: b ++ DQ :: s /\ u' = DQ :: b ++ DQ :: s' /\ (forall r, qscan (b ++ DQ :: r) = Some r) /\ rsp s s')
  \/ (forall r, lit1 r DQ u = Fail) /\ (forall r, lit1 r DQ u' = Fail).
Proof.
  assert (forall d (s : str), DQ <> d -> forall r, lit1 r DQ (d :: s) = Fail) as K.
  { intros d s N r. cbn [lit1]. apply N.eqb_neq in N. rewrite N. reflexivity. }
  intros R. destruct R as [|d s s' D R|y t t' Y E E' R|d s s' D R|w w' s s' W W' N N' A R|b s s' B R|m s s' M I R].
  - right. auto.
  - right. destruct D as (_ & D & _). auto.
  - right. split; apply K; discriminate.
  - right. apply space_chars in D. split; apply K; unfold DQ; lia.
  - right. destruct (gap_head w s W N) as (d & r & E & D), (gap_head w' s' W' N') as (d' & r' & E' & D'). rewrite E, E'.
    apply space_chars in D, D'. split; apply K; unfold DQ; lia.
  - left. exists b, s, s'. auto.
  - right. split; apply K; discriminate.
Qed.
(** the part of a quoted text that a word can match, and what is then left of it *)
Lemma word_in b (s : str) : exists x y, b = x ++ y /\ forallb unquoted_char x = true /\ heads unquoted_char (y ++ DQ :: s) = false.
Proof.
  exists (fst (span unquoted_char b)), (snd (span unquoted_char b)). split; [symmetry; apply span_app|].
  split; [apply RegexFacts.span_all|]. pose proof (skip_heads unquoted_char b) as H. unfold skip in H.
  destruct (snd (span unquoted_char b)); [reflexivity|exact H].
Qed.
Lemma wild_ext b u u' : rsp u u' ->
  sext b u u' (run_seq _ (grun n) [PRef Rquote; PRef Runquoted_string; PRef Rwildcard; PRef Rquote] u)
              (run_seq _ (grun n) [PRef Rquote; PRef Runquoted_string; PRef Rwildcard; PRef Rquote] u').
Proof.
  intros R. cbn [run_seq].
  destruct (char_cases Rquote DQ n eq_refl) as [S|S]; rewrite !S; [exact I|].
  destruct (quote_head u u' R) as [(q & z & z' & -> & -> & Q & Z)|(F & F')]; [|rewrite F, F'; exact I].
  cbn [lit1]. change (N.eqb DQ DQ) with true. cbv iota.
  destruct (re_cases Runquoted_string re_unquoted n eq_refl) as [T|T]; rewrite !T; [exact I|].
  destruct (word_in q z) as (x & y & -> & X & H).
  assert (heads unquoted_char (y ++ DQ :: z') = false) as H' by (destruct y; exact H).
  unfold re_unquoted. rewrite <- !app_assoc, !re_plus, !heads_all by assumption. rewrite (skip_all unquoted_char x (y ++ DQ :: z)), (skip_all unquoted_char x (y ++ DQ :: z')) by assumption.
  rewrite (skip_no _ _ H), (skip_no _ _ H').
  destruct x as [|c x]; [exact I|]. rewrite !cut_app.
  destruct (char_cases Rwildcard 42 n eq_refl) as [W|W]; rewrite !W; [exact I|].
  destruct y as [|d y]; [exact I|]. cbn [app lit1]. destruct (N.eqb_spec 42 d) as [<-|ND]; [|exact I].
  rewrite !S. destruct y as [|e y].
  - cbn [app lit1]. change (N.eqb DQ DQ) with true. cbv iota. unfold sext. split; [exact Z|]. split.
    + exists (DQ :: (c :: x) ++ [42%N; DQ]), (DQ :: (c :: x) ++ [42%N; DQ]). cbn [app]. rewrite <- !app_assoc. repeat split; auto; discriminate.
    + repeat constructor; intros; reflexivity.
  - cbn [app lit1]. destruct (N.eqb_spec DQ e) as [<-|NE]; [|exact I]. exfalso.
    specialize (Q z). rewrite <- app_assoc in Q. cbn [app] in Q.
    pose proof (scan_span (y ++ DQ :: z) _ (c :: x) (le_n _) X) as Q'. cbn [app] in Q'. rewrite Q in Q'. inversion Q' as [L].
    apply (f_equal (@List.length N)) in L. rewrite app_length in L. cbn in L. lia.
Qed.
End Step.

Theorem run_ext n : forall b e u u', bal b e -> rsp u u' -> ext b u u' (grun n e u) (grun n e u').
Proof.
  induction n as [|n IH]; intros b e u u' B R; [exact I|].
  change (grun (S n) e u) with (step rule grammar (grun n) e u).
  change (grun (S n) e u') with (step rule grammar (grun n) e u').
  assert (forall l, sext b u u' (run_seq rule (grun n) l u) (run_seq rule (grun n) l u') ->
    ext b u u' (step rule grammar (grun n) (PSeq l) u) (step rule grammar (grun n) (PSeq l) u')) as SQ.
  { intros l S. unfold step. unfold sext in S.
    destruct (run_seq rule (grun n) l u) as [| |ch r], (run_seq rule (grun n) l u') as [| |ch' r']; try contradiction; try exact I.
    destruct S as (R' & S & N). cbn [ext]. split; [exact R'|]. split; [exact S|]. split; [constructor; [exact I|exact N]|].
    apply steps_cut, S. }
  destruct B as [b l F|b r Gr|b l S|b r re G A|b|b l F|b e B|b e B|b r P T].
  - unfold step. destruct (lit_split l F u u' R) as [(s & s' & -> & -> & R')|(N & N')]; [|rewrite N, N'; exact I].
    assert (forall s, prefixb l (l ++ s) = true) as K by (intros s0; apply prefixb_iff; eauto). rewrite !K.
    rewrite !skipn_app, !skipn_all, !Nat.sub_diag. cbn [skipn app ext]. split; [exact R'|].
    split; [exists l, l; auto; repeat split; auto|]. split; [|reflexivity]. constructor; [exact I|constructor].
  - unfold step. specialize (Gr u u' R). destruct (re_match r u) as [v|], (re_match r u') as [v'|]; try contradiction; try exact I.
    destruct Gr as (V & S). cbn [ext]. split; [exact V|]. split; [exact S|]. split; [constructor; [exact I|constructor]|].
    apply steps_cut, S.
  - apply SQ, seq_ext; assumption.
  - apply SQ. eapply tick_ext; eassumption.
  - apply SQ. apply wild_ext; assumption.
  - unfold step. pose proof (alt_ext n IH b l F u u' R) as E. unfold ext in E.
    destruct (run_alt rule (grun n) l u) as [| |nd r], (run_alt rule (grun n) l u') as [| |nd' r']; try contradiction; try exact I.
    destruct E as (R' & S & N & _). cbn [ext]. split; [exact R'|]. split; [exact S|].
    split; [constructor; [exact I|constructor; [exact N|constructor]]|]. apply steps_cut, S.
  - unfold step. pose proof (IH b e u u' B R) as E. unfold ext in E.
    destruct (grun n e u) as [| |nd r], (grun n e u') as [| |nd' r']; try contradiction; try exact I.
    + cbn [ext]. split; [exact R|]. split; [apply steps_refl|]. split; [constructor; [exact I|constructor]|reflexivity].
    + destruct E as (R' & S & N & _). cbn [ext]. split; [exact R'|]. split; [exact S|].
      split; [constructor; [exact I|constructor; [exact N|constructor]]|]. apply steps_cut, S.
  - unfold step. pose proof (IH b e u u' B R) as E. unfold ext in E.
    destruct (grun n e u) as [| |nd r], (grun n e u') as [| |nd' r']; try contradiction; try exact I.
    + cbn [ext]. split; [exact R|]. split; [apply steps_refl|]. split; [constructor; [exact I|constructor]|reflexivity].
    + destruct E as (R' & S & N & _). rewrite (steps_less _ _ _ _ _ S).
      destruct (Nat.ltb (List.length r') (List.length u')).
      * pose proof (IH b (PStar e) r r' (b_star b e B) R') as E2. unfold ext in E2.
        destruct (grun n (PStar e) r) as [| |[x1 t1 ch1] r2], (grun n (PStar e) r') as [| |[x1' t1' ch1'] r2']; try contradiction; try exact I.
        destruct E2 as (R2 & S2 & N2 & _). cbn [ext]. split; [exact R2|].
        assert (steps b u u' r2 r2') as S3 by (eapply steps_app; eassumption).
        split; [exact S3|]. split; [|apply steps_cut, S3].
        constructor; [exact I|]. constructor; [exact N|]. inversion N2; assumption.
      * cbn [ext]. split; [exact R|]. split; [apply steps_refl|]. split; [constructor; [exact I|constructor]|reflexivity].
  - unfold step. pose proof (IH (token r) (grammar r) u u' (bal_grammar r P) R) as E. unfold ext in E.
    destruct (grun n (grammar r) u) as [| |[x1 t1 ch1] r2], (grun n (grammar r) u') as [| |[x1' t1' ch1'] r2']; try contradiction; try exact I.
    destruct E as (R2 & (x & x' & E1 & E2 & E3 & E4) & N2 & X). cbn [ext ntext] in *. split; [exact R2|].
    assert (b = true -> token r = true) as BT by (intros ->; exact T).
    split; [exists x, x'; split; [exact E1|split; [exact E2|split; [exact E3|auto]]]|]. split; [|auto]. constructor; [exact X|]. inversion N2; assumption.
Qed.

(** the whole reading *)
Definition parse_text (text : str) : result mval :=
  match grun (parse_depth text) (PRef Rexpression) text with
  | Done nd [] =>
      let! r := vis nd in
      match r with
      | PVal (VTS t) => Ok (VTS t)
      | PVal (VFormula n pk ps a f g) => Ok (VFormula n pk ps a f g)
      | _ => Raise AssertionError
      end
  | _ => Raise InvalidMQLQueryError
  end.
Lemma rsp_nil_iff r r' : rsp r r' -> (r = [] <-> r' = []).
Proof.
  intros R. destruct R as [|d s s' D R|y t t' Y E E' R|d s s' D R|w w' s s' W W' N N' A R|b s s' B R|m s s' M I R]; try tauto; try (split; discriminate).
  destruct w, w'; try congruence. split; discriminate.
Qed.
Theorem parse_rsp u u' : rsp u u' -> parse_text u = parse_text u'.
Proof.
  intros R.
  assert (exists n, grun n (PRef Rexpression) u = grun (parse_depth u) (PRef Rexpression) u
                 /\ grun n (PRef Rexpression) u' = grun (parse_depth u') (PRef Rexpression) u') as (n & E & E').
  { pose proof (proj2 (parse_depth_exact u _) eq_refl) as (G & _). pose proof (proj2 (parse_depth_exact u' _) eq_refl) as (G' & _).
    exists (Nat.max (parse_depth u) (parse_depth u')). split; apply run_le; try assumption; lia. }
  assert (bal false (PRef Rexpression)) as B by (apply b_ref; [left; reflexivity|reflexivity]).
  pose proof (run_ext n false (PRef Rexpression) u u' B R) as Y. unfold parse_text. rewrite <- E, <- E'.
  unfold ext in Y. destruct (grun n (PRef Rexpression) u) as [| |nd r], (grun n (PRef Rexpression) u') as [| |nd' r']; try contradiction; try reflexivity.
  destruct Y as (R' & _ & N & _). apply rsp_nil_iff in R'. destruct r, r'; try reflexivity.
  - rewrite (same_vis _ _ N). reflexivity.
  - pose proof (proj1 R' eq_refl) as K. discriminate K.
  - pose proof (proj2 R' eq_refl) as K. discriminate K.
Qed.

(** * From the specification *)
Lemma bracket_iff c : (bracket c \/ c = 34%N \/ c = 96%N) <-> mri_char c = false.
Proof.
  unfold bracket, mri_char, DQ. rewrite negb_false_iff, orb_true_iff, N.eqb_eq, one_of_iff. cbn. intuition.
Qed.
Lemma stretch_mris x : stretch x <-> mris x.
Proof.
  unfold stretch, mris. rewrite !Forall_forall. split; intros H c I; specialize (H c I).
  - destruct (mri_char c) eqn:E; [reflexivity|]. apply bracket_iff in E. tauto.
  - assert (~ (bracket c \/ c = 34%N \/ c = 96%N)) as K by (rewrite bracket_iff; congruence). tauto.
Qed.
Lemma words_rsp x y : same_words x y -> forall t t', mris x -> ends t -> ends t' -> rsp t t' -> ~ In 64%N x ->
  rsp (x ++ t) (y ++ t').
Proof.
  induction 1 as [|c x y C S IH|w w' x y W W' N N' S IH]; intros t t' M E E' R A.
  - exact R.
  - inversion M; subst. cbn [app In] in *. apply z_char; [|apply IH; auto].
    apply mri_solid; [assumption| |auto]. destruct (mql_space c) eqn:K; [|reflexivity]. exfalso. apply C, mql_space_iff, K.
  - rewrite in_app_iff in A. apply Forall_app in M as (_ & M). rewrite <- !app_assoc.
    apply z_gap; try assumption; try (apply blank_space; assumption); [|apply IH; auto].
    intros z r Ez Mz I.
    assert (forall x z : str, mris x -> mris z -> ends t -> forall r, x ++ t = z ++ r -> In 64%N z -> In 64%N x) as K.
    { clear. induction x as [|c x IH]; intros z X Z T r Eq I.
      - destruct z as [|d z]; [destruct I|]. cbn in Eq. subst t. unfold ends in T. cbn in T. inversion Z; congruence.
      - destruct z as [|d z]; [destruct I|]. cbn in Eq. inversion Eq; subst. inversion X; inversion Z; subst.
        destruct I as [->|I]; [left; reflexivity|right]. eapply IH; eassumption. }
    apply A. right. eapply K; eassumption.
Qed.
Lemma stretch_rsp x y t t' : (same_words x y /\ (In 64%N x -> x = y)) -> stretch x -> ends t -> ends t' -> rsp t t' ->
  rsp (x ++ t) (y ++ t').
Proof.
  intros (S & A) X E E' R. apply stretch_mris in X. destruct (in_dec N.eq_dec 64%N x) as [I|I].
  - rewrite <- A by exact I. apply rsp_same; assumption.
  - apply words_rsp; assumption.
Qed.
Lemma bracket_solid c : bracket c -> solid c.
Proof. unfold bracket. cbn. intros H. apply solid_low; lia. Qed.
Lemma pattern_forallb m : Forall pattern_char m -> forallb unquoted_char m = true.
Proof.
  intros H. apply forallb_forall. intros c I. rewrite Forall_forall in H. specialize (H c I). apply pattern_unquoted, H.
Qed.
Theorem alike_rsp s t : reformatted_around_mris s t -> rsp s t.
Proof.
  unfold reformatted_around_mris.
  induction 1 as [x y X Y S|x y c s t X Y S C _ IH|x y q v s t X Y S Q _ IH|x y m s t X Y S M I _ IH].
  - rewrite <- (app_nil_r x), <- (app_nil_r y). apply stretch_rsp; try assumption; try reflexivity. constructor.
  - assert (mri_char c = false) as E by (apply bracket_iff; auto).
    apply stretch_rsp; try assumption. apply z_char; [apply bracket_solid, C|exact IH].
  - destruct Q as (b & -> & B). apply stretch_rsp; try assumption; try reflexivity. cbn [app]. rewrite <- !app_assoc.
    apply z_quoted; [intros r; eapply body_scan, B|exact IH].
  - apply stretch_rsp; try assumption; try reflexivity. apply z_ticks; [apply pattern_forallb, M|exact I|exact IH].
Qed.

(** * str.strip() *)
Lemma words_app x y x' y' : same_words x y -> same_words x' y' -> same_words (x ++ x') (y ++ y').
Proof.
  intros S S'. induction S; [exact S'| |]; cbn [app]; [apply sw_char; assumption|].
  rewrite <- !app_assoc. apply sw_gap; assumption.
Qed.
Lemma words_rev x y : same_words x y -> same_words (rev x) (rev y).
Proof.
  induction 1 as [|c x y C S IH|w w' x y W W' N N' S IH]; [constructor| |].
  - cbn [rev]. apply words_app; [exact IH|]. apply sw_char; [exact C|constructor].
  - rewrite !rev_app_distr. apply words_app; [exact IH|]. rewrite <- (app_nil_r (rev w)), <- (app_nil_r (rev w')).
    assert (forall w : str, white w -> white (rev w)) as K by (intros w0; apply Forall_rev).
    assert (forall w : str, w <> [] -> rev w <> []) as K'.
    { intros w0 N0 E. apply N0. rewrite <- (rev_involutive w0), E. reflexivity. }
    apply sw_gap; auto; constructor.
Qed.
Lemma words_lstrip x y : same_words x y -> same_words (lstrip is_space x) (lstrip is_space y).
Proof.
  induction 1 as [|c x y C S IH|w w' x y W W' N N' S IH]; [constructor| |].
  - cbn. destruct (is_space c); [exact IH|]. apply sw_char; assumption.
  - rewrite !lstrip_app by (apply blank_is_space; assumption). exact IH.
Qed.
Lemma words_rstrip x y : same_words x y -> same_words (rstrip is_space x) (rstrip is_space y).
Proof. intros S. unfold rstrip. apply words_rev, words_lstrip, words_rev, S. Qed.
Lemma lstrip_app_mark f x c s : f c = false -> lstrip f (x ++ c :: s) = lstrip f x ++ c :: s.
Proof.
  intros C. induction x as [|d x IH]; cbn; [rewrite C; reflexivity|]. destruct (f d); [exact IH|reflexivity].
Qed.
Lemma rstrip_app_mark f x c s : f c = false -> rstrip f (x ++ c :: s) = x ++ c :: rstrip f s.
Proof.
  intros C. unfold rstrip. rewrite rev_app_distr. cbn [rev]. rewrite <- app_assoc. cbn [app].
  rewrite lstrip_app_mark by exact C. rewrite rev_app_distr. cbn [rev]. rewrite rev_involutive, <- app_assoc. reflexivity.
Qed.
Lemma lstrip_in f x c : In c (lstrip f x) -> In c x.
Proof. induction x as [|d x IH]; [auto|]. cbn. destruct (f d); auto. Qed.
Lemma rstrip_in f x c : In c (rstrip f x) -> In c x.
Proof. unfold rstrip. rewrite <- !in_rev. intros H. apply lstrip_in in H. apply in_rev, H. Qed.
Lemma stretch_lstrip x : stretch x -> stretch (lstrip is_space x).
Proof. unfold stretch. rewrite !Forall_forall. intros H c I. apply H. eapply lstrip_in, I. Qed.
Lemma stretch_rstrip x : stretch x -> stretch (rstrip is_space x).
Proof. unfold stretch. rewrite !Forall_forall. intros H c I. apply H. eapply rstrip_in, I. Qed.
Lemma bracket_not_space c : bracket c -> is_space c = false.
Proof. unfold bracket. cbn. intros H. apply space_of_low. lia. Qed.
Definition stable (same : str -> str -> Prop) : Prop := forall x y, same x y ->
  same (lstrip is_space x) (lstrip is_space y) /\ same (rstrip is_space x) (rstrip is_space y).
Lemma alike_strip same s t : stable same -> alike_by same s t ->
  alike_by same (strip is_space s) (strip is_space t).
Proof.
  intros K A.
  assert (alike_by same (rstrip is_space s) (rstrip is_space t)) as A1.
  { induction A as [x y X Y S|x y c s t X Y S C _ IH|x y q v s t X Y S Q _ IH|x y m s t X Y S M I _ IH].
    - apply al_end; try (apply stretch_rstrip; assumption). apply K, S.
    - rewrite !rstrip_app_mark by (apply bracket_not_space, C). apply al_bracket; assumption.
    - pose proof Q as (b & E & _).
      assert (forall x s : str, x ++ q ++ s = (x ++ 34%N :: b) ++ 34%N :: s) as R.
      { intros x0 s0. rewrite E. cbn [app]. rewrite <- !app_assoc. reflexivity. }
      rewrite !R, !rstrip_app_mark by reflexivity. rewrite <- !R. eapply al_quoted; eassumption.
    - assert (forall x s : str, x ++ $"`" ++ m ++ $"`" ++ s = (x ++ 96%N :: m) ++ 96%N :: s) as R.
      { intros x0 s0. rewrite <- !app_assoc. reflexivity. }
      rewrite !R, !rstrip_app_mark by reflexivity. rewrite <- !R. eapply al_ticks; eassumption. }
  unfold strip. revert A1. generalize (rstrip is_space s) (rstrip is_space t). clear A s t. intros s t A.
  destruct A as [x y X Y S|x y c s t X Y S C A|x y q v s t X Y S Q A|x y m s t X Y S M I A];
    apply stretch_lstrip in X, Y; apply K in S; destruct S as (S & _).
  - apply al_end; assumption.
  - rewrite !lstrip_app_mark by (apply bracket_not_space, C). apply al_bracket; assumption.
  - pose proof Q as (b & E & _).
    assert (forall x s : str, x ++ q ++ s = x ++ 34%N :: (b ++ 34%N :: s)) as R.
    { intros x0 s0. rewrite E. cbn [app]. rewrite <- !app_assoc. reflexivity. }
    rewrite !R, !lstrip_app_mark by reflexivity. rewrite <- !R. eapply al_quoted; eassumption.
  - assert (forall x s : str, x ++ $"`" ++ m ++ $"`" ++ s = x ++ 96%N :: (m ++ 96%N :: s)) as R by reflexivity.
    rewrite !R, !lstrip_app_mark by reflexivity. rewrite <- !R. eapply al_ticks; eassumption.
Qed.
Theorem parse_reformatted s t : reformatted_around_mris s t -> parse_mql s = parse_mql t.
Proof.
  intros A. change (parse_text (strip is_space s) = parse_text (strip is_space t)).
  apply parse_rsp, alike_rsp, alike_strip; [|exact A].
  intros x y (S & E). split; (split; [first [apply words_lstrip, S|apply words_rstrip, S]|]).
  - intros I. rewrite (E (lstrip_in _ _ _ I)). reflexivity.
  - intros I. rewrite (E (rstrip_in _ _ _ I)). reflexivity.
Qed.
End Spaces.
