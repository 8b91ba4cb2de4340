(** Aggregate parameters, and why a call is not read as a call with parameters: no
    parameter list reaches past the first parenthesis (C43-C45). *)
From Verif Require Import PyBase PyFacts Regex RegexFacts Objects Exprs Translate Query Metrics SpecExpr
  ExprFacts ExprProps TextFacts SpecMetrics SpecMql Peg PegTotal Mql MqlParse MqlTokens MqlFilter MqlExpr MqlCall.

Section Params.
Context {RT : PyRT}.

(** * Text up to the first parenthesis or opening brace *)
Definition clean_char (c : N) : Prop := c <> 40%N /\ c <> 41%N /\ c <> 34%N.
Definition clean (u : str) : Prop := Forall clean_char u.
Definition paren (x : N) : Prop := x = 40%N \/ x = 41%N \/ x = 123%N.
Definition left_over (u : str) (x : N) (t : str) (r : str) : Prop :=
  exists p u', u = p ++ u' /\ r = u' ++ x :: t.
Lemma left_refl u x t : left_over u x t (u ++ x :: t).
Proof. exists [], u. auto. Qed.
Lemma left_clean u x t r : clean u -> left_over u x t r -> exists u', clean u' /\ r = u' ++ x :: t
  /\ (forall r', left_over u' x t r' -> left_over u x t r').
Proof.
  intros C (p & u' & -> & ->). exists u'. apply Forall_app in C. destruct C as (_ & C).
  split; [exact C|]. split; [reflexivity|]. intros r' (q & v & -> & ->). exists (p ++ q), v.
  split; [apply app_assoc|reflexivity].
Qed.
Definition re_stays (r : re) : Prop := forall u x t s', clean u -> paren x ->
  mt r (u ++ x :: t) s' -> left_over u x t s'.
Lemma app_split (u p s' : str) x t (f : N -> bool) : u ++ x :: t = p ++ s' -> forallb f p = true -> f x = false ->
  left_over u x t s'.
Proof.
  revert p. induction u as [|c u IH]; intros p E F X.
  - destruct p as [|d p]; cbn in *; subst.
    + exists [], []. auto.
    + inversion E; subst. rewrite X in F. discriminate.
  - destruct p as [|d p]; cbn in *; subst.
    + exists [], (c :: u). auto.
    + inversion E; subst. apply andb_true_iff in F. destruct F as (_ & F).
      destruct (IH p) as (q & v & -> & ->); auto. exists (d :: q), v. auto.
Qed.
Lemma stays_class f : f 40%N = false -> f 41%N = false -> f 123%N = false -> re_stays (RStar (RClass f)).
Proof.
  intros F1 F2 F3 u x t s' _ P M. apply mt_star_class_iff in M. destruct M as (p & E & A).
  eapply app_split; [exact E|exact A|]. destruct P as [-> | [-> | ->]]; assumption.
Qed.
Lemma stays_plus f : f 40%N = false -> f 41%N = false -> f 123%N = false -> re_stays (RPlus (RClass f)).
Proof.
  intros F1 F2 F3 u x t s' _ P M. apply mt_plus_class_iff in M. destruct M as (p & _ & E & A).
  eapply app_split; [exact E|exact A|]. destruct P as [-> | [-> | ->]]; assumption.
Qed.
Lemma stays_quoted : re_stays re_quoted.
Proof.
  intros u x t s' C P M. apply mt_quoted_scan in M. destruct M as (t' & E & _).
  destruct u as [|c u]; cbn in E; inversion E; subst.
  - destruct P as [P|[P|P]]; discriminate.
  - inversion C as [|? ? (_ & _ & D) _]; subst. exfalso. apply D. reflexivity.
Qed.

Inductive safe : peg rule -> Prop :=
| sf_lit l : ~ In 40%N l -> ~ In 41%N l -> ~ In 123%N l -> safe (PLit l)
| sf_re r : re_stays r -> safe (PRe r)
| sf_seq l : Forall safe l -> safe (PSeq l)
| sf_alt l : Forall safe l -> safe (PAlt l)
| sf_opt e : safe e -> safe (POpt e)
| sf_star e : safe e -> safe (PStar e)
| sf_ref r : safe (grammar r) -> safe (PRef r).
Lemma safe_run n : forall e u x t nd r, safe e -> clean u -> paren x ->
  run grammar n e (u ++ x :: t) = Done nd r -> left_over u x t r.
Proof.
  induction n as [|n IH]; intros e u x t nd r HS C P H; [discriminate|].
  change (run grammar (S n) e (u ++ x :: t)) with (step rule grammar (run grammar n) e (u ++ x :: t)) in H.
  destruct HS as [l L1 L2 L3|re K|l F|l F|e HS|e HS|r0 HS]; unfold step in H.
  - destruct (prefixb l (u ++ x :: t)) eqn:E; [|discriminate]. inversion H; subst.
    apply prefixb_iff in E. destruct E as (v & E). rewrite E.
    rewrite skipn_app, skipn_all, Nat.sub_diag. cbn [skipn app].
    eapply app_split with (f := fun c => negb (N.eqb c 40 || (N.eqb c 41 || N.eqb c 123))); [exact E| |].
    + apply forallb_forall. intros c I. apply negb_true_iff. rewrite !orb_false_iff.
      split; [|split]; apply N.eqb_neq; intros ->; contradiction.
    + destruct P as [-> | [-> | ->]]; reflexivity.
  - destruct (re_match re (u ++ x :: t)) as [r1|] eqn:E; [|discriminate]. inversion H; subst.
    apply re_match_mt in E. eapply K; eassumption.
  - destruct (run_seq _ _ l (u ++ x :: t)) as [| |ch r1] eqn:E; try discriminate. inversion H; subst. clear H.
    revert u ch C E. induction F as [|e l HS _ IHl]; intros u ch C E.
    + cbn in E. inversion E; subst. apply left_refl.
    + cbn in E. destruct (run grammar n e (u ++ x :: t)) as [| |nd1 r1] eqn:E1; try discriminate.
      pose proof (IH _ _ _ _ _ _ HS C P E1) as L. apply left_clean in L; [|exact C].
      destruct L as (u' & C' & -> & L). apply L.
      destruct (run_seq rule (run grammar n) l (u' ++ x :: t)) as [| |ch1 r2] eqn:E2; try discriminate.
      inversion E; subst. eapply IHl; [exact C'|exact E2].
  - destruct (run_alt _ _ l (u ++ x :: t)) as [| |nd1 r1] eqn:E; try discriminate. inversion H; subst. clear H.
    induction F as [|e l HS _ IHl]; [discriminate|]. cbn in E.
    destruct (run grammar n e (u ++ x :: t)) as [| |nd2 r2] eqn:E1; try discriminate.
    + apply IHl, E.
    + inversion E; subst. eapply IH; eassumption.
  - destruct (run grammar n e (u ++ x :: t)) as [| |nd1 r1] eqn:E1; try discriminate; inversion H; subst.
    + apply left_refl.
    + eapply IH; eassumption.
  - destruct (run grammar n e (u ++ x :: t)) as [| |nd1 r1] eqn:E1; try discriminate.
    + inversion H; subst. apply left_refl.
    + destruct (Nat.ltb _ _); [|inversion H; subst; apply left_refl].
      pose proof (IH _ _ _ _ _ _ HS C P E1) as L. apply left_clean in L; [|exact C].
      destruct L as (u' & C' & -> & L). apply L.
      destruct (run grammar n (PStar e) (u' ++ x :: t)) as [| |[a b ch] r2] eqn:E2; try discriminate.
      inversion H; subst. eapply IH; [apply sf_star, HS|exact C'|exact P|exact E2].
  - destruct (run grammar n (grammar r0) (u ++ x :: t)) as [| |[a b ch] r2] eqn:E2; try discriminate.
    inversion H; subst. eapply IH; eassumption.
Qed.
Ltac notin := let I := fresh in intros I; cbn in I; decompose [or] I; try discriminate; try contradiction.
Lemma safe_ws : safe (PRef Rws).
Proof. apply sf_ref, sf_re, stays_class; reflexivity. Qed.
Lemma safe_comma : safe (PRef Rcomma).
Proof. apply sf_ref, sf_lit; notin. Qed.
Lemma safe_param_expression : safe (PRef Rparam_expression).
Proof.
  apply sf_ref, sf_alt. constructor; [|constructor; [|constructor; [|constructor]]].
  - apply sf_ref, sf_seq. constructor; [|constructor; [|constructor]].
    + apply sf_re, stays_plus; reflexivity.
    + apply sf_opt, sf_seq. constructor; [apply sf_lit; notin|constructor; [|constructor]].
      apply sf_re, stays_plus; reflexivity.
  - apply sf_ref, sf_re, stays_quoted.
  - apply sf_ref, sf_re, stays_plus; reflexivity.
Qed.
Lemma safe_aggregate_list : safe (PRef Raggregate_list).
Proof.
  apply sf_ref, sf_seq. constructor; [|constructor; [|constructor]].
  - apply sf_star, sf_ref, sf_seq. constructor; [apply safe_param_expression|].
    constructor; [apply safe_ws|constructor; [apply safe_comma|constructor; [apply safe_ws|constructor]]].
  - apply safe_param_expression.
Qed.

(** a call whose first parenthesised part does not end right before an opening
    parenthesis is not a call with parameters *)
Definition params_peg : peg rule :=
  PSeq [PRef Ropen_paren; PRef Rws; POpt (PRef Raggregate_list); PRef Rws; PRef Rclose_paren].
Definition not_params (s : str) : Prop :=
  exists u x t, s = u ++ x :: t /\ clean u /\ (x = 40%N \/ x = 123%N \/ x = 41%N /\ heads (N.eqb 40) t = false).
Lemma clean_heads41 u x t : clean u -> heads (N.eqb 41) (u ++ x :: t) = true -> u = [] /\ x = 41%N.
Proof.
  intros C H. destruct u as [|c u]; cbn [app heads] in H; apply N.eqb_eq in H.
  - auto.
  - inversion C as [|? ? (_ & D & _) _]; subst. exfalso. apply D. reflexivity.
Qed.
Lemma skip_clean u x t : paren x -> clean u -> exists u', clean u' /\ skip mql_space (u ++ x :: t) = u' ++ x :: t.
Proof.
  intros P C. induction u as [|c u IH].
  - exists []. split; [constructor|]. apply skip_none. destruct P as [-> | [-> | ->]]; reflexivity.
  - inversion C as [|? ? Hc C']; subst. cbn [app]. unfold skip in *. cbn [span]. destruct (mql_space c).
    + destruct (IH C') as (u' & Cu & E). exists u'. split; [exact Cu|].
      destruct (span mql_space (u ++ x :: t)); exact E.
    + exists (c :: u). split; [exact C|reflexivity].
Qed.
Lemma f_params s l1 l2 : not_params s ->
  fails_seq (params_peg :: PSeq (PRef Ropen_paren :: l1) :: l2) (40%N :: s).
Proof.
  intros (u & x & t & -> & C & X).
  assert (paren x) as P by (unfold paren; tauto).
  destruct (skip_clean u x t P C) as (u1 & C1 & E1).
  assert (exists nd u2, clean u2 /\ gives grammar (POpt (PRef Raggregate_list)) (u1 ++ x :: t) (Done nd (u2 ++ x :: t)))
    as (nd & u2 & C2 & G).
  { destruct (gives_total (PRef Raggregate_list) (u1 ++ x :: t)) as (r & G); [vm_compute; reflexivity|].
    pose proof G as (NS & n & R). destruct r as [| |nd r]; [congruence| |].
    - eexists; exists u1. split; [exact C1|]. apply gives_opt_none, G.
    - pose proof (safe_run n _ _ _ _ _ _ safe_aggregate_list C1 P R) as L.
      apply left_clean in L; [|exact C1]. destruct L as (u' & C' & -> & _).
      eexists; exists u'. split; [exact C'|]. apply gives_opt, G. }
  destruct (skip_clean u2 x t P C2) as (u3 & C3 & E3).
  destruct (p_chr Ropen_paren 40%N (u ++ x :: t) _ eq_refl eq_refl) as (n1 & G1 & _).
  destruct (p_ws_skip (u ++ x :: t)) as (n2 & G2 & _). rewrite E1 in G2.
  destruct (p_ws_skip (u2 ++ x :: t)) as (n4 & G4 & _). rewrite E3 in G4.
  destruct (heads (N.eqb 41) (u3 ++ x :: t)) eqn:H.
  - apply clean_heads41 in H; [|exact C3]. destruct H as (-> & ->). cbn [app] in *.
    destruct X as [X|[X|(_ & X)]]; try discriminate X.
    destruct (p_chr Rclose_paren 41%N t _ eq_refl eq_refl) as (n5 & G5 & _).
    eapply fs_skip.
    + apply gives_pseq. eapply gs_cons; [exact G1|]. eapply gs_cons; [exact G2|].
      eapply gs_cons; [exact G|]. eapply gs_cons; [exact G4|]. eapply gs_cons; [exact G5|apply gs_nil].
    + apply fs_here, f_seq, fs_here, (f_chr _ 40%N); [reflexivity|exact X].
  - apply fs_here, f_seq. eapply fs_skip; [exact G1|]. eapply fs_skip; [exact G2|].
    eapply fs_skip; [exact G|]. eapply fs_skip; [exact G4|]. apply fs_here, (f_chr _ 41%N); [reflexivity|exact H].
Qed.

(** * Numbers *)
Lemma digits_class t : digits t -> t <> [] /\ forallb is_digit t = true.
Proof.
  intros (N & F). split; [exact N|]. apply forallb_forall. intros c I. apply is_digit_iff.
  rewrite Forall_forall in F. auto.
Qed.
Lemma p_number t rest : number_text t -> heads is_digit rest = false -> heads (N.eqb 46) rest = false ->
  parses (PRef Rnumber) (t ++ rest) (pvc (OFloat (float_of_text t))) rest.
Proof.
  intros H Hd Hp. assert (exists cs, parses (grammar Rnumber) (t ++ rest) (PList cs) rest) as (cs & P).
  { destruct H as [D|(a & b & -> & A & B)].
    - destruct (digits_class t D) as (N & F). eexists. apply p_seq.
      eapply pa_cons; [apply p_plus; [exact N|exact F|exact Hd]|].
      eapply pa_cons; [|apply pa_nil]. apply p_opt_none, f_seq, fs_here, f_lit.
      etransitivity; [apply (prefix1 46%N)|exact Hp].
    - destruct (digits_class a A) as (Na & Fa). destruct (digits_class b B) as (Nb & Fb).
      eexists. rewrite <- !app_assoc. apply p_seq.
      eapply pa_cons; [apply p_plus; [exact Na|exact Fa|reflexivity]|].
      eapply pa_cons; [|apply pa_nil]. apply p_opt, p_seq.
      eapply pa_cons; [apply (p_lit ($"."))|].
      eapply pa_cons; [apply p_plus; [exact Nb|exact Fb|exact Hd]|apply pa_nil]. }
  eapply p_ref; [reflexivity|exact P|]. rewrite cut_app. reflexivity.
Qed.
Lemma number_heads t rest f : number_text t -> exists c, ascii_digit c /\ heads f (t ++ rest) = f c.
Proof.
  intros [(N & F)|(a & b & -> & (N & F) & _)].
  - destruct t as [|c t]; [congruence|]. inversion F; subst. exists c. auto.
  - destruct a as [|c t]; [congruence|]. inversion F; subst. exists c. auto.
Qed.
Lemma f_number s : heads is_digit s = false -> fails (PRef Rnumber) s.
Proof. intros H. apply f_ref, f_seq, fs_here, f_plus, H. Qed.

(** * Parameter lists *)
Definition param_end (rest : str) : Prop := heads unquoted_char rest = false.
Lemma unquoted_low c : ascii_word c \/ c = 46%N \/ c = 45%N -> unquoted_char c = true.
Proof.
  intros H. apply pattern_unquoted. unfold pattern_char.
  assert (33 <= c < 128 /\ c <> 34)%N as (R & D) by (unfold ascii_word, ascii_letter, ascii_digit in H; lia).
  split; [|split; [exact D|split; lia]].
  intros I. unfold ascii_word, ascii_letter, ascii_digit in H. cbn in I. lia.
Qed.
Lemma heads_weaken (f g : N -> bool) s : (forall c, f c = true -> g c = true) -> heads g s = false -> heads f s = false.
Proof. intros K H. destruct s as [|c s]; [reflexivity|]. cbn in *. destruct (f c) eqn:E; [|reflexivity]. rewrite K in H; auto. Qed.
Lemma p_param_expression t p rest : param_text t p -> param_end rest ->
  parses (PRef Rparam_expression) (t ++ rest) (pvc p) rest.
Proof.
  intros H E. eapply p_ref with (cs := [_]); [reflexivity| |].
  - cbn [grammar]. apply p_alt. destruct H as [t T|t s S|c s C D F].
    + apply pl_here, p_number; [exact T| |]; (eapply heads_weaken; [|exact E]); intros c H; apply unquoted_low.
      * apply is_digit_iff in H. left. right. left. exact H.
      * apply N.eqb_eq in H. auto.
    + apply pl_next; [apply f_number; destruct S as (b & -> & _); reflexivity|]. apply pl_here, p_said, S.
    + apply pl_next. { apply f_number. cbn. destruct (is_digit c) eqn:I; [|reflexivity]. apply is_digit_iff in I. contradiction. }
      apply pl_next. { apply f_quoted; [reflexivity|]. cbn [app heads]. apply N.eqb_neq. intros <-. apply pattern_unquoted in C. discriminate. }
      apply pl_here. eapply p_ref; [reflexivity| |].
      * cbn [grammar]. apply (p_plus _ (c :: s)); [discriminate| |exact E].
        apply forallb_forall. intros d [<-|I]; [apply pattern_unquoted, C|]. rewrite Forall_forall in F.
        apply pattern_unquoted, F, I.
      * rewrite cut_app. reflexivity.
  - cbn [act]. destruct H; reflexivity.
Qed.
Lemma param_space t p rest : param_text t p -> heads mql_space (t ++ rest) = false.
Proof.
  intros H. destruct H as [t T|t s S|c s C D F].
  - destruct (number_heads t rest mql_space T) as (c & A & ->). apply space_low. unfold ascii_digit in A. lia.
  - destruct S as (b & -> & _). reflexivity.
  - cbn. apply pattern_unquoted in C. apply unquoted_dq in C. tauto.
Qed.
Lemma params_space s l rest : params_text s l -> heads mql_space (s ++ rest) = false.
Proof. intros H. destruct H; rewrite <- ?app_assoc; eapply param_space; eassumption. Qed.
Lemma space_not_unquoted c : mql_space c = true -> unquoted_char c = false.
Proof. intros H. unfold unquoted_char. rewrite H, !orb_true_r. reflexivity. Qed.
Lemma unquoted_blank c : space_char c -> unquoted_char c = false.
Proof.
  intros H. apply space_not_unquoted. assert (white [c]) as B by (constructor; [exact H|constructor]).
  apply blank_space in B. cbn in B. rewrite andb_true_r in B. exact B.
Qed.
Lemma p_params s l : params_text s l -> forall w rest, white w ->
  exists init t p, l = init ++ [p] /\ param_text t p
  /\ parses_many (PRef Rparam) (s ++ w ++ 41%N :: rest) (map pvc init) (t ++ w ++ 41%N :: rest).
Proof.
  intros H w rest B. induction H as [t p H|t p w1 w2 s l H B1 B2 Hs IH].
  - exists [], t, p. split; [reflexivity|]. split; [exact H|]. apply pm_stop, f_ref, f_seq.
    eapply fs_later. { apply p_param_expression; [exact H|]. apply blank_heads; [exact B|apply unquoted_blank|reflexivity]. }
    eapply fs_later; [apply p_blank; [exact B|reflexivity]|]. apply fs_here, (f_chr _ 44%N); reflexivity.
  - destruct IH as (init & t' & p' & -> & H' & P). exists (p :: init), t', p'.
    split; [reflexivity|]. split; [exact H'|]. rewrite <- !app_assoc. cbn [map].
    eapply pm_next; [| |exact P].
    + eapply p_ref; [reflexivity| |].
      * cbn [grammar]. apply p_seq.
        eapply pa_cons. { apply p_param_expression; [exact H|]. apply blank_heads; [exact B1|apply unquoted_blank|reflexivity]. }
        eapply pa_cons; [apply p_blank; [exact B1|reflexivity]|].
        eapply pa_cons; [apply (p_chr Rcomma 44%N); reflexivity|].
        eapply pa_cons; [apply p_blank; [exact B2|eapply params_space, Hs]|apply pa_nil].
      * cbn [act]. destruct H; reflexivity.
    + rewrite !app_length. cbn. lia.
Qed.
Lemma p_aggregate_list s l w rest : params_text s l -> white w ->
  parses (PRef Raggregate_list) (s ++ w ++ 41%N :: rest) (PList (map pvc l)) (w ++ 41%N :: rest).
Proof.
  intros H B. destruct (p_params s l H w rest B) as (init & t & p & -> & T & P).
  eapply p_ref; [reflexivity| |].
  - cbn [grammar]. apply p_seq. eapply pa_cons; [apply p_star, P|].
    eapply pa_cons; [|apply pa_nil]. apply p_param_expression; [exact T|].
    apply blank_heads; [exact B|apply unquoted_blank|reflexivity].
  - cbn [act]. rewrite map_app. reflexivity.
Qed.
Lemma f_aggregate_list_close s : fails (PRef Raggregate_list) (41%N :: s).
Proof.
  assert (fails (PRef Rparam_expression) (41%N :: s)) as F.
  { apply f_ref, f_alt. constructor; [apply f_number; reflexivity|].
    constructor; [apply f_quoted; reflexivity|]. constructor; [|constructor].
    apply f_ref, f_plus. reflexivity. }
  apply f_ref, f_seq. eapply fs_later; [apply p_star, pm_stop, f_ref, f_seq, fs_here, F|]. apply fs_here, F.
Qed.
Lemma p_params_group s l w1 w2 rest : opt_params_text s l -> white w1 -> white w2 ->
  exists cs, parses params_peg (40%N :: w1 ++ s ++ w2 ++ 41%N :: rest) (PList cs) rest
  /\ agg_params_of cs = Ok (OList l).
Proof.
  intros [(-> & ->)|H] B1 B2.
  - eexists. split.
    + apply p_seq. eapply pa_cons; [apply (p_chr Ropen_paren 40%N); reflexivity|].
      eapply pa_cons. { cbn [app]. rewrite app_assoc. apply p_blank; [apply Forall_app; auto|reflexivity]. }
      eapply pa_cons; [apply p_opt_none, f_aggregate_list_close|].
      eapply pa_cons; [apply p_ws0; reflexivity|].
      eapply pa_cons; [apply (p_chr Rclose_paren 41%N); reflexivity|apply pa_nil].
    + reflexivity.
  - eexists. split.
    + apply p_seq. eapply pa_cons; [apply (p_chr Ropen_paren 40%N); reflexivity|].
      eapply pa_cons. { apply p_blank; [exact B1|eapply params_space, H]. }
      eapply pa_cons; [apply p_opt, p_aggregate_list; [exact H|exact B2]|].
      eapply pa_cons; [apply p_blank; [exact B2|reflexivity]|].
      eapply pa_cons; [apply (p_chr Rclose_paren 41%N); reflexivity|apply pa_nil].
    + cbn. rewrite mapM_as_obj. reflexivity.
Qed.
Lemma params_literal s l : opt_params_text s l -> forallb is_literal l = true.
Proof.
  intros [(_ & ->)|H]; [reflexivity|]. induction H as [t p H|t p w1 w2 s l H B1 B2 Hs IH]; cbn; destruct H; auto.
Qed.
End Params.
