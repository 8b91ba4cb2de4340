(** Rules for parsing and visiting MQL text: [parses e s v rest] says that expression [e]
    of the grammar matches at the start of [s], leaves [rest], and that visiting the node
    gives [v]. *)
From Verif Require Import PyBase PyFacts Regex RegexFacts Objects Exprs Translate Query Metrics
  Peg PegTotal Mql.

Section Parse.
Context {RT : PyRT}.
Notation gv := (gives grammar).

Definition fails (e : peg rule) (s : str) : Prop := gv e s Fail.
Definition parses (e : peg rule) (s : str) (v : pv) (rest : str) : Prop :=
  exists nd, gv e s (Done nd rest) /\ vis nd = Ok v.
Inductive parses_all : list (peg rule) -> str -> list pv -> str -> Prop :=
| pa_nil s : parses_all [] s [] s
| pa_cons e l s v s1 vs rest : parses e s v s1 -> parses_all l s1 vs rest ->
    parses_all (e :: l) s (v :: vs) rest.
Inductive parses_many (e : peg rule) : str -> list pv -> str -> Prop :=
| pm_stop s : fails e s -> parses_many e s [] s
| pm_next s v s1 vs rest : parses e s v s1 -> List.length s1 < List.length s ->
    parses_many e s1 vs rest -> parses_many e s (v :: vs) rest.

(** * Nodes *)
Definition vis_all := fix all (l : list (node rule)) : result (list pv) :=
    match l with
    | [] => Ok []
    | x :: l' => let! v := vis x in let! r := all l' in Ok (v :: r)
    end.
Lemma vis_node name text ch : vis (Node name text ch) =
  let! cs := vis_all ch in
  match name with Some r => act r text cs | None => Ok (PList cs) end.
Proof. reflexivity. Qed.

Lemma cut_app t rest : cut (t ++ rest) rest = t.
Proof.
  unfold cut. rewrite app_length. replace (List.length t + List.length rest - List.length rest)
    with (List.length t) by lia. rewrite firstn_app, Nat.sub_diag, firstn_all. apply app_nil_r.
Qed.
Lemma cut_eq s t rest : s = t ++ rest -> cut s rest = t.
Proof. intros ->. apply cut_app. Qed.
Lemma cut_same s : cut s s = [].
Proof. exact (cut_app [] s). Qed.

Definition not_ref (e : peg rule) : bool := match e with PRef _ => false | _ => true end.
Lemma run_node n e s x t ch rest : run grammar n e s = Done (Node x t ch) rest ->
  t = cut s rest /\ (not_ref e = true -> x = None).
Proof.
  revert e s x t ch rest. induction n as [|n IH]; intros e s x t ch rest H; [discriminate|].
  change (run grammar (S n) e s) with (step rule grammar (run grammar n) e s) in H.
  destruct e as [l|r|l|l|e|e|r]; unfold step in H.
  - destruct (prefixb l s) eqn:P; [|discriminate]. inversion H; subst. split; [|reflexivity].
    apply prefixb_iff in P. destruct P as (u & ->). symmetry. apply cut_eq.
    rewrite skipn_app, skipn_all, Nat.sub_diag. reflexivity.
  - destruct (re_match r s); [|discriminate]. inversion H; subst. auto.
  - destruct (run_seq _ _ l s); try discriminate. inversion H; subst. auto.
  - destruct (run_alt _ _ l s); try discriminate. inversion H; subst. auto.
  - destruct (run grammar n e s); try discriminate; inversion H; subst; auto.
    rewrite cut_same. auto.
  - destruct (run grammar n e s) as [| |nd r1]; try discriminate.
    + inversion H; subst. rewrite cut_same. auto.
    + destruct (Nat.ltb _ _).
      * destruct (run grammar n (PStar e) r1) as [| |[x' t' ch'] r2]; try discriminate.
        inversion H; subst. auto.
      * inversion H; subst. rewrite cut_same. auto.
  - destruct (run grammar n (grammar r) s) as [| |[x' t' ch'] r2] eqn:E; try discriminate.
    inversion H; subst. split; [|discriminate]. apply IH in E. apply E.
Qed.

Lemma gives_total e s : bounded rule rule_nonnull rule_rank max_rank e = true ->
  exists r, gv e s r.
Proof.
  intros B. eexists. split; [|eexists; reflexivity].
  apply run_total with (nn := rule_nonnull) (rk := rule_rank) (M := max_rank);
    [exact grammar_ok|exact B|apply Nat.le_refl].
Qed.

(** * Rules *)
Lemma p_lit t s : parses (PLit t) (t ++ s) (PList []) s.
Proof. eexists. split; [apply gives_lit|reflexivity]. Qed.
Lemma f_lit t s : prefixb t s = false -> fails (PLit t) s.
Proof. apply gives_lit_fail. Qed.
Lemma p_re r s rest : re_match r s = Some rest -> parses (PRe r) s (PList []) rest.
Proof. intros H. eexists. split; [apply gives_re, H|reflexivity]. Qed.
Lemma f_re r s : re_match r s = None -> fails (PRe r) s.
Proof. apply gives_re_fail. Qed.

Lemma parses_all_seq l s vs rest : parses_all l s vs rest ->
  exists ch, gives_seq grammar l s (SDone ch rest) /\ vis_all ch = Ok vs.
Proof.
  induction 1 as [s|e l s v s1 vs rest (nd & G & V) _ (ch & IH & E)].
  - exists []. split; [constructor|reflexivity].
  - exists (nd :: ch). split; [econstructor; eassumption|]. cbn. rewrite V. cbn. fold vis_all.
    change ((fix all (l : list (node rule)) : result (list pv) :=
    match l with
    | [] => Ok []
    | x :: l' => let! v := vis x in let! r := all l' in Ok (v :: r)
    end) ch) with (vis_all ch). rewrite E. reflexivity.
Qed.
Lemma p_seq l s vs rest : parses_all l s vs rest -> parses (PSeq l) s (PList vs) rest.
Proof.
  intros H. destruct (parses_all_seq _ _ _ _ H) as (ch & G & V).
  eexists. split; [apply gives_pseq, G|]. rewrite vis_node, V. reflexivity.
Qed.

(** a sequence fails when a prefix of it matches and the next item fails *)
Inductive fails_seq : list (peg rule) -> str -> Prop :=
| fs_here e l s : fails e s -> fails_seq (e :: l) s
| fs_later e l s v s1 : parses e s v s1 -> fails_seq l s1 -> fails_seq (e :: l) s
| fs_skip e l s nd s1 : gv e s (Done nd s1) -> fails_seq l s1 -> fails_seq (e :: l) s.
Lemma f_seq l s : fails_seq l s -> fails (PSeq l) s.
Proof.
  intros H. apply gives_pseq_fail. induction H as [e l s H|e l s v s1 (nd & G & _) _ IH|e l s nd s1 G _ IH].
  - apply gs_fail, H.
  - eapply gs_later; eassumption.
  - eapply gs_later; eassumption.
Qed.

Inductive parses_alt : list (peg rule) -> str -> pv -> str -> Prop :=
| pl_here e l s v rest : parses e s v rest -> parses_alt (e :: l) s v rest
| pl_next e l s v rest : fails e s -> parses_alt l s v rest -> parses_alt (e :: l) s v rest.
Lemma p_alt l s v rest : parses_alt l s v rest -> parses (PAlt l) s (PList [v]) rest.
Proof.
  intros H. assert (exists nd, gives_alt grammar l s (Done nd rest) /\ vis nd = Ok v) as (nd & G & V).
  { induction H as [e l s v rest (nd & G & V)|e l s v rest F _ (nd & G & V)].
    - exists nd. split; [apply ga_here, G|exact V].
    - exists nd. split; [apply ga_next; assumption|exact V]. }
  eexists. split; [apply gives_palt, G|]. rewrite vis_node. cbn. rewrite V. reflexivity.
Qed.
Lemma f_alt l s : Forall (fun e => fails e s) l -> fails (PAlt l) s.
Proof.
  intros H. apply gives_palt_fail. induction H as [|e l H _ IH]; [constructor|].
  apply ga_next; assumption.
Qed.

Lemma p_opt e s v rest : parses e s v rest -> parses (POpt e) s (PList [v]) rest.
Proof.
  intros (nd & G & V). eexists. split; [apply gives_opt, G|]. rewrite vis_node. cbn. rewrite V. reflexivity.
Qed.
Lemma p_opt_none e s : fails e s -> parses (POpt e) s (PList []) s.
Proof. intros H. eexists. split; [apply gives_opt_none, H|reflexivity]. Qed.

Lemma p_star e s vs rest : parses_many e s vs rest -> parses (PStar e) s (PList vs) rest.
Proof.
  intros H. assert (exists x t ch, gv (PStar e) s (Done (Node x t ch) rest) /\ x = None
                      /\ vis_all ch = Ok vs) as (x & t & ch & G & -> & V).
  { induction H as [s F|s v s1 vs rest (nd & G & V) L _ (x & t & ch & G' & -> & V')].
    - do 3 eexists. split; [apply gives_star_stop, F|]. auto.
    - do 3 eexists. split; [eapply gives_star_next; eassumption|]. split; [reflexivity|].
      cbn. rewrite V. cbn.
      change ((fix all (l : list (node rule)) : result (list pv) :=
    match l with
    | [] => Ok []
    | x :: l' => let! v := vis x in let! r := all l' in Ok (v :: r)
    end) ch) with (vis_all ch). rewrite V'. reflexivity. }
  eexists. split; [exact G|]. rewrite vis_node, V. reflexivity.
Qed.

Lemma p_ref r s cs rest v : not_ref (grammar r) = true ->
  parses (grammar r) s (PList cs) rest -> act r (cut s rest) cs = Ok v ->
  parses (PRef r) s v rest.
Proof.
  intros N ([x t ch] & G & V) A. eexists. split; [eapply gives_ref, G|].
  destruct G as (_ & n & E). apply run_node in E. destruct E as (-> & Hx). rewrite (Hx N) in V.
  rewrite vis_node in V |- *. destruct (vis_all ch) as [cs'|]; [|discriminate]. cbn in V |- *.
  inversion V; subst. exact A.
Qed.
Lemma f_ref r s : fails (grammar r) s -> fails (PRef r) s.
Proof. apply gives_ref_fail. Qed.

Lemma parses_fun e s v r v' r' : parses e s v r -> parses e s v' r' -> v = v' /\ r = r'.
Proof.
  intros (n & G & V) (n' & G' & V'). pose proof (gives_fun _ _ _ _ _ _ G G') as E.
  inversion E; subst. split; congruence.
Qed.

(** * parse_mql *)
Lemma parse_mql_ok text v : strip is_space text = text ->
  parses (PRef Rexpression) text (PVal v) [] ->
  match v with VTS _ | VFormula _ _ _ _ _ _ => True | _ => False end ->
  parse_mql text = Ok v.
Proof.
  intros S (nd & G & V) Q. unfold parse_mql. rewrite S.
  apply parse_depth_exact in G. rewrite G, V. cbn. destruct v; try contradiction; reflexivity.
Qed.

(** * Regular expressions over one class *)
Definition skip (f : N -> bool) (s : str) : str := snd (span f s).
Definition heads (f : N -> bool) (s : str) : bool :=
  match s with c :: _ => f c | [] => false end.

Lemma re_plus f s : re_match (RPlus (RClass f)) s
  = if heads f s then Some (skip f s) else None.
Proof.
  destruct s as [|c s]; [reflexivity|]. unfold heads. destruct (f c) eqn:E.
  - unfold re_match. apply mtch_plus_class; [exact E|]. unfold skip. cbn. rewrite E.
    destruct (span f s); reflexivity.
  - unfold re_match. cbn. rewrite E. reflexivity.
Qed.
Lemma re_star f s : re_match (RStar (RClass f)) s = Some (skip f s).
Proof. apply mtch_star_class. reflexivity. Qed.
Lemma skip_app f t s : forallb f t = true -> skip f (t ++ s) = skip f s.
Proof.
  intros H. induction t as [|c t IH]; [reflexivity|]. cbn in H. apply andb_true_iff in H.
  destruct H as (Hc & Ht). unfold skip in *. cbn. rewrite Hc. destruct (span f (t ++ s)); cbn in *. auto.
Qed.
Lemma skip_none f s : heads f s = false -> skip f s = s.
Proof. destruct s as [|c s]; [reflexivity|]. cbn. unfold skip. cbn. intros ->. reflexivity. Qed.
Lemma skip_stop f t s : forallb f t = true -> heads f s = false -> skip f (t ++ s) = s.
Proof. intros H1 H2. rewrite skip_app by exact H1. apply skip_none, H2. Qed.

Lemma p_plus f t s : t <> [] -> forallb f t = true -> heads f s = false ->
  parses (PRe (RPlus (RClass f))) (t ++ s) (PList []) s.
Proof.
  intros N A H. apply p_re. rewrite re_plus.
  destruct t as [|c t]; [congruence|]. cbn [app heads]. cbn in A. apply andb_true_iff in A.
  destruct A as (A & B). rewrite A. f_equal. apply (skip_stop f (c :: t) s); [|exact H].
  cbn. rewrite A. exact B.
Qed.
Lemma f_plus f s : heads f s = false -> fails (PRe (RPlus (RClass f))) s.
Proof. intros H. apply f_re. rewrite re_plus, H. reflexivity. Qed.

(** white space *)
Lemma p_ws w s : forallb mql_space w = true -> heads mql_space s = false ->
  parses (PRef Rws) (w ++ s) (PList []) s.
Proof.
  intros H1 H2. eapply p_ref; [reflexivity| |reflexivity]. apply p_re.
  unfold re_ws. rewrite re_star, skip_stop by assumption. reflexivity.
Qed.
Lemma p_ws0 s : heads mql_space s = false -> parses (PRef Rws) s (PList []) s.
Proof. apply (p_ws []). reflexivity. Qed.
Lemma p_ws1 s : heads mql_space s = false -> parses (PRef Rws) (32%N :: s) (PList []) s.
Proof. apply (p_ws [32%N]). reflexivity. Qed.
(** white space in front of anything *)
Lemma p_ws_skip s : parses (PRef Rws) s (PList []) (skip mql_space s).
Proof.
  eapply p_ref; [reflexivity| |reflexivity]. apply p_re. unfold re_ws. apply re_star.
Qed.
Lemma skip_heads f s : heads f (skip f s) = false.
Proof.
  induction s as [|c s IH]; [reflexivity|]. unfold skip in *. cbn. destruct (f c) eqn:E.
  - destruct (span f s); cbn in *. exact IH.
  - cbn. exact E.
Qed.
End Parse.
