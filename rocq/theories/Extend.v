(** Reading MQL text in front of a closing parenthesis (C82): what the grammar does on a text
    whose quotes and backticks are closed does not depend on what follows the parenthesis. *)
From Verif Require Import PyBase PyFacts Regex RegexFacts Objects Exprs Translate Query Metrics
  Peg PegTotal Mql MqlParse MqlTokens MqlExpr.

(** * Regular expressions that cannot match a character *)
Fixpoint avoid (c : N) (r : re) : Prop :=
  match r with
  | RClass f => f c = false
  | REps => True
  | RSeq a b => avoid c a /\ avoid c b
  | RAlt a b => avoid c a /\ avoid c b
  | RStar a => avoid c a
  | REnd => False
  end.
Lemma mtch_avoid c z g r : avoid c r -> forall s k k',
  (forall m, k (m ++ c :: z) = option_map g (k' m)) ->
  mtch r (s ++ c :: z) k = option_map g (mtch r s k').
Proof.
  induction r as [f| |a IHa b IHb|a IHa b IHb|a IHa|]; intros A s k k' H.
  - cbn in A. destruct s as [|d s]; cbn; [rewrite A; reflexivity|].
    destruct (f d); [apply H|reflexivity].
  - cbn. apply H.
  - destruct A as (A & B). cbn [mtch]. apply (IHa A). intros m. apply (IHb B). exact H.
  - destruct A as (A & B). cbn [mtch]. rewrite (IHa A s k k' H), (IHb B s k k' H).
    destruct (mtch a s k'); reflexivity.
  - cbn in A. rewrite !mtch_star.
    assert (forall n n' s, List.length (s ++ c :: z) <= n -> List.length s <= n' ->
              star_loop a k n (s ++ c :: z) = option_map g (star_loop a k' n' s)) as L; [|apply L; lia].
    clear s. induction n as [|n IH]; intros n' s Hn Hn'; [rewrite app_length in Hn; cbn in Hn; lia|].
    rewrite star_loop_S. destruct n' as [|n'].
    + destruct s as [|d s]; [|cbn in Hn'; lia].
      assert (mtch a [] (fun _ : list N => None) = None) as E by (apply mtch_none; reflexivity).
      rewrite (IHa A [] _ (fun _ => None)).
      * rewrite E. cbn [option_map star_loop]. apply (H []).
      * intros m. replace (Nat.ltb _ _) with false; [reflexivity|]. symmetry. apply Nat.ltb_ge.
        rewrite !app_length. lia.
    + rewrite star_loop_S.
      rewrite (IHa A s _ (fun s' => if Nat.ltb (List.length s') (List.length s) then star_loop a k' n' s' else None)).
      * destruct (mtch a s _); [reflexivity|]. cbn [option_map]. apply H.
      * intros m. rewrite !app_length.
        replace (Nat.ltb (List.length m + List.length (c :: z)) (List.length s + List.length (c :: z)))
          with (Nat.ltb (List.length m) (List.length s)) by (destruct (Nat.ltb_spec (List.length m) (List.length s)); symmetry; [apply Nat.ltb_lt|apply Nat.ltb_ge]; lia).
        destruct (Nat.ltb_spec (List.length m) (List.length s)); [|reflexivity].
        apply IH; rewrite ?app_length in *; cbn in *; lia.
  - destruct A.
Qed.
Lemma match_avoid c z r s : avoid c r ->
  re_match r (s ++ c :: z) = option_map (fun m => m ++ c :: z) (re_match r s).
Proof. intros A. unfold re_match. apply (mtch_avoid c z (fun m => m ++ c :: z) r A). reflexivity. Qed.

(** characters a regular expression can match *)
Fixpoint only (P : N -> Prop) (r : re) : Prop :=
  match r with
  | RClass f => forall c, f c = true -> P c
  | RSeq a b | RAlt a b => only P a /\ only P b
  | RStar a => only P a
  | REps | REnd => True
  end.
Lemma mt_only P r s s' : mt r s s' -> only P r -> exists x, s = x ++ s' /\ Forall P x.
Proof.
  induction 1 as [f c s F|s|a b s s1 s2 _ IH1 _ IH2|a b s s1 _ IH|a b s s1 _ IH|a s|a s s1 s2 _ IH1 _ _ IH2| |]; intros O.
  - exists [c]. split; [reflexivity|]. repeat constructor. apply O, F.
  - exists []. auto.
  - destruct O as (O1 & O2). destruct (IH1 O1) as (x & -> & X). destruct (IH2 O2) as (y & -> & Y).
    exists (x ++ y). rewrite app_assoc. split; [reflexivity|]. apply Forall_app; auto.
  - apply IH, O.
  - apply IH, O.
  - exists []. auto.
  - destruct (IH1 O) as (x & -> & X). destruct (IH2 O) as (y & -> & Y).
    exists (x ++ y). rewrite app_assoc. split; [reflexivity|]. apply Forall_app; auto.
  - exists []. auto.
  - exists []. auto.
Qed.

Section Extend.
Context {RT : PyRT}.

(** * Counting parentheses outside quotes and backticks *)
Inductive lst := LOut | LQuo | LEsc | LTick.
Fixpoint lex (st : lst) (s : str) : option Z :=
  match s with
  | [] => match st with LOut => Some 0%Z | _ => None end
  | c :: s' =>
      match st with
      | LOut => if N.eqb c 40 then option_map (Z.add 1) (lex LOut s')
                else if N.eqb c 41 then option_map (Z.add (-1)) (lex LOut s')
                else if N.eqb c DQ then lex LQuo s'
                else if N.eqb c 96 then lex LTick s'
                else lex LOut s'
      | LQuo => if N.eqb c DQ then lex LOut s' else if N.eqb c BSL then lex LEsc s' else lex LQuo s'
      | LEsc => if N.eqb c NL then None else lex LQuo s'
      | LTick => if N.eqb c 96 then lex LOut s' else if unquoted_char c then lex LTick s' else None
      end
  end.
Definition plainc (c : N) : Prop := c <> 40%N /\ c <> 41%N /\ c <> DQ /\ c <> 96%N.
Lemma lex_plain x r : Forall plainc x -> lex LOut (x ++ r) = lex LOut r.
Proof.
  induction 1 as [|c x (P1 & P2 & P3 & P4) _ IH]; [reflexivity|]. cbn [app lex].
  apply N.eqb_neq in P1, P2, P3, P4. rewrite P1, P2, P3, P4. exact IH.
Qed.
Lemma lex_quoted s : (forall d, lex LQuo s = Some d -> exists r, qscan s = Some r /\ lex LOut r = Some d)
  /\ (forall c s', s = c :: s' -> forall d, lex LQuo s' = Some d -> exists r, qscan s' = Some r /\ lex LOut r = Some d).
Proof.
  induction s as [|c s (IH1 & IH2)].
  - split; [discriminate|]. discriminate.
  - split.
    + intros d H. cbn [lex] in H. cbn [qscan]. destruct (N.eqb c DQ); [eauto|].
      destruct (N.eqb c BSL); [|apply IH1, H].
      destruct s as [|e s]; [discriminate|]. cbn [lex] in H. destruct (N.eqb e NL); [discriminate|].
      apply (IH2 e s eq_refl), H.
    + intros c' s' E d H. inversion E; subst. apply IH1, H.
Qed.
Lemma qscan_mono s r w : qscan s = Some r -> qscan (s ++ w) = Some (r ++ w) /\ exists x, s = x ++ r.
Proof.
  assert (forall n s, List.length s <= n -> qscan s = Some r -> qscan (s ++ w) = Some (r ++ w) /\ exists x, s = x ++ r) as L; [|exact (L _ s (le_n _))].
  clear s. induction n as [|n IH]; intros s Ln H; destruct s as [|c s]; try discriminate; [cbn in Ln; lia|].
  cbn [qscan] in H. cbn [app qscan]. destruct (N.eqb c DQ).
  - inversion H; subst. split; [reflexivity|]. exists [c]. reflexivity.
  - destruct (N.eqb c BSL).
    + destruct s as [|e s]; [discriminate|]. cbn [app]. destruct (N.eqb e NL); [discriminate|].
      destruct (IH s) as (E & x & ->); [cbn in Ln; lia|exact H|]. split; [exact E|]. exists (c :: e :: x). reflexivity.
    + destruct (IH s) as (E & x & ->); [cbn in Ln; lia|exact H|]. split; [exact E|]. exists (c :: x). reflexivity.
Qed.

(** * Tokens *)
Definition good_re (r : re) : Prop := forall u d t, lex LOut u = Some d ->
  (forall r', re_match r u = Some r' -> (exists x, u = x ++ r') /\ lex LOut r' = Some d)
  /\ re_match r (u ++ 41%N :: t) = option_map (fun m => m ++ 41%N :: t) (re_match r u).
Lemma good_plain r : avoid 41 r -> only plainc r -> good_re r.
Proof.
  intros A O u d t H. split; [|apply match_avoid, A]. intros r' M. apply re_match_mt in M.
  destruct (mt_only _ _ _ _ M O) as (x & -> & X). split; [eauto|]. rewrite lex_plain in H by exact X. exact H.
Qed.
Lemma good_quoted : good_re re_quoted.
Proof.
  intros u d t H. rewrite !re_quoted_scan. destruct u as [|c u]; [split; [discriminate|reflexivity]|].
  cbn [app]. cbn [lex] in H. destruct (N.eqb_spec c DQ) as [->|N]; [|split; [discriminate|reflexivity]].
  cbn in H. apply lex_quoted in H. destruct H as (r & Q & L). rewrite Q.
  destruct (qscan_mono u r (41%N :: t) Q) as (-> & x & ->). split; [|reflexivity].
  intros r' E. inversion E; subst. split; [|exact L]. exists (DQ :: x). reflexivity.
Qed.
Lemma tick_unquoted : unquoted_char 96 = true.
Proof. unfold unquoted_char. rewrite space_low by lia. reflexivity. Qed.
Lemma unquoted_not c : unquoted_char c = true -> c <> 40%N /\ c <> 41%N /\ c <> DQ /\ c <> NL /\ c <> 42%N.
Proof.
  intros H. repeat split; intros ->; try discriminate H.
Qed.
Lemma lex_span r : heads unquoted_char r = false -> forall x d, forallb unquoted_char x = true ->
  (lex LOut (x ++ r) = Some d -> lex LOut r = Some d) /\ (lex LTick (x ++ r) = Some d -> lex LOut r = Some d).
Proof.
  intros R. induction x as [|c x IH]; intros d F.
  - split; [auto|]. cbn [app]. destruct r as [|c r]; [discriminate|]. cbn [lex]. cbn [heads] in R.
    destruct (N.eqb_spec c 96) as [->|]; [rewrite tick_unquoted in R; discriminate|]. rewrite R. discriminate.
  - cbn [forallb] in F. apply andb_true_iff in F. destruct F as (C & F). destruct (IH d F) as (I1 & I2).
    destruct (unquoted_not c C) as (N1 & N2 & N3 & _). apply N.eqb_neq in N1, N2, N3. cbn [app lex].
    rewrite N1, N2, N3, C. destruct (N.eqb c 96); auto.
Qed.
Lemma good_unquoted : good_re re_unquoted.
Proof.
  intros u d t H. split; [|apply match_avoid; cbn; auto].
  intros r' M. unfold re_unquoted in M. rewrite re_plus in M. destruct (heads unquoted_char u); [|discriminate].
  inversion M; subst. pose proof (span_app unquoted_char u) as E. unfold skip.
  split; [eexists; symmetry; exact E|]. rewrite <- E in H.
  exact (proj1 (lex_span _ (skip_heads unquoted_char u) _ d (RegexFacts.span_all unquoted_char u)) H).
Qed.

(** * Expressions of the grammar with matching parentheses *)
Definition plain_rule (r : rule) : bool :=
  match r with Ropen_paren | Rclose_paren | Rbacktick | Rquote | Rlenient_mri => false | _ => true end.
Inductive bal : peg rule -> Prop :=
| b_lit l : Forall plainc l -> bal (PLit l)
| b_re r : good_re r -> bal (PRe r)
| b_seq l : seqbal 0 l -> bal (PSeq l)
| b_tick r re : grammar r = PRe re -> avoid 96 re -> bal (PSeq [PRef Rbacktick; PRef r; PRef Rbacktick])
| b_wild : bal (PSeq [PRef Rquote; PRef Runquoted_string; PRef Rwildcard; PRef Rquote])
| b_alt l : Forall bal l -> bal (PAlt l)
| b_opt e : bal e -> bal (POpt e)
| b_star e : bal e -> bal (PStar e)
| b_ref r : plain_rule r = true -> bal (PRef r)
with seqbal : Z -> list (peg rule) -> Prop :=
| sb_nil : seqbal 0 []
| sb_open k l : (0 <= k)%Z -> seqbal (k + 1) l -> seqbal k (PRef Ropen_paren :: l)
| sb_close k l : (0 < k)%Z -> seqbal (k - 1) l -> seqbal k (PRef Rclose_paren :: l)
| sb_cons k e l : (0 <= k)%Z -> bal e -> seqbal k l -> seqbal k (e :: l).

Ltac plains := repeat constructor; unfold plainc; repeat split; discriminate.
Lemma plainc_alnum c : is_alnum_ c = true -> plainc c.
Proof.
  intros H. unfold plainc. repeat split; intros ->; discriminate H.
Qed.
Lemma plainc_space c : mql_space c = true -> plainc c.
Proof.
  intros H. apply mql_space_iff, space_num in H. unfold plainc, DQ. lia.
Qed.
Lemma good_key : good_re re_key.
Proof.
  apply good_plain; [cbn; auto|]. cbn. split; intros c H; apply orb_true_iff in H;
    (destruct H as [H|H]; [apply plainc_alnum, H|apply N.eqb_eq in H; subst; plains]).
Qed.
Lemma good_name : good_re re_name.
Proof. apply good_plain; [cbn; auto|]. cbn. split; intros c H; apply plainc_alnum, H. Qed.
Lemma good_digits : good_re re_digits.
Proof.
  apply good_plain; [cbn; auto|]. cbn.
  split; intros c H; unfold plainc; repeat split; intros ->; discriminate H.
Qed.
Lemma good_ws : good_re re_ws.
Proof.
  apply good_plain; [cbn; auto|]. cbn. intros c H. apply plainc_space, H.
Qed.
Lemma good_public : good_re re_public.
Proof.
  apply good_plain; [cbn; auto 10|]. cbn.
  repeat split; intros ->; discriminate.
Qed.
Lemma good_mri : good_re re_unquoted_mri.
Proof.
  apply good_plain; [cbn; auto 20|]. cbn. repeat split; intros ->; discriminate.
Qed.
Lemma bal_grammar r : plain_rule r = true -> bal (grammar r).
Proof.
  pose proof good_key. pose proof good_name. pose proof good_digits. pose proof good_ws.
  pose proof good_public. pose proof good_mri. pose proof good_quoted. pose proof good_unquoted.
  assert (avoid 96 re_public) by (cbn; auto 10). assert (avoid 96 re_lenient_mri) by (cbn; auto 20).
  destruct r; intros P; try discriminate P; cbn [grammar].
  all: try (eapply b_tick; [reflexivity|assumption]).
  all: try apply b_wild.
  all: repeat first
    [ assumption | reflexivity | apply b_opt | apply b_star
    | apply b_ref | apply b_re | apply b_alt | apply b_seq
    | apply b_lit; plains | lia
    | (apply sb_open; [lia|]) | (apply sb_close; [lia|]) | apply sb_cons | apply sb_nil | apply Forall_cons | apply Forall_nil ].
Qed.

(** * Running the grammar *)
Notation grun := (run grammar).
Definition lit1 (r : rule) (c : N) (u : str) : pres rule :=
  match u with x :: u' => if N.eqb c x then Done (Node (Some r) [c] []) u' else Fail | [] => Fail end.
Lemma char_cases r c n : grammar r = PLit [c] ->
  (forall u, grun n (PRef r) u = Stuck) \/ (forall u, grun n (PRef r) u = lit1 r c u).
Proof.
  intros G. destruct n as [|[|n]]; [left; reflexivity|left; reflexivity|]. right. intros u.
  change (grun (S (S n)) (PRef r) u) with (step rule grammar (grun (S n)) (PRef r) u). unfold step. rewrite G.
  change (grun (S n) (PLit [c]) u) with (step rule grammar (grun n) (PLit [c]) u). unfold step.
  destruct u as [|x u]; [reflexivity|]. cbn [prefixb lit1]. destruct (N.eqb c x); reflexivity.
Qed.
Lemma re_cases r re n : grammar r = PRe re ->
  (forall u, grun n (PRef r) u = Stuck) \/
  (forall u, grun n (PRef r) u = match re_match re u with
                                 | Some rest => Done (Node (Some r) (cut u rest) []) rest | None => Fail end).
Proof.
  intros G. destruct n as [|[|n]]; [left; reflexivity|left; reflexivity|]. right. intros u.
  change (grun (S (S n)) (PRef r) u) with (step rule grammar (grun (S n)) (PRef r) u). unfold step. rewrite G.
  change (grun (S n) (PRe re) u) with (step rule grammar (grun n) (PRe re) u). unfold step.
  destruct (re_match re u); reflexivity.
Qed.
Lemma cut_more (u r w : str) : (exists x, u = x ++ r) -> cut (u ++ w) (r ++ w) = cut u r.
Proof. intros (x & ->). rewrite cut_app, <- app_assoc. apply cut_app. Qed.

Definition ext (u w : str) (d : Z) (a b : pres rule) : Prop :=
  match a with
  | Stuck => True
  | Fail => (d <= 0)%Z -> b = Fail
  | Done nd r => (exists x, u = x ++ r) /\ lex LOut r = Some d /\ ((d <= 0)%Z -> b = Done nd (r ++ w))
  end.
Definition sext (u w : str) (k d : Z) (a b : sres rule) : Prop :=
  match a with
  | SStuck => True
  | SFail => (d <= - k)%Z -> b = SFail
  | SDone ch r => (exists x, u = x ++ r) /\ lex LOut r = Some (d + k)%Z /\ ((d <= - k)%Z -> b = SDone ch (r ++ w))
  end.

Section Step.
Variable n : nat.
Variable t : str.
Notation w := (41%N :: t).
Hypothesis IH : forall e u d, bal e -> lex LOut u = Some d -> ext u w d (grun n e u) (grun n e (u ++ w)).

Lemma seq_ext k l : seqbal k l -> forall u d, lex LOut u = Some d ->
  sext u w k d (run_seq _ (grun n) l u) (run_seq _ (grun n) l (u ++ w)).
Proof.
  induction 1 as [|k l K _ IHl|k l K _ IHl|k e l K B _ IHl]; intros u d H.
  - cbn. split; [exists []; reflexivity|]. rewrite Z.add_0_r. split; [exact H|reflexivity].
  - cbn [run_seq]. fold (run_seq rule (grun n)).
    destruct (char_cases Ropen_paren 40 n eq_refl) as [S|S]; rewrite !S; [exact I|].
    destruct u as [|x u].
    + cbn. reflexivity.
    + cbn [app lit1]. destruct (N.eqb_spec 40 x) as [<-|X]; [|cbn; reflexivity].
      cbn [lex] in H. change (N.eqb 40 40) with true in H. cbv iota in H.
      destruct (lex LOut u) as [d'|] eqn:E; [|discriminate]. assert (d = (1 + d')%Z) as -> by (unfold option_map in H; congruence).
      specialize (IHl u d' E). unfold sext in *.
      destruct (run_seq rule (grun n) l u) as [| |ch r]; [exact I| |].
      * intros D. rewrite IHl; [reflexivity|lia].
      * destruct IHl as ((y & ->) & L & R). split; [exists (40%N :: y); reflexivity|].
        split; [rewrite L; f_equal; lia|]. intros D. rewrite R; [reflexivity|lia].
  - cbn [run_seq]. fold (run_seq rule (grun n)).
    destruct (char_cases Rclose_paren 41 n eq_refl) as [S|S]; rewrite !S; [exact I|].
    destruct u as [|x u].
    + cbn in H. inversion H; subst. cbn. intros D. lia.
    + cbn [app lit1]. destruct (N.eqb_spec 41 x) as [<-|X]; [|cbn; reflexivity].
      cbn [lex] in H. change (N.eqb 41 40) with false in H. change (N.eqb 41 41) with true in H. cbv iota in H.
      destruct (lex LOut u) as [d'|] eqn:E; [|discriminate]. assert (d = (-1 + d')%Z) as -> by (unfold option_map in H; congruence).
      specialize (IHl u d' E). unfold sext in *.
      destruct (run_seq rule (grun n) l u) as [| |ch r]; [exact I| |].
      * intros D. rewrite IHl; [reflexivity|lia].
      * destruct IHl as ((y & ->) & L & R). split; [exists (41%N :: y); reflexivity|].
        split; [rewrite L; f_equal; lia|]. intros D. rewrite R; [reflexivity|lia].
  - cbn [run_seq]. fold (run_seq rule (grun n)). pose proof (IH e u d B H) as E. unfold ext in E.
    destruct (grun n e u) as [| |nd r]; [exact I| |].
    + cbn. intros D. rewrite E; [reflexivity|lia].
    + destruct E as ((y & ->) & L & R). specialize (IHl r d L). unfold sext in *.
      destruct (run_seq rule (grun n) l r) as [| |ch r']; [exact I| |].
      * intros D. rewrite R by lia. rewrite IHl; [reflexivity|lia].
      * destruct IHl as ((y' & ->) & L' & R'). split; [exists (y ++ y'); apply app_assoc|].
        split; [exact L'|]. intros D. rewrite R by lia. rewrite R'; [reflexivity|lia].
Qed.
Lemma alt_ext l : Forall bal l -> forall u d, lex LOut u = Some d ->
  ext u w d (run_alt _ (grun n) l u) (run_alt _ (grun n) l (u ++ w)).
Proof.
  induction 1 as [|e l B _ IHl]; intros u d H; [cbn; reflexivity|].
  cbn [run_alt]. fold (run_alt rule (grun n)). pose proof (IH e u d B H) as E. unfold ext in E |- *.
  destruct (grun n e u) as [| |nd r]; [exact I| |].
  - specialize (IHl u d H). unfold ext in IHl. destruct (run_alt rule (grun n) l u) as [| |nd r]; [exact I| |].
    + intros D. rewrite E by exact D. apply IHl, D.
    + destruct IHl as (X & L & R). split; [exact X|]. split; [exact L|]. intros D. rewrite E by exact D. apply R, D.
  - destruct E as (X & L & R). split; [exact X|]. split; [exact L|]. intros D. rewrite R by exact D. reflexivity.
Qed.

(** text between backticks *)
Lemma tick_split s d : lex LTick s = Some d ->
  exists m r, s = m ++ 96%N :: r /\ ~ In 96%N m /\ lex LOut r = Some d.
Proof.
  induction s as [|c s IHs]; [discriminate|]. cbn [lex]. destruct (N.eqb_spec c 96) as [->|N].
  - intros H. exists [], s. auto.
  - destruct (unquoted_char c); [|discriminate]. intros H. destruct (IHs H) as (m & r & -> & I & L).
    exists (c :: m), r. split; [reflexivity|]. split; [|exact L]. cbn. intros [E|E]; [congruence|contradiction].
Qed.
Lemma match_suffix re s x : re_match re s = Some x -> exists y, s = y ++ x.
Proof.
  intros M. apply re_match_mt in M. destruct (mt_only (fun _ => True) re s x M) as (y & E & _); [|eauto].
  clear. induction re; cbn; auto.
Qed.
Lemma tick_ext r re u d : grammar r = PRe re -> avoid 96 re -> lex LOut u = Some d ->
  sext u w 0 d (run_seq _ (grun n) [PRef Rbacktick; PRef r; PRef Rbacktick] u)
               (run_seq _ (grun n) [PRef Rbacktick; PRef r; PRef Rbacktick] (u ++ w)).
Proof.
  intros G A H. cbn [run_seq].
  destruct (char_cases Rbacktick 96 n eq_refl) as [S|S]; rewrite !S; [exact I|].
  destruct u as [|x u]; [cbn; reflexivity|]. cbn [app lit1].
  destruct (N.eqb_spec 96 x) as [<-|X]; [|cbn; reflexivity].
  change (lex LOut (96%N :: u)) with (lex LTick u) in H. apply tick_split in H. destruct H as (m & z & -> & NI & L).
  destruct (re_cases r re n G) as [T|T]; rewrite !T; [exact I|].
  rewrite <- app_assoc. cbn [app]. rewrite !match_avoid by exact A.
  destruct (re_match re m) as [m'|] eqn:M; cbn [option_map]; [|cbn; reflexivity].
  destruct (match_suffix _ _ _ M) as (y & ->). rewrite !S.
  replace (cut ((y ++ m') ++ 96%N :: z ++ w) (m' ++ 96%N :: z ++ w)) with (cut ((y ++ m') ++ 96%N :: z) (m' ++ 96%N :: z))
    by (rewrite <- !app_assoc, !cut_app; reflexivity).
  destruct m' as [|c m'].
  - cbn [app lit1]. change (N.eqb 96 96) with true. cbv iota. unfold sext. split.
    + exists (96%N :: y ++ [96%N]). rewrite app_nil_r. cbn [app]. rewrite <- app_assoc. reflexivity.
    + rewrite Z.add_0_r. split; [exact L|]. reflexivity.
  - cbn [app lit1]. destruct (N.eqb_spec 96 c) as [<-|]; [|cbn; reflexivity].
    exfalso. apply NI, in_or_app. right. left. reflexivity.
Qed.
(** a quoted pattern *)
Lemma quo_span x rest : forallb unquoted_char x = true ->
  (lex LQuo (x ++ 42%N :: DQ :: rest) = lex LOut rest) /\ (lex LEsc (x ++ 42%N :: DQ :: rest) = lex LOut rest).
Proof.
  induction x as [|c x IHx]; [split; reflexivity|]. cbn [forallb]. intros F. apply andb_true_iff in F.
  destruct F as (C & F). destruct (IHx F) as (I1 & I2). destruct (unquoted_not c C) as (_ & _ & N3 & N4 & _).
  apply N.eqb_neq in N3, N4. cbn [app lex]. rewrite N3, N4. destruct (N.eqb c BSL); auto.
Qed.
Lemma wild_ext u d : lex LOut u = Some d ->
  sext u w 0 d (run_seq _ (grun n) [PRef Rquote; PRef Runquoted_string; PRef Rwildcard; PRef Rquote] u)
               (run_seq _ (grun n) [PRef Rquote; PRef Runquoted_string; PRef Rwildcard; PRef Rquote] (u ++ w)).
Proof.
  intros H. cbn [run_seq].
  destruct (char_cases Rquote DQ n eq_refl) as [S|S]; rewrite !S; [exact I|].
  destruct u as [|x u]; [cbn; reflexivity|]. cbn [app lit1].
  destruct (N.eqb_spec DQ x) as [<-|X]; [|cbn; reflexivity].
  change (lex LOut (DQ :: u)) with (lex LQuo u) in H.
  destruct (re_cases Runquoted_string re_unquoted n eq_refl) as [T|T]; rewrite !T; [exact I|].
  rewrite match_avoid by (cbn; auto).
  destruct (re_match re_unquoted u) as [r1|] eqn:M; cbn [option_map]; [|cbn; reflexivity].
  unfold re_unquoted in M. rewrite re_plus in M. destruct (heads unquoted_char u); [|discriminate].
  pose proof (span_app unquoted_char u) as E. pose proof (RegexFacts.span_all unquoted_char u) as F.
  assert (snd (span unquoted_char u) = r1) as M' by (unfold skip in M; congruence). rewrite M' in E. clear M M' T.
  revert E F. generalize (fst (span unquoted_char u)) as y. intros y <- F.
  replace (cut ((y ++ r1) ++ w) (r1 ++ w)) with (cut (y ++ r1) r1)
    by (symmetry; apply cut_more; eauto).
  destruct (char_cases Rwildcard 42 n eq_refl) as [T|T]; rewrite !T; [exact I|].
  destruct r1 as [|c r1]; [cbn; reflexivity|]. cbn [app lit1].
  destruct (N.eqb_spec 42 c) as [<-|X]; [|cbn; reflexivity]. rewrite !S.
  destruct r1 as [|c r1]; [cbn; reflexivity|]. cbn [app lit1].
  destruct (N.eqb_spec DQ c) as [<-|X]; [|cbn; reflexivity].
  rewrite (proj1 (quo_span y r1 F)) in H. unfold sext. split.
  - exists (DQ :: y ++ [42%N; DQ]). cbn [app]. rewrite <- app_assoc. reflexivity.
  - rewrite Z.add_0_r. split; [exact H|reflexivity].
Qed.
End Step.

Lemma prefix_more l u t : ~ In 41%N l -> prefixb l (u ++ 41%N :: t) = prefixb l u.
Proof.
  revert u. induction l as [|c l IH]; intros u I; [reflexivity|]. cbn in I.
  destruct u as [|x u]; cbn [app prefixb].
  - destruct (N.eqb_spec c 41); [tauto|reflexivity].
  - rewrite IH by tauto. reflexivity.
Qed.
Theorem run_ext t n : forall e u d, bal e -> lex LOut u = Some d ->
  ext u (41%N :: t) d (grun n e u) (grun n e (u ++ 41%N :: t)).
Proof.
  induction n as [|n IH]; intros e u d B H; [exact I|].
  change (grun (S n) e u) with (step rule grammar (grun n) e u).
  change (grun (S n) e (u ++ 41%N :: t)) with (step rule grammar (grun n) e (u ++ 41%N :: t)).
  assert (forall l, sext u (41%N :: t) 0 d (run_seq rule (grun n) l u) (run_seq rule (grun n) l (u ++ 41%N :: t)) ->
    ext u (41%N :: t) d (step rule grammar (grun n) (PSeq l) u) (step rule grammar (grun n) (PSeq l) (u ++ 41%N :: t))) as SQ.
  { intros l S. unfold step. unfold sext in S. destruct (run_seq rule (grun n) l u) as [| |ch r]; [exact I| |].
    - cbn. intros D. rewrite S by lia. reflexivity.
    - destruct S as (X & L & R). rewrite Z.add_0_r in L. cbn. split; [exact X|]. split; [exact L|]. intros D.
      rewrite R by lia. rewrite cut_more by exact X. reflexivity. }
  destruct B as [l F|r Gr|l S|r re G A| |l F|e B|e B|r P].
  - unfold step. rewrite prefix_more.
    2: { intros J. rewrite Forall_forall in F. destruct (F _ J) as (_ & F2 & _). congruence. }
    destruct (prefixb l u) eqn:E; [|cbn; reflexivity]. apply prefixb_iff in E. destruct E as (v & ->).
    rewrite <- app_assoc, !skipn_app, !skipn_all, !Nat.sub_diag. cbn [skipn app ext].
    split; [eauto|]. rewrite lex_plain in H by exact F. auto.
  - unfold step. destruct (Gr u d t H) as (G1 & G2). rewrite G2. destruct (re_match r u) as [r'|]; [|cbn; reflexivity].
    destruct (G1 r' eq_refl) as (X & L). cbn. rewrite cut_more by exact X. auto.
  - apply SQ, seq_ext; assumption.
  - apply SQ. eapply tick_ext; eassumption.
  - apply SQ. apply wild_ext; assumption.
  - unfold step. pose proof (alt_ext n t IH l F u d H) as E. unfold ext in *.
    destruct (run_alt rule (grun n) l u) as [| |nd r]; [exact I| |].
    + intros D. rewrite E by exact D. reflexivity.
    + destruct E as (X & L & R). split; [exact X|]. split; [exact L|]. intros D. rewrite R by exact D.
      rewrite cut_more by exact X. reflexivity.
  - unfold step. pose proof (IH e u d B H) as E. unfold ext in *. destruct (grun n e u) as [| |nd r]; [exact I| |].
    + split; [exists []; reflexivity|]. split; [exact H|]. intros D. rewrite E by exact D. reflexivity.
    + destruct E as (X & L & R). split; [exact X|]. split; [exact L|]. intros D. rewrite R by exact D.
      rewrite cut_more by exact X. reflexivity.
  - unfold step. pose proof (IH e u d B H) as E. unfold ext in E. destruct (grun n e u) as [| |nd r]; [exact I| |].
    + cbn [ext]. split; [exists []; reflexivity|]. split; [exact H|]. intros D. rewrite E by exact D. reflexivity.
    + destruct E as (X & L & R).
      assert (Nat.ltb (List.length (r ++ 41%N :: t)) (List.length (u ++ 41%N :: t)) = Nat.ltb (List.length r) (List.length u)) as LE.
      { rewrite !app_length. destruct (Nat.ltb_spec (List.length r) (List.length u)); [apply Nat.ltb_lt|apply Nat.ltb_ge]; lia. }
      destruct (Nat.ltb (List.length r) (List.length u)) eqn:LT.
      * pose proof (IH (PStar e) r d (b_star e B) L) as E2. unfold ext in E2.
        destruct (grun n (PStar e) r) as [| |[x1 t1 ch1] r2]; [exact I| |].
        -- cbn [ext]. intros D. rewrite R by exact D. rewrite LE. rewrite E2 by exact D. reflexivity.
        -- destruct E2 as (X2 & L2 & R2). cbn [ext].
           assert (exists x, u = x ++ r2) as X3.
           { destruct X as (y & ->), X2 as (y2 & ->). exists (y ++ y2). apply app_assoc. }
           split; [exact X3|]. split; [exact L2|]. intros D. rewrite R by exact D. rewrite LE, R2 by exact D.
           rewrite cut_more by exact X3. reflexivity.
      * cbn [ext]. split; [exists []; reflexivity|]. split; [exact H|]. intros D. rewrite R by exact D. rewrite LE. reflexivity.
  - unfold step. pose proof (IH (grammar r) u d (bal_grammar r P) H) as E. unfold ext in E.
    destruct (grun n (grammar r) u) as [| |[x1 t1 ch1] r2]; [exact I| |].
    + cbn [ext]. intros D. rewrite E by exact D. reflexivity.
    + destruct E as (X & L & R). cbn [ext]. split; [exact X|]. split; [exact L|]. intros D. rewrite R by exact D. reflexivity.
Qed.

(** an expression that reads all of a closed text reads it in front of a parenthesis *)
Theorem parses_before e u d v t : bal e -> lex LOut u = Some d -> parses e u v [] ->
  parses e (u ++ 41%N :: t) v (41%N :: t).
Proof.
  intros B H (nd & (_ & n & G) & V). pose proof (run_ext t n e u d B H) as E. rewrite G in E.
  destruct E as (_ & L & R). cbn in L. inversion L; subst d. exists nd. split; [|exact V].
  split; [discriminate|]. exists n. apply R. lia.
Qed.
End Extend.
