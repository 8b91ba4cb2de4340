(** The parsing-expression-grammar engine used by mql/mql.py:27 (parsimonious.Grammar),
    over a type [R] of rule names. Modelled after parsimonious 0.10 (expressions.py of
    that library): Literal, Regex, Sequence, OneOf, Optional, ZeroOrMore and rule
    references; ordered choice, no backtracking into a successful match.
    A node carries the name of the rule that made it ([None]: an unnamed subexpression),
    the text it covers and its child nodes.
    Simplifications: the packrat cache is not modelled (it does not change results), nor
    is Python's recursion limit. A repetition stops at an empty match; parsimonious keeps
    that empty match as a last child, but no repeated expression of this grammar can
    match the empty text. *)
From Verif Require Import PyBase Regex.

Section Peg.
Variable R : Type.

Inductive peg :=
| PLit (t : str)
| PRe (r : re)
| PSeq (l : list peg)
| PAlt (l : list peg)
| POpt (e : peg)
| PStar (e : peg)
| PRef (r : R).

Inductive node := Node (name : option R) (text : str) (children : list node).

(** the text matched when [rest] is left over from [s] *)
Definition cut (s rest : str) : str := firstn (List.length s - List.length rest) s.

Inductive pres := Stuck | Fail | Done (nd : node) (rest : str).
Inductive sres := SStuck | SFail | SDone (ch : list node) (rest : str).

(** a sequence of expressions, given how to run one *)
Definition run_seq (run : peg -> str -> pres) : list peg -> str -> sres :=
  fix go (l : list peg) (s : str) : sres :=
    match l with
    | [] => SDone [] s
    | e :: l' =>
        match run e s with
        | Stuck => SStuck
        | Fail => SFail
        | Done nd rest =>
            match go l' rest with SDone ch r => SDone (nd :: ch) r | x => x end
        end
    end.
Definition run_alt (run : peg -> str -> pres) : list peg -> str -> pres :=
  fix go (l : list peg) (s : str) : pres :=
    match l with
    | [] => Fail
    | e :: l' => match run e s with Fail => go l' s | x => x end
    end.

Variable G : R -> peg.

(** one expression, given how to run its parts *)
Definition step (run : peg -> str -> pres) (e : peg) (s : str) : pres :=
  match e with
  | PLit t => if prefixb t s then Done (Node None t []) (skipn (List.length t) s) else Fail
  | PRe r => match re_match r s with
             | Some rest => Done (Node None (cut s rest) []) rest
             | None => Fail
             end
  | PSeq l => match run_seq run l s with
              | SStuck => Stuck
              | SFail => Fail
              | SDone ch rest => Done (Node None (cut s rest) ch) rest
              end
  | PAlt l => match run_alt run l s with
              | Done nd rest => Done (Node None (cut s rest) [nd]) rest
              | x => x
              end
  | POpt e => match run e s with
              | Stuck => Stuck
              | Fail => Done (Node None [] []) s
              | Done nd rest => Done (Node None (cut s rest) [nd]) rest
              end
  | PStar e =>
      match run e s with
      | Stuck => Stuck
      | Fail => Done (Node None [] []) s
      | Done nd rest =>
          if Nat.ltb (List.length rest) (List.length s)
          then match run (PStar e) rest with
               | Done (Node _ _ ch) rest' => Done (Node None (cut s rest') (nd :: ch)) rest'
               | x => x
               end
          else Done (Node None [] []) s
      end
  | PRef r => match run (G r) s with
              | Done (Node _ t ch) rest => Done (Node (Some r) t ch) rest
              | x => x
              end
  end.

(** [run n e s]: match [e] at the start of [s], recursion depth at most [n] *)
Fixpoint run (n : nat) : peg -> str -> pres :=
  match n with
  | O => fun _ _ => Stuck
  | S n => step (run n)
  end.

(** * The result does not depend on the depth bound *)

Definition gives (e : peg) (s : str) (r : pres) : Prop :=
  r <> Stuck /\ exists n, run n e s = r.

Lemma run_seq_ext (f g : peg -> str -> pres) l : forall s,
  (forall e s, f e s <> Stuck -> g e s = f e s) ->
  run_seq f l s <> SStuck -> run_seq g l s = run_seq f l s.
Proof.
  induction l as [|e l IH]; intros s H N; cbn in *; [reflexivity|].
  destruct (f e s) as [| |nd rest] eqn:E.
  - exfalso. apply N. reflexivity.
  - rewrite (H e s), E; [reflexivity|congruence].
  - rewrite (H e s), E by congruence. fold (run_seq f) in *. fold (run_seq g) in *.
    rewrite IH; [reflexivity|exact H|].
    destruct (run_seq f l rest); congruence.
Qed.
Lemma run_alt_ext (f g : peg -> str -> pres) l : forall s,
  (forall e s, f e s <> Stuck -> g e s = f e s) ->
  run_alt f l s <> Stuck -> run_alt g l s = run_alt f l s.
Proof.
  induction l as [|e l IH]; intros s H N; cbn in *; [reflexivity|].
  fold (run_alt f) in *. fold (run_alt g) in *.
  destruct (f e s) as [| |nd rest] eqn:E.
  - exfalso. apply N. reflexivity.
  - rewrite (H e s), E by congruence. apply IH; assumption.
  - rewrite (H e s), E by congruence. reflexivity.
Qed.

Lemma run_S n : forall e s, run n e s <> Stuck -> run (S n) e s = run n e s.
Proof.
  induction n as [|n IH]; intros e s H; [exfalso; apply H; reflexivity|].
  change (run (S (S n)) e s) with (step (run (S n)) e s).
  change (run (S n) e s) with (step (run n) e s) in *.
  destruct e as [t|r|l|l|e|e|r]; unfold step in *.
  - reflexivity.
  - reflexivity.
  - rewrite (run_seq_ext (run n) (run (S n))); [reflexivity|exact IH|].
    destruct (run_seq (run n) l s); congruence.
  - rewrite (run_alt_ext (run n) (run (S n))); [reflexivity|exact IH|].
    destruct (run_alt (run n) l s); congruence.
  - rewrite IH; [reflexivity|]. destruct (run n e s); congruence.
  - rewrite IH by (destruct (run n e s); congruence).
    destruct (run n e s) as [| |nd rest]; try reflexivity.
    destruct (Nat.ltb _ _); [|reflexivity].
    rewrite IH; [reflexivity|]. destruct (run n (PStar e) rest); congruence.
  - rewrite IH; [reflexivity|]. destruct (run n (G r) s); congruence.
Qed.
Lemma run_le n m e s : n <= m -> run n e s <> Stuck -> run m e s = run n e s.
Proof.
  induction 1 as [|m L IH]; intros H; [reflexivity|].
  rewrite run_S, IH; auto. rewrite IH; auto.
Qed.
Lemma gives_fun e s r1 r2 : gives e s r1 -> gives e s r2 -> r1 = r2.
Proof.
  intros (N1 & n & <-) (N2 & m & <-). destruct (Nat.le_ge_cases n m) as [L|L].
  - symmetry. apply run_le; assumption.
  - apply run_le; assumption.
Qed.
Lemma gives_at e s r n : gives e s r -> run n e s <> Stuck -> run n e s = r.
Proof.
  intros H N. apply (gives_fun e s); [split; [exact N|exists n; reflexivity]|exact H].
Qed.

(** * Rules for [gives] *)

Inductive gives_seq : list peg -> str -> sres -> Prop :=
| gs_nil s : gives_seq [] s (SDone [] s)
| gs_fail e l s : gives e s Fail -> gives_seq (e :: l) s SFail
| gs_cons e l s nd rest ch r : gives e s (Done nd rest) ->
    gives_seq l rest (SDone ch r) -> gives_seq (e :: l) s (SDone (nd :: ch) r)
| gs_later e l s nd rest : gives e s (Done nd rest) ->
    gives_seq l rest SFail -> gives_seq (e :: l) s SFail.

Lemma gives_lit t s : gives (PLit t) (t ++ s) (Done (Node None t []) s).
Proof.
  split; [discriminate|]. exists 1. cbn.
  assert (prefixb t (t ++ s) = true) as ->
    by (induction t; cbn; [reflexivity|rewrite N.eqb_refl; assumption]).
  f_equal. rewrite skipn_app, skipn_all, Nat.sub_diag. reflexivity.
Qed.
Lemma gives_lit_fail t s : prefixb t s = false -> gives (PLit t) s Fail.
Proof. intros H. split; [discriminate|]. exists 1. cbn. rewrite H. reflexivity. Qed.
Lemma gives_re r s rest : re_match r s = Some rest ->
  gives (PRe r) s (Done (Node None (cut s rest) []) rest).
Proof. intros H. split; [discriminate|]. exists 1. cbn. rewrite H. reflexivity. Qed.
Lemma gives_re_fail r s : re_match r s = None -> gives (PRe r) s Fail.
Proof. intros H. split; [discriminate|]. exists 1. cbn. rewrite H. reflexivity. Qed.

Lemma gives_seq_run l s r : gives_seq l s r ->
  exists n, run_seq (run n) l s = r /\ r <> SStuck.
Proof.
  induction 1 as [s|e l s He|e l s nd rest ch r He Hl (m & Hm & Nm)|e l s nd rest He Hl (m & Hm & Nm)].
  - exists 0. split; [reflexivity|discriminate].
  - destruct He as (N & n & E). exists n. cbn. rewrite E. split; [reflexivity|discriminate].
  - destruct He as (N & n & E). exists (n + m). cbn. fold (run_seq (run (n + m))).
    rewrite (run_le n (n + m)), E by (lia || congruence).
    rewrite (run_seq_ext (run m) (run (n + m))), Hm; [split; [reflexivity|discriminate]| |congruence].
    intros e' s' N'. apply run_le; [lia|exact N'].
  - destruct He as (N & n & E). exists (n + m). cbn. fold (run_seq (run (n + m))).
    rewrite (run_le n (n + m)), E by (lia || congruence).
    rewrite (run_seq_ext (run m) (run (n + m))), Hm; [split; [reflexivity|discriminate]| |congruence].
    intros e' s' N'. apply run_le; [lia|exact N'].
Qed.
Lemma gives_pseq l s ch rest : gives_seq l s (SDone ch rest) ->
  gives (PSeq l) s (Done (Node None (cut s rest) ch) rest).
Proof.
  intros H. apply gives_seq_run in H as (n & E & _). split; [discriminate|].
  exists (S n). cbn [run step]. rewrite E. reflexivity.
Qed.
Lemma gives_pseq_fail l s : gives_seq l s SFail -> gives (PSeq l) s Fail.
Proof.
  intros H. apply gives_seq_run in H as (n & E & _). split; [discriminate|].
  exists (S n). cbn [run step]. rewrite E. reflexivity.
Qed.

Inductive gives_alt : list peg -> str -> pres -> Prop :=
| ga_nil s : gives_alt [] s Fail
| ga_here e l s nd rest : gives e s (Done nd rest) -> gives_alt (e :: l) s (Done nd rest)
| ga_next e l s r : gives e s Fail -> gives_alt l s r -> gives_alt (e :: l) s r.
Lemma gives_alt_run l s r : gives_alt l s r ->
  exists n, run_alt (run n) l s = r /\ r <> Stuck.
Proof.
  induction 1 as [s|e l s nd rest He|e l s r He Hl (m & Hm & Nm)].
  - exists 0. split; [reflexivity|discriminate].
  - destruct He as (N & n & E). exists n. cbn. rewrite E. split; [reflexivity|discriminate].
  - destruct He as (N & n & E). exists (n + m). cbn. fold (run_alt (run (n + m))).
    rewrite (run_le n (n + m)), E by (lia || congruence).
    rewrite (run_alt_ext (run m) (run (n + m))), Hm; [split; [reflexivity|exact Nm]| |congruence].
    intros e' s' N'. apply run_le; [lia|exact N'].
Qed.
Lemma gives_palt l s nd rest : gives_alt l s (Done nd rest) ->
  gives (PAlt l) s (Done (Node None (cut s rest) [nd]) rest).
Proof.
  intros H. apply gives_alt_run in H as (n & E & _). split; [discriminate|].
  exists (S n). cbn [run step]. rewrite E. reflexivity.
Qed.
Lemma gives_palt_fail l s : gives_alt l s Fail -> gives (PAlt l) s Fail.
Proof.
  intros H. apply gives_alt_run in H as (n & E & _). split; [discriminate|].
  exists (S n). cbn [run step]. rewrite E. reflexivity.
Qed.

Lemma gives_opt e s nd rest : gives e s (Done nd rest) ->
  gives (POpt e) s (Done (Node None (cut s rest) [nd]) rest).
Proof.
  intros (_ & n & E). split; [discriminate|]. exists (S n). cbn [run step]. rewrite E. reflexivity.
Qed.
Lemma gives_opt_none e s : gives e s Fail -> gives (POpt e) s (Done (Node None [] []) s).
Proof.
  intros (_ & n & E). split; [discriminate|]. exists (S n). cbn [run step]. rewrite E. reflexivity.
Qed.
Lemma gives_star_stop e s : gives e s Fail -> gives (PStar e) s (Done (Node None [] []) s).
Proof.
  intros (_ & n & E). split; [discriminate|]. exists (S n). cbn [run step]. rewrite E. reflexivity.
Qed.
Lemma gives_star_next e s nd rest x t ch rest' : gives e s (Done nd rest) ->
  List.length rest < List.length s ->
  gives (PStar e) rest (Done (Node x t ch) rest') ->
  gives (PStar e) s (Done (Node None (cut s rest') (nd :: ch)) rest').
Proof.
  intros (_ & n & E) L (_ & m & E'). split; [discriminate|]. exists (S (n + m)). cbn [run step].
  rewrite (run_le n (n + m)), E by (lia || congruence).
  apply Nat.ltb_lt in L. rewrite L.
  rewrite (run_le m (n + m)), E' by (lia || congruence). reflexivity.
Qed.
Lemma gives_ref r s x t ch rest : gives (G r) s (Done (Node x t ch) rest) ->
  gives (PRef r) s (Done (Node (Some r) t ch) rest).
Proof.
  intros (_ & n & E). split; [discriminate|]. exists (S n). cbn [run step]. rewrite E. reflexivity.
Qed.
Lemma gives_ref_fail r s : gives (G r) s Fail -> gives (PRef r) s Fail.
Proof.
  intros (_ & n & E). split; [discriminate|]. exists (S n). cbn [run step]. rewrite E. reflexivity.
Qed.

End Peg.

Arguments PLit {R} t. Arguments PRe {R} r. Arguments PSeq {R} l. Arguments PAlt {R} l.
Arguments POpt {R} e. Arguments PStar {R} e. Arguments PRef {R} r.
Arguments Node {R} name text children.
Arguments Stuck {R}. Arguments Fail {R}. Arguments Done {R} nd rest.
Arguments SStuck {R}. Arguments SFail {R}. Arguments SDone {R} ch rest.
Arguments run {R} G n e s. Arguments gives {R} G e s r.
Arguments gives_seq {R} G l s r. Arguments gives_alt {R} G l s r.
