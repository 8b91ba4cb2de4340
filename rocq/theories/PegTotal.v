(** The PEG engine terminates on grammars without left recursion: given a table [nn] of
    rules that never match the empty text and a table [rk] of ranks that decrease along
    references in leftmost position, a depth bound linear in the length of the text
    suffices. The conditions are decidable and are checked for the MQL grammar in Mql.v. *)
From Verif Require Import PyBase Regex RegexFacts Peg.

Fixpoint re_nonnull (r : re) : bool :=
  match r with
  | RClass _ => true
  | REps | RStar _ | REnd => false
  | RSeq a b => re_nonnull a || re_nonnull b
  | RAlt a b => re_nonnull a && re_nonnull b
  end.

Lemma mt_length r : forall s s', mt r s s' -> List.length s' <= List.length s.
Proof. induction 1; cbn; lia. Qed.
Lemma mt_nonnull r : forall s s', mt r s s' -> re_nonnull r = true ->
  List.length s' < List.length s.
Proof.
  induction r as [f| |a IHa b IHb|a IHa b IHb|a IHa|]; intros s s' H N; cbn in N;
    try discriminate.
  - apply mt_class_iff in H as (c & -> & _). cbn. lia.
  - apply mt_seq_iff in H as (m & H1 & H2). apply orb_true_iff in N as [N|N].
    + pose proof (IHa _ _ H1 N). apply mt_length in H2. lia.
    + pose proof (IHb _ _ H2 N). apply mt_length in H1. lia.
  - apply andb_true_iff in N as [Na Nb]. apply mt_alt_iff in H as [H|H]; eauto.
Qed.
Lemma re_match_mt r s x : re_match r s = Some x -> mt r s x.
Proof.
  intros H. apply mtch_sound in H as (s' & H & E). injection E as ->. exact H.
Qed.

Section Total.
Variable R : Type.
Variable G : R -> peg R.
Variable nn : R -> bool.
Variable rk : R -> nat.
Variable M : nat.

Fixpoint nonnull (e : peg R) : bool :=
  match e with
  | PLit t => match t with [] => false | _ => true end
  | PRe r => re_nonnull r
  | PSeq l => (fix any l := match l with [] => false | e :: l' => nonnull e || any l' end) l
  | PAlt l => (fix all l := match l with [] => true | e :: l' => nonnull e && all l' end) l
  | POpt _ | PStar _ => false
  | PRef r => nn r
  end.
Fixpoint rank (e : peg R) : nat :=
  match e with
  | PLit _ | PRe _ => 1
  | PSeq l => S ((fix go l := match l with
                              | [] => 0
                              | e :: l' => if nonnull e then rank e
                                           else Nat.max (rank e) (go l')
                              end) l)
  | PAlt l => S ((fix go l := match l with
                              | [] => 0 | e :: l' => Nat.max (rank e) (go l')
                              end) l)
  | POpt e | PStar e => S (rank e)
  | PRef r => S (rk r)
  end.
Fixpoint bounded (e : peg R) : bool :=
  Nat.leb (rank e) M &&
  match e with
  | PSeq l | PAlt l =>
      (fix all l := match l with [] => true | e :: l' => bounded e && all l' end) l
  | POpt e | PStar e => bounded e
  | _ => true
  end.
Definition rule_ok (r : R) : bool :=
  implb (nn r) (nonnull (G r)) && Nat.leb (rank (G r)) (rk r) && bounded (G r).

Lemma bounded_list l e :
  (fix all l := match l with [] => true | e :: l' => bounded e && all l' end) l = true ->
  In e l -> bounded e = true.
Proof.
  induction l as [|x l IH]; intros H I; [destruct I|]. apply andb_true_iff in H as [H1 H2].
  destruct I as [->|I]; auto.
Qed.
Lemma bounded_rank e : bounded e = true -> rank e <= M.
Proof. destruct e; cbn [bounded]; intros H; apply andb_true_iff in H as [H _];
  apply Nat.leb_le; exact H. Qed.

Hypothesis OK : forall r, rule_ok r = true.

(** a match leaves a suffix no longer than the text, and shorter if [nonnull] *)
Lemma run_length n : forall e s nd rest, run G n e s = Done nd rest ->
  List.length rest <= List.length s /\
  (nonnull e = true -> List.length rest < List.length s).
Proof.
  induction n as [|n IH]; intros e s nd rest H; [discriminate|].
  change (run G (S n) e s) with (step R G (run G n) e s) in H.
  destruct e as [t|r|l|l|e|e|r]; unfold step in H.
  - destruct (prefixb t s) eqn:E; [|discriminate]. injection H as <- <-.
    rewrite skipn_length. destruct t; cbn; split; try lia; try discriminate.
    intros _. destruct s; cbn in *; [discriminate|lia].
  - destruct (re_match r s) eqn:E; [|discriminate]. injection H as <- <-.
    apply re_match_mt in E. split; [eapply mt_length; eassumption|].
    intros N. eapply mt_nonnull; eassumption.
  - destruct (run_seq R (run G n) l s) as [| |ch r'] eqn:E; try discriminate.
    injection H as <- <-. revert s ch r' E.
    induction l as [|e l IHl]; intros s ch r' E.
    + cbn in E. injection E as <- <-. split; [lia|discriminate].
    + cbn in E. fold (run_seq R (run G n)) in E.
      destruct (run G n e s) as [| |nd0 r0] eqn:E0; try discriminate.
      destruct (run_seq R (run G n) l r0) as [| |ch1 r1] eqn:E1; try discriminate.
      injection E as <- <-. apply IH in E0 as [L0 N0]. apply IHl in E1 as [L1 N1].
      split; [lia|]. cbn. intros N. apply orb_true_iff in N as [N|N]; [apply N0 in N|apply N1 in N]; lia.
  - destruct (run_alt R (run G n) l s) as [| |nd0 r0] eqn:E; try discriminate.
    injection H as <- <-. induction l as [|e l IHl].
    + cbn in E. discriminate.
    + cbn in E. fold (run_alt R (run G n)) in E.
      destruct (run G n e s) as [| |nd1 r1] eqn:E0; try discriminate.
      * apply IHl in E as [L N]. split; [exact L|]. cbn. intros H.
        apply andb_true_iff in H as [_ H]. auto.
      * injection E as <- <-. apply IH in E0 as [L N]. split; [exact L|]. cbn. intros H.
        apply andb_true_iff in H as [H _]. auto.
  - destruct (run G n e s) as [| |nd0 r0] eqn:E; try discriminate; injection H as <- <-.
    + split; [lia|discriminate].
    + apply IH in E as [L N]. split; [lia|discriminate].
  - destruct (run G n e s) as [| |nd0 r0] eqn:E; try discriminate.
    + injection H as <- <-. split; [lia|discriminate].
    + destruct (Nat.ltb _ _) eqn:Lt.
      * destruct (run G n (PStar e) r0) as [| |[x t ch] r1] eqn:E1; try discriminate.
        injection H as <- <-. apply IH in E as [L N]. apply IH in E1 as [L1 N1].
        split; [lia|discriminate].
      * injection H as <- <-. split; [lia|discriminate].
  - destruct (run G n (G r) s) as [| |[x t ch] r0] eqn:E; try discriminate.
    injection H as <- <-. apply IH in E as [L N]. split; [exact L|]. cbn. intros Hn.
    apply N. specialize (OK r). unfold rule_ok in OK. rewrite Hn in OK. cbn in OK.
    apply andb_true_iff in OK as [O1 _]. apply andb_true_iff in O1 as [O1 _]. exact O1.
Qed.

Theorem run_total n : forall e s, bounded e = true ->
  List.length s * M + rank e <= n -> run G n e s <> Stuck.
Proof.
  induction n as [|n IH]; intros e s B L.
  { destruct e; cbn in L; lia. }
  change (run G (S n) e s) with (step R G (run G n) e s).
  assert (forall r s', List.length s' < List.length s -> bounded r = true ->
          run G n r s' <> Stuck) as Short.
  { intros r s' L' B'. apply IH; [exact B'|]. apply bounded_rank in B'.
    assert (rank e >= 1) by (destruct e; cbn; lia).
    assert (List.length s' * M + M <= List.length s * M)
      by (replace (List.length s' * M + M) with (S (List.length s') * M) by lia;
          apply Nat.mul_le_mono_r; lia). lia. }
  destruct e as [t|r|l|l|e|e|r]; unfold step.
  - destruct (prefixb t s); discriminate.
  - destruct (re_match r s); discriminate.
  - assert (run_seq R (run G n) l s <> SStuck) as HS.
    2:{ destruct (run_seq R (run G n) l s); congruence. }
    cbn [bounded] in B. apply andb_true_iff in B as [_ B].
    cbn [rank] in L. apply le_S_n in L || (rewrite Nat.add_succ_r in L; apply le_S_n in L).
    assert (forall l s0, List.length s0 < List.length s ->
            (fix all l := match l with [] => true | e :: l' => bounded e && all l' end) l = true ->
            run_seq R (run G n) l s0 <> SStuck) as HL.
    { clear - Short OK. induction l as [|e l IHl]; intros s0 L0 B; [discriminate|].
      apply andb_true_iff in B as [B1 B2]. cbn. fold (run_seq R (run G n)).
      pose proof (Short e s0 L0 B1).
      destruct (run G n e s0) as [| |nd r0] eqn:E; try congruence.
      apply run_length in E as [L1 _].
      specialize (IHl r0 ltac:(lia) B2). destruct (run_seq R (run G n) l r0); congruence. }
    assert (forall l s0, List.length s0 <= List.length s ->
            (fix all l := match l with [] => true | e :: l' => bounded e && all l' end) l = true ->
            List.length s * M + (fix go l := match l with
                              | [] => 0
                              | e :: l' => if nonnull e then rank e
                                           else Nat.max (rank e) (go l')
                              end) l <= n ->
            run_seq R (run G n) l s0 <> SStuck) as HG.
    { clear - IH HL OK. induction l as [|e l IHl]; intros s0 L0 B L; [discriminate|].
      apply andb_true_iff in B as [B1 B2]. cbn. fold (run_seq R (run G n)).
      assert (run G n e s0 <> Stuck) as H0.
      { apply IH; [exact B1|].
        assert (List.length s0 * M <= List.length s * M) by (apply Nat.mul_le_mono_r; lia).
        destruct (nonnull e); lia. }
      destruct (run G n e s0) as [| |nd r0] eqn:E; try congruence.
      apply run_length in E as [L1 N1]. destruct (nonnull e).
      - specialize (N1 eq_refl). specialize (HL l r0 ltac:(lia) B2).
        destruct (run_seq R (run G n) l r0); congruence.
      - specialize (IHl r0 ltac:(lia) B2 ltac:(lia)).
        destruct (run_seq R (run G n) l r0); congruence. }
    apply HG; [lia|exact B|lia].
  - assert (run_alt R (run G n) l s <> Stuck) as HS.
    2:{ destruct (run_alt R (run G n) l s); congruence. }
    cbn [bounded] in B. apply andb_true_iff in B as [_ B]. cbn [rank] in L.
    assert (forall l, (fix all l := match l with [] => true | e :: l' => bounded e && all l' end) l = true ->
      List.length s * M + S ((fix go l := match l with
                              | [] => 0 | e :: l' => Nat.max (rank e) (go l') end) l) <= S n ->
      run_alt R (run G n) l s <> Stuck) as HG.
    { clear - IH. induction l as [|e l IHl]; intros B L; [discriminate|].
      apply andb_true_iff in B as [B1 B2]. cbn. fold (run_alt R (run G n)).
      assert (run G n e s <> Stuck) by (apply IH; [exact B1|lia]).
      destruct (run G n e s); try congruence. apply IHl; [exact B2|lia]. }
    apply HG; assumption.
  - cbn [bounded rank] in *. apply andb_true_iff in B as [_ B].
    assert (run G n e s <> Stuck) by (apply IH; [exact B|lia]).
    destruct (run G n e s); congruence.
  - assert (bounded (PStar e) = true) as BS by exact B.
    cbn [bounded rank] in *. apply andb_true_iff in B as [_ B].
    assert (run G n e s <> Stuck) by (apply IH; [exact B|lia]).
    destruct (run G n e s) as [| |nd rest]; try congruence.
    destruct (Nat.ltb _ _) eqn:Lt; [|discriminate]. apply Nat.ltb_lt in Lt.
    pose proof (Short (PStar e) _ Lt BS).
    destruct (run G n (PStar e) rest) as [| |[x t ch] r1]; congruence.
  - cbn [rank] in L. pose proof (OK r) as O. unfold rule_ok in O.
    apply andb_true_iff in O as [O O2]. apply andb_true_iff in O as [_ O1].
    apply Nat.leb_le in O1.
    assert (run G n (G r) s <> Stuck) by (apply IH; [exact O2|lia]).
    destruct (run G n (G r) s) as [| |[x t ch] r1]; congruence.
Qed.

(** the chosen depth bound computes the result of the grammar *)
Definition depth (e : peg R) (s : str) : nat := List.length s * M + rank e.
Corollary run_depth e s r : bounded e = true ->
  gives G e s r <-> run G (depth e s) e s = r.
Proof.
  intros B. assert (run G (depth e s) e s <> Stuck) by (apply run_total; [exact B|unfold depth; lia]).
  split.
  - intros H1. apply gives_at; assumption.
  - intros <-. split; [assumption|]. exists (depth e s). reflexivity.
Qed.
End Total.
