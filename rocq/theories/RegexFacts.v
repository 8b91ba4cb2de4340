(** Language semantics of the regular expressions and correctness of the matcher. *)
From Verif Require Import PyBase Regex.

(** [mt r s s']: [r] can match a prefix of [s], leaving [s']. *)
Inductive mt : re -> str -> str -> Prop :=
| mt_class f c s : f c = true -> mt (RClass f) (c :: s) s
| mt_eps s : mt REps s s
| mt_seq a b s s1 s2 : mt a s s1 -> mt b s1 s2 -> mt (RSeq a b) s s2
| mt_altl a b s s1 : mt a s s1 -> mt (RAlt a b) s s1
| mt_altr a b s s1 : mt b s s1 -> mt (RAlt a b) s s1
| mt_star0 a s : mt (RStar a) s s
| mt_starS a s s1 s2 : mt a s s1 -> List.length s1 < List.length s ->
    mt (RStar a) s1 s2 -> mt (RStar a) s s2
| mt_end0 : mt REnd [] []
| mt_endn : mt REnd [NL] [NL].

(** The loop of [mtch (RStar a)], named. *)
Definition star_loop (a : re) (k : str -> option str) : nat -> str -> option str :=
  fix loop (n : nat) (s : str) {struct n} : option str :=
    match n with
    | O => k s
    | S n' =>
        match mtch a s (fun s' => if Nat.ltb (List.length s') (List.length s)
                                  then loop n' s' else None) with
        | Some x => Some x
        | None => k s
        end
    end.

Lemma mtch_star a s k : mtch (RStar a) s k = star_loop a k (List.length s) s.
Proof. reflexivity. Qed.

Lemma star_loop_S a k n s : star_loop a k (S n) s =
  match mtch a s (fun s' => if Nat.ltb (List.length s') (List.length s)
                            then star_loop a k n s' else None) with
  | Some x => Some x | None => k s end.
Proof. reflexivity. Qed.

(** Soundness: a successful run corresponds to a way of matching accepted by [k]. *)
Theorem mtch_sound r : forall s k x, mtch r s k = Some x ->
  exists s', mt r s s' /\ k s' = Some x.
Proof.
  induction r as [f| |a IHa b IHb|a IHa b IHb|a IHa|]; intros s k x H.
  - destruct s as [|c s]; cbn in H; [discriminate|].
    destruct (f c) eqn:E; [|discriminate]. exists s; split; [constructor; exact E|exact H].
  - exists s; split; [constructor|exact H].
  - cbn in H. apply IHa in H as (s1 & H1 & H2). apply IHb in H2 as (s2 & H2 & H3).
    exists s2; split; [econstructor; eassumption|exact H3].
  - cbn in H. destruct (mtch a s k) eqn:E.
    + injection H as ->. apply IHa in E as (s1 & H1 & H2).
      exists s1; split; [apply mt_altl|]; assumption.
    + apply IHb in H as (s1 & H1 & H2). exists s1; split; [apply mt_altr|]; assumption.
  - rewrite mtch_star in H. remember (List.length s) as n eqn:En. clear En.
    revert s H. induction n as [|n IHn]; intros s H.
    + cbn in H. exists s; split; [constructor|exact H].
    + rewrite star_loop_S in H.
      destruct (mtch a s _) eqn:E.
      * injection H as ->. apply IHa in E as (s1 & H1 & H2).
        destruct (Nat.ltb_spec (List.length s1) (List.length s)) as [Hlt|]; [|discriminate].
        apply IHn in H2 as (s2 & H2 & H3).
        exists s2; split; [econstructor; eassumption|exact H3].
      * exists s; split; [constructor|exact H].
  - cbn in H. destruct s as [|c [|c' s]].
    + exists []; split; [constructor|exact H].
    + destruct (N.eqb_spec c NL) as [->|]; [|discriminate].
      exists [NL]; split; [constructor|exact H].
    + discriminate.
Qed.

(** Completeness: if some way of matching is accepted by [k], the run succeeds. *)
Theorem mtch_complete r : forall s s' k x, mt r s s' -> k s' = Some x ->
  exists y, mtch r s k = Some y.
Proof.
  induction r as [f| |a IHa b IHb|a IHa b IHb|a IHa|]; intros s s' k x Hm Hk.
  - inversion Hm; subst. cbn. match goal with H : f _ = true |- _ => rewrite H end. eauto.
  - inversion Hm; subst. cbn. eauto.
  - inversion Hm; subst. cbn.
    match goal with H1 : mt a s ?m, H2 : mt b ?m s' |- _ =>
      destruct (IHb _ _ _ _ H2 Hk) as (y & Hy);
      exact (IHa _ _ (fun s' => mtch b s' k) _ H1 Hy) end.
  - cbn. inversion Hm; subst.
    + match goal with H1 : mt a s s' |- _ => destruct (IHa _ _ _ _ H1 Hk) as (y & Hy) end.
      rewrite Hy; eauto.
    + destruct (mtch a s k); [eauto|].
      match goal with H1 : mt b s s' |- _ => exact (IHb _ _ _ _ H1 Hk) end.
  - rewrite mtch_star.
    assert (G : forall n s, List.length s <= n -> mt (RStar a) s s' ->
                exists y, star_loop a k n s = Some y).
    { clear s Hm. induction n as [|n IHn]; intros s Hl Hm.
      - cbn. inversion Hm; subst; [eauto|]. exfalso; lia.
      - rewrite star_loop_S. inversion Hm; subst.
        + destruct (mtch a s' _); eauto.
        + match goal with H1 : mt a s ?m, H2 : mt (RStar a) ?m s', H3 : _ < _ |- _ =>
            destruct (IHn m) as (y & Hy); [lia|exact H2|];
            destruct (IHa s m (fun s0 => if Nat.ltb (List.length s0) (List.length s)
                         then star_loop a k n s0 else None) y H1) as (z & Hz);
            [apply Nat.ltb_lt in H3; rewrite H3; exact Hy|rewrite Hz; eauto] end. }
    apply (G _ s); auto.
  - inversion Hm; subst; cbn; eauto.
Qed.

Corollary re_matches_iff r s : re_matches r s = true <-> exists s', mt r s s'.
Proof.
  unfold re_matches, re_match. split.
  - destruct (mtch r s Some) eqn:E; [|discriminate]. intros _.
    apply mtch_sound in E as (s' & H & _). eauto.
  - intros (s' & H). destruct (mtch_complete r s s' Some s' H eq_refl) as (y & ->). reflexivity.
Qed.

(** ** Inversion / introduction lemmas for the shapes in use *)

Lemma mt_class_iff f s s' : mt (RClass f) s s' <-> exists c, s = c :: s' /\ f c = true.
Proof.
  split.
  - intros H; inversion H; subst; eauto.
  - intros (c & -> & H). constructor; exact H.
Qed.
Lemma mt_seq_iff a b s s' : mt (RSeq a b) s s' <-> exists m, mt a s m /\ mt b m s'.
Proof.
  split.
  - intros H; inversion H; subst; eauto.
  - intros (m & H1 & H2). econstructor; eassumption.
Qed.
Lemma mt_alt_iff a b s s' : mt (RAlt a b) s s' <-> mt a s s' \/ mt b s s'.
Proof.
  split.
  - intros H; inversion H; subst; auto.
  - intros [H|H]; [apply mt_altl|apply mt_altr]; exact H.
Qed.
Lemma mt_eps_iff s s' : mt REps s s' <-> s = s'.
Proof. split; [intros H; inversion H; reflexivity|intros ->; constructor]. Qed.
Lemma mt_end_iff s s' : mt REnd s s' <-> (s = [] \/ s = [NL]) /\ s' = s.
Proof.
  split.
  - intros H; inversion H; subst; auto.
  - intros [[-> | ->] ->]; constructor.
Qed.

Lemma mt_star_class_iff f s s' :
  mt (RStar (RClass f)) s s' <-> exists p, s = p ++ s' /\ forallb f p = true.
Proof.
  split.
  - intros H. remember (RStar (RClass f)) as r eqn:Er.
    induction H as [| | | | | |a s s1 s2 Ha _ Hl Hr IH| |]; try discriminate; injection Er as ->.
    + exists []; auto.
    + inversion Ha; subst. destruct (IH eq_refl) as (p & -> & Hp).
      exists (c :: p); cbn. rewrite Hp. match goal with H : f c = true |- _ => rewrite H end. auto.
  - intros (p & -> & Hp). induction p as [|c p IH]; cbn in *.
    + constructor.
    + apply andb_prop in Hp as [Hc Hp]. econstructor; [constructor; exact Hc| |apply IH, Hp].
      cbn; lia.
Qed.

Lemma mt_plus_class_iff f s s' :
  mt (RPlus (RClass f)) s s' <-> exists p, p <> [] /\ s = p ++ s' /\ forallb f p = true.
Proof.
  unfold RPlus. rewrite mt_seq_iff. split.
  - intros (m & H1 & H2). apply mt_class_iff in H1 as (c & -> & Hc).
    apply mt_star_class_iff in H2 as (p & -> & Hp).
    exists (c :: p). cbn. rewrite Hc, Hp. repeat split; congruence.
  - intros (p & Hne & -> & Hp). destruct p as [|c p]; [congruence|]. cbn in Hp.
    apply andb_prop in Hp as [Hc Hp]. exists (p ++ s'). split.
    + constructor; exact Hc.
    + apply mt_star_class_iff; eauto.
Qed.

(** ** Greedy behaviour of a class repetition *)

Fixpoint span (f : N -> bool) (s : str) : str * str :=
  match s with
  | [] => ([], [])
  | c :: s' => if f c then let (a, b) := span f s' in (c :: a, b) else ([], s)
  end.

Lemma span_app f s : fst (span f s) ++ snd (span f s) = s.
Proof.
  induction s as [|c s IH]; cbn; [reflexivity|].
  destruct (f c); [|reflexivity]. destruct (span f s); cbn in *. congruence.
Qed.
Lemma span_all f s : forallb f (fst (span f s)) = true.
Proof.
  induction s as [|c s IH]; cbn; [reflexivity|].
  destruct (f c) eqn:E; [|reflexivity]. destruct (span f s); cbn in *. rewrite E. exact IH.
Qed.

(** If the continuation accepts the text after the longest run, that is the match. *)
Lemma star_class_greedy f k : forall s n x, List.length s <= n ->
  k (snd (span f s)) = Some x -> star_loop (RClass f) k n s = Some x.
Proof.
  induction s as [|c s IH]; intros n x Hl Hk.
  - destruct n; [exact Hk|]. rewrite star_loop_S. cbn in *. exact Hk.
  - destruct n as [|n]; [cbn in Hl; lia|]. rewrite star_loop_S. cbn [mtch].
    cbn [span] in Hk. destruct (f c) eqn:E.
    + destruct (span f s) as [a b] eqn:Es. cbn in Hk.
      assert (Hlt : Nat.ltb (List.length s) (List.length (c :: s)) = true)
        by (apply Nat.ltb_lt; cbn; lia).
      rewrite Hlt, (IH n x); [reflexivity|cbn in Hl; lia|exact Hk].
    + exact Hk.
Qed.

Lemma mtch_star_class f s k x :
  k (snd (span f s)) = Some x -> mtch (RStar (RClass f)) s k = Some x.
Proof. intros H. rewrite mtch_star. apply star_class_greedy; auto. Qed.

Lemma mtch_plus_class f c s k x : f c = true ->
  k (snd (span f s)) = Some x -> mtch (RPlus (RClass f)) (c :: s) k = Some x.
Proof. intros Hc H. unfold RPlus. cbn [mtch]. rewrite Hc. apply mtch_star_class, H. Qed.

Lemma mtch_plus_class_fail f s k :
  match s with [] => True | c :: _ => f c = false end ->
  mtch (RPlus (RClass f)) s k = None.
Proof. destruct s as [|c s]; cbn; [reflexivity|]. intros ->. reflexivity. Qed.

(** Failure in terms of the language. *)
Lemma mtch_none r s k : (forall s', mt r s s' -> k s' = None) -> mtch r s k = None.
Proof.
  intros H. destruct (mtch r s k) eqn:E; [|reflexivity].
  apply mtch_sound in E as (s' & H1 & H2). rewrite (H _ H1) in H2. discriminate.
Qed.
