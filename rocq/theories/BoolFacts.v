(** C17: unambiguity of the boolean structure, and the printer produces it. *)
From Verif Require Import PyBase PyFacts Objects Exprs Translate SpecBool TextFacts.

Lemma run_app s1 s2 : forall st, run st (s1 ++ s2) =
  match run st s1 with Some st' => run st' s2 | None => None end.
Proof.
  induction s1 as [|c s1 IH]; intros st; [reflexivity|]. cbn [app run].
  destruct (step st c); [apply IH|reflexivity].
Qed.
Lemma step_shift d m c d' m' k : step (d, m) c = Some (d', m') -> step (d + k, m) c = Some (d' + k, m')%nat.
Proof.
  destruct m; cbn.
  - do 3 (destruct (N.eqb c _); [intros H; injection H as <- <-; reflexivity|]).
    destruct (N.eqb c 40); [intros H; injection H as <- <-; reflexivity|].
    destruct (N.eqb c 41); [|intros H; injection H as <- <-; reflexivity].
    destruct d; [discriminate|]. intros H; injection H as <- <-. reflexivity.
  - intros H; injection H as <- <-; reflexivity.
  - intros H; injection H as <- <-; reflexivity.
  - intros H; injection H as <- <-; reflexivity.
  - intros H; injection H as <- <-; reflexivity.
Qed.
Lemma run_shift s : forall d m d' m' k, run (d, m) s = Some (d', m') ->
  run (d + k, m)%nat s = Some (d' + k, m')%nat.
Proof.
  induction s as [|c s IH]; intros d m d' m' k H; cbn [run] in *.
  - injection H as <- <-. reflexivity.
  - destruct (step (d, m) c) as [[d1 m1]|] eqn:E; [|discriminate].
    rewrite (step_shift _ _ _ _ _ k E). apply IH, H.
Qed.
Lemma closed_shift s k : closed s -> run (k, Plain) s = Some (k, Plain).
Proof. intros H. apply (run_shift s _ _ _ _ k) in H. exact H. Qed.
Lemma closed_app s t : closed s -> closed t -> closed (s ++ t).
Proof. unfold closed. intros H1 H2. rewrite run_app, H1. exact H2. Qed.
Lemma closed_join sep ss : closed sep -> Forall closed ss -> closed (join sep ss).
Proof.
  intros Hs H. induction H as [|x l Hx _ IH]; [reflexivity|].
  destruct l as [|y l]; [exact Hx|]. change (closed (x ++ sep ++ join sep (y :: l))).
  apply closed_app; [exact Hx|]. apply closed_app; assumption.
Qed.

(** what may follow an expression: the end, a closing parenthesis, a connective *)
Definition follow (r : str) : Prop := r = [] \/ (exists r', r = $")" ++ r') \/ starts_connective r.

Lemma app_eq_split {A} (a b c d : list A) : a ++ b = c ++ d ->
  (exists w, c = a ++ w /\ b = w ++ d) \/ (exists w, a = c ++ w /\ d = w ++ b).
Proof.
  revert c. induction a as [|x a IH]; intros c H.
  - left. exists c. auto.
  - destruct c as [|y c]; cbn in H.
    + right. exists (x :: a). auto.
    + injection H as -> H. destruct (IH _ H) as [(w & -> & ->)|(w & -> & ->)]; [left|right]; exists w; auto.
Qed.

Lemma conn_prefix w r2 o rest : w <> [] -> w ++ r2 = $" " ++ boolop_value o ++ $" " ++ rest -> follow r2 ->
  starts_connective (w ++ $" ").
Proof.
  intros Hw E F.
  replace ($" " ++ boolop_value o ++ $" " ++ rest) with (($" " ++ boolop_value o ++ $" ") ++ rest) in E
    by (rewrite <- !app_assoc; reflexivity).
  apply app_eq_split in E as [(x & E1 & E2)|(x & E1 & E2)].
  - (* w is a prefix of the connective *)
    assert (X : x = [] \/ x = $" " \/ (forall r, follow (x ++ r) -> False)).
    { destruct w as [|c w]; [contradiction|]. clear Hw E2.
      assert (NF : forall y r, y <> [] -> (forall c', hd_error y = Some c' -> c' <> 41%N /\ c' <> 32%N) ->
                follow (y ++ r) -> False).
      { intros y r Hy Hc [G|[(r' & G)|(o' & r' & G)]]; destruct y as [|h y]; try contradiction; cbn in G;
          [discriminate| |]; injection G as -> _; destruct (Hc _ eq_refl); congruence. }
      destruct o; cbn in E1; injection E1 as <- E1.
      + destruct w as [|c1 w]; [right; right; intros r; apply NF; [intros ->; discriminate|]; intros ? G; cbn in E1; subst x; injection G as <-; split; discriminate|].
        injection E1 as <- E1.
        destruct w as [|c1 w]; [right; right; intros r; apply NF; [intros ->; discriminate|]; intros ? G; cbn in E1; subst x; injection G as <-; split; discriminate|].
        injection E1 as <- E1.
        destruct w as [|c1 w]; [right; right; intros r; apply NF; [intros ->; discriminate|]; intros ? G; cbn in E1; subst x; injection G as <-; split; discriminate|].
        injection E1 as <- E1.
        destruct w as [|c1 w]; [right; left; cbn in E1; auto|]. injection E1 as <- E1.
        destruct w; [|discriminate]. cbn in E1. auto.
      + destruct w as [|c1 w]; [right; right; intros r; apply NF; [intros ->; discriminate|]; intros ? G; cbn in E1; subst x; injection G as <-; split; discriminate|].
        injection E1 as <- E1.
        destruct w as [|c1 w]; [right; right; intros r; apply NF; [intros ->; discriminate|]; intros ? G; cbn in E1; subst x; injection G as <-; split; discriminate|].
        injection E1 as <- E1.
        destruct w as [|c1 w]; [right; left; cbn in E1; auto|]. injection E1 as <- E1.
        destruct w; [|discriminate]. cbn in E1. auto. }
    destruct X as [->|[->|X]].
    + exists o, ($" "). rewrite app_nil_r in E1. rewrite <- E1, <- !app_assoc. reflexivity.
    + exists o, []. rewrite <- E1. rewrite app_nil_r. reflexivity.
    + exfalso. apply (X rest). rewrite <- E2. exact F.
  - exists o, (x ++ $" "). rewrite E1, <- !app_assoc. reflexivity.
Qed.
Lemma no_conn_strict t1 w r2 : closed t1 -> closed (t1 ++ w) -> no_connective (t1 ++ w) ->
  w <> [] -> follow (w ++ r2) -> follow r2 -> False.
Proof.
  intros C1 C2 N Hw F1 F2. destruct F1 as [F1|[(r' & F1)|(o & rest & F1)]].
  - apply app_eq_nil in F1 as [-> _]. contradiction.
  - destruct w as [|c w]; [contradiction|]. injection F1 as -> _.
    unfold closed in C2. rewrite run_app, C1 in C2. discriminate.
  - exact (N t1 w eq_refl C1 (conn_prefix _ _ _ _ Hw F1 F2)).
Qed.
Lemma split_unique t1 t2 r1 r2 : closed t1 -> closed t2 -> no_connective t1 -> no_connective t2 ->
  follow r1 -> follow r2 -> t1 ++ r1 = t2 ++ r2 -> t1 = t2 /\ r1 = r2.
Proof.
  intros C1 C2 N1 N2 F1 F2 E. apply app_eq_split in E as [(w & -> & ->)|(w & -> & ->)].
  - destruct w as [|c w]; [rewrite app_nil_r; auto|].
    exfalso. apply (no_conn_strict t1 (c :: w) r2); auto. discriminate.
  - destruct w as [|c w]; [rewrite app_nil_r; auto|].
    exfalso. apply (no_conn_strict t2 (c :: w) r1); auto. discriminate.
Qed.

Lemma sep_closed o : closed ($" " ++ boolop_value o ++ $" ").
Proof. destruct o; reflexivity. Qed.
Lemma sep_inj o o' r r' : $" " ++ boolop_value o ++ $" " ++ r = $" " ++ boolop_value o' ++ $" " ++ r' ->
  o = o' /\ r = r'.
Proof. destruct o, o'; cbn; intros H; injection H as H; try discriminate; auto. Qed.
Lemma node_closed body : closed body -> closed ($"(" ++ body ++ $")").
Proof.
  intros H. unfold closed. rewrite run_app. cbn [run lit]. change (run (O, Plain) ($"(")) with (Some (1%nat, Plain)).
  cbv beta iota. rewrite run_app, (closed_shift body 1 H). reflexivity.
Qed.
Lemma node_no_conn body : closed body -> no_connective ($"(" ++ body ++ $")").
Proof.
  intros H u v E C S. destruct u as [|c u].
  - cbn in E. subst v. destruct S as (o & rest & S). cbn in S. discriminate.
  - destruct v as [|c' v] using rev_ind.
    { destruct S as (o & rest & S). destruct o; discriminate. }
    clear IHv. cbn in E. injection E as <- E. rewrite app_assoc in E. apply app_inj_tail in E as [E _].
    unfold closed in C. cbn [run] in C. change (step (O, Plain) 40%N) with (Some (1%nat, Plain)) in C. cbv beta iota in C.
    unfold closed in H. rewrite E, run_app in H. destruct (run (O, Plain) u) as [[d m]|] eqn:R; [|discriminate].
    apply (run_shift u _ _ _ _ 1) in R. cbn [Nat.add] in R. rewrite R in C.
    injection C as C _. lia.
Qed.

Definition good (s : str) : Prop := closed s /\ no_connective s.
Lemma reads_good : (forall s t, reads s t -> good s) /\ (forall ss ts, reads_all ss ts -> Forall good ss).
Proof.
  assert (H : forall s t (h : reads s t), good s).
  { apply (reads_ind2 (fun s t _ => good s) (fun ss ts _ => Forall good ss)).
    - intros s (C & N & _). split; assumption.
    - intros o ss ts _ _ IH.
      assert (B : closed (join ($" " ++ boolop_value o ++ $" ") ss)).
      { apply closed_join; [apply sep_closed|]. eapply Forall_impl; [|exact IH]. intros a Ha; apply Ha. }
      split; [apply node_closed|apply node_no_conn]; exact B.
    - constructor.
    - intros; constructor; assumption. }
  split; [exact H|]. intros ss ts R. induction R; constructor; eauto.
Qed.

Definition sep (o : boolop) : str := $" " ++ boolop_value o ++ $" ".
Lemma join_cons2 sep x y l : join sep (x :: y :: l) = x ++ sep ++ join sep (y :: l).
Proof. reflexivity. Qed.
Lemma reads_all_length ss ts : reads_all ss ts -> List.length ss = List.length ts.
Proof. intros R. induction R; cbn; congruence. Qed.

(** the list level: parts joined by connectives and followed by [e] *)
Lemma join_unique ss : forall ss' o o' e, Forall good ss -> Forall good ss' ->
  ss <> [] -> ss' <> [] -> (e = [] \/ e = $")") ->
  join (sep o) ss ++ e = join (sep o') ss' ++ e ->
  ss = ss' /\ ((2 <= List.length ss)%nat -> o = o').
Proof.
  induction ss as [|x ss IH]; intros ss' o o' e G G' N N' He E; [contradiction|].
  destruct ss' as [|x' ss']; [contradiction|].
  inversion G as [|? ? [Cx Nx] G1]; subst. inversion G' as [|? ? [Cx' Nx'] G1']; subst.
  assert (Fe : follow e) by (destruct He as [-> | ->]; [left|right; left; exists []]; reflexivity).
  assert (Fs : forall p r, follow (sep p ++ r)).
  { intros p r. right. right. exists p, r. unfold sep. rewrite <- !app_assoc. reflexivity. }
  destruct ss as [|y ss], ss' as [|y' ss'].
  - cbn [join] in E. apply split_unique in E as [-> _]; auto. split; [reflexivity|cbn; lia].
  - rewrite join_cons2, <- !app_assoc in E. cbn [join] in E.
    apply split_unique in E as [_ E]; auto.
    exfalso. destruct He as [-> | ->]; destruct o'; discriminate.
  - rewrite join_cons2, <- !app_assoc in E. cbn [join] in E.
    apply split_unique in E as [_ E]; auto.
    exfalso. destruct He as [-> | ->]; destruct o; discriminate.
  - rewrite !join_cons2, <- !app_assoc in E. apply split_unique in E as [-> E]; auto.
    unfold sep at 1 3 in E. rewrite <- !app_assoc in E. apply sep_inj in E as [-> E].
    apply IH in E as [E _]; auto; try discriminate. rewrite E. auto.
Qed.

Lemma reads_unique : (forall s t, reads s t -> forall t', reads s t' -> t = t').
Proof.
  apply (reads_ind2 (fun s t _ => forall t', reads s t' -> t = t')
           (fun ss ts _ => forall ts', reads_all ss ts' -> ts = ts')).
  - intros s A t' R. inversion R as [? A'|o ss ts L RA]; subst; [reflexivity|].
    exfalso. destruct A as (_ & _ & A). eapply A. reflexivity.
  - intros o ss ts L RA IH t' R. inversion R as [? A'|o' ss' ts' L' RA' E]; subst.
    + exfalso. destruct A' as (_ & _ & A'). eapply A'. reflexivity.
    + change (join (sep o') ss' ++ $")" = join (sep o) ss ++ $")") in E.
      assert (Gs := proj2 reads_good _ _ RA). assert (Gs' := proj2 reads_good _ _ RA').
      assert (Ls := reads_all_length _ _ RA). assert (Ls' := reads_all_length _ _ RA').
      apply (join_unique ss' ss o' o ($")")) in E as [-> EO]; auto.
      * rewrite EO by lia. f_equal. apply IH, RA'.
      * intros ->; cbn in *; lia.
      * intros ->; cbn in *; lia.
  - intros ts' R. inversion R. reflexivity.
  - intros s t ss ts R IH RA IHA ts' R'. inversion R'; subst. f_equal; auto.
Qed.
Lemma reads_all_unique ss ts : reads_all ss ts -> forall ts', reads_all ss ts' -> ts = ts'.
Proof.
  induction 1 as [|s t ss ts R RA IH]; intros ts' R'; inversion R'; subst; [reflexivity|].
  f_equal; [eapply reads_unique; eauto|auto].
Qed.
Lemma reads_list_unique s ts ts' : reads_list s ts -> reads_list s ts' -> ts = ts'.
Proof.
  intros R R'. inversion R as [ss ? N RA]; subst. inversion R' as [ss' ? N' RA' E]; subst.
  change ($" AND ") with (sep AND) in E.
  apply (f_equal (fun x => x ++ [])) in E.
  apply join_unique in E as [-> _]; auto.
  - eapply reads_all_unique; eauto.
  - apply (proj2 reads_good _ _ RA').
  - apply (proj2 reads_good _ _ RA).
Qed.

(** the printer produces text with this structure *)
Section Printer.
Context {RT : PyRT}.
Definition prints (al : bool) (o : obj) (s : str) : Prop := visit false al o = Ok s.

Inductive bool_ok : obj -> Prop :=
| bo_atom l o r : bool_ok (OCond l o r)
| bo_node c o k l : (2 <= List.length l)%nat -> Forall bool_ok l -> bool_ok (OBoolC c o k l).

Lemma print_reads al c : forall s, bool_ok c -> (forall a t, atom_in a c -> prints al a t -> atom_text t) ->
  visit false al c = Ok s -> exists t, shape (prints al) c t /\ reads s t.
Proof.
  induction c using obj_ind'; intros s0 B HA E; try (exfalso; inversion B; fail).
  - exists (Leaf s0). split; [constructor; exact E|]. constructor. eapply HA; [constructor|exact E].
  - inversion B as [|? ? ? ? L BL]; subst. rewrite visit_bool in E.
    apply bind_Ok in E as (ss & E & E'). injection E' as <-.
    assert (X : exists ts, shape_all (prints al) l ts /\ reads_all ss ts /\ List.length ts = List.length l).
    { clear B L. revert ss E. assert (HA' : forall x, In x l -> forall a t, atom_in a x -> prints al a t -> atom_text t).
      { intros x Hx a t Ha Ht. eapply HA; [econstructor; eassumption|exact Ht]. }
      clear HA. induction l as [|x l IHl]; intros ss E; cbn in E.
      - injection E as <-. exists []. repeat constructor.
      - apply bind_Ok in E as (s1 & E1 & E). apply bind_Ok in E as (s2 & E2 & E). injection E as <-.
        inversion H; subst. inversion BL; subst.
        destruct (H2 s1 H4 (HA' x (or_introl eq_refl)) E1) as (t1 & S1 & R1).
        destruct (IHl H3 H5 (fun y Hy => HA' y (or_intror Hy)) s2 E2) as (ts & S2 & R2 & L2).
        exists (t1 :: ts). split; [|split]; [constructor; assumption..|cbn; congruence]. }
    destruct X as (ts & S & R & L2). exists (Node o ts). split; [constructor; exact S|].
    constructor; [lia|exact R].
Qed.
End Printer.
