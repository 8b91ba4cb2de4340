(** Reading shared expressions (C99, C100). *)
From Verif Require Import PyBase PyFacts DateTime Objects Exprs Hash SpecHash HashFacts Nested SpecNested.

(** * Lists of results *)
Lemma all_some_map {A B} (f g : A -> option B) l : (forall x v, In x l -> f x = Some v -> g x = Some v) ->
  forall vs, all_some (map f l) = Some vs -> all_some (map g l) = Some vs.
Proof.
  induction l as [|x l IH]; intros H vs; cbn; [auto|].
  destruct (f x) as [v|] eqn:E; [|discriminate]. rewrite (H x v (or_introl eq_refl) E).
  destruct (all_some (map f l)) as [r|] eqn:R; [|discriminate]. rewrite (IH (fun y w I => H y w (or_intror I)) r eq_refl). auto.
Qed.
Lemma all_some_in {A B} (f : A -> option B) l vs : all_some (map f l) = Some vs -> forall x, In x l -> exists v, f x = Some v /\ In v vs.
Proof.
  revert vs. induction l as [|y l IH]; intros vs; cbn; [contradiction|].
  destruct (f y) as [v|] eqn:E; [|discriminate]. destruct (all_some (map f l)) as [r|]; [|discriminate].
  intros [= <-] x [<-|I]; [exists v; split; [exact E|left; reflexivity]|].
  destruct (IH r eq_refl x I) as (w & W & J). exists w. split; [exact W|right; exact J].
Qed.

(** * Reading gives the same when the cells are the same *)
Section Same.
Variables (h h' : heap) (G : ref -> obj -> Prop).
Hypothesis same : forall r o c, G r o -> nth_error h r = Some c -> (exists n, read n h r = Some o) -> nth_error h' r = Some c.
Hypothesis parts : forall n r o c x v, G r o -> read (S n) h r = Some o -> nth_error h r = Some c -> In x (refers c) -> read n h x = Some v -> G x v.
Lemma read_same n : forall r o, G r o -> read n h r = Some o -> read n h' r = Some o.
Proof.
  induction n as [|n IH]; intros r o Gr R; [discriminate|]. pose proof R as R0. cbn [read] in R |- *.
  destruct (nth_error h r) as [c|] eqn:C; [|discriminate]. rewrite (same r o c Gr C (ex_intro _ _ R0)).
  assert (P : forall x v, In x (refers c) -> read n h x = Some v -> read n h' x = Some v).
  { intros x v I V. apply IH; [|exact V]. eapply parts; eassumption. }
  destruct c as [v|l|l|f s i p a|k ids b|l op r'|cl op l|e d]; cbn [refers] in P.
  - exact R.
  - destruct (all_some (map (read n h) l)) as [vs|] eqn:E; [|discriminate].
    rewrite (all_some_map (read n h) (read n h') l P vs E). exact R.
  - destruct (all_some (map (read n h) l)) as [vs|] eqn:E; [|discriminate].
    rewrite (all_some_map (read n h) (read n h') l P vs E). exact R.
  - destruct i as [i|].
    + destruct (read n h i) as [vi|] eqn:I; [|discriminate]. destruct (read n h p) as [vp|] eqn:Q; [|discriminate].
      rewrite (P i vi (or_introl eq_refl) I), (P p vp (or_intror (or_introl eq_refl)) Q). exact R.
    + destruct (read n h p) as [vp|] eqn:Q; [|discriminate].
      rewrite (P p vp (or_introl eq_refl) Q). exact R.
  - destruct (read n h b) as [vb|] eqn:B; [|discriminate]. rewrite (P b vb (or_introl eq_refl) B). exact R.
  - destruct (read n h l) as [vl|] eqn:L; [|discriminate]. destruct (read n h r') as [vr|] eqn:Q; [|discriminate].
    rewrite (P l vl (or_introl eq_refl) L), (P r' vr (or_intror (or_introl eq_refl)) Q). exact R.
  - destruct (read n h l) as [vl|] eqn:L; [|discriminate]. rewrite (P l vl (or_introl eq_refl) L). exact R.
  - destruct (read n h e) as [ve|] eqn:E; [|discriminate]. rewrite (P e ve (or_introl eq_refl) E). exact R.
Qed.
End Same.

(** what was read are the parts of the value *)
Lemma read_refers n h r o c : read (S n) h r = Some o -> nth_error h r = Some c -> forall x, In x (refers c) -> exists v, read n h x = Some v.
Proof.
  cbn [read]. intros R C. rewrite C in R. destruct c as [v|l|l|f s i p a|k ids b|l op r'|cl op l|e d]; cbn [refers]; intros x I.
  - contradiction.
  - destruct (all_some (map (read n h) l)) as [vs|] eqn:E; [|discriminate]. destruct (all_some_in _ _ _ E x I) as (v & V & _). eauto.
  - destruct (all_some (map (read n h) l)) as [vs|] eqn:E; [|discriminate]. destruct (all_some_in _ _ _ E x I) as (v & V & _). eauto.
  - destruct i as [i|]; [destruct (read n h i) as [vi|] eqn:J; [|discriminate]|]; destruct (read n h p) as [vp|] eqn:Q; try discriminate.
    + destruct I as [<-|[<-|[]]]; eauto.
    + destruct I as [<-|[]]; eauto.
  - destruct (read n h b) as [vb|] eqn:B; [|discriminate]. destruct I as [<-|[]]; eauto.
  - destruct (read n h l) as [vl|] eqn:L; [|discriminate]. destruct (read n h r') as [vr|] eqn:Q; [|discriminate].
    destruct I as [<-|[<-|[]]]; eauto.
  - destruct (read n h l) as [vl|] eqn:L; [|discriminate]. destruct I as [<-|[]]; eauto.
  - destruct (read n h e) as [ve|] eqn:E; [|discriminate]. destruct I as [<-|[]]; eauto.
Qed.
Lemma field_mutable v k l : field_of v = Some (k, l) -> holds_mutable v -> holds_mutable (held k l).
Proof.
  intros F M. destruct v; try discriminate F; cbn in F; injection F as <- <-; cbn [held]; try exact M;
    inversion M; match goal with P : part _ _ |- _ => inversion P end.
Qed.
Lemma mutable_up n h r o c x v : read (S n) h r = Some o -> nth_error h r = Some c -> In x (refers c) -> read n h x = Some v ->
  holds_mutable v -> holds_mutable o.
Proof.
  cbn [read]. intros R C I V M. rewrite C in R. destruct c as [w|l|l|f s i p a|k ids b|l op r'|cl op l|e d]; cbn [refers] in I.
  - contradiction.
  - destruct (all_some (map (read n h) l)) as [vs|] eqn:E; [|discriminate]. injection R as <-. apply M_list.
  - destruct (all_some (map (read n h) l)) as [vs|] eqn:E; [|discriminate]. injection R as <-.
    destruct (all_some_in _ _ _ E x I) as (w & W & J). rewrite V in W. injection W as <-.
    eapply M_part; [apply P_item, J|exact M].
  - destruct i as [i|].
    + destruct (read n h i) as [vi|] eqn:J; [|discriminate]. destruct (read n h p) as [vp|] eqn:Q; [|discriminate].
      destruct (field_of vi) as [[ik il]|] eqn:F1; [|discriminate]. destruct (field_of vp) as [[pk pl]|] eqn:F2; [|discriminate]. injection R as <-.
      destruct I as [<-|[<-|[]]].
      * rewrite V in J. injection J as <-. eapply M_part; [apply P_inits|eapply field_mutable; eassumption].
      * rewrite V in Q. injection Q as <-. eapply M_part; [apply P_params|eapply field_mutable; eassumption].
    + destruct (read n h p) as [vp|] eqn:Q; [|discriminate]. cbn [field_of] in R.
      destruct (field_of vp) as [[pk pl]|] eqn:F2; [|discriminate]. injection R as <-.
      destruct I as [<-|[]]. rewrite V in Q. injection Q as <-. eapply M_part; [apply P_params|eapply field_mutable; eassumption].
  - destruct (read n h b) as [vb|] eqn:B; [|discriminate]. injection R as <-. destruct I as [<-|[]].
    rewrite V in B. injection B as <-. eapply M_part; [apply P_body|exact M].
  - destruct (read n h l) as [vl|] eqn:L; [|discriminate]. destruct (read n h r') as [vr|] eqn:Q; [|discriminate]. injection R as <-.
    destruct I as [<-|[<-|[]]].
    + rewrite V in L. injection L as <-. eapply M_part; [apply P_lhs|exact M].
    + rewrite V in Q. injection Q as <-. eapply M_part; [apply P_rhs|exact M].
  - destruct (read n h l) as [vl|] eqn:L; [|discriminate]. destruct (as_list_or_tuple vl) as [[k ol]|] eqn:F; [|discriminate]. injection R as <-.
    destruct I as [<-|[]]. rewrite V in L. injection L as <-. eapply M_part; [apply P_conds|].
    destruct v; try discriminate F; cbn in F; injection F as <- <-; exact M.
  - destruct (read n h e) as [ve|] eqn:E; [|discriminate]. injection R as <-. destruct I as [<-|[]].
    rewrite V in E. injection E as <-. eapply M_part; [apply P_exp|exact M].
Qed.

(** * One call *)
Lemma put_other h r c x : x <> r -> nth_error (put h r c) x = nth_error h x.
Proof. revert r x. induction h as [|y h IH]; intros [|r] [|x] N; cbn; try reflexivity; try congruence. apply IH. congruence. Qed.
Lemma put_here h r c d : nth_error h r = Some d -> nth_error (put h r c) r = Some c.
Proof. revert r. induction h as [|y h IH]; intros [|r]; cbn; try discriminate; auto. Qed.
Lemma put_length h r c : List.length (put h r c) = List.length h.
Proof. revert r. induction h as [|y h IH]; intros [|r]; cbn; auto. Qed.

Section R.
Context {RT : PyRT}.

Lemma step_cell n h c r x : nth_error h r = Some x -> changes c <> Some r -> nth_error (step n h c) r = Some x.
Proof.
  intros X N. unfold step. destruct c; try (match goal with |- context [make ?n ?h ?c] => destruct (make n h c) as [[y|]|]; [|exact X|exact X] end;
    rewrite nth_error_app1; [exact X|apply nth_error_Some; congruence]).
  destruct (nth_error h l) as [[]|] eqn:L; try exact X. rewrite put_other; [exact X|]. intros ->. apply N. reflexivity.
Qed.
Lemma step_nonlist n h c r x : nth_error h r = Some x -> (forall l, x <> CList l) -> nth_error (step n h c) r = Some x.
Proof.
  intros X N. unfold step. destruct c; try (match goal with |- context [make ?n ?h ?c] => destruct (make n h c) as [[y|]|]; [|exact X|exact X] end;
    rewrite nth_error_app1; [exact X|apply nth_error_Some; congruence]).
  destruct (nth_error h l) as [[]|] eqn:L; try exact X. rewrite put_other; [exact X|]. intros ->. rewrite X in L. injection L as ->. eapply N. reflexivity.
Qed.
(** values without lists stay *)
Lemma step_hashable n m h c r o : ~ holds_mutable o -> read m h r = Some o -> read m (step n h c) r = Some o.
Proof.
  apply (read_same h (step n h c) (fun _ o => ~ holds_mutable o)).
  - intros r' o' x M X (k & R). apply step_nonlist; [exact X|]. intros l ->. apply M. destruct k; [discriminate|]. cbn [read] in R.
    rewrite X in R. destruct (all_some _); [|discriminate]. injection R as <-. apply M_list.
  - intros k r' o' x y v M R X I V W. apply M. eapply mutable_up; eassumption.
Qed.
Lemma run_hashable n m cs : forall h r o, ~ holds_mutable o -> read m h r = Some o -> read m (run n h cs) r = Some o.
Proof.
  induction cs as [|c cs IH]; intros h r o M R; [exact R|]. cbn. apply IH; [exact M|]. apply step_hashable; assumption.
Qed.

(** values whose lists are not changed stay *)
Lemma step_unreached n m h c r o : (forall l, changes c = Some l -> ~ reaches h r l) -> read m h r = Some o -> read m (step n h c) r = Some o.
Proof.
  apply (read_same h (step n h c) (fun r _ => forall l, changes c = Some l -> ~ reaches h r l)).
  - intros r' o' x U X _. apply step_cell; [exact X|]. intros E. apply (U _ E), R_self.
  - intros k r' o' x y v U R X I V l E W. apply (U l E). eapply R_step; eassumption.
Qed.
Lemma read_valid n : forall h r o, read n h r = Some o -> forall x, reaches h r x -> exists c, nth_error h x = Some c.
Proof.
  induction n as [|n IH]; intros h r o R x W; [discriminate|]. destruct W as [a|a c b y C I W].
  - cbn [read] in R. destruct (nth_error h a) as [c|]; [eauto|discriminate].
  - destruct (read_refers n h a o c R C y I) as (v & V). exact (IH h y v V b W).
Qed.
Lemma reaches_back n h c r l : (forall x, reaches h r x -> exists d, nth_error h x = Some d) ->
  (forall l, changes c = Some l -> ~ reaches h r l) -> reaches (step n h c) r l -> reaches h r l.
Proof.
  intros V U W. revert V U. induction W as [a|a d b x C I W IH]; intros V U; [apply R_self|].
  destruct (V a (R_self h a)) as (d' & D'). assert (S : nth_error (step n h c) a = Some d').
  { apply step_cell; [exact D'|]. intros E. apply (U _ E), R_self. }
  rewrite C in S. injection S as <-. eapply R_step; [exact D'|exact I|]. apply IH.
  - intros y Y. apply V. eapply R_step; eassumption.
  - intros l' E Y. apply (U l' E). eapply R_step; eassumption.
Qed.
Lemma run_unreached n m cs : forall h r o, (forall c l, In c cs -> changes c = Some l -> ~ reaches h r l) ->
  read m h r = Some o -> read m (run n h cs) r = Some o.
Proof.
  induction cs as [|c cs IH]; intros h r o U R; [exact R|]. cbn. apply IH.
  - intros d l I E W. apply (U d l (or_intror I) E). eapply reaches_back; [|intros l' E'; apply (U c l' (or_introl eq_refl) E')|exact W].
    intros x X. eapply read_valid; eassumption.
  - apply step_unreached; [|exact R]. intros l E. apply (U c l (or_introl eq_refl) E).
Qed.

(** * What a constructor makes *)
Lemma read_more n : forall h r o, read n h r = Some o -> read (S n) h r = Some o.
Proof.
  induction n as [|n IH]; intros h r o R; [discriminate|]. cbn [read] in R. remember (S n) as k. cbn [read].
  destruct (nth_error h r) as [c|]; [|discriminate]. subst k.
  destruct c as [v|l|l|f s i p a|k ids b|l op r'|cl op l|e d].
  - exact R.
  - destruct (all_some (map (read n h) l)) as [vs|] eqn:E; [|discriminate].
    rewrite (all_some_map (read n h) (read (S n) h) l (fun x v _ => IH h x v) vs E). exact R.
  - destruct (all_some (map (read n h) l)) as [vs|] eqn:E; [|discriminate].
    rewrite (all_some_map (read n h) (read (S n) h) l (fun x v _ => IH h x v) vs E). exact R.
  - destruct i as [i|].
    + destruct (read n h i) as [vi|] eqn:I; [|discriminate]. destruct (read n h p) as [vp|] eqn:Q; [|discriminate].
      rewrite (IH _ _ _ I), (IH _ _ _ Q). exact R.
    + destruct (read n h p) as [vp|] eqn:Q; [|discriminate]. rewrite (IH _ _ _ Q). exact R.
  - destruct (read n h b) as [vb|] eqn:B; [|discriminate]. rewrite (IH _ _ _ B). exact R.
  - destruct (read n h l) as [vl|] eqn:L; [|discriminate]. destruct (read n h r') as [vr|] eqn:Q; [|discriminate].
    rewrite (IH _ _ _ L), (IH _ _ _ Q). exact R.
  - destruct (read n h l) as [vl|] eqn:L; [|discriminate]. rewrite (IH _ _ _ L). exact R.
  - destruct (read n h e) as [ve|] eqn:E; [|discriminate]. rewrite (IH _ _ _ E). exact R.
Qed.
Lemma read_grown n h x r o : read n h r = Some o -> read n (h ++ [x]) r = Some o.
Proof.
  apply (read_same h (h ++ [x]) (fun _ _ => True)); auto. intros r' o' c _ C _. rewrite nth_error_app1; [exact C|]. apply nth_error_Some. congruence.
Qed.
Lemma nth_end {A} (h : list A) x : nth_error (h ++ [x]) (List.length h) = Some x.
Proof. rewrite nth_error_app2, Nat.sub_diag by lia. reflexivity. Qed.
Lemma as_seq_field v k l : check_inits v = Ok (k, l) -> field_of v = Some (k, l).
Proof. destruct v; cbn; try discriminate; try congruence; destruct (forallb _ _); congruence. Qed.
Lemma params_field v k l : check_params v = Ok (k, l) -> field_of v = Some (k, l).
Proof. destruct v; cbn; try discriminate; try congruence; destruct (check_param_items _); cbn; congruence. Qed.
Lemma func_fields f n i p a o : mk_func f n i p a = Ok o -> exists s ik il pk pl al, o = OFunc f s ik il pk pl al
  /\ field_of i = Some (ik, il) /\ field_of p = Some (pk, pl).
Proof.
  unfold mk_func. destruct (check_function_name n) as [s|]; cbn; [|discriminate].
  destruct (check_inits i) as [[ik il]|] eqn:I; cbn; [|discriminate]. destruct (check_alias a _) as [al|]; cbn; [|discriminate].
  destruct (check_params p) as [[pk pl]|] eqn:P; cbn; [|discriminate]. intros [= <-].
  exists s, ik, il, pk, pl, al. split; [reflexivity|]. split; [apply as_seq_field, I|apply params_field, P].
Qed.
Lemma make_ok n h c vs o : changes c = None -> all_some (map (read n h) (arguments c)) = Some vs -> made c vs = Ok o ->
  exists x, step n h c = h ++ [x] /\ read (S n) (h ++ [x]) (List.length h) = Some o.
Proof.
  intros N A M.
  assert (K : forall x, make n h c = Some (Ok x) -> step n h c = h ++ [x]).
  { intros x E. destruct c; try discriminate N; unfold step; rewrite E; reflexivity. }
  assert (G : forall x r v, read n h r = Some v -> read n (h ++ [x]) r = Some v) by (intros; apply read_grown; assumption).
  destruct c as [v|l|l|a1 a2 a3|a1 a2 a3 a4|a1 a2|a1 a2 a3|cl a1 a2|a1 a2|]; try discriminate N; cbn [arguments] in A.
  - cbn in A. injection A as <-. injection M as <-. eexists. split; [apply K; reflexivity|]. cbn [read]. rewrite nth_end. reflexivity.
  - injection M as <-. eexists. split; [apply K; reflexivity|]. cbn [read]. rewrite nth_end.
    rewrite (all_some_map _ _ l (fun x v _ => G (CList l) x v) vs A). reflexivity.
  - injection M as <-. eexists. split; [apply K; reflexivity|]. cbn [read]. rewrite nth_end.
    rewrite (all_some_map _ _ l (fun x v _ => G (CTuple l) x v) vs A). reflexivity.
  - cbn [map all_some] in A. destruct (read n h a1) as [v1|] eqn:R1; [|discriminate]. destruct (read n h a2) as [v2|] eqn:R2; [|discriminate].
    destruct (read n h a3) as [v3|] eqn:R3; [|discriminate]. injection A as <-. cbn [made] in M.
    destruct (func_fields _ _ _ _ _ _ M) as (s & ik & il & pk & pl & al & -> & F1 & F2). cbn [field_of] in F1. injection F1 as <- <-.
    eexists. split; [apply K; cbn [make]; rewrite R1, R2, R3, M; reflexivity|].
    cbn [read]. rewrite nth_end. rewrite (G _ _ _ R2), F2. reflexivity.
  - cbn [map all_some] in A. destruct (read n h a1) as [v1|] eqn:R1; [|discriminate]. destruct (read n h a2) as [v2|] eqn:R2; [|discriminate].
    destruct (read n h a3) as [v3|] eqn:R3; [|discriminate]. destruct (read n h a4) as [v4|] eqn:R4; [|discriminate]. injection A as <-. cbn [made] in M.
    destruct (func_fields _ _ _ _ _ _ M) as (s & ik & il & pk & pl & al & -> & F1 & F2).
    eexists. split; [apply K; cbn [make]; rewrite R1, R2, R3, R4, M; reflexivity|].
    cbn [read]. rewrite nth_end. rewrite (G _ _ _ R2), (G _ _ _ R3), F1, F2. reflexivity.
  - cbn [map all_some] in A. destruct (read n h a1) as [v1|] eqn:R1; [|discriminate]. destruct (read n h a2) as [v2|] eqn:R2; [|discriminate].
    injection A as <-. cbn [made] in M. pose proof M as M'. unfold mk_lambda in M'. destruct (as_list_or_tuple v1) as [[k l]|]; [|discriminate].
    destruct (check_idents l) as [ids|]; cbn in M'; [|discriminate]. destruct (is_func v2); [|discriminate]. injection M' as <-.
    eexists. split; [apply K; cbn [make]; rewrite R1, R2, M; reflexivity|]. cbn [read]. rewrite nth_end. rewrite (G _ _ _ R2). reflexivity.
  - cbn [map all_some] in A. destruct (read n h a1) as [v1|] eqn:R1; [|discriminate]. destruct (read n h a2) as [v2|] eqn:R2; [|discriminate].
    destruct (read n h a3) as [v3|] eqn:R3; [|discriminate]. injection A as <-. cbn [made] in M.
    pose proof M as M'. unfold mk_condition in M'. destruct (negb (is_col_or_func v1)); [discriminate|].
    destruct v2; try discriminate M'. destruct (check_condition v1 o0 v3); cbn in M'; [|discriminate]. injection M' as <-.
    eexists. split; [apply K; cbn [make]; rewrite R1, R2, R3, M; reflexivity|]. cbn [read]. rewrite nth_end. rewrite (G _ _ _ R1), (G _ _ _ R3). reflexivity.
  - cbn [map all_some] in A. destruct (read n h a1) as [v1|] eqn:R1; [|discriminate]. destruct (read n h a2) as [v2|] eqn:R2; [|discriminate].
    injection A as <-.
    assert (B : exists bo, mk_boolean cl (OBoolOp bo) v2 = Ok o).
    { destruct cl; cbn [made] in M; [|exists AND; exact M|exists OR; exact M]. unfold mk_boolean_condition, mk_boolean in M.
      destruct v1; try discriminate M. eexists. exact M. }
    destruct B as (bo & B). pose proof B as B'. unfold mk_boolean in B'. destruct (as_list_or_tuple v2) as [[k l]|] eqn:L; [|discriminate].
    destruct (check_bool_items l); cbn in B'; [|discriminate]. injection B' as <-.
    eexists. split; [apply K; cbn [make]; rewrite R1, R2; destruct cl; cbn [made] in M; rewrite M; reflexivity|].
    cbn [read]. rewrite nth_end. rewrite (G _ _ _ R2), L. reflexivity.
  - cbn [map all_some] in A. destruct (read n h a1) as [v1|] eqn:R1; [|discriminate]. destruct (read n h a2) as [v2|] eqn:R2; [|discriminate].
    injection A as <-. cbn [made] in M. pose proof M as M'. unfold mk_orderby in M'. destruct (negb (is_col_or_func v1)); [discriminate|].
    destruct v2; try discriminate M'. injection M' as <-.
    eexists. split; [apply K; cbn [make]; rewrite R1, R2, M; reflexivity|]. cbn [read]. rewrite nth_end. rewrite (G _ _ _ R1). reflexivity.
Qed.
Lemma make_raise n h c vs e : changes c = None -> all_some (map (read n h) (arguments c)) = Some vs -> made c vs = Raise e ->
  step n h c = h.
Proof.
  intros N A M. destruct c as [v|l|l|a1 a2 a3|a1 a2 a3 a4|a1 a2|a1 a2 a3|cl a1 a2|a1 a2|]; try discriminate N; cbn [arguments] in A; unfold step;
    try (cbn in M; discriminate).
  - cbn in A. injection A as <-. discriminate.
  - cbn [map all_some] in A. destruct (read n h a1) as [v1|] eqn:R1; [|discriminate]. destruct (read n h a2) as [v2|] eqn:R2; [|discriminate].
    destruct (read n h a3) as [v3|] eqn:R3; [|discriminate]. injection A as <-. cbn [made] in M. cbn [make]. rewrite R1, R2, R3, M. reflexivity.
  - cbn [map all_some] in A. destruct (read n h a1) as [v1|] eqn:R1; [|discriminate]. destruct (read n h a2) as [v2|] eqn:R2; [|discriminate].
    destruct (read n h a3) as [v3|] eqn:R3; [|discriminate]. destruct (read n h a4) as [v4|] eqn:R4; [|discriminate]. injection A as <-. cbn [made] in M. cbn [make]. rewrite R1, R2, R3, R4, M. reflexivity.
  - cbn [map all_some] in A. destruct (read n h a1) as [v1|] eqn:R1; [|discriminate]. destruct (read n h a2) as [v2|] eqn:R2; [|discriminate].
    injection A as <-. cbn [made] in M. cbn [make]. rewrite R1, R2, M. reflexivity.
  - cbn [map all_some] in A. destruct (read n h a1) as [v1|] eqn:R1; [|discriminate]. destruct (read n h a2) as [v2|] eqn:R2; [|discriminate].
    destruct (read n h a3) as [v3|] eqn:R3; [|discriminate]. injection A as <-. cbn [made] in M. cbn [make]. rewrite R1, R2, R3, M. reflexivity.
  - cbn [map all_some] in A. destruct (read n h a1) as [v1|] eqn:R1; [|discriminate]. destruct (read n h a2) as [v2|] eqn:R2; [|discriminate].
    injection A as <-. cbn [make]. rewrite R1, R2. destruct cl; cbn [made] in M; rewrite M; reflexivity.
  - cbn [map all_some] in A. destruct (read n h a1) as [v1|] eqn:R1; [|discriminate]. destruct (read n h a2) as [v2|] eqn:R2; [|discriminate].
    injection A as <-. cbn [made] in M. cbn [make]. rewrite R1, R2, M. reflexivity.
Qed.
End R.

(** * What is made of things without lists is without lists *)
Lemma hashed o x : py_hash (HA:=sum_hash) o = Ok x -> ~ holds_mutable o.
Proof. intros E. apply (mutable_iff (HA:=sum_hash)). eauto. Qed.
Lemma field_held v k l : field_of v = Some (k, l) -> ~ holds_mutable v -> ~ holds_mutable (held k l).
Proof.
  intros F N M. destruct v; try discriminate F; cbn in F; injection F as <- <-; cbn [held] in M; try (apply N; exact M).
  - inversion M; subst. match goal with P : part _ _ |- _ => inversion P; subst end.
    match goal with P : In _ (map _ _) |- _ => apply in_map_iff in P as (y & <- & _) end.
    match goal with K : holds_mutable (OStr _) |- _ => revert K end. eapply hashed. reflexivity.
  - inversion M; subst. match goal with P : part _ _ |- _ => inversion P; subst end.
    match goal with P : In _ (map _ _) |- _ => apply in_map_iff in P as (y & <- & _) end.
    match goal with K : holds_mutable (OInt _) |- _ => revert K end. eapply hashed. reflexivity.
Qed.
Lemma made_hashable {RT : PyRT} c vs o : made c vs = Ok o -> match c with Value _ | NewList _ => False | _ => True end ->
  (forall v, In v vs -> ~ holds_mutable v) -> ~ holds_mutable o.
Proof.
  intros M C V H. destruct c as [v|l|l|a1 a2 a3|a1 a2 a3 a4|a1 a2|a1 a2 a3|cl a1 a2|a1 a2|]; try contradiction; cbn [made] in M.
  - injection M as <-. inversion H; subst. match goal with P : part _ _ |- _ => inversion P; subst end. eapply V; eassumption.
  - destruct vs as [|v1 [|v2 [|v3 [|]]]]; try discriminate M. destruct (func_fields _ _ _ _ _ _ M) as (s & ik & il & pk & pl & al & -> & F1 & F2).
    cbn [field_of] in F1. injection F1 as <- <-. inversion H; subst. match goal with P : part _ _ |- _ => inversion P; subst end.
    + match goal with K : holds_mutable _, P : part _ _ |- _ => clear P; revert K end. eapply hashed. reflexivity.
    + eapply (field_held v2); try eassumption. apply V. right. left. reflexivity.
  - destruct vs as [|v1 [|v2 [|v3 [|v4 [|]]]]]; try discriminate M. destruct (func_fields _ _ _ _ _ _ M) as (s & ik & il & pk & pl & al & -> & F1 & F2).
    inversion H; subst. match goal with P : part _ _ |- _ => inversion P; subst end.
    + eapply (field_held v2); try eassumption. apply V. right. left. reflexivity.
    + eapply (field_held v3); try eassumption. apply V. right. right. left. reflexivity.
  - destruct vs as [|v1 [|v2 [|]]]; try discriminate M. unfold mk_lambda in M. destruct (as_list_or_tuple v1) as [[k l]|] eqn:L; [|discriminate].
    destruct (check_idents l) as [ids|]; cbn in M; [|discriminate]. destruct (is_func v2); [|discriminate]. injection M as <-.
    inversion H; subst. match goal with P : part _ _ |- _ => inversion P; subst end.
    + destruct v1; try discriminate L; cbn in L; injection L as <- <-.
      * apply (V _ (or_introl eq_refl)). apply M_list.
      * match goal with K : holds_mutable (held KTuple _) |- _ => revert K end. eapply hashed. cbn [held]. rewrite hash_tuple, hash_strs. reflexivity.
    + eapply V; [|eassumption]. right. left. reflexivity.
  - destruct vs as [|v1 [|v2 [|v3 [|]]]]; try discriminate M. unfold mk_condition in M. destruct (negb (is_col_or_func v1)); [discriminate|].
    destruct v2; try discriminate M. destruct (check_condition v1 o0 v3); cbn in M; [|discriminate]. injection M as <-.
    inversion H; subst. match goal with P : part _ _ |- _ => inversion P; subst end; (eapply V; [|eassumption]); [left|right; right; left]; reflexivity.
  - destruct vs as [|v1 [|v2 [|]]]; try (destruct cl; discriminate M).
    assert (B : exists bo, mk_boolean cl (OBoolOp bo) v2 = Ok o).
    { destruct cl; [|exists AND; exact M|exists OR; exact M]. unfold mk_boolean_condition, mk_boolean in M.
      destruct v1; try discriminate M. eexists. exact M. }
    destruct B as (bo & B). unfold mk_boolean in B. destruct (as_list_or_tuple v2) as [[k l]|] eqn:L; [|discriminate].
    destruct (check_bool_items l); cbn in B; [|discriminate]. injection B as <-.
    inversion H; subst. match goal with P : part _ _ |- _ => inversion P; subst end.
    apply (V v2 (or_intror (or_introl eq_refl))). destruct v2; try discriminate L; cbn in L; injection L as <- <-; assumption.
  - destruct vs as [|v1 [|v2 [|]]]; try discriminate M. unfold mk_orderby in M. destruct (negb (is_col_or_func v1)); [discriminate|].
    destruct v2; try discriminate M. injection M as <-. inversion H; subst. match goal with P : part _ _ |- _ => inversion P; subst end.
    eapply V; [|eassumption]. left. reflexivity.
  - discriminate.
Qed.
