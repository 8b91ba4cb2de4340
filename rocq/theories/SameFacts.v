(** Facts for C70: equal JSON values come from the same data. *)
From Verif Require Import PyBase PyFacts DateTime Objects Exprs SpecExpr WfFacts Query Metrics MetricsQuery SpecMetricsQuery Request SpecRequest SpecJson JsonFacts SpecSame.
Require Import Permutation Lia.

Section F.
Context {RT : PyRT} {ST : PyStr}.

Lemma plain_ordinary o : plain_data o -> ordinary o.
Proof.
  assert (forall s, Forall scalar_value s -> code_points s) as C.
  { intros s. apply Forall_impl. intros c [|]; unfold scalar_value in *; lia. }
  induction o using obj_ind'; intros P; inversion P; subst; try (constructor; auto; fail).
  - econstructor; eassumption.
  - constructor. rewrite Forall_forall in *. eauto.
  - constructor. rewrite Forall_forall in *. eauto.
  - constructor; auto.
    + eapply Forall_impl; [exact C|assumption].
    + rewrite Forall_forall in *. eauto.
Qed.

Lemma Forall2_swap {A B} (R : A -> B -> Prop) l l' : Forall2 R l l' -> Forall2 (fun b a => R a b) l' l.
Proof. induction 1; constructor; auto. Qed.
Lemma Forall2_combine {A B C D} (R : A -> C -> Prop) (S : B -> D -> Prop) a : forall b c d,
  Forall2 R a c -> Forall2 S b d -> Forall2 (fun p p' => R (fst p) (fst p') /\ S (snd p) (snd p')) (combine a b) (combine c d).
Proof.
  induction a as [|x a IH]; intros b c d H K; inversion H; subst; [constructor|]. destruct b; inversion K; subst; [constructor|].
  cbn. constructor; auto.
Qed.
Lemma Forall2_map_right {A B} (f : A -> B) l : Forall2 (fun a b => b = f a) l (map f l).
Proof. induction l; constructor; auto. Qed.
Lemma Forall_combine {A B} (P : A -> Prop) (Q : B -> Prop) a : forall b, Forall P a -> Forall Q b ->
  Forall (fun p => P (fst p) /\ Q (snd p)) (combine a b).
Proof. induction a as [|x a IH]; intros [|y b] H K; cbn; constructor; inversion H; inversion K; subst; auto. Qed.

Definition same_for (x : obj) : Prop := forall y j, plain_data x -> plain_data y -> is_json x j -> is_json y j -> same_data x y.
Lemma seq_same l : Forall same_for l -> forall l' js, Forall plain_data l -> Forall plain_data l' ->
  Forall2 is_json l js -> Forall2 is_json l' js -> Forall2 same_data l l'.
Proof.
  induction 1 as [|x l X _ IH]; intros l' js P P' J J'; inversion J; subst; inversion J'; subst; [constructor|].
  inversion P; inversion P'; subst. constructor; eauto.
Qed.
Lemma json_same x : same_for x.
Proof.
  assert (forall x y l l' js, sequence_of x l -> sequence_of y l' -> Forall same_for l -> plain_data x -> plain_data y ->
    Forall2 is_json l js -> Forall2 is_json l' js -> same_data x y) as SQ.
  { intros x0 y l l' js X Y S P P' J J'. eapply sd_sequence; eauto. eapply seq_same; eauto.
    - inversion X; subst; inversion P; subst; assumption.
    - inversion Y; subst; inversion P'; subst; assumption. }
  induction x using obj_ind'; intros y j P P' J J'; inversion J; subst; inversion J'; subst;
    try (constructor; fail); try (eapply sd_number; constructor; eassumption || constructor; fail);
    try (eapply SQ; eauto; constructor; fail).
  - inversion P; inversion P'; subst. assert (s = s0) as -> by (apply utf16_inj; auto). constructor.
  - match goal with A : Permutation ms (combine (map utf16 ks) js), B : Permutation ms (combine (map utf16 ks0) js0), L : List.length ks0 = List.length vs0,
      C : Forall2 is_json vs js, D : Forall2 is_json vs0 js0 |- _ => rename A into PA; rename B into PB; rename C into JA; rename D into JB end.
    pose proof (Forall2_combine _ _ _ _ _ _ (Forall2_map_right utf16 ks) JA) as FA.
    pose proof (Forall2_combine _ _ _ _ _ _ (Forall2_map_right utf16 ks0) JB) as FB.
    assert (Permutation (combine (map utf16 ks0) js0) (combine (map utf16 ks) js)) as PP
      by (eapply Permutation_trans; [apply Permutation_sym; exact PB|exact PA]).
    destruct (Permutation_Forall2 PP (Forall2_swap _ _ _ FB)) as (es & PE & FE).
    apply sd_dict with es; auto; [apply Permutation_sym, PE|].
    assert (Forall (fun p => Forall scalar_value (fst p) /\ plain_data (snd p)) es) as SE.
    { eapply Permutation_Forall; [exact PE|]. inversion P'; subst. apply Forall_combine; assumption. }
    assert (Forall (fun p => Forall scalar_value (fst p) /\ plain_data (snd p) /\ same_for (snd p)) (combine ks vs)) as SA.
    { inversion P; subst. eapply Forall_impl; [|apply (Forall_combine (Forall scalar_value) (fun v => plain_data v /\ same_for v)); [eassumption|]].
      - intros p (A & B & C). auto.
      - match goal with A : Forall plain_data vs |- _ => revert A end. clear - H. intros A. rewrite Forall_forall in *. intros x I. split; [apply A, I|apply H, I]. }
    clear - FA FE SE SA. revert es FE SE. induction FA as [|p q l l' (Q1 & Q2) FA IH]; intros es FE SE; inversion FE; subst; [constructor|].
    inversion SE; inversion SA; subst. match goal with X : _ /\ is_json _ _ |- _ => destruct X as (Q3 & Q4) end.
    match goal with X : _ /\ _ /\ same_for _ |- _ => destruct X as (Q5 & Q6 & Q7) end.
    match goal with X : _ /\ plain_data (snd _) |- _ => destruct X as (Q8 & Q9) end.
    constructor; [|apply IH; assumption]. split.
    + apply utf16_inj; auto. congruence.
    + eapply Q7; eauto.
Qed.

Lemma same_str s y : same_data (OStr s) y -> y = OStr s.
Proof. intros H. inversion H as [| |? ? ? ? X| |? ? ? ? X|]; subst; try reflexivity; inversion X. Qed.
Lemma same_bool b y : same_data (OBool b) y -> y = OBool b.
Proof. intros H. inversion H as [| |? ? ? ? X| |? ? ? ? X|]; subst; try reflexivity; inversion X. Qed.
Lemma same_none y : same_data ONone y -> y = ONone.
Proof. intros H. inversion H as [| |? ? ? ? X| |? ? ? ? X|]; subst; try reflexivity; inversion X. Qed.
Lemma same_int z z' : same_data (OInt z) (OInt z') -> z = z'.
Proof.
  intros H. inversion H as [| |? ? ? ? X Y| |? ? ? ? X|]; subst; try reflexivity; inversion X; subst. inversion Y; subst; reflexivity.
Qed.

Lemma entry_In k ks : forall vs v, entry k ks vs v -> In (k, v) (combine ks vs).
Proof.
  induction ks as [|x ks IH]; intros [|y vs] v; cbn; try contradiction. intros [(-> & ->)|(_ & E)]; auto.
Qed.
Lemma In_entry k ks : forall vs v, NoDup ks -> In (k, v) (combine ks vs) -> entry k ks vs v.
Proof.
  induction ks as [|x ks IH]; intros [|y vs] v N; cbn; try contradiction. inversion N; subst.
  intros [E|I]; [injection E as -> ->; auto|]. right. split; [|auto]. intros ->. apply in_combine_l in I. contradiction.
Qed.
Lemma Forall2_In {A B} (R : A -> B -> Prop) l l' x : Forall2 R l l' -> In x l -> exists y, In y l' /\ R x y.
Proof. induction 1 as [|a b l l' X _ IH]; [intros []|]. intros [->|I]; [exists b; cbn; auto|]. destruct (IH I) as (y & Y & R'). exists y. cbn; auto. Qed.

(** looking up in dictionaries with the same data *)
Lemma dict_same d d' k v : same_data d d' -> (forall ks vs, d' = ODict ks vs -> NoDup ks) -> dict_entry d k v ->
  exists v', dict_entry d' k v' /\ same_data v v'.
Proof.
  intros S N (ks & vs & -> & E). inversion S as [| |? ? ? ? X| |? ? ? ? X|]; subst; try (inversion X; fail).
  - apply entry_In in E. match goal with F : Forall2 _ (combine ks vs) es, P : Permutation es _ |- _ => destruct (Forall2_In _ _ _ _ F E) as ((k' & v') & I & K & V); apply (Permutation_in _ P) in I end.
    cbn in K, V. subst k'. exists v'. split; [|exact V]. eexists _, _. split; [reflexivity|]. apply In_entry; [|exact I]. eapply N. reflexivity.
Qed.

(** ** Requests *)
Lemma scalar_b s : forallb (fun c => c <? 55296)%N s = true -> Forall scalar_value s.
Proof. rewrite forallb_forall. intros H. apply Forall_forall. intros c I. left. apply N.ltb_lt, H, I. Qed.
End F.
