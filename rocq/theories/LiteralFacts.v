(** Printed SnQL values identify the value (C13). *)
From Verif Require Import PyBase PyFacts Utf8 Objects Exprs Translate SpecExpr ExprFacts SpecText TextFacts.

Lemma digits_split x y r r' : is_dec x -> is_dec y -> ends_number r -> ends_number r' ->
  x ++ r = y ++ r' -> x = y /\ r = r'.
Proof.
  unfold is_dec. revert y. induction x as [|a x IH]; intros y Hx Hy Hr Hr' E.
  - destruct y as [|b y]; [auto|]. cbn in E. subst r. inversion Hy; subst.
    cbn in Hr. apply is_digit_range in H1. lia.
  - destruct y as [|b y].
    + cbn in E. subst r'. inversion Hx; subst. cbn in Hr'. apply is_digit_range in H1. lia.
    + cbn in E. injection E as -> E. inversion Hx; subst. inversion Hy; subst.
      destruct (IH y) as [-> ->]; auto.
Qed.
Lemma dec_of_Z_cases z : (exists n, dec_of_Z z = dec_of_N n /\ z = Z.of_N n)
  \/ (exists p, dec_of_Z z = 45%N :: dec_of_N (Npos p) /\ z = Zneg p).
Proof.
  destruct z as [|p|p]; [left; exists 0%N; auto|left; exists (Npos p); auto|right; exists p; auto].
Qed.
Lemma dec_head n : exists c t, dec_of_N n = c :: t /\ (48 <= c <= 57)%N.
Proof.
  pose proof (dec_of_N_nonempty n) as H. pose proof (dec_of_N_digits n) as D. unfold is_dec in D.
  destruct (dec_of_N n) as [|c t]; [congruence|]. inversion D; subst.
  exists c, t. split; [reflexivity|apply is_digit_range; assumption].
Qed.
Lemma dec_of_Z_split z z' r r' : ends_number r -> ends_number r' ->
  dec_of_Z z ++ r = dec_of_Z z' ++ r' -> z = z' /\ r = r'.
Proof.
  intros Hr Hr' E.
  destruct (dec_of_Z_cases z) as [(n & E1 & ->)|(p & E1 & ->)];
  destruct (dec_of_Z_cases z') as [(n' & E2 & ->)|(p' & E2 & ->)]; rewrite E1, E2 in E.
  - apply digits_split in E as [E ->]; auto using dec_of_N_digits.
    apply dec_of_N_inj in E. subst. auto.
  - destruct (dec_head n) as (c & t & Ec & Hc). rewrite Ec in E. cbn in E. injection E as E _. subst. lia.
  - destruct (dec_head n') as (c & t & Ec & Hc). rewrite Ec in E. cbn in E. injection E as E _. subst. lia.
  - cbn [app] in E. injection E as E. apply digits_split in E as [E ->]; auto using dec_of_N_digits.
    apply dec_of_N_inj in E. injection E as ->. auto.
Qed.

Lemma Ok_inj {A} (a b : A) : Ok a = Ok b -> a = b.
Proof. congruence. Qed.

Section Values.
Context {RT : PyRT}.

(** the head character of a printed plain value, with what it says about the value *)
Definition head_ok (v : obj) (t : str) : Prop :=
  exists c t', t = c :: t' /\
  match v with
  | ONone => c = 78%N | OBool true => c = 84%N | OBool false => c = 70%N
  | OInt _ => (48 <= c <= 57)%N \/ c = 45%N
  | OStr _ => c = 39%N
  | OList _ => c = 97%N | OTuple _ => c = 116%N
  | _ => False
  end.
Lemma plain_head al v t : plain_value v -> visit false al v = Ok t -> head_ok v t.
Proof.
  intros P H. unfold head_ok. destruct P.
  - injection H as <-. eexists _, _; split; reflexivity.
  - destruct b; injection H as <-; eexists _, _; split; reflexivity.
  - cbn in H. injection H as <-.
    destruct (dec_of_Z_cases z) as [(n & E1 & _)|(p & E1 & _)]; rewrite E1.
    + destruct (dec_head n) as (c & t & Ec & Hc). rewrite Ec. eauto 6.
    + eauto 6.
  - injection H as <-. eexists _, _; split; reflexivity.
  - rewrite visit_list in H. apply bind_Ok in H as (u & _ & H). apply bind_Ok in H as (s & _ & H).
    injection H as <-. eexists _, _; split; reflexivity.
  - rewrite visit_tuple in H. apply bind_Ok in H as (u & _ & H). apply bind_Ok in H as (s & _ & H).
    injection H as <-. eexists _, _; split; reflexivity.
Qed.
Lemma head_char v t : head_ok v t -> exists c t', t = c :: t' /\ c <> 41%N /\ c <> 44%N.
Proof.
  intros (c & t' & -> & H). exists c, t'. split; [reflexivity|].
  destruct v as [|[] | | | | | | | | | | | | | | | | | | | | | | | | | | | | | | | |]; try (exfalso; exact H); lia.
Qed.

Definition value_det (al : bool) (v : obj) : Prop := forall v' t t' r r',
  plain_value v -> plain_value v' -> visit false al v = Ok t -> visit false al v' = Ok t' ->
  ends_number r -> ends_number r' -> t ++ r = t' ++ r' -> v = v' /\ r = r'.

Lemma list_det al l : Forall (value_det al) l -> forall l' ts ts' r r',
  Forall plain_value l -> Forall plain_value l' ->
  mapM (visit false al) l = Ok ts -> mapM (visit false al) l' = Ok ts' ->
  join ($", ") ts ++ $")" ++ r = join ($", ") ts' ++ $")" ++ r' -> l = l' /\ r = r'.
Proof.
  assert (comma : forall s, ends_number ($", " ++ s)) by (intros s; cbn; lia).
  assert (close : forall s, ends_number ($")" ++ s)) by (intros s; cbn; lia).
  intros D. induction D as [|v l Dv D IH]; intros l' ts ts' r r' P P' M M' E.
  - injection M as <-. destruct l' as [|v' l']; cbn in M'.
    + injection M' as <-. cbn in E. injection E as ->. auto.
    + apply bind_Ok in M' as (s' & H' & M'). apply bind_Ok in M' as (ss' & _ & M'). injection M' as <-.
      inversion P'; subst. destruct (head_char _ _ (plain_head _ _ _ H1 H')) as (c & u & -> & Hc & _).
      destruct ss'; cbn in E; injection E as E _; congruence.
  - cbn in M. apply bind_Ok in M as (s & H & M). apply bind_Ok in M as (ss & M0 & M). injection M as <-.
    inversion P; subst.
    destruct l' as [|v' l']; cbn in M'.
    { injection M' as <-. destruct (head_char _ _ (plain_head _ _ _ H2 H)) as (c & u & -> & Hc & _).
      destruct ss; cbn in E; injection E as E _; congruence. }
    apply bind_Ok in M' as (s' & H' & M'). apply bind_Ok in M' as (ss' & M0' & M'). injection M' as <-.
    inversion P'; subst.
    assert (J : forall s ss q, join ($", ") (s :: ss) ++ q =
              s ++ match ss with [] => q | _ => $", " ++ join ($", ") ss ++ q end).
    { intros s0 ss0 q. destruct ss0; [reflexivity|]. cbn [join]. rewrite !app_assoc. reflexivity. }
    rewrite !J in E.
    assert (E2 : v = v' /\ match ss with [] => $")" ++ r | _ => $", " ++ join ($", ") ss ++ $")" ++ r end
               = match ss' with [] => $")" ++ r' | _ => $", " ++ join ($", ") ss' ++ $")" ++ r' end).
    { refine (Dv v' s s' _ _ H2 H4 H H' _ _ E).
      - destruct ss; auto.
      - destruct ss'; auto. }
    destruct E2 as [-> E2].
    assert (E3 : l = l' /\ r = r').
    { destruct ss as [|x ss], ss' as [|x' ss'].
      - cbn in E2. injection E2 as ->.
        destruct l; [|cbn in M0; apply bind_Ok in M0 as (? & _ & M0); apply bind_Ok in M0 as (? & _ & M0); discriminate].
        destruct l'; [|cbn in M0'; apply bind_Ok in M0' as (? & _ & M0'); apply bind_Ok in M0' as (? & _ & M0'); discriminate].
        auto.
      - discriminate E2.
      - discriminate E2.
      - apply app_inv_head in E2. exact (IH l' _ _ r r' H3 H5 M0 M0' E2). }
    destruct E3 as [-> ->]. auto.
Qed.

Lemma value_det_all al v : value_det al v.
Proof.
  induction v using obj_ind'; intros v' tt1 tt2 rr rr' P P' V V' Hr Hr' E;
    try (exfalso; inversion P; fail).
  all: destruct (plain_head _ _ _ P V) as (c1 & u1 & E1 & Hc);
       destruct (plain_head _ _ _ P' V') as (c2 & u2 & E2 & Hc');
       assert (Ec : c1 = c2) by (rewrite E1, E2 in E; cbn in E; congruence); subst c2; clear E1 E2.
  - destruct v' as [|[] | | | | | | | | | | | | | | | | | | | | | | | | | | | | | | | |];
      try (exfalso; exact Hc'); try (exfalso; lia).
    apply Ok_inj in V, V'; subst tt1 tt2. apply app_inv_head in E. auto.
  - destruct b; destruct v' as [|[] | | | | | | | | | | | | | | | | | | | | | | | | | | | | | | | |];
      try (exfalso; exact Hc'); try (exfalso; lia);
      apply Ok_inj in V, V'; subst tt1 tt2; apply app_inv_head in E; auto.
  - destruct v' as [|[] | | | | | | | | | | | | | | | | | | | | | | | | | | | | | | | |];
      try (exfalso; exact Hc'); try (exfalso; lia).
    apply Ok_inj in V, V'; subst tt1 tt2. apply dec_of_Z_split in E as [-> ->]; auto.
  - destruct v' as [|[] | | | | | | | | | | | | | | | | | | | | | | | | | | | | | | | |];
      try (exfalso; exact Hc'); try (exfalso; lia).
    apply Ok_inj in V, V'; subst tt1 tt2. apply quoted_inj in E as [-> ->]. auto.
  - destruct v' as [|[] | | | | | | | | | | | | | | | | | | | | | | | | | | | | | | | |];
      try (exfalso; exact Hc'); try (exfalso; lia).
    rewrite visit_list in V, V'. apply bind_Ok in V as (x & _ & V). apply bind_Ok in V as (ss & M & V).
    apply bind_Ok in V' as (x' & _ & V'). apply bind_Ok in V' as (ss' & M' & V').
    apply Ok_inj in V, V'; subst tt1 tt2.
    rewrite <- !app_assoc in E. apply app_inv_head in E.
    inversion P; subst. inversion P'; subst.
    destruct (list_det al l H _ _ _ _ _ H1 H2 M M' E) as [-> ->]. auto.
  - destruct v' as [|[] | | | | | | | | | | | | | | | | | | | | | | | | | | | | | | | |];
      try (exfalso; exact Hc'); try (exfalso; lia).
    rewrite visit_tuple in V, V'. apply bind_Ok in V as (x & _ & V). apply bind_Ok in V as (ss & M & V).
    apply bind_Ok in V' as (x' & _ & V'). apply bind_Ok in V' as (ss' & M' & V').
    apply Ok_inj in V, V'; subst tt1 tt2.
    rewrite <- !app_assoc in E. apply app_inv_head in E.
    inversion P; subst. inversion P'; subst.
    destruct (list_det al l H _ _ _ _ _ H1 H2 M M' E) as [-> ->]. auto.
Qed.

(** plain values always print *)
Lemma plain_scalar v : plain_value v -> scalar v.
Proof.
  induction v using obj_ind'; intros P; inversion P; subst; try (constructor; constructor; fail).
  - apply sc_list. rewrite Forall_forall in *. auto.
  - apply sc_tuple. rewrite Forall_forall in *. auto.
Qed.
Lemma mapM_total {A B} (f : A -> result B) l :
  Forall (fun x => exists y, f x = Ok y) l -> exists ys, mapM f l = Ok ys.
Proof.
  induction 1 as [|x l [y Hy] _ [ys IH]]; [exists []; reflexivity|].
  exists (y :: ys). cbn. rewrite Hy, IH. reflexivity.
Qed.
Lemma plain_prints mql al v : plain_value v -> exists t, visit mql al v = Ok t.
Proof.
  induction v using obj_ind'; intros P; try (exfalso; inversion P; fail);
    try (eexists; reflexivity).
  - assert (S := plain_scalar _ P). inversion P; subst.
    destruct (mapM_total (visit mql al) l) as [ys E].
    { rewrite Forall_forall in *. auto. }
    rewrite visit_list, E. apply is_scalar_true in S. rewrite S. eexists; reflexivity.
  - assert (S := plain_scalar _ P). inversion P; subst.
    destruct (mapM_total (visit mql al) l) as [ys E].
    { rewrite Forall_forall in *. auto. }
    rewrite visit_tuple, E. apply is_scalar_true in S. rewrite S. eexists; reflexivity.
Qed.
Lemma c13_lemma al v v' r r' : plain_value v -> plain_value v' -> ends_number r -> ends_number r' ->
  exists t t', visit false al v = Ok t /\ visit false al v' = Ok t' /\
    (t ++ r = t' ++ r' -> v = v' /\ r = r').
Proof.
  intros P P' Hr Hr'. destruct (plain_prints false al v P) as [t V].
  destruct (plain_prints false al v' P') as [t' V']. exists t, t'.
  split; [exact V|]. split; [exact V'|]. intros E.
  exact (value_det_all al v v' t t' r r' P P' V V' Hr Hr' E).
Qed.

(** C14 *)
Lemma c14_text mql al s : forallb scalar_value s = true ->
  visit mql al (OBytes (utf8_encode s)) = visit mql al (OStr s).
Proof. intros H. cbn [visit stringify_literal]. rewrite utf8_decode_encode by exact H. reflexivity. Qed.
Lemma c14_refuse mql al b :
  (forall s, forallb scalar_value s = true -> b <> utf8_encode s) ->
  visit mql al (OBytes b) = Raise UnicodeDecodeError.
Proof.
  intros H. cbn [visit stringify_literal]. destruct (utf8_decode b) as [s|] eqn:E; [|reflexivity].
  apply utf8_sound in E as [E Hs]. elim (H s Hs E).
Qed.
End Values.
