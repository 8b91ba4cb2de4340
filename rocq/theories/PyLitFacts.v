(** Lemmas about Python literals and repr() (C104) *)
From Verif Require Import PyBase PyFacts DateTime Objects Exprs SpecText NumFacts SampleFacts Json Request SpecJson JsonFacts PyRepr SpecPyLit.
From Coq Require Import Lia.

Scheme lit_mut := Minimality for py_literal Sort Prop
with pitems_mut := Minimality for py_items Sort Prop
with pentries_mut := Minimality for py_entries Sort Prop.

(** ** The grammar is unambiguous *)
Lemma py_escapes_fun e a b : In (e, a) py_escapes -> In (e, b) py_escapes -> a = b.
Proof. cbn. intros A B. repeat match goal with H : _ \/ _ |- _ => destruct H end; try tauto; congruence. Qed.
Lemma hex_escapes_fun e a b : In (e, a) hex_escapes -> In (e, b) hex_escapes -> a = b.
Proof. cbn. intros A B. repeat match goal with H : _ \/ _ |- _ => destruct H end; try tauto; congruence. Qed.
Lemma escapes_apart e a b : In (e, a) py_escapes -> In (e, b) hex_escapes -> False.
Proof. cbn. intros A B. repeat match goal with H : _ \/ _ |- _ => destruct H end; try tauto; congruence. Qed.
Lemma hexes_fun hs : forall ds ds', Forall2 hex hs ds -> Forall2 hex hs ds' -> ds = ds'.
Proof.
  induction hs as [|h hs IH]; intros ds ds' A B; inversion A; inversion B; subst; [reflexivity|]. f_equal; [eapply hex_fun; eassumption|eauto].
Qed.
Lemma app_same {A} (a b c d : list A) : List.length a = List.length b -> a ++ c = b ++ d -> a = b /\ c = d.
Proof.
  revert b. induction a as [|x a IH]; intros [|y b] L E; try discriminate L; [auto|]. cbn in E. injection E as -> E.
  injection L as L. destruct (IH b L E) as (-> & ->). auto.
Qed.
Lemma py_chars_fun q t s : q = 39%N \/ q = 34%N -> py_chars q t s -> forall t' s' r r', py_chars q t' s' -> t ++ q :: r = t' ++ q :: r' ->
  t = t' /\ s = s' /\ r = r'.
Proof.
  intros Q C. assert (Q' : q <> 92%N) by (destruct Q; subst; discriminate).
  induction C as [|c t s A B C IH|e c t s A C IH|e n hs ds t s A L H C IH]; intros t2 s2 r r' C2 E.
  - destruct C2; cbn in E; try (injection E; intros; subst; congruence). injection E as E. auto.
  - destruct C2 as [|c2 t2 s2 A2 B2 C2|e2 c2 t2 s2 A2 C2|e2 n2 hs2 ds2 t2 s2 A2 L2 H2 C2]; cbn in E.
    + injection E; intros; subst; congruence.
    + injection E as -> E. destruct (IH _ _ _ _ C2 E) as (-> & -> & ->). auto.
    + injection E; intros; subst. elim B. cbn; tauto.
    + injection E; intros; subst. elim B. cbn; tauto.
  - destruct C2 as [|c2 t2 s2 A2 B2 C2|e2 c2 t2 s2 A2 C2|e2 n2 hs2 ds2 t2 s2 A2 L2 H2 C2]; cbn in E.
    + injection E; intros; subst; congruence.
    + injection E; intros; subst. elim B2. cbn; tauto.
    + injection E as -> E. destruct (IH _ _ _ _ C2 E) as (-> & -> & ->). rewrite (py_escapes_fun _ _ _ A A2). auto.
    + injection E as -> E. elim (escapes_apart _ _ _ A A2).
  - destruct C2 as [|c2 t2 s2 A2 B2 C2|e2 c2 t2 s2 A2 C2|e2 n2 hs2 ds2 t2 s2 A2 L2 H2 C2]; cbn in E.
    + injection E; intros; subst; congruence.
    + injection E; intros; subst. elim B2. cbn; tauto.
    + injection E as -> E. elim (escapes_apart _ _ _ A2 A).
    + injection E as -> E. rewrite <- !app_assoc in E. pose proof (hex_escapes_fun _ _ _ A A2) as N.
      apply app_same in E as (-> & E); [|congruence]. destruct (IH _ _ _ _ C2 E) as (-> & -> & ->).
      rewrite (hexes_fun _ _ _ H H2). auto.
Qed.
Lemma py_string_fun t s t' s' r r' : py_string t s -> py_string t' s' -> t ++ r = t' ++ r' -> t = t' /\ s = s' /\ r = r'.
Proof.
  intros [q a x Q A] [q' b y Q' B] E. cbn in E. injection E as -> E. rewrite <- !app_assoc in E. cbn in E.
  destruct (py_chars_fun _ _ _ Q A _ _ _ _ B E) as (-> & -> & ->). auto.
Qed.

(** what may follow a literal *)
Definition stops (r : str) : Prop := match r with [] => True | c :: _ => In c [32; 9; 10; 13; 44; 58; 93; 125; 41]%N end.
Lemma stops_digit r : stops r -> ~ starts digit r.
Proof. destruct r as [|c r]; cbn; [auto|]. unfold digit. intros D X. repeat match goal with H : _ \/ _ |- _ => destruct H end; subst; try lia; tauto. Qed.
Lemma blank_stops w x : blank w -> stops x -> stops (w ++ x).
Proof. intros [|c w' C B] D; [exact D|]. cbn in *. tauto. Qed.
Lemma int_split neg ip neg' ip' r r' : int_part ip -> int_part ip' -> stops r -> stops r' ->
  (minus_sign neg ++ ip) ++ r = (minus_sign neg' ++ ip') ++ r' -> neg = neg' /\ ip = ip' /\ r = r'.
Proof.
  intros I I' S S' E. rewrite <- !app_assoc in E. apply minus_fun in E as (-> & E); [|apply int_head, I|apply int_head, I'].
  apply (span_split digit) in E as (-> & ->); try (apply int_digits; assumption); try (apply stops_digit; assumption). auto.
Qed.
Lemma int_start neg ip : int_part ip -> exists c t, minus_sign neg ++ ip = c :: t /\ (c = 45%N \/ digit c).
Proof.
  intros I. destruct neg; [eexists _, _; split; [reflexivity|]; left; reflexivity|].
  destruct I as [->|(c & s' & -> & C & D)]; [exists 48%N|exists c]; eexists; (split; [reflexivity|]); right; unfold digit; lia.
Qed.
Lemma lit_head t v : py_literal t v -> exists c t', t = c :: t' /\ ~ ws c /\ ~ In c [44; 58; 93; 125; 41]%N.
Proof.
  intros H; inversion H as [| | |neg ip I|t0 s S| | | | | | |]; subst;
    try (eexists _, _; split; [reflexivity|]; unfold ws; cbn; split; intros X; repeat destruct X as [X|X]; try discriminate; tauto).
  - apply (int_start neg) in I as (c & t' & -> & C). eexists _, _. split; [reflexivity|].
    unfold digit, ws in *. cbn. split; intros X; repeat destruct X as [X|X]; try tauto; subst; destruct C; try discriminate; lia.
  - destruct S as [q t s [-> | ->] _]; eexists _, _; (split; [reflexivity|]); unfold ws; cbn; split; intros X; repeat destruct X as [X|X]; try discriminate; tauto.
Qed.
Lemma lit_solid t v x : py_literal t v -> ~ starts ws (t ++ x).
Proof. intros V. apply lit_head in V as (c & t' & -> & N & _). exact N. Qed.
Lemma py_string_solid t v x : py_string t v -> ~ starts ws (t ++ x).
Proof. intros [q t0 s [-> | ->] _]; cbn; unfold ws; cbn; intros X; repeat destruct X as [X|X]; try discriminate; tauto. Qed.
Lemma pitems_head t vs : py_items t vs -> exists w c x, t = w ++ c :: x /\ blank w /\ ~ ws c /\ c <> 93%N /\ c <> 41%N.
Proof.
  intros H; inversion H; subst;
    match goal with V : py_literal _ _ |- _ => apply lit_head in V as (c & x & -> & N & M) end;
    (eexists w1, c, _; split; [reflexivity|]; repeat split; auto; intros ->; apply M; cbn; tauto).
Qed.
Lemma pentries_head t ks vs : py_entries t ks vs -> exists w q x, t = w ++ q :: x /\ blank w /\ (q = 39%N \/ q = 34%N).
Proof.
  intros H; inversion H; subst; match goal with V : py_string _ _ |- _ => destruct V end;
    (eexists w1, _, _; split; [reflexivity|split; assumption]).
Qed.
Lemma no_items c w r t vs r' : c = 93%N \/ c = 41%N -> blank w -> py_items t vs -> w ++ c :: r = t ++ c :: r' -> False.
Proof.
  intros K B I E. apply pitems_head in I as (w' & d & x & -> & B' & N & M & M'). rewrite <- app_assoc in E.
  apply (span_split ws) in E as (_ & E); [|exact B|exact B'|destruct K; subst; cbn; not_ws|exact N]. cbn in E. destruct K; congruence.
Qed.
Lemma no_entries w r t ks vs r' : blank w -> py_entries t ks vs -> w ++ 125%N :: r = t ++ 125%N :: r' -> False.
Proof.
  intros B I E. apply pentries_head in I as (w' & q & x & -> & B' & Q). rewrite <- app_assoc in E.
  apply (span_split ws) in E as (_ & E); [|exact B|exact B'|cbn; not_ws|destruct Q; subst; cbn; not_ws]. destruct Q; subst; discriminate.
Qed.
Definition lit_det t v := forall t' v' r r', py_literal t' v' -> stops r -> stops r' -> t ++ r = t' ++ r' -> t = t' /\ v = v' /\ r = r'.
Definition pitems_det t vs :=
  (forall c t' vs' r r', c = 93%N \/ c = 41%N -> py_items t' vs' -> t ++ c :: r = t' ++ c :: r' -> t = t' /\ vs = vs' /\ r = r')
  /\ (forall w1 t' v w2 w3 r r', blank w1 -> py_literal t' v -> blank w2 -> blank w3 -> t ++ 41%N :: r = w1 ++ t' ++ w2 ++ 44%N :: w3 ++ 41%N :: r' -> False).
Definition pentries_det t ks vs := forall t' ks' vs' r r', py_entries t' ks' vs' -> t ++ 125%N :: r = t' ++ 125%N :: r' -> t = t' /\ ks = ks' /\ vs = vs' /\ r = r'.
Definition seps : list N := [44; 93; 125; 41]%N.
Lemma step_lit w1 t v w2 x w1' t' v' w2' x' c c' :
  lit_det t v -> py_literal t v -> py_literal t' v' -> w1 ++ t ++ w2 ++ c :: x = w1' ++ t' ++ w2' ++ c' :: x' ->
  blank w1 -> blank w2 -> blank w1' -> blank w2' -> In c seps -> In c' seps ->
  w1 = w1' /\ t = t' /\ v = v' /\ w2 = w2' /\ c = c' /\ x = x'.
Proof.
  intros P V V' E B1 B2 B1' B2' C C'.
  assert (forall d, In d seps -> ~ ws d) as NW.
  { intros d I. cbn in I. repeat destruct I as [I|I]; subst; try (intros X; unfold ws in X; cbn in X; repeat destruct X as [X|X]; try discriminate; tauto). }
  assert (forall w d y, blank w -> In d seps -> stops (w ++ d :: y)) as DL.
  { intros w d y B I. apply blank_stops; [exact B|]. cbn in *. tauto. }
  apply (span_split ws) in E as (<- & E); [|exact B1|exact B1'|eapply lit_solid; exact V|eapply lit_solid; exact V'].
  destruct (P _ _ _ _ V' (DL _ _ _ B2 C) (DL _ _ _ B2' C') E) as (<- & <- & E2). clear E. rename E2 into E.
  apply (span_split ws) in E as (<- & E); [|exact B2|exact B2'|apply NW, C|apply NW, C'].
  injection E as -> ->. repeat split; reflexivity.
Qed.
Ltac lexpose := repeat match goal with
  | H : int_part ?ip |- _ => match goal with E : context [minus_sign ?n ++ ip] |- _ =>
       let c := fresh "c" in let t := fresh "t" in let Q := fresh "Q" in let C := fresh "C" in
       destruct (int_start n ip H) as (c & t & Q & C); rewrite Q in E; clear Q H end
  | H : py_string _ _ |- _ => destruct H as [? ? ? ?Q _] end.
Ltac lclash E := exfalso; lexpose; cbn in E; try discriminate E;
  apply (f_equal (@hd N 0%N)) in E; cbn in E; subst; unfold digit in *;
  repeat match goal with H : _ \/ _ |- _ => destruct H end; subst; try discriminate; try congruence; lia.
Ltac opened E := cbn [lit app] in E; cbn in E; injection E as E; do 3 (rewrite <- ?app_assoc in E; cbn in E); rewrite <- ?app_assoc in E; cbn in E.
Ltac seps_tac := unfold seps; cbn; tauto.
Ltac closer := match goal with H : _ \/ _ |- _ => destruct H; subst; seps_tac end.
Lemma lit_fun t v : py_literal t v -> lit_det t v.
Proof.
  apply (lit_mut lit_det pitems_det pentries_det).
  - intros t' v' r r' V _ _ E. inversion V; clear V; subst; try (lclash E); try (cbn in E; injection E as ->; auto).
  - intros t' v' r r' V _ _ E. inversion V; clear V; subst; try (lclash E); try (cbn in E; injection E as ->; auto).
  - intros t' v' r r' V _ _ E. inversion V; clear V; subst; try (lclash E); try (cbn in E; injection E as ->; auto).
  - intros neg ip I t' v' r r' V D D' E. inversion V; clear V; subst; try (lclash E).
    match goal with I' : int_part ?x |- _ => lazymatch x with ip => fail | _ => destruct (int_split _ _ _ _ _ _ I I' D D' E) as (-> & -> & ->) end end. auto.
  - intros t1 s S t' v' r r' V D D' E. inversion V; clear V; subst; try (lclash E).
    match goal with S' : py_string t' _ |- _ => destruct (py_string_fun _ _ _ _ _ _ S S' E) as (-> & -> & ->) end. auto.
  - intros w B t' v' r r' V D D' E. inversion V; clear V; subst; try (lclash E).
    + opened E. apply (span_split ws) in E as (<- & E); [|exact B|assumption|cbn; not_ws|cbn; not_ws]. injection E as ->. auto.
    + opened E. exfalso. eapply (no_items 93%N); [left; reflexivity|exact B|eassumption|exact E].
  - intros t1 vs I P t' v' r r' V D D' E. inversion V; clear V; subst; try (lclash E).
    + opened E. exfalso. symmetry in E. eapply (no_items 93%N); [left; reflexivity|eassumption|exact I|exact E].
    + opened E. match goal with J : py_items ?x _ |- _ => lazymatch x with t1 => fail | _ => destruct (proj1 P 93%N _ _ _ _ (or_introl eq_refl) J E) as (-> & -> & ->) end end. auto.
  - intros w B t' v' r r' V D D' E. inversion V as [| | | | | | |w' B'|w1 t0 v0 w2 w3 B1 V0 B2 B3|t0 v1 v2 vs I| |]; clear V; subst; try (lclash E).
    + opened E. apply (span_split ws) in E as (<- & E); [|exact B|assumption|cbn; not_ws|cbn; not_ws]. injection E as ->. auto.
    + opened E. exfalso. pose proof (pi_one w1 t0 v0 w2 B1 V0 B2) as I.
      apply pitems_head in I as (w0 & c & x & Q & B0 & N & M & M').
      assert (X : w ++ 41%N :: r = w0 ++ c :: x ++ 44%N :: w3 ++ 41%N :: r').
      { transitivity ((w0 ++ c :: x) ++ 44%N :: w3 ++ 41%N :: r'); [rewrite <- Q, <- !app_assoc; exact E|rewrite <- app_assoc; reflexivity]. }
      apply (span_split ws) in X as (_ & X); [|exact B|exact B0|cbn; not_ws|exact N]. congruence.
    + opened E. exfalso. eapply (no_items 41%N); [right; reflexivity|exact B|eassumption|exact E].
  - intros w1 t1 v1 w2 w3 B1 V1 P B2 B3 t' v' r r' V D D' E. inversion V as [| | | | | | |w' B'|w1' t0 v0 w2' w3' B1' V0 B2' B3'|t0 u1 u2 vs I| |]; clear V; subst; try (lclash E).
    + opened E. exfalso. pose proof (pi_one w1 t1 v1 w2 B1 V1 B2) as I.
      apply pitems_head in I as (w0 & c & x & Q & B0 & N & M & M').
      assert (X : w' ++ 41%N :: r' = w0 ++ c :: x ++ 44%N :: w3 ++ 41%N :: r).
      { transitivity ((w0 ++ c :: x) ++ 44%N :: w3 ++ 41%N :: r); [rewrite <- Q, <- !app_assoc; symmetry; exact E|rewrite <- app_assoc; reflexivity]. }
      apply (span_split ws) in X as (_ & X); [|exact B'|exact B0|cbn; not_ws|exact N]. congruence.
    + opened E. destruct (step_lit _ _ _ _ _ _ _ _ _ _ _ _ P V1 V0 E) as (-> & -> & -> & -> & _ & E2); auto; try seps_tac.
      apply (span_split ws) in E2 as (<- & E2); [|assumption|assumption|cbn; not_ws|cbn; not_ws]. injection E2 as ->. auto.
    + opened E. exfalso. inversion I as [|w1' t2 v2 w2' t3 vs3 B1' V2 B2' I3]; subst. rewrite <- !app_assoc in E. cbn in E.
      destruct (step_lit _ _ _ _ _ _ _ _ _ _ _ _ P V1 V2 E) as (_ & _ & _ & _ & _ & E2); auto; try seps_tac.
      eapply (no_items 41%N); [right; reflexivity|exact B3|exact I3|exact E2].
  - intros t1 u1 u2 vs I P t' v' r r' V D D' E. inversion V as [| | | | | | |w' B'|w1' t0 v0 w2' w3' B1' V0 B2' B3'|t0 u1' u2' vs' I'| |]; clear V; subst; try (lclash E).
    + opened E. exfalso. symmetry in E. eapply (no_items 41%N); [right; reflexivity|eassumption|exact I|exact E].
    + opened E. exfalso. exact (proj2 P w1' t0 v0 w2' w3' r r' B1' V0 B2' B3' E).
    + opened E. destruct (proj1 P 41%N _ _ _ _ (or_intror eq_refl) I' E) as (-> & Q & ->). injection Q as -> -> ->. auto.
  - intros w B t' v' r r' V D D' E. inversion V as [| | | | | | | | | |w' B'|t0 ks vs I N]; clear V; subst; try (lclash E).
    + opened E. apply (span_split ws) in E as (<- & E); [|exact B|assumption|cbn; not_ws|cbn; not_ws]. injection E as ->. auto.
    + opened E. exfalso. eapply no_entries; [exact B|eassumption|exact E].
  - intros t1 ks vs I P ND t' v' r r' V D D' E. inversion V as [| | | | | | | | | |w' B'|t0 ks' vs' I' N]; clear V; subst; try (lclash E).
    + opened E. exfalso. symmetry in E. eapply no_entries; [eassumption|exact I|exact E].
    + opened E. destruct (P _ _ _ _ _ I' E) as (-> & -> & -> & ->). auto.
  - intros w1 t1 v1 w2 B1 V P B2. split.
    + intros c t' vs' r r' K I E. inversion I as [w1' t0 v0 w2' B1' V0 B2'|w1' t0 v0 w2' t3 vs3 B1' V0 B2' I3]; subst; rewrite <- !app_assoc in E; cbn [app lit] in E; cbn in E.
      * destruct (step_lit _ _ _ _ _ _ _ _ _ _ _ _ P V V0 E) as (-> & -> & -> & -> & _ & ->); auto; closer.
      * destruct (step_lit _ _ _ _ _ _ _ _ _ _ _ _ P V V0 E) as (_ & _ & _ & _ & X & _); auto; try closer; try seps_tac. destruct K; congruence.
    + intros w1' t0 v0 w2' w3' r r' B1' V0 B2' B3' E. rewrite <- !app_assoc in E.
      destruct (step_lit _ _ _ _ _ _ _ _ _ _ _ _ P V V0 E) as (_ & _ & _ & _ & X & _); auto; try seps_tac. discriminate.
  - intros w1 t1 v1 w2 t2 vs B1 V P B2 I2 P2. split.
    + intros c t' vs' r r' K I E. inversion I as [w1' t0 v0 w2' B1' V0 B2'|w1' t0 v0 w2' t3 vs3 B1' V0 B2' I3]; subst; rewrite <- !app_assoc in E; cbn [app lit] in E; cbn in E.
      * destruct (step_lit _ _ _ _ _ _ _ _ _ _ _ _ P V V0 E) as (_ & _ & _ & _ & X & _); auto; try closer; try seps_tac. destruct K; congruence.
      * destruct (step_lit _ _ _ _ _ _ _ _ _ _ _ _ P V V0 E) as (-> & -> & -> & -> & _ & E2); auto; try seps_tac.
        destruct (proj1 P2 c _ _ _ _ K I3 E2) as (-> & -> & ->). auto.
    + intros w1' t0 v0 w2' w3' r r' B1' V0 B2' B3' E. rewrite <- !app_assoc in E. cbn in E.
      destruct (step_lit _ _ _ _ _ _ _ _ _ _ _ _ P V V0 E) as (_ & _ & _ & _ & _ & X); auto; try seps_tac.
      symmetry in X. eapply (no_items 41%N); [right; reflexivity|exact B3'|exact I2|exact X].
  - intros w1 k n w2 w3 t1 v1 w4 B1 K B2 B3 V P B4 t' ks' vs' r r' I E.
    inversion I as [w1' k' n' w2' w3' t0 v0 w4' B1' K' B2' B3' V0 B4'|w1' k' n' w2' w3' t0 v0 w4' t3 ks3 vs3 B1' K' B2' B3' V0 B4' I3]; subst;
      rewrite <- !app_assoc in E; cbn [app lit] in E; cbn in E;
      (apply (span_split ws) in E as (<- & E); [|assumption|assumption|eapply py_string_solid; eassumption|eapply py_string_solid; eassumption]);
      (destruct (py_string_fun _ _ _ _ _ _ K K' E) as (<- & <- & E2); clear E; rename E2 into E);
      (apply (span_split ws) in E as (<- & E); [|assumption|assumption|cbn; not_ws|cbn; not_ws]); injection E as E.
    + destruct (step_lit _ _ _ _ _ _ _ _ _ _ _ _ P V V0 E) as (-> & -> & -> & -> & _ & ->); auto; seps_tac.
    + destruct (step_lit _ _ _ _ _ _ _ _ _ _ _ _ P V V0 E) as (_ & _ & _ & _ & X & _); auto; try seps_tac. discriminate.
  - intros w1 k n w2 w3 t1 v1 w4 t2 ks vs B1 K B2 B3 V P B4 M2 P2 t' ks' vs' r r' I E.
    inversion I as [w1' k' n' w2' w3' t0 v0 w4' B1' K' B2' B3' V0 B4'|w1' k' n' w2' w3' t0 v0 w4' t3 ks3 vs3 B1' K' B2' B3' V0 B4' I3]; subst;
      rewrite <- !app_assoc in E; cbn [app lit] in E; cbn in E;
      (apply (span_split ws) in E as (<- & E); [|assumption|assumption|eapply py_string_solid; eassumption|eapply py_string_solid; eassumption]);
      (destruct (py_string_fun _ _ _ _ _ _ K K' E) as (<- & <- & E2); clear E; rename E2 into E);
      (apply (span_split ws) in E as (<- & E); [|assumption|assumption|cbn; not_ws|cbn; not_ws]); injection E as E.
    + destruct (step_lit _ _ _ _ _ _ _ _ _ _ _ _ P V V0 E) as (_ & _ & _ & _ & X & _); auto; try seps_tac. discriminate.
    + destruct (step_lit _ _ _ _ _ _ _ _ _ _ _ _ P V V0 E) as (-> & -> & -> & -> & _ & E2); auto; try seps_tac.
      destruct (P2 _ _ _ _ _ I3 E2) as (-> & -> & -> & ->). auto.
Qed.
Lemma lit_one t v v' : py_literal t v -> py_literal t v' -> v = v'.
Proof. intros V V'. destruct (lit_fun t v V t v' [] [] V' I I eq_refl) as (_ & -> & _). reflexivity. Qed.

(** ** repr() writes literals *)
Lemma hex_value_app ds d : hex_value (ds ++ [d]) = (16 * hex_value ds + d)%N.
Proof. unfold hex_value. rewrite fold_left_app. reflexivity. Qed.
Lemma hexs_ok n : forall c, (c < 16 ^ N.of_nat n)%N -> exists ds, List.length (hexs n c) = n /\ Forall2 hex (hexs n c) ds /\ hex_value ds = c.
Proof.
  induction n as [|n IH]; intros c H.
  - exists []. cbn in *. repeat split; [constructor|]. unfold hex_value. cbn. lia.
  - rewrite Nat2N.inj_succ, N.pow_succ_r' in H. destruct (IH (c / 16)%N) as (ds & L & F & V); [apply N.div_lt_upper_bound; lia|].
    exists (ds ++ [c mod 16]%N). cbn [hexs]. rewrite app_length, L. cbn [List.length]. split; [lia|]. split.
    + apply Forall2_app; [exact F|]. constructor; [|constructor]. apply hex_digit_ok, N.mod_lt. discriminate.
    + rewrite hex_value_app, V. symmetry. apply N.div_mod. discriminate.
Qed.
Ltac fine := repeat (constructor; [split; [cbn; lia|discriminate]|]); try constructor.
Section R.
Context {RT : PyRT} {RE : PyRepr}.
Lemma hex_esc_ok q e n c t s : In (e, n) hex_escapes -> (c < 16 ^ N.of_nat n)%N -> py_chars q t s -> py_chars q (([BSL; e] ++ hexs n c) ++ t) (c :: s).
Proof.
  intros I H C. destruct (hexs_ok n c H) as (ds & L & F & V). rewrite <- V at 2. cbn [app]. apply (pc_hex q e n); assumption.
Qed.
Lemma repr_char_ok q c t s : q = 39%N \/ q = 34%N -> (c < 1114112)%N -> py_chars q t s -> py_chars q (repr_char q c ++ t) (c :: s).
Proof.
  intros Q H C. unfold repr_char, BSL.
  destruct (N.eqb_spec c q) as [->|N1]; cbn [orb].
  { cbn [app]. apply pc_escape; [destruct Q; subst; cbn; tauto|exact C]. }
  destruct (N.eqb_spec c 92) as [->|N2]; [cbn [app]; apply pc_escape; [cbn; tauto|exact C]|].
  destruct (N.eqb_spec c 9) as [->|N3]; [cbn [app]; apply pc_escape; [cbn; tauto|exact C]|].
  destruct (N.eqb_spec c 10) as [->|N4]; [cbn [app]; apply pc_escape; [cbn; tauto|exact C]|].
  destruct (N.eqb_spec c 13) as [->|N5]; [cbn [app]; apply pc_escape; [cbn; tauto|exact C]|].
  destruct (_ || _).
  { cbn [app]. apply pc_plain; [exact N1|cbn; intros X; repeat destruct X as [X|X]; congruence || tauto|exact C]. }
  destruct (c <? 256)%N eqn:L; [apply N.ltb_lt in L; apply hex_esc_ok; [cbn; tauto|exact L|exact C]|].
  destruct (c <? 65536)%N eqn:L2; [apply N.ltb_lt in L2; apply hex_esc_ok; [cbn; tauto|exact L2|exact C]|].
  apply hex_esc_ok; [cbn; tauto|cbn; lia|exact C].
Qed.
Lemma quote_ok s : repr_quote s = 39%N \/ repr_quote s = 34%N.
Proof. unfold repr_quote, SQ, DQ. destruct (_ && _); auto. Qed.
Lemma repr_str_ok s : code_points s -> py_string (repr_str s) s.
Proof.
  intros H. unfold repr_str. apply a_py_string; [apply quote_ok|]. pose proof (quote_ok s) as Q. revert Q. generalize (repr_quote s) as q. intros q Q.
  induction H as [|c s C H IH]; [constructor|]. cbn [flat_map]. apply repr_char_ok; assumption.
Qed.
Definition spaced : blank [32%N]. Proof. constructor; [cbn; tauto|constructor]. Qed.
Lemma pitems_join ss vs : forall w, blank w -> Forall2 py_literal ss vs -> ss <> [] -> py_items (w ++ join ($", ") ss) vs.
Proof.
  intros w B F. revert w B. induction F as [|s v ss vs V F IH]; intros w B N; [congruence|].
  destruct F as [|s2 v2 ss vs V2 F].
  - cbn [join]. rewrite <- (app_nil_r s). apply pi_one; [exact B|exact V|constructor].
  - change (join ($", ") (s :: s2 :: ss)) with (s ++ [] ++ $"," ++ ([32%N] ++ join ($", ") (s2 :: ss))).
    apply pi_more; [exact B|exact V|constructor|]. apply IH; [apply spaced|discriminate].
Qed.
Definition entry_text (kv : str * str) : str := repr_str (fst kv) ++ $": " ++ snd kv.
Lemma pentries_join ss vs : Forall2 py_literal ss vs -> forall ks, List.length ks = List.length vs -> Forall code_points ks -> forall w, blank w -> ss <> [] ->
  py_entries (w ++ join ($", ") (map entry_text (combine ks ss))) ks vs.
Proof.
  intros F. induction F as [|s v ss vs V F IH]; intros ks L K w B N; [congruence|].
  destruct K as [|k ks K Ks]; [discriminate|]. injection L as L. destruct F as [|s2 v2 ss vs V2 F].
  - destruct Ks; [|discriminate]. cbn [combine map join]. unfold entry_text. cbn [fst snd].
    change ($": " ++ s) with ([] ++ $":" ++ [32%N] ++ s). rewrite <- (app_nil_r s).
    apply pe_one; [exact B|apply repr_str_ok, K|constructor|apply spaced|exact V|constructor].
  - destruct Ks as [|k2 ks K2 Ks]; [discriminate|].
    change (join ($", ") (map entry_text (combine (k :: k2 :: ks) (s :: s2 :: ss))))
      with ((repr_str k ++ $": " ++ s) ++ $", " ++ join ($", ") (map entry_text (combine (k2 :: ks) (s2 :: ss)))).
    assert (E : w ++ (repr_str k ++ $": " ++ s) ++ $", " ++ join ($", ") (map entry_text (combine (k2 :: ks) (s2 :: ss)))
      = w ++ repr_str k ++ [] ++ $":" ++ [32%N] ++ s ++ [] ++ $"," ++ ([32%N] ++ join ($", ") (map entry_text (combine (k2 :: ks) (s2 :: ss)))))
      by (rewrite <- !app_assoc; reflexivity).
    rewrite E. apply pe_more; try assumption; [apply repr_str_ok, K|constructor|apply spaced|constructor|].
    apply IH; [exact L|constructor; assumption|apply spaced|discriminate].
Qed.
Lemma all_literals l : Forall (fun o => documented o -> py_literal (py_repr o) o) l -> Forall documented l -> Forall2 py_literal (map py_repr l) l.
Proof. intros F D. induction D as [|x l X D IH]; inversion F; subst; constructor; auto. Qed.
Lemma dec_of_Z_lit z : py_literal (dec_of_Z z) (OInt z).
Proof.
  destruct (Z.neg_nonneg_cases z) as [H|H].
  - rewrite dec_of_Z_neg by exact H. pose proof (pl_int true (dec_of_N (Z.to_N (- z))) (dec_of_N_int _)) as N.
    rewrite digits_value_dec, dec_val_dec_of_N in N. replace (- Z.of_N (Z.to_N (- z)))%Z with z in N by lia. exact N.
  - rewrite dec_of_Z_nonneg by exact H. pose proof (pl_int false (dec_of_N (Z.to_N z)) (dec_of_N_int _)) as N.
    rewrite digits_value_dec, dec_val_dec_of_N in N. replace (Z.of_N (Z.to_N z)) with z in N by lia. exact N.
Qed.
Lemma py_repr_ok o : documented o -> py_literal (py_repr o) o.
Proof.
  induction o using obj_ind'; intros D; inversion D; subst; cbn [py_repr].
  - constructor.
  - destruct b; constructor.
  - apply dec_of_Z_lit.
  - constructor. apply repr_str_ok. assumption.
  - destruct l as [|x l]; [apply (pl_empty_list []); constructor|]. apply pl_list. apply (pitems_join (map py_repr (x :: l)) _ []); [constructor| |discriminate].
    apply all_literals; assumption.
  - match goal with F : Forall documented _, G : Forall _ l |- _ => pose proof (all_literals l G F) as A end.
    destruct l as [|x [|y l]].
    + apply (pl_empty_tuple []). constructor.
    + inversion_clear A as [|? ? ? ? V _]. cbn [map join].
      change ($"(" ++ py_repr x ++ $"," ++ $")") with ($"(" ++ [] ++ py_repr x ++ [] ++ $"," ++ [] ++ $")").
      apply pl_one_tuple; try constructor. exact V.
    + apply pl_tuple. apply (pitems_join (map py_repr (x :: y :: l)) _ []); [constructor|exact A|discriminate].
  - match goal with F : Forall documented _, G : Forall _ vs |- _ => pose proof (all_literals vs G F) as A end.
    destruct vs as [|v vs].
    + destruct ks; [|discriminate]. apply (pl_empty_dict []). constructor.
    + apply pl_dict; [|assumption]. apply (pentries_join _ _ A ks) with (w := []); try assumption; [constructor|discriminate].
Qed.

(** repr() has no control characters *)
Lemma hex_digit_fine n : (n < 16)%N -> (32 <= hex_digit n /\ hex_digit n <> 127)%N.
Proof. intros H. unfold hex_digit. destruct (n <? 10)%N eqn:E; [apply N.ltb_lt in E|apply N.ltb_ge in E]; lia. Qed.
Lemma hexs_fine n : forall c, no_controls (hexs n c).
Proof.
  induction n as [|n IH]; intros c; [constructor|]. cbn [hexs]. apply Forall_app. split; [apply IH|]. constructor; [|constructor].
  apply hex_digit_fine, N.mod_lt. discriminate.
Qed.
Lemma repr_char_fine q c : q = 39%N \/ q = 34%N -> no_controls (repr_char q c).
Proof.
  intros Q. unfold repr_char, BSL.
  destruct (N.eqb_spec c q) as [->|N1]; cbn [orb]; [destruct Q; subst; fine|].
  destruct (N.eqb_spec c 92) as [->|N2]; [fine|].
  destruct (N.eqb_spec c 9) as [->|N3]; [fine|]. destruct (N.eqb_spec c 10) as [->|N4]; [fine|]. destruct (N.eqb_spec c 13) as [->|N5]; [fine|].
  destruct (in_range 32 126 c) eqn:R; cbn [orb].
  { unfold in_range in R. apply andb_true_iff in R as (R1 & R2). apply N.leb_le in R1, R2. constructor; [lia|constructor]. }
  destruct (128 <=? c)%N eqn:G; cbn [andb].
  - apply N.leb_le in G. destruct (uni_printable c); [constructor; [lia|constructor]|].
    destruct (c <? 256)%N; [|destruct (c <? 65536)%N]; apply Forall_app; (split; [fine|apply hexs_fine]).
  - destruct (c <? 256)%N; [|destruct (c <? 65536)%N]; apply Forall_app; (split; [fine|apply hexs_fine]).
Qed.
Lemma repr_str_fine s : no_controls (repr_str s).
Proof.
  unfold repr_str. pose proof (quote_ok s) as Q. revert Q. generalize (repr_quote s) as q. intros q Q.
  assert (no_controls [q]) as X by (destruct Q; subst; fine).
  apply Forall_app. split; [exact X|]. apply Forall_app. split; [|exact X].
  apply Forall_flat_map. apply Forall_forall. intros c _. apply repr_char_fine, Q.
Qed.
Lemma join_fine ss : Forall no_controls ss -> no_controls (join ($", ") ss).
Proof.
  induction 1 as [|s ss S F IH]; [constructor|]. destruct F as [|s2 ss S2 F]; [exact S|].
  change (join ($", ") (s :: s2 :: ss)) with (s ++ $", " ++ join ($", ") (s2 :: ss)). apply Forall_app. split; [exact S|].
  apply Forall_app. split; [fine|exact IH].
Qed.
Lemma all_fine l : Forall (fun o => documented o -> no_controls (py_repr o)) l -> Forall documented l -> Forall no_controls (map py_repr l).
Proof. intros F D. induction D as [|x l X D IH]; inversion F; subst; constructor; auto. Qed.
Lemma dec_fine z : no_controls (dec_of_Z z).
Proof.
  assert (X : forall n, no_controls (dec_of_N n)).
  { intros n. pose proof (dec_of_N_digits n) as D. apply is_dec_all in D. revert D. apply Forall_impl. intros c C. lia. }
  destruct (Z.neg_nonneg_cases z) as [H|H]; [rewrite dec_of_Z_neg by exact H|rewrite dec_of_Z_nonneg by exact H; apply X].
  apply (Forall_app _ [45%N]). split; [fine|apply X].
Qed.
Lemma py_repr_fine o : documented o -> no_controls (py_repr o).
Proof.
  induction o using obj_ind'; intros D; inversion D; subst; cbn [py_repr].
  - fine.
  - destruct b; fine.
  - apply dec_fine.
  - apply repr_str_fine.
  - apply Forall_app. split; [fine|]. apply Forall_app. split; [|fine]. apply join_fine, all_fine; assumption.
  - apply Forall_app. split; [fine|]. apply Forall_app. split; [apply join_fine, all_fine; assumption|].
    apply Forall_app. split; [destruct l as [|? []]; fine|fine].
  - apply Forall_app. split; [fine|]. apply Forall_app. split; [|fine]. apply join_fine.
    match goal with F : Forall documented _, G : Forall _ vs |- _ => pose proof (all_fine vs G F) as A end. revert A. generalize (map py_repr vs) as ss. clear.
    intros ss A. revert ss A. induction ks as [|k ks IH]; intros ss A; [constructor|]. destruct A as [|s ss S A]; [constructor|]. cbn [combine map fst snd].
    constructor; [|apply IH, A]. apply Forall_app. split; [apply repr_str_fine|]. apply Forall_app. split; [fine|exact S].
Qed.
End R.
