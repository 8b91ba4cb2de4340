(** Facts about strptime and parse_datetime (C58). *)
From Verif Require TimeProps.
From Verif Require Import PyBase DateTime SpecTime DateFacts Objects PyFacts SpecExpr Strptime SpecLegacy.
Local Open Scope Z_scope.

Lemma Forall2_length {A B} (R : A -> B -> Prop) l m : Forall2 R l m -> List.length l = List.length m.
Proof. induction 1; cbn; congruence. Qed.

Lemma Forall2_impl {A B} (R S : A -> B -> Prop) l m : (forall a b, R a b -> S a b) -> Forall2 R l m -> Forall2 S l m.
Proof. intro H. induction 1; constructor; auto. Qed.

(** ** Soundness: every result of a parser is of the given form *)
Definition sound {A} (p : parser A) (R : A -> str -> Prop) : Prop :=
  forall s a r, In (a, r) (p s) -> exists u, s = u ++ r /\ R a u.

Lemma sound_ret {A} (a : A) (R : A -> str -> Prop) : R a [] -> sound (p_ret a) R.
Proof. intros H s b r [ E | [] ]. injection E as <- <-. exists []. auto. Qed.
Lemma sound_bind {A B} (p : parser A) (f : A -> parser B) R (S : A -> B -> str -> Prop) (T : B -> str -> Prop) :
  sound p R -> (forall a, sound (f a) (S a)) ->
  (forall a b u v, R a u -> S a b v -> T b (u ++ v)) -> sound (p_bind p f) T.
Proof.
  intros Hp Hf HT s b r H. unfold p_bind in H. apply in_flat_map in H.
  destruct H as ((a & r1) & H1 & H2). cbn [fst snd] in H2.
  destruct (Hp _ _ _ H1) as (u & -> & Ru). destruct (Hf a _ _ _ H2) as (v & -> & Sv).
  exists (u ++ v). split; [ apply app_assoc | eauto ].
Qed.
Lemma sound_alt {A} (p q : parser A) R : sound p R -> sound q R -> sound (p_alt p q) R.
Proof. intros Hp Hq s a r H. unfold p_alt in H. apply in_app_iff in H. destruct H; eauto. Qed.
Lemma sound_imp {A} (p : parser A) (R S : A -> str -> Prop) : sound p R -> (forall a u, R a u -> S a u) -> sound p S.
Proof. intros Hp H s a r I. destruct (Hp _ _ _ I) as (u & -> & K). eauto. Qed.
Lemma sound_digit f : sound (p_digit f) (fun d u => exists c, u = [c] /\ f c = Some d).
Proof.
  intros s a r H. destruct s as [ | c s ]; [ destruct H | ]. cbn in H.
  destruct (f c) eqn:E; [ | destruct H ]. destruct H as [ H | [] ]. injection H as <- <-.
  exists [c]. eauto.
Qed.
Lemma sound_char f : sound (p_char f) (fun _ u => exists c, u = [c] /\ f c = true).
Proof.
  intros s a r H. destruct s as [ | c s ]; [ destruct H | ]. cbn in H.
  destruct (f c) eqn:E; [ | destruct H ]. destruct H as [ H | [] ]. injection H as <- <-.
  exists [c]. eauto.
Qed.
Lemma sound_eq c : sound (p_char (N.eqb c)) (fun _ u => u = [c]).
Proof.
  eapply sound_imp; [ apply sound_char | ]. intros a u (x & -> & E). apply N.eqb_eq in E. now subst.
Qed.
Lemma sound_two f g : sound (p_two f g) (fun v u => exists c d a b, u = [c; d] /\ f c = Some a /\ g d = Some b /\ v = 10 * a + b).
Proof.
  unfold p_two. eapply sound_bind; [ apply sound_digit | | ].
  - intro a. eapply (sound_bind _ _ _ (fun b v u => u = [] /\ v = 10 * a + b)
      (fun v u => exists c b, u = [c] /\ g c = Some b /\ v = 10 * a + b)).
    + apply sound_digit.
    + intro b. apply sound_ret. auto.
    + intros b v u w (c & -> & E) (-> & ->). exists c, b. auto.
  - intros a v u w (c & -> & E) (d & b & -> & E2 & ->). exists c, d, a, b. auto.
Qed.
Lemma sound_digits n f : sound (p_digits n f) (fun ds u => Forall2 (fun c d => f c = Some d) u ds /\ (1 <= List.length u <= n + 1)%nat).
Proof.
  induction n as [ | n IH ]; cbn [p_digits].
  - eapply (sound_bind _ _ _ (fun a ds u => u = [] /\ ds = [a])).
    + apply sound_digit.
    + intro a. now apply sound_ret.
    + intros a ds u v (c & -> & E) (-> & ->). rewrite app_nil_r. split; [ repeat constructor; exact E | cbn; lia ].
  - eapply (sound_bind _ _ _ (fun a ds u => exists ds', ds = a :: ds' /\ Forall2 (fun c d => f c = Some d) u ds' /\ (List.length u <= n + 1)%nat)).
    + apply sound_digit.
    + intro a. apply sound_alt.
      * eapply (sound_bind _ _ _ (fun ds' ds u => u = [] /\ ds = a :: ds')).
        -- apply IH.
        -- intro r. now apply sound_ret.
        -- intros ds' ds u v (F & L) (-> & ->). exists ds'. rewrite app_nil_r. repeat split; [ exact F | lia ].
      * apply sound_ret. exists []. repeat split; [ constructor | cbn; lia ].
    + intros a ds u v (c & -> & E) (ds' & -> & F & L). split; [ constructor; assumption | cbn; lia ].
Qed.

Section Facts.
Context {RT : PyRT} {CV : PyConv}.

Lemma digit_in_Some lo hi c v : (48 <= lo)%N -> (hi <= 57)%N -> digit_in lo hi c = Some v ->
  (lo <= c <= hi)%N /\ v = Z.of_N c - 48.
Proof.
  unfold digit_in, in_range. intros Hl Hh. destruct (lo <=? c)%N eqn:A, (c <=? hi)%N eqn:B; try discriminate.
  apply N.leb_le in A, B. intro E. injection E as <-. split; [ lia | ]. rewrite N2Z.inj_sub; lia.
Qed.
Lemma any_digit_Some c v : any_digit c = Some v -> digit_of c v.
Proof.
  unfold any_digit. destruct (c <? 128)%N eqn:E.
  - intro H. apply digit_in_Some in H; try lia. destruct H as [H ->]. now constructor.
  - apply N.ltb_ge in E. destruct (uni_digit c) eqn:U; [ | discriminate ]. intro H. injection H as <-. now constructor.
Qed.
Definition digital (f : N -> option Z) : Prop := forall c v, f c = Some v -> digit_of c v.
Lemma digital_any : digital any_digit.
Proof. exact any_digit_Some. Qed.
Lemma digital_in lo hi : (48 <= lo)%N -> (hi <= 57)%N -> digital (digit_in lo hi).
Proof. intros A B c v H. apply digit_in_Some in H; try assumption. destruct H as [H ->]. constructor. lia. Qed.

Lemma two_digits f g : digital f -> digital g -> sound (p_two f g) (exactly 2).
Proof.
  intros Hf Hg. eapply sound_imp; [ apply sound_two | ].
  intros v u (c & d & a & b & -> & E1 & E2 & ->). split; [ reflexivity | ].
  exists [a; b]. split; [ repeat constructor; [ now apply Hf | now apply Hg ] | cbn; lia ].
Qed.
Lemma two_one_two f g : digital f -> digital g -> sound (p_two f g) one_or_two.
Proof. intros Hf Hg. eapply sound_imp; [ now apply two_digits | ]. intros v u (L & D). split; auto. Qed.
Lemma one_digit f : digital f -> sound (p_digit f) (fun v u => exists c, u = [c] /\ digits_of [c] v).
Proof.
  intro Hf. eapply sound_imp; [ apply sound_digit | ]. intros v u (c & -> & E). exists c. split; [ reflexivity | ].
  exists [v]. split; [ repeat constructor; now apply Hf | reflexivity ].
Qed.
Lemma one_one_two f : digital f -> sound (p_digit f) one_or_two.
Proof. intro Hf. eapply sound_imp; [ now apply one_digit | ]. intros v u (c & -> & D). split; auto. Qed.

Ltac dig := first [ apply digital_any | apply digital_in; lia ].
Lemma year_sound : sound f_year (exactly 4).
Proof.
  unfold f_year.
  eapply (sound_bind _ _ _ (fun a v u => exists b, exactly 2 b u /\ v = 100 * a + b)).
  - apply two_digits; dig.
  - intro a. eapply (sound_bind _ _ _ (fun b v u => u = [] /\ v = 100 * a + b)).
    + apply two_digits; dig.
    + intro b. now apply sound_ret.
    + intros b v u w H (-> & ->). rewrite app_nil_r. eauto.
  - intros a v u w (L1 & ds1 & F1 & ->) (b & (L2 & ds2 & F2 & ->) & ->).
    split; [ rewrite app_length; lia | ]. exists (ds1 ++ ds2). split; [ now apply Forall2_app | ].
    rewrite fold_left_app.
    pose proof (Forall2_length _ _ _ F1) as K1. pose proof (Forall2_length _ _ _ F2) as K2. rewrite L1 in K1. rewrite L2 in K2.
    destruct ds1 as [ | a1 [ | a2 [ | ] ] ]; try discriminate. destruct ds2 as [ | b1 [ | b2 [ | ] ] ]; try discriminate.
    cbn [fold_left app]. lia.
Qed.
Lemma month_sound : sound f_month one_or_two.
Proof. unfold f_month. repeat apply sound_alt; (apply two_one_two || apply one_one_two); dig. Qed.
Definition bounded (f : N -> option Z) (lo hi : Z) : Prop :=
  forall c v, f c = Some v -> decimal_digits -> lo <= v <= hi.
Lemma bounded_any : bounded any_digit 0 9.
Proof.
  intros c v H D. apply any_digit_Some in H. destruct H as [ c H | c _ H ]; [ lia | now apply D ].
Qed.
Lemma bounded_in lo hi : (48 <= lo)%N -> (hi <= 57)%N -> bounded (digit_in lo hi) (Z.of_N lo - 48) (Z.of_N hi - 48).
Proof. intros A B c v H _. apply digit_in_Some in H; try assumption. lia. Qed.
Definition within (lo hi : Z) (v : Z) (u : str) : Prop := one_or_two v u /\ (decimal_digits -> lo <= v < hi).
Lemma two_within f g a b c d lo hi : digital f -> digital g -> bounded f a b -> bounded g c d ->
  lo <= 10 * a + c -> 10 * b + d < hi -> sound (p_two f g) (within lo hi).
Proof.
  intros Hf Hg Bf Bg L H. eapply sound_imp; [ apply sound_two | ].
  intros v u (x & y & m & n & -> & E1 & E2 & ->). split.
  - split; [ now right | ]. exists [m; n]. split; [ repeat constructor; [ now apply Hf | now apply Hg ] | cbn [fold_left]; lia ].
  - intro D. specialize (Bf _ _ E1 D). specialize (Bg _ _ E2 D). lia.
Qed.
Lemma one_within f a b lo hi : digital f -> bounded f a b -> lo <= a -> b < hi -> sound (p_digit f) (within lo hi).
Proof.
  intros Hf Bf L H. eapply sound_imp; [ apply sound_digit | ]. intros v u (c & -> & E). split.
  - split; [ now left | ]. exists [v]. split; [ repeat constructor; now apply Hf | reflexivity ].
  - intro D. specialize (Bf _ _ E D). lia.
Qed.
Ltac bnd := first [ apply bounded_any | apply bounded_in; lia ].
Ltac ranged := repeat apply sound_alt;
  first [ eapply two_within; [ dig | dig | bnd | bnd | cbn; lia | cbn; lia ]
        | eapply one_within; [ dig | bnd | cbn; lia | cbn; lia ] ].
Lemma hour_sound : sound f_hour (within 0 24).
Proof. unfold f_hour. ranged. Qed.
Lemma minute_sound : sound f_minute (within 0 60).
Proof. unfold f_minute. ranged. Qed.
Lemma second_sound : sound f_second (within 0 62).
Proof. unfold f_second. ranged. Qed.
Lemma day_sound : sound f_day day_text.
Proof.
  unfold f_day. repeat apply sound_alt.
  1-4: eapply sound_imp; [ (apply two_one_two || apply one_one_two); dig | now left ].
  eapply sound_bind; [ apply sound_eq | intro; apply one_digit; dig | ].
  intros [] v u w -> (c & -> & D). right. exists c. auto.
Qed.

Lemma fold_zeros n a : fold_left (fun a d => 10 * a + d) (repeat 0 n) a = a * 10 ^ Z.of_nat n.
Proof.
  revert a. induction n as [ | n IH ]; intro a; cbn [repeat fold_left].
  - cbn. lia.
  - rewrite IH, Nat2Z.inj_succ, Z.pow_succ_r by lia. lia.
Qed.
Lemma micros_val ds : micros ds = fold_left (fun a d => 10 * a + d) ds 0 * 10 ^ Z.of_nat (6 - List.length ds).
Proof. unfold micros. now rewrite fold_left_app, fold_zeros. Qed.
Lemma numerals u ds a : Forall2 (fun c d => digit_in 48 57 c = Some d) u ds -> 0 <= a ->
  0 <= fold_left (fun a d => 10 * a + d) ds a < (a + 1) * 10 ^ Z.of_nat (List.length u).
Proof.
  intro H. revert a. induction H as [ | c d u ds Hc H IH ]; intros a Ha; cbn [fold_left List.length].
  - cbn. lia.
  - apply digit_in_Some in Hc; try lia. rewrite Nat2Z.inj_succ, Z.pow_succ_r by lia.
    specialize (IH (10 * a + d)). assert (0 < 10 ^ Z.of_nat (List.length u)) by (apply Z.pow_pos_nonneg; lia). nia.
Qed.
Lemma micro_range : sound f_micro (fun v u => fraction v u /\ 0 <= v < 1000000).
Proof.
  unfold f_micro. eapply (sound_bind _ _ _ (fun ds v u => u = [] /\ v = micros ds)).
  - apply sound_digits.
  - intro ds. now apply sound_ret.
  - intros ds v u w (F & L) (-> & ->). rewrite app_nil_r.
    assert (E : micros ds = fold_left (fun a d => 10 * a + d) ds 0 * 10 ^ Z.of_nat (6 - List.length u))
      by now rewrite micros_val, (Forall2_length _ _ _ F).
    split.
    + split; [ lia | ]. exists (fold_left (fun a d => 10 * a + d) ds 0). split; [ | exact E ].
      exists ds. split; [ | reflexivity ]. eapply Forall2_impl; [ | exact F ]. apply digital_in; lia.
    + rewrite E. pose proof (numerals u ds 0 F ltac:(lia)) as B.
      assert (P : 10 ^ Z.of_nat (List.length u) * 10 ^ Z.of_nat (6 - List.length u) = 1000000).
      { rewrite <- Z.pow_add_r by lia. rewrite <- Nat2Z.inj_add.
        replace (List.length u + (6 - List.length u))%nat with 6%nat by lia. reflexivity. }
      assert (0 < 10 ^ Z.of_nat (6 - List.length u)) by (apply Z.pow_pos_nonneg; lia). nia.
Qed.
Lemma fraction_sound f : digital f -> sound (p_bind (p_digits 5 f) (fun ds => p_ret (micros ds))) fraction.
Proof.
  intro Hf. eapply (sound_bind _ _ _ (fun ds v u => u = [] /\ v = micros ds)).
  - apply sound_digits.
  - intro ds. now apply sound_ret.
  - intros ds v u w (F & L) (-> & ->). rewrite app_nil_r. split; [ lia | ].
    exists (fold_left (fun a d => 10 * a + d) ds 0). split.
    + exists ds. split; [ | reflexivity ]. eapply Forall2_impl; [ | exact F ]. exact Hf.
    + now rewrite micros_val, (Forall2_length _ _ _ F).
Qed.

(** the offset *)
Definition offset_text (o : option Z) (u : str) : Prop :=
  match o with Some z => lenient_tail u 0 (Some z) | None => True end.
Lemma colon_sound : sound p_colon (fun c u => u = (if c then $":" else [])).
Proof.
  unfold p_colon. apply sound_alt.
  - eapply sound_bind; [ apply sound_eq | intro; apply (sound_ret true (fun c u => c = true /\ u = [])); auto | ].
    intros [] c u v -> (-> & ->). reflexivity.
  - now apply sound_ret.
Qed.
Definition rest_text (r : option (bool * Z * Z)) (u : str) : Prop :=
  match r with
  | None => u = []
  | Some (c, s, us) => exists ss frac, u = (if c then $":" else []) ++ ss ++ frac /\ exactly 2 s ss
       /\ (frac = [] /\ us = 0 \/ exists w, frac = $"." ++ w /\ fraction us w)
  end.
Lemma rest_sound : sound p_offset_rest rest_text.
Proof.
  unfold p_offset_rest. apply sound_alt; [ | now apply sound_ret ].
  eapply (sound_bind _ _ _ (fun c r u => exists s us ss frac, r = Some (c, s, us) /\ u = ss ++ frac /\ exactly 2 s ss
     /\ (frac = [] /\ us = 0 \/ exists w, frac = $"." ++ w /\ fraction us w))).
  - apply colon_sound.
  - intro c. eapply (sound_bind _ _ _ (fun s r u => exists us, r = Some (c, s, us)
       /\ (u = [] /\ us = 0 \/ exists w, u = $"." ++ w /\ fraction us w))).
    + apply two_digits; dig.
    + intro s. eapply (sound_bind _ _ (fun us u => u = [] /\ us = 0 \/ exists w, u = $"." ++ w /\ fraction us w)
         (fun us r u => u = [] /\ r = Some (c, s, us))).
      * apply sound_alt.
        -- eapply sound_bind; [ apply sound_eq | intro; apply fraction_sound; dig | ].
           intros [] us u v -> Hf. right. exists v. auto.
        -- apply sound_ret. auto.
      * intro us. now apply sound_ret.
      * intros us r u v H (-> & ->). rewrite app_nil_r. eauto.
    + intros s r u v H1 (us & -> & H2). exists s, us, u, v. auto.
  - intros c r u v -> (s & us & ss & frac & -> & -> & H1 & H2). exists ss, frac. auto.
Qed.
Lemma offset_sound : sound p_offset offset_text.
Proof.
  unfold p_offset. apply sound_alt.
  2: { eapply sound_bind; [ apply sound_eq | intro; apply (sound_ret (Some 0) (fun o u => o = Some 0 /\ u = [])); auto | ].
       intros [] o u v -> (-> & ->). apply lt_z. }
  eapply (sound_bind _ _ (fun sg u => sg = 1 /\ u = $"+" \/ sg = -1 /\ u = $"-")
    (fun sg o u => forall z, o = Some z -> exists hh mm rest colon h m s us,
       u = hh ++ colon ++ mm ++ rest /\ exactly 2 h hh /\ exactly 2 m mm /\ opt_colon colon
       /\ (rest = [] /\ s = 0 /\ us = 0
          \/ exists ss frac, rest = colon ++ ss ++ frac /\ exactly 2 s ss
          /\ (frac = [] /\ us = 0 \/ exists u, frac = $"." ++ u /\ fraction us u))
       /\ z = sg * (((h * 60 + m) * 60 + s) * 1000000 + us))).
  - apply sound_alt.
    + eapply sound_bind; [ apply sound_eq | intro; apply (sound_ret 1 (fun a u => u = [] /\ a = 1)); auto | ].
      intros [] sg u v -> (-> & ->); auto.
    + eapply sound_bind; [ apply sound_eq | intro; apply (sound_ret (-1) (fun a u => u = [] /\ a = -1)); auto | ].
      intros [] sg u v -> (-> & ->); auto.
  - intro sg.
    eapply (sound_bind _ _ _ (fun h o u => forall z, o = Some z -> exists mm rest colon m s us,
       u = colon ++ mm ++ rest /\ exactly 2 m mm /\ opt_colon colon
       /\ (rest = [] /\ s = 0 /\ us = 0
          \/ exists ss frac, rest = colon ++ ss ++ frac /\ exactly 2 s ss
          /\ (frac = [] /\ us = 0 \/ exists u, frac = $"." ++ u /\ fraction us u))
       /\ z = sg * (((h * 60 + m) * 60 + s) * 1000000 + us))).
    + apply two_digits; dig.
    + intro h. eapply (sound_bind _ _ _ (fun c o u => forall z, o = Some z -> exists mm rest m s us,
       u = mm ++ rest /\ exactly 2 m mm
       /\ (rest = [] /\ s = 0 /\ us = 0
          \/ exists ss frac, rest = (if c : bool then $":" else []) ++ ss ++ frac /\ exactly 2 s ss
          /\ (frac = [] /\ us = 0 \/ exists u, frac = $"." ++ u /\ fraction us u))
       /\ z = sg * (((h * 60 + m) * 60 + s) * 1000000 + us))).
      * apply colon_sound.
      * intro c. eapply (sound_bind _ _ _ (fun m o u => forall z, o = Some z -> exists s us,
         (u = [] /\ s = 0 /\ us = 0
          \/ exists ss frac, u = (if c : bool then $":" else []) ++ ss ++ frac /\ exactly 2 s ss
          /\ (frac = [] /\ us = 0 \/ exists u, frac = $"." ++ u /\ fraction us u))
         /\ z = sg * (((h * 60 + m) * 60 + s) * 1000000 + us))).
        -- apply two_digits; dig.
        -- intro m. eapply (sound_bind _ _ _ (fun r o u => u = [] /\ o = match r with
              | None => Some (sg * ((h * 60 + m) * 60 * 1000000))
              | Some (c', s, us) =>
                  if Bool.eqb c c' then Some (sg * (((h * 60 + m) * 60 + s) * 1000000 + us)) else None
              end)).
           ++ apply rest_sound.
           ++ intro r. now apply sound_ret.
           ++ intros r o u v Hr (-> & ->) z Hz. rewrite app_nil_r. destruct r as [ ((c' & s) & us) | ].
              ** destruct (Bool.eqb c c') eqn:E; [ | discriminate ]. apply eqb_prop in E. subst c'.
                 injection Hz as <-. destruct Hr as (ss & frac & -> & H1 & H2). exists s, us.
                 split; [ right; exists ss, frac; auto | reflexivity ].
              ** injection Hz as <-. cbn in Hr. subst u. exists 0, 0. split; [ auto | ring ].
        -- intros m o u v Hm H z Hz. destruct (H z Hz) as (s & us & H1 & ->).
           exists u, v, m, s, us. auto.
      * intros c o u v -> H z Hz. destruct (H z Hz) as (mm & rest & m & s & us & -> & H1 & H2 & ->).
        exists mm, rest, (if c then $":" else []), m, s, us.
        repeat split; try assumption; try apply H1. destruct c; [ right | left ]; reflexivity.
    + intros h o u v Hh H z Hz. destruct (H z Hz) as (mm & rest & colon & m & s & us & -> & H1).
      exists u, mm, rest, colon, h, m, s, us. auto.
  - intros sg o u v Hs H. destruct o as [ z | ]; [ | exact I ].
    destruct (H z eq_refl) as (hh & mm & rest & colon & h & m & s & us & -> & H1 & H2 & H3 & H4 & ->).
    destruct Hs as [ (-> & ->) | (-> & ->) ].
    + apply (lt_offset ($"+") false hh mm rest colon h m s us); auto.
    + apply (lt_offset ($"-") true hh mm rest colon h m s us); auto.
Qed.

Lemma T_sound : sound (p_char (fun c => N.eqb c 84 || N.eqb c 116)) (fun _ u => u = $"T" \/ u = $"t").
Proof.
  eapply sound_imp; [ apply sound_char | ]. intros a u (c & -> & E).
  apply orb_true_iff in E. rewrite !N.eqb_eq in E. destruct E as [ -> | -> ]; auto.
Qed.
Lemma sound_seq {A} (f : N -> bool) (k : parser A) (C : str -> Prop) R : sound (p_char f) (fun _ u => C u) -> sound k R ->
  sound (p_bind (p_char f) (fun _ => k)) (fun a u => exists c v, u = c ++ v /\ C c /\ R a v).
Proof.
  intros H1 H2. eapply sound_bind; [ exact H1 | intro; exact H2 | ]. intros [] a u v Hu Hv. exists u, v. auto.
Qed.
Lemma sound_field {A B} (p : parser A) (k : A -> parser B) R S : sound p R -> (forall a, sound (k a) (S a)) ->
  sound (p_bind p k) (fun b u => exists a v w, u = v ++ w /\ R a v /\ S a b w).
Proof. intros H1 H2. eapply sound_bind; [ exact H1 | exact H2 | ]. intros a b u v Hu Hv. exists a, u, v. auto. Qed.

Lemma stamp_sound {A} (k : parser A) R : sound k R ->
  sound (p_stamp k) (fun x u => exists y mo d h mi s a ys mos ds tt hs mis ses tail,
    x = ((y, mo, d), (h, mi, s), a)
    /\ u = ys ++ $"-" ++ mos ++ $"-" ++ ds ++ tt ++ hs ++ $":" ++ mis ++ $":" ++ ses ++ tail
    /\ (tt = $"T" \/ tt = $"t")
    /\ exactly 4 y ys /\ one_or_two mo mos /\ day_text d ds /\ within 0 24 h hs /\ within 0 60 mi mis
    /\ within 0 62 s ses /\ R a tail).
Proof.
  intro Hk. unfold p_stamp. eapply sound_imp.
  { eapply sound_field; [ apply year_sound | intro y ].
    eapply sound_seq; [ apply sound_eq | ].
    eapply sound_field; [ apply month_sound | intro mo ].
    eapply sound_seq; [ apply sound_eq | ].
    eapply sound_field; [ apply day_sound | intro d ].
    eapply sound_seq; [ apply T_sound | ].
    eapply sound_field; [ apply hour_sound | intro h ].
    eapply sound_seq; [ apply sound_eq | ].
    eapply sound_field; [ apply minute_sound | intro mi ].
    eapply sound_seq; [ apply sound_eq | ].
    eapply sound_field; [ apply second_sound | intro s ].
    eapply sound_field; [ exact Hk | intro a ].
    apply (sound_ret _ (fun b u => u = [] /\ b = ((y, mo, d), (h, mi, s), a))). auto. }
  cbn beta.
  intros x u (y & ys & ? & -> & Hy & c1 & ? & -> & -> & mo & mos & ? & -> & Hmo & c2 & ? & -> & -> &
    d & ds & ? & -> & Hd & tt & ? & -> & HT & h & hs & ? & -> & Hh & c3 & ? & -> & -> & mi & mis & ? & -> & Hmi &
    c4 & ? & -> & -> & s & ses & ? & -> & Hs & a & tail & ? & -> & Ha & -> & ->).
  exists y, mo, d, h, mi, s, a, ys, mos, ds, tt, hs, mis, ses, tail.
  rewrite app_nil_r. split; [ reflexivity | ]. split; [ reflexivity | ]. auto 10.
Qed.

Lemma first_match_sound {A} (p : parser A) R s a : sound p R -> first_match p s = Some a -> R a s.
Proof.
  intros H. unfold first_match. destruct (p s) as [ | (b & r) l ] eqn:E; [ discriminate | ].
  destruct r; [ | discriminate ]. intro K. injection K as ->.
  destruct (H s a []) as (u & -> & Hu); [ rewrite E; now left | ]. now rewrite app_nil_r.
Qed.

(** a text of the lenient form with the given fields, colons not removed *)
Definition lenient_plain (t : datetime) (s : str) : Prop :=
  exists y mo d tt h mi se tail,
    s = y ++ $"-" ++ mo ++ $"-" ++ d ++ tt ++ h ++ $":" ++ mi ++ $":" ++ se ++ tail
    /\ (tt = $"T" \/ tt = $"t")
    /\ exactly 4 (d_year (dt_date t)) y /\ one_or_two (d_month (dt_date t)) mo
    /\ day_text (d_day (dt_date t)) d /\ one_or_two (dt_hour t) h /\ one_or_two (dt_min t) mi
    /\ one_or_two (dt_sec t) se /\ lenient_tail tail (dt_us t) (dt_tz t).
Definition tail_of (t : datetime) (P : str -> Prop) (s : str) : Prop :=
  exists pre tail, s = pre ++ tail /\ P tail.

Lemma make_datetime_Some y mo d h mi s us tz t : make_datetime y mo d h mi s us tz = Some t ->
  t = mkDT (mkDate y mo d) h mi s us tz /\ valid_date (mkDate y mo d) /\ s < 60
  /\ match tz with Some o => - US_PER_DAY < o < US_PER_DAY | None => True end.
Proof.
  unfold make_datetime.
  destruct ((1 <=? y) && (y <=? 9999) && (1 <=? mo) && (mo <=? 12) && (1 <=? d)
     && (d <=? days_in_month (is_leap y) mo) && (s <? 60)
     && match tz with Some o => (- US_PER_DAY <? o) && (o <? US_PER_DAY) | None => true end) eqn:E; [ | discriminate ].
  intro H. injection H as <-. rewrite !andb_true_iff, !Z.leb_le, Z.ltb_lt in E.
  destruct E as (((((((A1 & A2) & A3) & A4) & A5) & A6) & A7) & A8).
  split; [ reflexivity | ]. split; [ unfold valid_date; cbn [d_year d_month d_day]; auto | ].
  split; [ exact A7 | ]. destruct tz; [ | exact I ]. apply andb_true_iff in A8. rewrite !Z.ltb_lt in A8. exact A8.
Qed.

Definition sane (t : datetime) : Prop := decimal_digits -> valid_datetime t.
Lemma sane_of y mo d h mi se us tz hs mis ses t : make_datetime y mo d h mi se us tz = Some t ->
  within 0 24 h hs -> within 0 60 mi mis -> within 0 62 se ses -> 0 <= us < 1000000 -> sane t.
Proof.
  intros H (_ & Hh) (_ & Hm) (_ & Hs) Hu D. apply make_datetime_Some in H. destruct H as (-> & V & S & Z).
  unfold valid_datetime. cbn [dt_date dt_hour dt_min dt_sec dt_us dt_tz].
  specialize (Hh D). specialize (Hm D). specialize (Hs D). repeat split; try lia; try apply V; try exact Z.
Qed.
Ltac fields := cbn [dt_date d_year d_month d_day dt_hour dt_min dt_sec dt_us dt_tz];
  repeat (split; [ first [ reflexivity | assumption | match goal with H : within _ _ _ _ |- _ => apply H end ] | ]).
Lemma micro_sound s t : strptime_micro s = Some t -> lenient_plain t s /\ In 46%N s /\ sane t.
Proof.
  unfold strptime_micro.
  destruct (first_match _ s) as [ ((((y & mo) & d) & ((h & mi) & se)) & us) | ] eqn:E; [ | discriminate ].
  intro H. pose proof (make_datetime_Some _ _ _ _ _ _ _ _ _ H) as (-> & _).
  assert (HF : sound (p_bind (p_char (N.eqb 46)) (fun _ => f_micro))
                 (fun v u => exists w, u = 46%N :: w /\ fraction v w /\ 0 <= v < 1000000)).
  { eapply sound_bind; [ apply sound_eq | intro; apply micro_range | ].
    intros [] v u w -> K. exists w. auto. }
  eapply first_match_sound in E; [ | apply (stamp_sound _ _ HF) ].
  destruct E as (y' & mo' & d' & h' & mi' & s' & a & ys & mos & ds & tt & hs & mis & ses & tail & E & -> & HT & Hy & Hmo & Hd & Hh & Hmi & Hs & w & -> & K & B).
  injection E as <- <- <- <- <- <- <-.
  split; [ | split ].
  - exists ys, mos, ds, tt, hs, mis, ses, (46%N :: w). fields. apply (lt_fraction us w K).
  - do 11 (apply in_or_app; right). now left.
  - exact (sane_of _ _ _ _ _ _ _ _ _ _ _ _ H Hh Hmi Hs B).
Qed.
Lemma tz_sound s t : strptime_tz s = Some t -> lenient_plain t s /\ dt_tz t <> None /\ sane t.
Proof.
  unfold strptime_tz.
  destruct (first_match _ s) as [ ((((y & mo) & d) & ((h & mi) & se)) & [ o | ]) | ] eqn:E; try discriminate.
  intro H. pose proof (make_datetime_Some _ _ _ _ _ _ _ _ _ H) as (-> & _).
  eapply first_match_sound in E; [ | eapply stamp_sound; apply offset_sound ].
  destruct E as (y' & mo' & d' & h' & mi' & s' & a & ys & mos & ds & tt & hs & mis & ses & tail & E & -> & HT & Hy & Hmo & Hd & Hh & Hmi & Hs & K).
  injection E as <- <- <- <- <- <- <-. split; [ | split ].
  - exists ys, mos, ds, tt, hs, mis, ses, tail. fields. exact K.
  - discriminate.
  - apply (sane_of _ _ _ _ _ _ _ _ _ _ _ _ H Hh Hmi Hs). lia.
Qed.
Lemma plain_sound s t : strptime_plain s = Some t -> lenient_plain t s /\ sane t.
Proof.
  unfold strptime_plain.
  destruct (first_match _ s) as [ ((((y & mo) & d) & ((h & mi) & se)) & a0) | ] eqn:E; [ | discriminate ].
  intro H. pose proof (make_datetime_Some _ _ _ _ _ _ _ _ _ H) as (-> & _).
  eapply first_match_sound in E; [ | eapply stamp_sound; apply (sound_ret _ (fun _ u => u = [])); reflexivity ].
  destruct E as (y' & mo' & d' & h' & mi' & s' & a & ys & mos & ds & tt & hs & mis & ses & tail & E & -> & HT & Hy & Hmo & Hd & Hh & Hmi & Hs & ->).
  injection E as <- <- <- <- <- <- <-. split.
  - exists ys, mos, ds, tt, hs, mis, ses, []. fields. constructor.
  - apply (sane_of _ _ _ _ _ _ _ _ _ _ _ _ H Hh Hmi Hs). lia.
Qed.

Lemma replace_colon b : replace [58%N] [] b = filter (fun c => negb (N.eqb c 58)) b.
Proof.
  unfold replace. induction b as [ | c b IH ]; [ reflexivity | ].
  cbn [repl prefixb List.length filter]. rewrite andb_true_r, N.eqb_sym. destruct (N.eqb c 58); cbn; now rewrite IH.
Qed.
Lemma strip_spec s : without_offset_colons s (strip_tz_colons s).
Proof.
  unfold strip_tz_colons, without_offset_colons. destruct (split_once 43 s) as [ (a & b) | ] eqn:E.
  - apply split_once_Some in E. destruct E as (-> & Ha). right. exists a, b.
    split; [ reflexivity | ]. split; [ exact Ha | ]. now rewrite replace_colon.
  - apply split_once_None in E. auto.
Qed.
Lemma parse_sound s t : parse_datetime s = Some t -> lenient_text t s /\ sane t.
Proof.
  unfold parse_datetime. intro H.
  assert (K : lenient_plain t (strip_tz_colons s) /\ sane t).
  { destruct (strptime_micro (strip_tz_colons s)) eqn:E1; [ injection H as ->; now apply micro_sound in E1 | ].
    destruct (strptime_tz (strip_tz_colons s)) eqn:E2; [ injection H as ->; now apply tz_sound in E2 | ].
    now apply plain_sound in H. }
  split; [ exists (strip_tz_colons s); split; [ apply strip_spec | apply K ] | apply K ].
Qed.

(** ** Completeness on the texts that are promised: the first match is the whole text *)
Definition heads {A} (p : parser A) (s : str) (a : A) (r : str) : Prop := exists l, p s = (a, r) :: l.
Lemma heads_ret {A} (a : A) s : heads (p_ret a) s a s.
Proof. exists []. reflexivity. Qed.
Lemma heads_bind {A B} (p : parser A) (f : A -> parser B) s a r b r' :
  heads p s a r -> heads (f a) r b r' -> heads (p_bind p f) s b r'.
Proof. intros (l & E) (l' & E'). unfold heads, p_bind. rewrite E. cbn [flat_map fst snd]. rewrite E'. eexists. reflexivity. Qed.
Lemma heads_alt1 {A} (p q : parser A) s a r : heads p s a r -> heads (p_alt p q) s a r.
Proof. intros (l & E). unfold heads, p_alt. rewrite E. eexists. reflexivity. Qed.
Lemma heads_alt2 {A} (p q : parser A) s a r : p s = [] -> heads q s a r -> heads (p_alt p q) s a r.
Proof. intros E (l & E'). unfold heads, p_alt. rewrite E, E'. eexists. reflexivity. Qed.
Lemma heads_char f c r : f c = true -> heads (p_char f) (c :: r) tt r.
Proof. intro H. unfold heads. cbn. rewrite H. eexists. reflexivity. Qed.
Lemma heads_first {A} (p : parser A) s a : heads p s a [] -> first_match p s = Some a.
Proof. intros (l & E). unfold first_match. now rewrite E. Qed.

Lemma numeral2 v s : numeral 2 v s -> exists a b, s = [a; b] /\ (48 <= a <= 57)%N /\ (48 <= b <= 57)%N
  /\ v = 10 * (Z.of_N a - 48) + (Z.of_N b - 48).
Proof.
  intros (L & F & V). destruct s as [ | a [ | b [ | ] ] ]; try discriminate.
  inversion F as [ | x l Ha F1 ]; subst. inversion F1 as [ | x l Hb F2 ]; subst. exists a, b. cbn [fold_left].
  repeat split; try lia.
Qed.
Lemma numeral4 v s : numeral 4 v s -> exists a b c d, s = [a; b; c; d] /\ (48 <= a <= 57)%N /\ (48 <= b <= 57)%N
  /\ (48 <= c <= 57)%N /\ (48 <= d <= 57)%N
  /\ v = 100 * (10 * (Z.of_N a - 48) + (Z.of_N b - 48)) + (10 * (Z.of_N c - 48) + (Z.of_N d - 48)).
Proof.
  intros (L & F & V). destruct s as [ | a [ | b [ | c [ | d [ | ] ] ] ] ]; try discriminate.
  inversion F as [ | x l Ha F1 ]; subst. inversion F1 as [ | x l Hb F2 ]; subst.
  inversion F2 as [ | x l Hc F3 ]; subst. inversion F3 as [ | x l Hd F4 ]; subst. exists a, b, c, d. cbn [fold_left].
  repeat split; try lia.
Qed.
Lemma digit_in_yes lo hi c : (lo <= c <= hi)%N -> (48 <= lo)%N -> digit_in lo hi c = Some (Z.of_N c - 48).
Proof.
  intros [A B] C. unfold digit_in, in_range. apply N.leb_le in A, B. rewrite A, B. cbn [andb]. f_equal.
  apply N.leb_le in A. rewrite N2Z.inj_sub; lia.
Qed.
Lemma digit_in_no lo hi c : (c < lo \/ hi < c)%N -> digit_in lo hi c = None.
Proof.
  intros H. unfold digit_in, in_range. destruct (lo <=? c)%N eqn:A, (c <=? hi)%N eqn:B; try reflexivity.
  apply N.leb_le in A, B. lia.
Qed.
Lemma any_digit_yes c : (48 <= c <= 57)%N -> any_digit c = Some (Z.of_N c - 48).
Proof.
  intro H. unfold any_digit. destruct (c <? 128)%N eqn:E; [ now apply digit_in_yes | ].
  apply N.ltb_ge in E. lia.
Qed.
Lemma two_heads f g a b x y r : f a = Some x -> g b = Some y -> heads (p_two f g) (a :: b :: r) (10 * x + y) r.
Proof.
  intros E1 E2. unfold heads, p_two, p_bind, p_digit. rewrite E1. cbn [flat_map fst snd]. rewrite E2. cbn. eexists. reflexivity.
Qed.
Lemma two_empty f g a b r : f a = None \/ g b = None -> p_two f g (a :: b :: r) = [].
Proof.
  intros H. unfold p_two, p_bind, p_digit. destruct (f a); [ | reflexivity ]. destruct H as [ H | H ]; [ discriminate | ].
  cbn [flat_map fst snd]. now rewrite H.
Qed.
Lemma any_two a b r : (48 <= a <= 57)%N -> (48 <= b <= 57)%N ->
  heads (p_two any_digit any_digit) (a :: b :: r) (10 * (Z.of_N a - 48) + (Z.of_N b - 48)) r.
Proof. intros. apply two_heads; now apply any_digit_yes. Qed.

Ltac yes := first [ apply any_digit_yes; lia | apply digit_in_yes; lia ].
Ltac no := first [ left; apply digit_in_no; lia | right; apply digit_in_no; lia ].
Ltac take := apply heads_alt1; apply two_heads; yes.
Ltac skip := apply heads_alt2; [ apply two_empty; no | ].
Lemma year_heads v s r : numeral 4 v s -> heads f_year (s ++ r) v r.
Proof.
  intro H. apply numeral4 in H. destruct H as (a & b & c & d & -> & Ha & Hb & Hc & Hd & ->).
  unfold f_year. eapply heads_bind; [ now apply any_two | ]. eapply heads_bind; [ now apply any_two | ]. apply heads_ret.
Qed.
Lemma month_heads v s r : numeral 2 v s -> 1 <= v <= 12 -> heads f_month (s ++ r) v r.
Proof.
  intros H R. apply numeral2 in H. destruct H as (a & b & -> & Ha & Hb & ->). unfold f_month. cbn [app].
  destruct (N.eq_dec a 49) as [ -> | ]; [ take | ]. skip. take.
Qed.
Lemma day_heads v s r : numeral 2 v s -> 1 <= v <= 31 -> heads f_day (s ++ r) v r.
Proof.
  intros H R. apply numeral2 in H. destruct H as (a & b & -> & Ha & Hb & ->). unfold f_day. cbn [app].
  destruct (N.eq_dec a 51) as [ -> | ]; [ take | ]. skip.
  destruct (N.eq_dec a 48) as [ -> | ]; [ skip; take | take ].
Qed.
Lemma hour_heads v s r : numeral 2 v s -> 0 <= v < 24 -> heads f_hour (s ++ r) v r.
Proof.
  intros H R. apply numeral2 in H. destruct H as (a & b & -> & Ha & Hb & ->). unfold f_hour. cbn [app].
  destruct (N.eq_dec a 50) as [ -> | ]; [ take | ]. skip. take.
Qed.
Lemma minute_heads v s r : numeral 2 v s -> 0 <= v < 60 -> heads f_minute (s ++ r) v r.
Proof.
  intros H R. apply numeral2 in H. destruct H as (a & b & -> & Ha & Hb & ->). unfold f_minute. cbn [app]. take.
Qed.
Lemma second_heads v s r : numeral 2 v s -> 0 <= v < 60 -> heads f_second (s ++ r) v r.
Proof.
  intros H R. apply numeral2 in H. destruct H as (a & b & -> & Ha & Hb & ->). unfold f_second. cbn [app]. skip. take.
Qed.

Definition stamp_fields (t : datetime) := ((d_year (dt_date t), d_month (dt_date t), d_day (dt_date t)), (dt_hour t, dt_min t, dt_sec t)).
Lemma stamp_heads {A} (k : parser A) t y mo d h mi se tail a :
  valid_datetime t ->
  numeral 4 (d_year (dt_date t)) y -> numeral 2 (d_month (dt_date t)) mo ->
  numeral 2 (d_day (dt_date t)) d -> numeral 2 (dt_hour t) h -> numeral 2 (dt_min t) mi ->
  numeral 2 (dt_sec t) se -> heads k tail a [] ->
  first_match (p_stamp k) (y ++ $"-" ++ mo ++ $"-" ++ d ++ $"T" ++ h ++ $":" ++ mi ++ $":" ++ se ++ tail)
  = Some (stamp_fields t, a).
Proof.
  intros ((Vy & Vm & Vd) & Vh & Vmi & Vs & _) Hy Hmo Hd Hh Hmi Hs Hk. apply heads_first. unfold p_stamp, stamp_fields.
  assert (D31 : days_in_month (is_leap (d_year (dt_date t))) (d_month (dt_date t)) <= 31).
  { apply TimeProps.days_le_31. }
  eapply heads_bind; [ apply year_heads; exact Hy | ]. eapply heads_bind; [ now apply heads_char | ].
  eapply heads_bind; [ apply month_heads; [ exact Hmo | lia ] | ]. eapply heads_bind; [ now apply heads_char | ].
  eapply heads_bind; [ apply day_heads; [ exact Hd | lia ] | ]. eapply heads_bind; [ now apply heads_char | ].
  eapply heads_bind; [ apply hour_heads; [ exact Hh | lia ] | ]. eapply heads_bind; [ now apply heads_char | ].
  eapply heads_bind; [ apply minute_heads; [ exact Hmi | lia ] | ]. eapply heads_bind; [ now apply heads_char | ].
  eapply heads_bind; [ apply second_heads; [ exact Hs | lia ] | ].
  eapply heads_bind; [ exact Hk | ]. apply heads_ret.
Qed.
Lemma make_datetime_valid t : valid_datetime t ->
  make_datetime (d_year (dt_date t)) (d_month (dt_date t)) (d_day (dt_date t)) (dt_hour t) (dt_min t) (dt_sec t) (dt_us t) (dt_tz t) = Some t.
Proof.
  intros ((Vy & Vm & Vd) & Vh & Vmi & Vs & Vu & Vz). unfold make_datetime.
  repeat match goal with
  | |- context [ (?a <=? ?b) ] => replace (a <=? b) with true by (symmetry; apply Z.leb_le; lia)
  end.
  replace (dt_sec t <? 60) with true by (symmetry; apply Z.ltb_lt; lia). cbn [andb].
  assert (E : match dt_tz t with Some o => (- US_PER_DAY <? o) && (o <? US_PER_DAY) | None => true end = true).
  { destruct (dt_tz t); [ | reflexivity ]. apply andb_true_iff. rewrite !Z.ltb_lt. exact Vz. }
  rewrite E. destruct t as [ [ ] ]. reflexivity.
Qed.

(** fractions *)
Lemma digits_heads n f u ds : Forall2 (fun c d => f c = Some d) u ds -> (1 <= List.length u <= n + 1)%nat ->
  heads (p_digits n f) u ds [].
Proof.
  intro F. revert n. induction F as [ | c d u ds Hc F IH ]; intros n L; [ cbn in L; lia | ].
  cbn [List.length] in L. destruct n as [ | n ]; cbn [p_digits].
  - destruct F; [ | cbn in L; lia ].
    eapply heads_bind; [ unfold heads; cbn; rewrite Hc; eexists; reflexivity | apply heads_ret ].
  - eapply heads_bind; [ unfold heads; cbn; rewrite Hc; eexists; reflexivity | ].
    destruct F as [ | c2 d2 u ds H2 F ].
    + apply heads_alt2; [ | apply heads_ret ]. destruct n; reflexivity.
    + apply heads_alt1. eapply heads_bind; [ apply IH; cbn [List.length] in *; lia | apply heads_ret ].
Qed.
Lemma numeral_digits k v u : numeral k v u -> Forall2 (fun c d => digit_in 48 57 c = Some d) u (map (fun c => Z.of_N c - 48) u)
  /\ v = fold_left (fun a d => 10 * a + d) (map (fun c => Z.of_N c - 48) u) 0.
Proof.
  intros (_ & F & V). split.
  - clear V. induction F; cbn; constructor; [ apply digit_in_yes; lia | assumption ].
  - subst v. generalize 0. induction F as [ | c u H F IH ]; intro a; cbn; [ reflexivity | ]. apply IH.
Qed.
Lemma micro_heads k v u : (1 <= k <= 6)%nat -> numeral k v u ->
  heads (p_bind (p_char (N.eqb 46)) (fun _ => f_micro)) ($"." ++ u) (v * 10 ^ Z.of_nat (6 - k)) [].
Proof.
  intros Hk H. eapply heads_bind; [ now apply heads_char | ]. unfold f_micro.
  destruct (numeral_digits k v u H) as (F & ->). destruct H as (L & _).
  eapply heads_bind; [ apply digits_heads; [ exact F | lia ] | ].
  rewrite <- L. erewrite <- (map_length _ u). rewrite <- micros_val. apply heads_ret.
Qed.
Lemma plain_heads s : heads (p_ret tt) s tt s.
Proof. apply heads_ret. Qed.
Lemma offset_heads (neg : bool) hh mm colon h m : numeral 2 h hh -> numeral 2 m mm -> 0 <= m < 60 ->
  colon = [] \/ colon = $":" ->
  heads p_offset ((if neg then $"-" else $"+") ++ hh ++ colon ++ mm)
    (Some ((if neg then -1 else 1) * ((h * 60 + m) * 60 * 1000000))) [].
Proof.
  intros Hh Hm Rm Hc. apply numeral2 in Hh, Hm. destruct Hh as (a & b & -> & Ha & Hb & ->).
  destruct Hm as (c & d & -> & Hc1 & Hd & ->). unfold p_offset. apply heads_alt1.
  apply heads_bind with (a := if neg then -1 else 1) (r := [a; b] ++ colon ++ [c; d]).
  - destruct neg; cbn [app].
    + apply heads_alt2; [ reflexivity | ]. eapply heads_bind; [ now apply heads_char | apply heads_ret ].
    + apply heads_alt1. eapply heads_bind; [ now apply heads_char | apply heads_ret ].
  - cbn [app]. eapply heads_bind; [ now apply any_two | ].
    apply heads_bind with (a := match colon with [] => false | _ => true end) (r := [c; d]).
    + destruct Hc as [ -> | -> ]; cbn [app]; unfold p_colon.
      * apply heads_alt2; [ | apply heads_ret ]. unfold p_bind, p_char.
        destruct (N.eqb 58 c) eqn:E; [ apply N.eqb_eq in E; lia | reflexivity ].
      * apply heads_alt1. eapply heads_bind; [ now apply heads_char | apply heads_ret ].
    + eapply heads_bind; [ apply two_heads; yes | ].
      apply heads_bind with (a := None) (r := []); [ | apply heads_ret ].
      unfold p_offset_rest. apply heads_alt2; [ reflexivity | apply heads_ret ].
Qed.

(** characters that do not occur *)
Lemma numeral_In k v u c : numeral k v u -> (c < 48 \/ 57 < c)%N -> ~ In c u.
Proof. intros (_ & F & _) H I. rewrite Forall_forall in F. specialize (F c I). lia. Qed.
Definition count (c : N) (s : str) : nat := count_occ N.eq_dec s c.
Lemma count_app c a b : count c (a ++ b) = (count c a + count c b)%nat.
Proof. apply count_occ_app. Qed.
Lemma count_none c s : ~ In c s -> count c s = 0%nat.
Proof. intro H. now apply count_occ_not_In. Qed.

Section Stamp.
Variables (t : datetime) (y mo d h mi se : str).
Hypotheses (Hy : numeral 4 (d_year (dt_date t)) y) (Hmo : numeral 2 (d_month (dt_date t)) mo)
  (Hd : numeral 2 (d_day (dt_date t)) d) (Hh : numeral 2 (dt_hour t) h) (Hmi : numeral 2 (dt_min t) mi)
  (Hs : numeral 2 (dt_sec t) se).
Definition text (tail : str) : str := y ++ $"-" ++ mo ++ $"-" ++ d ++ $"T" ++ h ++ $":" ++ mi ++ $":" ++ se ++ tail.
Lemma text_In tail c : (c < 45 \/ c = 46 \/ 58 < c)%N -> c <> 84%N -> In c (text tail) -> In c tail.
Proof.
  intros H HT. unfold text. rewrite !in_app_iff. intro K.
  repeat match goal with
  | K : _ \/ _ |- _ => destruct K as [ K | K ]
  | N : numeral _ _ ?u, K : In c ?u |- _ => exfalso; apply (numeral_In _ _ _ c N); [ lia | exact K ]
  | K : In c (lit _) |- _ => exfalso; cbn in K; lia
  | _ => exact K
  end.
Qed.
Lemma text_count tail : count 45 (text tail) = (2 + count 45 tail)%nat.
Proof.
  unfold text. rewrite !count_app.
  repeat match goal with
  | N : numeral _ _ ?u |- context [ count 45 ?u ] => rewrite (count_none 45 u) by (apply (numeral_In _ _ _ 45%N N); lia)
  end.
  reflexivity.
Qed.
Lemma text_strip tail : ~ In 43%N tail -> strip_tz_colons (text tail) = text tail.
Proof.
  intro H. unfold strip_tz_colons. replace (split_once 43 (text tail)) with (@None (str * str)); [ reflexivity | ].
  symmetry. apply split_once_None. intro K. apply H. apply (text_In tail 43%N); [ lia | lia | exact K ].
Qed.
Lemma text_no_micro tail : ~ In 46%N tail -> strptime_micro (text tail) = None.
Proof.
  intro H. destruct (strptime_micro (text tail)) eqn:E; [ | reflexivity ].
  apply micro_sound in E. destruct E as (_ & E & _). apply text_In in E; [ contradiction | lia | lia ].
Qed.
Lemma tail_with_offset tail us o : lenient_tail tail us (Some o) -> In 90%N tail \/ In 43%N tail \/ (1 <= count 45 tail)%nat.
Proof.
  intro H. inversion H; subst.
  - left. now left.
  - destruct neg; [ right; right; cbn; lia | right; left; now left ].
Qed.
Lemma text_no_tz : strptime_tz (text []) = None.
Proof.
  destruct (strptime_tz (text [])) as [ t' | ] eqn:E; [ | reflexivity ]. exfalso.
  apply tz_sound in E. destruct E as ((y' & mo' & d' & tt & h' & mi' & se' & tail & E & _ & _ & _ & _ & _ & _ & _ & HT) & NZ & _).
  destruct (dt_tz t') as [ o | ]; [ | now elim NZ ].
  destruct (tail_with_offset _ _ _ HT) as [ K | [ K | K ] ].
  - assert (I : In 90%N (text [])) by (rewrite E; do 11 (apply in_or_app; right); exact K).
    apply text_In in I; [ destruct I | lia | lia ].
  - assert (I : In 43%N (text [])) by (rewrite E; do 11 (apply in_or_app; right); exact K).
    apply text_In in I; [ destruct I | lia | lia ].
  - pose proof (f_equal (count 45) E) as C. rewrite text_count, !count_app in C. cbn [count count_occ] in C.
    change (count 45 ($"-")) with 1%nat in C. lia.
Qed.
End Stamp.

Lemma stamp_read t s : stamp_text t s -> parse_datetime s = Some t.
Proof.
  intros (R & y & mo & d & h & mi & se & tail & -> & Hy & Hmo & Hd & Hh & Hmi & Hs & HT).
  assert (V : valid_datetime t).
  { destruct R as (R & B1 & B2 & B3 & B4 & B5). apply real_date_iff in R.
    repeat split; try lia; try apply R. destruct (dt_tz t); [ | exact I ]. unfold US_PER_DAY. lia. }
  fold (text y mo d h mi se tail). unfold parse_datetime.
  pose proof (fun A k a => @stamp_heads A k t y mo d h mi se tail a V Hy Hmo Hd Hh Hmi Hs) as SH. fold (text y mo d h mi se tail) in SH.
  pose proof (make_datetime_valid t V) as MD.
  inversion HT as [ E1 E2 E3 | k v u Hk Hu E1 E2 E3 | sign neg hh mm colon hv mv Hsign Hhh Hmm Rh Rm Hcol E1 E2 E3 ]; subst tail.
  - rewrite (text_strip t) by (assumption || intros []).
    rewrite (text_no_micro t) by (assumption || intros []). rewrite (text_no_tz t) by assumption.
    unfold strptime_plain. rewrite (SH _ _ _ (plain_heads [])). unfold stamp_fields. rewrite <- E2, <- E3 in MD. exact MD.
  - assert (N43 : ~ In 43%N ($"." ++ u)).
    { intros [ K | K ]; [ discriminate | ]. apply (numeral_In _ _ _ 43%N Hu); [ lia | exact K ]. }
    rewrite (text_strip t) by assumption. unfold strptime_micro. rewrite (SH _ _ _ (micro_heads k v u Hk Hu)).
    unfold stamp_fields. rewrite <- E2, <- E3 in MD.
    match goal with |- match ?x with _ => _ end = _ => replace x with (Some t) end. reflexivity.
  - assert (NC : forall c, (c < 45 \/ c = 46 \/ 58 < c)%N -> c <> 43%N -> ~ In c (sign ++ hh ++ colon ++ mm)).
    { intros c Hc Hc2 K. rewrite !in_app_iff in K. destruct K as [ K | [ K | [ K | K ] ] ].
      - subst sign. destruct neg; cbn in K; lia.
      - apply (numeral_In _ _ _ c Hhh); [ lia | exact K ].
      - destruct Hcol as [ -> | -> ]; cbn in K; [ exact K | lia ].
      - apply (numeral_In _ _ _ c Hmm); [ lia | exact K ]. }
    rewrite <- E2, <- E3 in MD.
    destruct neg; subst sign.
    + assert (N43 : ~ In 43%N ($"-" ++ hh ++ colon ++ mm)).
      { intro K. rewrite !in_app_iff in K. destruct K as [ K | [ K | [ K | K ] ] ].
        - cbn in K; lia.
        - apply (numeral_In _ _ _ _ Hhh) in K; [ exact K | lia ].
        - destruct Hcol as [ -> | -> ]; cbn in K; [ exact K | lia ].
        - apply (numeral_In _ _ _ _ Hmm) in K; [ exact K | lia ]. }
      rewrite (text_strip t) by assumption.
      rewrite (text_no_micro t) by (try assumption; apply NC; lia).
      unfold strptime_tz. rewrite (SH _ _ _ (offset_heads true hh mm colon hv mv Hhh Hmm Rm Hcol)). unfold stamp_fields.
      replace (-1 * ((hv * 60 + mv) * 60 * 1000000)) with (-1 * (hv * 60 + mv) * 60 * 1000000) by ring. now rewrite MD.
    + assert (S : strip_tz_colons (text y mo d h mi se ($"+" ++ hh ++ colon ++ mm)) = text y mo d h mi se ($"+" ++ hh ++ [] ++ mm)).
      { unfold strip_tz_colons.
        replace (text y mo d h mi se ($"+" ++ hh ++ colon ++ mm)) with (text y mo d h mi se [] ++ 43%N :: hh ++ colon ++ mm)
          by (unfold text; now rewrite <- !app_assoc).
        rewrite split_once_app by (intro K; apply (text_In t) in K; [ exact K | assumption.. | lia | lia ]).
        rewrite replace_colon, !filter_app.
        assert (FN : forall k v u, numeral k v u -> filter (fun c => negb (N.eqb c 58)) u = u).
        { intros k v u (_ & F & _). clear - F. induction F as [ | c u Hc F IH ]; [ reflexivity | ]. cbn [filter].
          destruct (N.eqb c 58) eqn:E; [ apply N.eqb_eq in E; lia | ]. cbn. now rewrite IH. }
        rewrite (FN _ _ _ Hhh), (FN _ _ _ Hmm).
        replace (filter (fun c => negb (N.eqb c 58)) colon) with (@nil N) by (destruct Hcol as [ -> | -> ]; reflexivity).
        unfold text. now rewrite <- !app_assoc. }
      assert (N46 : ~ In 46%N ($"+" ++ hh ++ [] ++ mm)).
      { intro K. rewrite !in_app_iff in K. destruct K as [ K | [ K | [ K | K ] ] ].
        - cbn in K; lia.
        - apply (numeral_In _ _ _ _ Hhh) in K; [ exact K | lia ].
        - exact K.
        - apply (numeral_In _ _ _ _ Hmm) in K; [ exact K | lia ]. }
      rewrite S. rewrite (text_no_micro t) by assumption.
      unfold strptime_tz.
      pose proof (@stamp_heads _ p_offset t y mo d h mi se ($"+" ++ hh ++ [] ++ mm) _ V Hy Hmo Hd Hh Hmi Hs
        (offset_heads false hh mm [] hv mv Hhh Hmm Rm (or_introl eq_refl))) as SH2.
      fold (text y mo d h mi se ($"+" ++ hh ++ [] ++ mm)) in SH2. rewrite SH2. unfold stamp_fields.
      replace (1 * ((hv * 60 + mv) * 60 * 1000000)) with (1 * (hv * 60 + mv) * 60 * 1000000) by ring. now rewrite MD.
Qed.
End Facts.
