(** The datetime arithmetic of the model meets the calendar specification (C15). *)
From Coq Require Import ZifyBool Znumtheory.
From Verif Require Import PyBase PyFacts DateTime SpecTime.
Local Open Scope Z_scope.
Ltac Zify.zify_post_hook ::= Z.div_mod_to_equations.

Lemma is_leap_iff y : is_leap y = true <-> leap_year y.
Proof.
  unfold is_leap, leap_year. rewrite andb_true_iff, orb_true_iff, negb_true_iff, !Z.eqb_eq, Z.eqb_neq.
  rewrite <- !Z.mod_divide by lia. tauto.
Qed.
Lemma is_leap_false y : is_leap y = false <-> ~ leap_year y.
Proof. rewrite <- is_leap_iff. destruct (is_leap y); split; congruence. Qed.

Lemma month_cases m : 1 <= m <= 12 ->
  m = 1 \/ m = 2 \/ m = 3 \/ m = 4 \/ m = 5 \/ m = 6 \/ m = 7 \/ m = 8 \/ m = 9 \/ m = 10 \/ m = 11 \/ m = 12.
Proof. lia. Qed.
Ltac months H := apply month_cases in H; repeat (destruct H as [H|H]); subst.

Lemma month_length_iff y m n : 1 <= m <= 12 ->
  month_length y m n <-> n = days_in_month (is_leap y) m.
Proof.
  intros Hm. split.
  - intros H; inversion H; subst.
    + cbn in H0. repeat (destruct H0 as [<-|H0]; [reflexivity|]). contradiction.
    + cbn in H0. repeat (destruct H0 as [<-|H0]; [reflexivity|]). contradiction.
    + apply is_leap_iff in H0. rewrite H0. reflexivity.
    + apply is_leap_false in H0. rewrite H0. reflexivity.
  - intros ->. months Hm; cbn [days_in_month];
      try (apply ml_31; cbn; tauto); try (apply ml_30; cbn; tauto).
    destruct (is_leap y) eqn:E; [apply ml_29, is_leap_iff, E|apply ml_28, is_leap_false, E].
Qed.
Lemma month_length_month y m n : month_length y m n -> 1 <= m <= 12.
Proof.
  intros H; inversion H; subst; try lia; cbn in H0; lia.
Qed.

Lemma real_date_iff d : real_date d <-> valid_date d.
Proof.
  unfold real_date, valid_date. split.
  - intros (Hy & Hm & n & Hl & Hd). apply month_length_iff in Hl; [|exact Hm]. subst. auto.
  - intros (Hy & Hm & Hd). split; [exact Hy|]. split; [exact Hm|].
    eexists. split; [apply month_length_iff; [exact Hm|reflexivity]|exact Hd].
Qed.

Definition cal_date (d : date) : Prop :=
  1 <= d_year d /\ 1 <= d_month d <= 12 /\ 1 <= d_day d <= days_in_month (is_leap (d_year d)) (d_month d).

Lemma leap_days y : days_before_year (y + 1) = days_before_year y + 365 + (if is_leap y then 1 else 0).
Proof.
  unfold days_before_year, is_leap.
  replace (y + 1 - 1) with y by lia.
  destruct (Z.eqb_spec (y mod 4) 0), (Z.eqb_spec (y mod 100) 0), (Z.eqb_spec (y mod 400) 0); cbn; lia.
Qed.

(** counting one day adds one *)
Lemma next_day_ord d d' : cal_date d -> next_day d d' -> ymd2ord d' = ymd2ord d + 1 /\ cal_date d'.
Proof.
  intros (Hy & Hm & Hd) H. inversion H; subst; cbn [d_year d_month d_day] in *.
  - apply month_length_iff in H0; [|exact Hm]. subst n.
    unfold ymd2ord, cal_date; cbn [d_year d_month d_day]. lia.
  - apply month_length_iff in H0; [|exact Hm]. subst n.
    unfold ymd2ord, cal_date; cbn [d_year d_month d_day].
    set (w := days_before_year y). clearbody w.
    months Hm; destruct (is_leap y); cbn; lia.
  - unfold ymd2ord, cal_date; cbn [d_year d_month d_day]. rewrite leap_days.
    destruct (is_leap y), (is_leap (y + 1)); cbn; lia.
Qed.
Lemma day_number_ord d n : day_number d n -> ymd2ord d = n /\ cal_date d.
Proof.
  induction 1 as [|d d' n _ [IH1 IH2] Hn].
  - unfold cal_date; cbn. lia.
  - destruct (next_day_ord d d' IH2 Hn). split; [lia|assumption].
Qed.
Lemma next_day_total d : cal_date d -> exists d', next_day d d'.
Proof.
  intros (Hy & Hm & Hd). destruct d as [y m d]; cbn [d_year d_month d_day] in *.
  assert (L : month_length y m (days_in_month (is_leap y) m)) by (apply month_length_iff; auto).
  destruct (Z.eq_dec d (days_in_month (is_leap y) m)) as [E|E].
  - destruct (Z.eq_dec m 12) as [->|Em].
    + subst d. eexists. apply nd_year.
    + subst d. eexists. apply nd_month; [exact L|lia].
  - eexists. eapply nd_day; [exact L|lia].
Qed.
Lemma day_number_total n : 1 <= n -> exists d, day_number d n.
Proof.
  intros H. pattern n. apply Zlt_lower_bound_ind with (z := 1); [|exact H].
  intros x IH Hx. destruct (Z.eq_dec x 1) as [->|E]; [eexists; apply dn_first|].
  destruct (IH (x - 1)) as [d Hd]; [lia|].
  destruct (day_number_ord _ _ Hd) as [_ Hc]. destruct (next_day_total d Hc) as [d' Hd'].
  exists d'. replace x with (x - 1 + 1) by lia. eapply dn_next; eauto.
Qed.

(** distinct dates have distinct day numbers *)
Lemma days_before_year_mono a b : a <= b -> days_before_year a <= days_before_year b.
Proof. unfold days_before_year. intros H. lia. Qed.
Lemma ord_in_year d : cal_date d ->
  days_before_year (d_year d) < ymd2ord d <= days_before_year (d_year d + 1).
Proof.
  intros (Hy & Hm & Hd). unfold ymd2ord. rewrite leap_days.
  destruct d as [y m d]; cbn [d_year d_month d_day] in *.
  months Hm; destruct (is_leap y); cbn in *; lia.
Qed.
Lemma ymd2ord_inj d d' : cal_date d -> cal_date d' -> ymd2ord d = ymd2ord d' -> d = d'.
Proof.
  intros H H' E. pose proof (ord_in_year d H) as B. pose proof (ord_in_year d' H') as B'.
  assert (Y : d_year d = d_year d').
  { destruct (Z.lt_trichotomy (d_year d) (d_year d')) as [L|[L|L]]; [|exact L|].
    - pose proof (days_before_year_mono (d_year d + 1) (d_year d')). lia.
    - pose proof (days_before_year_mono (d_year d' + 1) (d_year d)). lia. }
  destruct H as (Hy & Hm & Hd), H' as (Hy' & Hm' & Hd'). unfold ymd2ord in E.
  destruct d as [y m d], d' as [y' m' d']; cbn [d_year d_month d_day] in *. subst y'.
  assert (M : m = m' /\ d = d').
  { months Hm; months Hm'; destruct (is_leap y); cbn in *; lia. }
  destruct M as [-> ->]. reflexivity.
Qed.
Lemma day_number_of d : cal_date d -> day_number d (ymd2ord d).
Proof.
  intros H. destruct (day_number_total (ymd2ord d)) as [d' Hd'].
  { pose proof (ord_in_year d H) as B. destruct H as (Hy & _).
    pose proof (days_before_year_mono 1 (d_year d) Hy) as M. change (days_before_year 1) with 0 in M. lia. }
  destruct (day_number_ord _ _ Hd') as [E Hc]. rewrite (ymd2ord_inj d d' H Hc) by congruence. rewrite E. exact Hd'.
Qed.
Lemma day_number_fun d n n' : day_number d n -> day_number d n' -> n = n'.
Proof. intros H H'. apply day_number_ord in H as [<- _]. apply day_number_ord in H' as [<- _]. reflexivity. Qed.

(** * ord2ymd *)
Definition month_day_ok (leap : bool) (n : Z) : bool :=
  let (m, d) := month_day leap n in
  (1 <=? m) && (m <=? 12) && (1 <=? d) && (d <=? days_in_month leap m)
  && (days_before_month leap m + d =? n + 1).
Lemma month_day_sweep leap n : 0 <= n < 365 -> month_day_ok leap n = true.
Proof.
  intros H.
  assert (S : forallb (fun k => month_day_ok true (Z.of_nat k) && month_day_ok false (Z.of_nat k)) (seq 0 365) = true)
    by (vm_compute; reflexivity).
  rewrite forallb_forall in S. specialize (S (Z.to_nat n)).
  rewrite in_seq in S. rewrite Z2Nat.id in S by lia. specialize (S ltac:(lia)).
  apply andb_true_iff in S as [S1 S2]. destruct leap; assumption.
Qed.

Lemma ord2ymd_ok n : 1 <= n -> cal_date (ord2ymd n) /\ ymd2ord (ord2ymd n) = n.
Proof.
  intros Hn. unfold ord2ymd. cbv zeta.
  set (a := (n - 1) / 146097). set (r1 := (n - 1) mod 146097).
  assert (A : n - 1 = 146097 * a + r1 /\ 0 <= r1 < 146097 /\ 0 <= a) by (unfold a, r1; lia).
  clearbody a r1.
  set (b := r1 / 36524). set (r2 := r1 mod 36524).
  assert (B : r1 = 36524 * b + r2 /\ 0 <= r2 < 36524 /\ 0 <= b <= 4) by (unfold b, r2; lia).
  clearbody b r2.
  set (c := r2 / 1461). set (r3 := r2 mod 1461).
  assert (C : r2 = 1461 * c + r3 /\ 0 <= r3 < 1461 /\ 0 <= c <= 24) by (unfold c, r3; lia).
  clearbody c r3.
  set (d := r3 / 365). set (e := r3 mod 365).
  assert (D : r3 = 365 * d + e /\ 0 <= e < 365 /\ 0 <= d <= 4) by (unfold d, e; lia).
  clearbody d e.
  assert (DBY : forall p, p = a * 400 + b * 100 + c * 4 + d -> 0 <= b <= 3 -> 0 <= d <= 3 ->
            days_before_year (p + 1) = 146097 * a + 36524 * b + 1461 * c + 365 * d).
  { intros p Ep Hb Hd. unfold days_before_year. replace (p + 1 - 1) with p by lia.
    replace (p / 4) with (100 * a + 25 * b + c) by lia.
    replace (p / 100) with (4 * a + b) by lia.
    replace (p / 400) with a by lia. lia. }
  assert (LEAP : forall p, p = a * 400 + b * 100 + c * 4 + d -> 0 <= b <= 3 -> 0 <= d <= 3 ->
            is_leap (p + 1) = (d =? 3) && (negb (c =? 24) || (b =? 3))).
  { intros p Ep Hb Hd. unfold is_leap.
    assert (E4 : ((p + 1) mod 4 =? 0) = (d =? 3)).
    { destruct (Z.eqb_spec d 3), (Z.eqb_spec ((p + 1) mod 4) 0); try reflexivity; lia. }
    assert (E100 : ((p + 1) mod 100 =? 0) = (d =? 3) && (c =? 24)).
    { destruct (Z.eqb_spec d 3), (Z.eqb_spec c 24), (Z.eqb_spec ((p + 1) mod 100) 0); try reflexivity; cbn; lia. }
    assert (E400 : ((p + 1) mod 400 =? 0) = (d =? 3) && (c =? 24) && (b =? 3)).
    { destruct (Z.eqb_spec d 3), (Z.eqb_spec c 24), (Z.eqb_spec b 3), (Z.eqb_spec ((p + 1) mod 400) 0);
        try reflexivity; cbn; lia. }
    rewrite E4, E100, E400.
    destruct (d =? 3), (c =? 24), (b =? 3); reflexivity. }
  destruct ((d =? 4) || (b =? 4)) eqn:E.
  - (* 31 December of a leap year *)
    assert (Y : is_leap (a * 400 + 1 + b * 100 + c * 4 + d - 1) = true
             /\ days_before_year (a * 400 + 1 + b * 100 + c * 4 + d - 1) + 366 = n).
    { destruct (Z.eqb_spec b 4) as [Eb|Eb].
      - assert (c = 0 /\ d = 0 /\ e = 0) as (-> & -> & ->) by lia. subst b.
        split.
        + unfold is_leap. replace (a * 400 + 1 + 4 * 100 + 0 * 4 + 0 - 1) with (400 * (a + 1)) by lia.
          lia.
        + unfold days_before_year.
          replace (a * 400 + 1 + 4 * 100 + 0 * 4 + 0 - 1 - 1) with (400 * a + 399) by lia.
          replace ((400 * a + 399) / 4) with (100 * a + 99) by lia.
          replace ((400 * a + 399) / 100) with (4 * a + 3) by lia.
          replace ((400 * a + 399) / 400) with a by lia. lia.
      - assert (d = 4) by lia. assert (e = 0) by lia. subst d e.
        assert (Hb : 0 <= b <= 3) by lia.
        assert (Hc : c < 24) by lia.
        replace (a * 400 + 1 + b * 100 + c * 4 + 4 - 1) with (400 * a + 100 * b + 4 * (c + 1)) by lia.
        split.
        + unfold is_leap.
          rewrite (proj2 (Z.eqb_eq ((400 * a + 100 * b + 4 * (c + 1)) mod 4) 0)) by lia.
          rewrite (proj2 (Z.eqb_neq ((400 * a + 100 * b + 4 * (c + 1)) mod 100) 0)) by lia.
          reflexivity.
        + unfold days_before_year. set (p := 400 * a + 100 * b + 4 * (c + 1) - 1).
          replace (p / 4) with (100 * a + 25 * b + c) by lia.
          replace (p / 100) with (4 * a + b) by lia.
          replace (p / 400) with a by lia. lia. }
    destruct Y as [Y1 Y2]. unfold cal_date, ymd2ord; cbn [d_year d_month d_day].
    rewrite Y1. cbn. lia.
  - apply orb_false_iff in E as [Ed Eb]. apply Z.eqb_neq in Ed, Eb.
    set (leap := (d =? 3) && (negb (c =? 24) || (b =? 3))).
    replace (a * 400 + 1 + b * 100 + c * 4 + d) with (a * 400 + b * 100 + c * 4 + d + 1) by lia.
    specialize (DBY _ eq_refl ltac:(lia) ltac:(lia)).
    specialize (LEAP _ eq_refl ltac:(lia) ltac:(lia)). fold leap in LEAP.
    pose proof (month_day_sweep leap e ltac:(lia)) as S. unfold month_day_ok in S.
    destruct (month_day leap e) as [m dd].
    unfold cal_date, ymd2ord; cbn [d_year d_month d_day]. rewrite LEAP, DBY. lia.
Qed.
