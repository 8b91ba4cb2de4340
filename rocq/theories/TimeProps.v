(** C15: printing of dates and datetimes. *)
From Coq Require Import ZifyBool.
From Verif Require Import PyBase PyFacts DateTime SpecTime DateFacts NumFacts Objects Exprs Translate.
Local Open Scope Z_scope.

Lemma days_le_31 leap m : days_in_month leap m <= 31.
Proof.
  unfold days_in_month.
  repeat match goal with |- context [match ?x with _ => _ end] => destruct x end; lia.
Qed.
Lemma date_iso_text d : real_date d -> iso_date_text d (date_iso d).
Proof.
  intros H. apply real_date_iff in H. destruct H as (Hy & Hm & Hd).
  pose proof (days_le_31 (is_leap (d_year d)) (d_month d)).
  unfold iso_date_text, date_iso. eexists _, _, _. split; [reflexivity|].
  split; [|split]; apply numeral_pad; try lia; cbn [Z.of_nat]; cbn; lia.
Qed.
Lemma real_datetime_iff t : real_datetime t <-> valid_datetime t.
Proof.
  unfold real_datetime, valid_datetime. rewrite real_date_iff.
  unfold US_PER_DAY. destruct (dt_tz t); intuition lia.
Qed.
Lemma datetime_iso_text t : real_datetime t -> dt_tz t = None -> iso_text t (datetime_iso t).
Proof.
  intros (Hd & Hh & Hm & Hs & Hu & _) Hz.
  destruct (date_iso_text _ Hd) as (y & mo & dd & E & H1 & H2 & H3).
  unfold datetime_iso. rewrite E, Hz. cbn [tz_iso].
  exists y, mo, dd, (pad2 (dt_hour t)), (pad2 (dt_min t)), (pad2 (dt_sec t)),
    (if dt_us t =? 0 then [] else $"." ++ pad_left 6 (dec_of_Z (dt_us t))).
  split. { rewrite app_nil_r, <- !app_assoc. reflexivity. }
  do 3 (split; [assumption|]).
  split; [apply numeral_pad; [lia|]; change (10 ^ Z.of_nat 2) with 100; lia|].
  split; [apply numeral_pad; [lia|]; change (10 ^ Z.of_nat 2) with 100; lia|].
  split; [apply numeral_pad; [lia|]; change (10 ^ Z.of_nat 2) with 100; lia|].
  destruct (Z.eqb_spec (dt_us t) 0) as [E0|E0]; [left; auto|right].
  split; [exact E0|]. eexists. split; [reflexivity|].
  apply numeral_pad; [lia|]. change (10 ^ Z.of_nat 6) with 1000000. lia.
Qed.

Lemma valid_cal d : valid_date d -> cal_date d.
Proof. unfold valid_date, cal_date. lia. Qed.
Lemma instant_iff t i : valid_date (dt_date t) -> instant t i <-> i = instant_us t.
Proof.
  intros H. unfold instant, instant_us, day_us, US_PER_DAY. split.
  - intros (n & Hn & ->). apply day_number_ord in Hn as [<- _]. lia.
  - intros ->. exists (ymd2ord (dt_date t)). split; [apply day_number_of, valid_cal, H|lia].
Qed.
Lemma ord_range d : valid_date d -> 1 <= ymd2ord d <= MAXORDINAL.
Proof.
  intros H. pose proof (ord_in_year d (valid_cal d H)) as B. destruct H as (Hy & _).
  pose proof (days_before_year_mono 1 (d_year d) ltac:(lia)) as M1.
  pose proof (days_before_year_mono (d_year d + 1) 10000 ltac:(lia)) as M2.
  change (days_before_year 1) with 0 in M1. change (days_before_year 10000) with MAXORDINAL in M2. lia.
Qed.
Lemma ord2ymd_valid n : 1 <= n <= MAXORDINAL -> valid_date (ord2ymd n).
Proof.
  intros H. destruct (ord2ymd_ok n) as [C E]; [lia|].
  pose proof (ord_in_year _ C) as B. destruct C as (Hy & Hm & Hd).
  split; [|auto]. split; [exact Hy|].
  destruct (Z_le_gt_dec (d_year (ord2ymd n)) 9999) as [L|L]; [exact L|].
  pose proof (days_before_year_mono 10000 (d_year (ord2ymd n)) ltac:(lia)) as M.
  change (days_before_year 10000) with MAXORDINAL in M. lia.
Qed.

Lemma day_us_range t : valid_datetime t -> 0 <= day_us t < US_PER_DAY.
Proof. intros (_ & H1 & H2 & H3 & H4 & _). unfold day_us, US_PER_DAY. lia. Qed.

Lemma sub_offset_ok t off : valid_datetime t -> dt_tz t = Some off ->
  (exists u, sub_offset t off = Ok u /\ valid_datetime u /\ dt_tz u = None /\ instant_us u = instant_us t)
  \/ (sub_offset t off = Raise OverflowError /\
      forall u, valid_datetime u -> dt_tz u = None -> instant_us u <> instant_us t).
Proof.
  intros Hv Hz. unfold sub_offset. cbv zeta.
  set (total := ymd2ord (dt_date t) * US_PER_DAY + day_us t - off).
  assert (Et : instant_us t = total) by (unfold instant_us; rewrite Hz; reflexivity).
  destruct ((0 <? total / US_PER_DAY) && (total / US_PER_DAY <=? MAXORDINAL)) eqn:E.
  - left. eexists. split; [reflexivity|].
    apply andb_true_iff in E as [E1 E2]. apply Z.ltb_lt in E1. apply Z.leb_le in E2.
    assert (R : 0 <= total mod US_PER_DAY < 86400000000) by (apply Z.mod_pos_bound; reflexivity).
    set (us := total mod US_PER_DAY) in *.
    assert (T : total = total / US_PER_DAY * 86400000000 + us).
    { unfold us. rewrite Z.mul_comm. apply Z.div_mod. discriminate. }
    set (days := total / US_PER_DAY) in *. clearbody us days.
    split; [|split].
    + unfold valid_datetime. cbn [dt_date dt_hour dt_min dt_sec dt_us dt_tz].
      split; [apply ord2ymd_valid; lia|]. clear - R. lia.
    + reflexivity.
    + unfold instant_us, day_us. cbn [dt_date dt_hour dt_min dt_sec dt_us dt_tz].
      destruct (ord2ymd_ok days) as [_ ->]; [lia|]. rewrite Hz. fold (day_us t).
      unfold total in T. unfold US_PER_DAY in *. clear - T R. lia.
  - right. split; [reflexivity|]. intros u Hu Hn Ei. rewrite Et in Ei.
    unfold instant_us in Ei. rewrite Hn in Ei.
    pose proof (ord_range _ (proj1 Hu)) as O. pose proof (day_us_range u Hu) as D.
    assert (Q : total / US_PER_DAY = ymd2ord (dt_date u)).
    { rewrite <- Ei. unfold US_PER_DAY in *. lia. }
    rewrite Q in E. lia.
Qed.

Section C15.
Context {RT : PyRT}.

Lemma c15_naive mql al t : real_datetime t -> dt_tz t = None ->
  exists iso, visit mql al (ODateTime t) = Ok ($"toDateTime('" ++ iso ++ $"')") /\ iso_text t iso.
Proof.
  intros H Hz. exists (datetime_iso t). split; [|apply datetime_iso_text; assumption].
  cbn [visit stringify_literal]. unfold to_naive_utc. rewrite Hz. reflexivity.
Qed.
Lemma c15_date mql al d : real_date d ->
  exists iso, visit mql al (ODate d) = Ok ($"toDateTime('" ++ iso ++ $"')") /\ iso_date_text d iso.
Proof. intros H. exists (date_iso d). split; [reflexivity|apply date_iso_text, H]. Qed.
Lemma c15_aware mql al t off : real_datetime t -> dt_tz t = Some off ->
  (exists u i iso, real_datetime u /\ dt_tz u = None /\ instant t i /\ instant u i /\ iso_text u iso
     /\ visit mql al (ODateTime t) = Ok ($"toDateTime('" ++ iso ++ $"')"))
  \/ (visit mql al (ODateTime t) = Raise OverflowError
      /\ forall u i, real_datetime u -> dt_tz u = None -> instant t i -> ~ instant u i).
Proof.
  intros H Hz. apply real_datetime_iff in H.
  cbn [visit stringify_literal]. unfold to_naive_utc. rewrite Hz.
  destruct (sub_offset_ok t off H Hz) as [(u & E & Hu & Hn & Ei)|(E & Hu)]; rewrite E; cbn [bind].
  - left. exists u, (instant_us t), (datetime_iso u). rewrite real_datetime_iff.
    split; [exact Hu|]. split; [exact Hn|].
    split; [apply instant_iff; [apply H|reflexivity]|].
    split; [apply instant_iff; [apply Hu|auto]|].
    split; [apply datetime_iso_text; [apply real_datetime_iff|]; assumption|reflexivity].
  - right. split; [reflexivity|]. intros u i Hru Hn Ht Hi.
    apply real_datetime_iff in Hru. apply instant_iff in Ht; [|apply H].
    apply instant_iff in Hi; [|apply Hru]. apply (Hu u Hru Hn). congruence.
Qed.
End C15.
