(** Lemmas for C92. *)
From Verif Require TimeProps.
From Verif Require Import PyBase PyFacts DateTime SpecTime DateFacts Objects Exprs SpecExpr SpecMetricsQuery Query Strptime StrptimeFacts
  Request Legacy SpecLegacy SpecKeys SpecDated ExprFacts LegacyFacts LegacyProps BodyFacts KeyFacts.
Local Open Scope Z_scope.

Section I.
Context {RT : PyRT} {CV : PyConv}.

(** ** Offsets with seconds *)
Ltac yes := first [ apply any_digit_yes; lia | apply digit_in_yes; lia ].
Lemma any_digits_heads k v u : (1 <= k <= 6)%nat -> numeral k v u ->
  heads (p_bind (p_digits 5 any_digit) (fun ds => p_ret (micros ds))) u (v * 10 ^ Z.of_nat (6 - k)) [].
Proof.
  intros Hk H. destruct (numeral_digits k v u H) as (F & ->). pose proof H as (L & FD & _).
  eapply heads_bind.
  - apply digits_heads with (ds := map (fun c => Z.of_N c - 48) u); [|lia]. clear - FD.
    induction FD; cbn; constructor; [now apply any_digit_yes|assumption].
  - rewrite <- L. erewrite <- (map_length _ u). rewrite <- micros_val. apply heads_ret.
Qed.
Lemma offset_heads_sec (neg : bool) hh mm ss fr colon h m s us :
  numeral 2 h hh -> numeral 2 m mm -> numeral 2 s ss -> 0 <= m < 60 -> 0 <= s < 60 -> colon = [] \/ colon = $":" ->
  (us = 0 /\ fr = [] \/ exists ff, fr = $"." ++ ff /\ numeral 6 us ff) ->
  heads p_offset ((if neg then $"-" else $"+") ++ hh ++ colon ++ mm ++ colon ++ ss ++ fr)
    (Some ((if neg then -1 else 1) * (((h * 60 + m) * 60 + s) * 1000000 + us))) [].
Proof.
  intros Hh Hm Hs Rm Rs Hc Hf. apply numeral2 in Hh, Hm, Hs. destruct Hh as (a & b & -> & Ha & Hb & ->).
  destruct Hm as (c & d & -> & Hc1 & Hd & ->). destruct Hs as (e & f & -> & He & Hf1 & ->). unfold p_offset. apply heads_alt1.
  apply heads_bind with (a := if neg then -1 else 1) (r := [a; b] ++ colon ++ [c; d] ++ colon ++ [e; f] ++ fr).
  - destruct neg; cbn [app].
    + apply heads_alt2; [ reflexivity | ]. eapply heads_bind; [ now apply heads_char | apply heads_ret ].
    + apply heads_alt1. eapply heads_bind; [ now apply heads_char | apply heads_ret ].
  - cbn [app]. eapply heads_bind; [ now apply any_two | ].
    assert (PC : forall x r, (48 <= x <= 57)%N -> heads p_colon (colon ++ x :: r) (match colon with [] => false | _ => true end) (x :: r)).
    { intros x r Hx. destruct Hc as [ -> | -> ]; cbn [app]; unfold p_colon.
      * apply heads_alt2; [ | apply heads_ret ]. unfold p_bind, p_char.
        destruct (N.eqb 58 x) eqn:E; [ apply N.eqb_eq in E; lia | reflexivity ].
      * apply heads_alt1. eapply heads_bind; [ now apply heads_char | apply heads_ret ]. }
    eapply heads_bind; [ now apply PC | ].
    eapply heads_bind; [ apply two_heads; yes | ].
    eapply heads_bind.
    + unfold p_offset_rest. apply heads_alt1. eapply heads_bind; [ now apply PC | ].
      eapply heads_bind; [ apply two_heads; yes | ].
      apply heads_bind with (a := us) (r := []); [ | apply heads_ret ].
      destruct Hf as [ (-> & ->) | (ff & -> & N) ].
      * apply heads_alt2; [ reflexivity | apply heads_ret ].
      * apply heads_alt1. eapply heads_bind; [ now apply heads_char | ].
        replace us with (us * 10 ^ Z.of_nat (6 - 6)) by (cbn; lia). apply (any_digits_heads 6); [lia|exact N].
    + cbv beta iota. rewrite Bool.eqb_reflx. apply heads_ret.
Qed.

(** ** A text that is read with a fraction of a second has no offset *)
Lemma digit_not c x v : (c < 48 \/ 57 < c < 128)%N -> digit_of x v -> x <> c.
Proof. intros H D ->. destruct D; lia. Qed.
Lemma digits_not c u v : (c < 48 \/ 57 < c < 128)%N -> digits_of u v -> ~ In c u.
Proof.
  intros H (ds & F & _) I. apply In_nth_error in I as (n & I). revert n I.
  induction F as [|x d u ds D F IH]; intros [|n] I; try discriminate; [injection I as ->; exact (digit_not _ _ _ H D eq_refl)|exact (IH n I)].
Qed.
Lemma micro_signs s t : strptime_micro s = Some t -> count 45 s = 2%nat /\ count 43 s = 0%nat.
Proof.
  unfold strptime_micro.
  destruct (first_match _ s) as [ ((((y & mo) & d) & ((h & mi) & se)) & us) | ] eqn:E; [ | discriminate ]. intros _.
  assert (HF : sound (p_bind (p_char (N.eqb 46)) (fun _ => f_micro))
                 (fun v u => exists w, u = 46%N :: w /\ fraction v w /\ 0 <= v < 1000000)).
  { eapply sound_bind; [ apply sound_eq | intro; apply micro_range | ].
    intros [] v u w -> K. exists w. auto. }
  eapply first_match_sound in E; [ | apply (stamp_sound _ _ HF) ].
  destruct E as (y' & mo' & d' & h' & mi' & s' & a & ys & mos & ds & tt & hs & mis & ses & tail & _ & -> & HT & (_ & Hy) & (_ & Hmo) & Hd & ((_ & Hh) & _) & ((_ & Hmi) & _) & ((_ & Hs) & _) & w & -> & (_ & v & K & _) & _).
  assert (Z : forall c u v, (c < 48 \/ 57 < c < 128)%N -> digits_of u v -> count c u = 0%nat).
  { intros c u x H D. apply count_none. exact (digits_not _ _ _ H D). }
  assert (D0 : forall c, (c = 43 \/ c = 45)%N -> count c ds = 0%nat).
  { intros c Hc. destruct Hd as [(_ & Hd)|(x & -> & Hd)]; [apply (Z c _ d'); [lia|exact Hd]|].
    rewrite count_app. rewrite (Z c [x] d') by (lia || exact Hd). destruct Hc as [->| ->]; reflexivity. }
  change (46%N :: w) with ($"." ++ w).
  assert (W : forall c, (c = 43 \/ c = 45)%N -> count c ys = 0%nat /\ count c mos = 0%nat /\ count c hs = 0%nat
    /\ count c mis = 0%nat /\ count c ses = 0%nat /\ count c w = 0%nat).
  { intros c Hc. assert (H : (c < 48 \/ 57 < c < 128)%N) by lia. repeat split; eapply Z; eassumption. }
  destruct (W 45%N (or_intror eq_refl)) as (A1 & A2 & A3 & A4 & A5 & A6). destruct (W 43%N (or_introl eq_refl)) as (B1 & B2 & B3 & B4 & B5 & B6).
  pose proof (D0 45%N (or_intror eq_refl)) as A7. pose proof (D0 43%N (or_introl eq_refl)) as B7.
  split; rewrite !count_app; [rewrite A1, A2, A3, A4, A5, A6, A7|rewrite B1, B2, B3, B4, B5, B6, B7]; destruct HT as [->| ->]; reflexivity.
Qed.

(** ** Texts of isoformat *)
Lemma real_valid t : real_datetime t -> valid_datetime t.
Proof. apply TimeProps.real_datetime_iff. Qed.
Lemma iso_read t s : plain_iso t s -> parse_datetime s = Some t.
Proof.
  intros (R & (a & b & -> & (y & mo & d & h & mi & se & frac & -> & Hy & Hmo & Hd & Hh & Hmi & Hs & HF) & HO) & W).
  cbn [dt_date dt_hour dt_min dt_sec dt_us dt_tz] in Hy, Hmo, Hd, Hh, Hmi, Hs, HF.
  pose proof (real_valid _ R) as V. pose proof V as (_ & _ & _ & _ & _ & VZ).
  destruct (dt_tz t) as [o|] eqn:TZ.
  2:{ cbn [SpecMetricsQuery.offset_text] in HO. subst b. rewrite app_nil_r. apply stamp_read. split; [exact R|].
      exists y, mo, d, h, mi, se, frac. split; [reflexivity|]. do 6 (split; [assumption|]). rewrite TZ.
      destruct HF as [(-> & ->)|(_ & u & -> & N)]; [constructor|].
      replace (dt_us t) with (dt_us t * 10 ^ Z.of_nat (6 - 6)) by (cbn; lia). constructor; [lia|exact N]. }
  destruct W as [W|U]; [discriminate W|]. destruct HF as [(_ & ->)|(X & _)]; [|contradiction].
  destruct HO as (hh & mm & rest & oh & om & os & ofr & -> & Nh & Nm & Rm & Rs & Rf & AB & HR).
  assert (NNh : 0 <= oh).
  { pose proof (numeral2 _ _ Nh) as (x & z & _ & ? & ? & ->). lia. }
  assert (OV : o = (if o <? 0 then -1 else 1) * (((oh * 60 + om) * 60 + os) * 1000000 + ofr)).
  { destruct (o <? 0) eqn:E; [apply Z.ltb_lt in E|apply Z.ltb_ge in E]; lia. }
  rewrite app_nil_r.
  replace ((y ++ $"-" ++ mo ++ $"-" ++ d ++ $"T" ++ h ++ $":" ++ mi ++ $":" ++ se) ++ (if o <? 0 then $"-" else $"+") ++ hh ++ $":" ++ mm ++ rest)
    with (text y mo d h mi se ((if o <? 0 then $"-" else $"+") ++ hh ++ $":" ++ mm ++ rest))
    by (unfold text; now rewrite <- !app_assoc).
  assert (HR' : (os = 0 /\ ofr = 0 /\ rest = []) \/ exists ss fr, rest = $":" ++ ss ++ fr /\ numeral 2 os ss
    /\ (ofr = 0 /\ fr = [] \/ exists ff, fr = $"." ++ ff /\ numeral 6 ofr ff)).
  { destruct HR as [HR|[(-> & _ & ss & -> & N)|(_ & ss & ff & -> & N & N')]]; [left; exact HR| |].
    - right. exists ss, []. rewrite app_nil_r. auto.
    - right. exists ss, ($"." ++ ff). split; [reflexivity|]. split; [exact N|]. right. eauto. }
  clear HR. destruct HR' as [(-> & -> & ->)|(ss & fr & -> & Ns & Hfr)].
  - apply stamp_read. split; [exact R|]. exists y, mo, d, h, mi, se, ((if o <? 0 then $"-" else $"+") ++ hh ++ $":" ++ mm ++ []).
    split; [reflexivity|]. do 6 (split; [assumption|]). rewrite TZ, U, app_nil_r.
    rewrite OV at 2. replace ((if o <? 0 then -1 else 1) * (((oh * 60 + om) * 60 + 0) * 1000000 + 0))
      with ((if o <? 0 then -1 else 1) * (oh * 60 + om) * 60 * 1000000) by ring.
    apply tail_offset; auto. unfold US_PER_DAY in VZ. destruct (o <? 0); lia.
  - pose proof (make_datetime_valid t V) as MD. rewrite TZ, U in MD.
    assert (FN : forall k v u, numeral k v u -> filter (fun c => negb (N.eqb c 58)) u = u).
    { intros k v u (_ & F & _). clear - F. induction F as [ | c u Hc F IH ]; [ reflexivity | ]. cbn [filter].
      destruct (N.eqb c 58) eqn:E; [ apply N.eqb_eq in E; lia | ]. cbn. now rewrite IH. }
    assert (FR : filter (fun c => negb (N.eqb c 58)) fr = fr).
    { destruct Hfr as [(_ & ->)|(ff & -> & N)]; [reflexivity|]. rewrite filter_app, (FN _ _ _ N). reflexivity. }
    assert (CF : forall c, (c = 43 \/ c = 45)%N -> ~ In c (hh ++ $":" ++ mm ++ $":" ++ ss ++ fr)).
    { intros c Hc K. rewrite !in_app_iff in K. destruct K as [K|[K|[K|[K|[K|K]]]]].
      - apply (numeral_In _ _ _ c Nh); [lia|exact K].
      - cbn in K; lia.
      - apply (numeral_In _ _ _ c Nm); [lia|exact K].
      - cbn in K; lia.
      - apply (numeral_In _ _ _ c Ns); [lia|exact K].
      - destruct Hfr as [(_ & ->)|(ff & -> & N)]; [exact K|]. apply in_app_or in K as [K|K]; [cbn in K; lia|].
        apply (numeral_In _ _ _ c N); [lia|exact K]. }
    unfold parse_datetime. destruct (o <? 0) eqn:SG.
    + assert (N43 : ~ In 43%N ($"-" ++ hh ++ $":" ++ mm ++ $":" ++ ss ++ fr)).
      { intros K. apply in_app_or in K as [K|K]; [cbn in K; lia|]. exact (CF 43%N (or_introl eq_refl) K). }
      rewrite (text_strip t) by assumption.
      destruct (strptime_micro (text y mo d h mi se ($"-" ++ hh ++ $":" ++ mm ++ $":" ++ ss ++ fr))) eqn:E.
      { exfalso. apply micro_signs in E as (E & _). rewrite (text_count t) in E by assumption. rewrite count_app in E. cbn in E. lia. }
      unfold strptime_tz, text.
      rewrite (@stamp_heads _ _ _ p_offset t y mo d h mi se _ _ V Hy Hmo Hd Hh Hmi Hs
        (offset_heads_sec true hh mm ss fr ($":") oh om os ofr Nh Nm Ns Rm Rs (or_intror eq_refl) Hfr)).
      unfold stamp_fields. rewrite <- OV. now rewrite MD.
    + assert (S : strip_tz_colons (text y mo d h mi se ($"+" ++ hh ++ $":" ++ mm ++ $":" ++ ss ++ fr)) = text y mo d h mi se ($"+" ++ hh ++ [] ++ mm ++ [] ++ ss ++ fr)).
      { unfold strip_tz_colons.
        replace (text y mo d h mi se ($"+" ++ hh ++ $":" ++ mm ++ $":" ++ ss ++ fr)) with (text y mo d h mi se [] ++ 43%N :: hh ++ $":" ++ mm ++ $":" ++ ss ++ fr)
          by (unfold text; now rewrite <- !app_assoc).
        rewrite split_once_app by (intro K; apply (text_In t) in K; [ exact K | assumption.. | lia | lia ]).
        rewrite replace_colon, !filter_app, (FN _ _ _ Nh), (FN _ _ _ Nm), (FN _ _ _ Ns), FR.
        unfold text. now rewrite <- !app_assoc. }
      rewrite S.
      destruct (strptime_micro (text y mo d h mi se ($"+" ++ hh ++ [] ++ mm ++ [] ++ ss ++ fr))) eqn:E.
      { exfalso. apply micro_signs in E as (_ & E). unfold text in E. rewrite !count_app in E. cbn in E. lia. }
      unfold strptime_tz, text.
      rewrite (@stamp_heads _ _ _ p_offset t y mo d h mi se _ _ V Hy Hmo Hd Hh Hmi Hs
        (offset_heads_sec false hh mm ss fr [] oh om os ofr Nh Nm Ns Rm Rs (or_introl eq_refl) Hfr)).
      unfold stamp_fields. rewrite <- OV. now rewrite MD.
Qed.
(** no text is read as a datetime with an offset and microseconds *)
Lemma never_read t s : parse_datetime s = Some t -> dt_tz t = None \/ dt_us t = 0.
Proof.
  unfold parse_datetime, strptime_micro, strptime_tz, strptime_plain.
  assert (M : forall y mo d h mi se us tz t, make_datetime y mo d h mi se us tz = Some t -> dt_us t = us /\ dt_tz t = tz).
  { clear. intros. apply make_datetime_Some in H as (-> & _). auto. }
  destruct (match first_match (p_stamp (p_bind (p_char (N.eqb 46)) (fun _ => f_micro))) (strip_tz_colons s) with Some _ => _ | None => _ end) as [x|] eqn:E.
  - destruct (first_match _ _) as [((((y & mo) & d) & ((h & mi) & se)) & us)|]; [|discriminate].
    intros H. injection H as ->. left. now apply M in E.
  - clear E. destruct (match first_match (p_stamp p_offset) (strip_tz_colons s) with Some _ => _ | None => _ end) as [x|] eqn:E.
    + destruct (first_match _ _) as [((((y & mo) & d) & ((h & mi) & se)) & [us|])|]; try discriminate.
      intros H. injection H as ->. right. now apply M in E.
    + clear E. destruct (first_match _ _) as [((((y & mo) & d) & ((h & mi) & se)) & us)|]; [|discriminate].
      intros H. left. now apply M in H.
Qed.

(** ** Bodies *)
Lemma dated_scalar : forall v v', dated v v' -> parse_scalar false v = parse_scalar false v'.
Proof.
  fix IH 3. intros v v' D. destruct D as [v|t s P|v v' l l' L L' F].
  - reflexivity.
  - cbn [parse_scalar]. now rewrite (iso_read _ _ P).
  - assert (M : map (parse_scalar false) l = map (parse_scalar false) l').
    { clear L L'. induction F as [|x y l l' D F IHF]; [reflexivity|]. cbn [map]. f_equal; [apply IH, D|exact IHF]. }
    destruct L, L'; cbn [parse_scalar]; now rewrite M.
Qed.
Lemma dated_parse c c' : cond_dated c c' -> parse_condition c = parse_condition c'.
Proof.
  intros (a & o & r & r' & L & L' & D & N). unfold parse_condition, condition_rest.
  assert (I : forall i, index c i = index (OList [a; o; r]) i) by now inversion L.
  assert (I' : forall i, index c' i = index (OList [a; o; r']) i) by now inversion L'.
  rewrite !I, !I'. cbn [index nth_error bind]. destruct (parse_exp a) as [x|] eqn:E; [|reflexivity]. cbn [bind].
  apply parse_exp_iff in E. specialize (N _ E).
  assert (only_strings x = false) as ->. { destruct (only_strings x) eqn:Q; [|reflexivity]. apply only_strings_iff in Q. contradiction. }
  now rewrite (dated_scalar _ _ D).
Qed.
Lemma dated_is c c' : cond_dated c c' -> is_condition c = is_condition c'.
Proof. intros (a & o & r & r' & L & L' & _). unfold is_condition. inversion L; inversion L'; subst; reflexivity. Qed.
Lemma dated_pair_not v v' : pairwise cond_dated v v' -> is_condition v = Ok false /\ is_condition v' = Ok false.
Proof.
  intros (l & l' & L & L' & F).
  assert (G : forall l (x : obj), list_or_tuple x l -> (forall c, In c l -> exists y, list_or_tuple c y) -> is_condition x = Ok false).
  { clear. intros l x L H. unfold is_condition. assert (py_len x = Ok (List.length l)) as -> by now inversion L. cbn [bind].
    destruct (Nat.eqb (List.length l) 3) eqn:N; [|reflexivity]. apply Nat.eqb_eq in N.
    destruct l as [|a [|b [|c [|d l]]]]; try discriminate N. assert (index x 1 = Ok b) as -> by now inversion L. cbn [bind].
    destruct (H b) as (y & Y); [cbn; auto|]. now inversion Y. }
  split; (eapply G; [eassumption|]).
  - intros c I. apply In_nth_error in I as (n & I). clear L L'. revert n I.
    induction F as [|x y l l' (a & o & r & r' & A & _) F IH]; intros [|n] I; try discriminate; [injection I as <-; eauto|]. eapply IH, I.
  - intros c I. apply In_nth_error in I as (n & I). clear L L'. revert n I.
    induction F as [|x y l l' (a & o & r & r' & _ & A & _) F IH]; intros [|n] I; try discriminate; [injection I as <-; eauto|]. eapply IH, I.
Qed.
Lemma dated_where c c' : filter_dated c c' -> convert_where c = convert_where c'.
Proof.
  intros [->|[(T & C)|P]]; [reflexivity| |]; unfold convert_where.
  - rewrite <- (dated_is _ _ C), (proj2 (is_condition_yes c) T), (dated_parse _ _ C). reflexivity.
  - destruct (dated_pair_not _ _ P) as (-> & ->). cbn [bind]. rewrite <- !bind_assoc. now rewrite (pairwise_iter _ _ _ _ P dated_parse).
Qed.
Lemma dated_having c c' : filter_dated c c' -> convert_having c = convert_having c'.
Proof.
  intros [->|[(T & C)|P]]; [reflexivity| |]; unfold convert_having.
  - rewrite <- (dated_is _ _ C), (proj2 (is_condition_yes c) T), (dated_parse _ _ C). reflexivity.
  - destruct (dated_pair_not _ _ P) as (-> & ->). cbn [bind]. rewrite <- !bind_assoc. now rewrite (pairwise_iter _ _ _ _ P dated_parse).
Qed.
Definition other_than_filters (k : str) : Prop := k <> $"conditions" /\ k <> $"having".
Lemma parts_dated b b' : is_dict b -> is_dict b' ->
  (forall k, In k known_keys -> other_than_filters k -> same_at b b' k) ->
  dated_at b b' ($"conditions") -> dated_at b b' ($"having") -> parts_equal b b'.
Proof.
  intros D D' S C H.
  assert (G : forall k d, In k known_keys -> other_than_filters k -> body_get b k d = body_get b' k d) by (intros; apply get_same; auto).
  assert (F : forall A k (f : obj -> result A), (forall x y, filter_dated x y -> f x = f y) -> dated_at b b' k ->
    bind (iter (body_get b k (OList []))) (mapM f) = bind (iter (body_get b' k (OList []))) (mapM f)).
  { intros A k f Hf [X|(v & v' & X & Y & P)]; [now rewrite (get_same b b' k (OList []) D D' X)|].
    destruct D as (ks & vs & ->), D' as (ks' & vs' & ->).
    rewrite (proj2 (body_get_iff ks vs k (OList []) v) (or_introl X)), (proj2 (body_get_iff ks' vs' k (OList []) v') (or_introl Y)).
    now apply (pairwise_iter _ _ _ _ P). }
  Ltac kk := first [ cbn; auto 40; fail | split; discriminate ].
  constructor.
  - intros k I. apply G; [cbn in I; cbn; intuition|]. split; intros ->; cbn in I; intuition discriminate.
  - rewrite G by kk. reflexivity.
  - rewrite G by kk. reflexivity.
  - rewrite G by kk. reflexivity.
  - unfold extension. rewrite G by kk. reflexivity.
  - unfold extension. rewrite G by kk. reflexivity.
  - apply F; [exact dated_where|exact C].
  - apply F; [exact dated_having|exact H].
  - intros q. unfold set_legacy_limitby. rewrite !G by kk. reflexivity.
Qed.
End I.
