(** C16: the SAMPLE clause. *)
From Coq Require Import ZifyN ZifyNat.
From Verif Require Import PyBase PyFacts Objects Exprs Translate SpecExpr SpecText NumFacts SpecTime.

Lemma digits_value_val s : forall acc, fold_left (fun a c => 10 * a + (c - 48))%N s acc = dec_val acc s.
Proof.
  induction s as [|c s IH]; intros acc; [reflexivity|]. cbn [fold_left dec_val].
  rewrite IH. f_equal. lia.
Qed.
Lemma dec_val_shift s : forall acc,
  dec_val acc s = (acc * 10 ^ N.of_nat (List.length s) + dec_val 0 s)%N.
Proof.
  induction s as [|c s IH]; intros acc; cbn [dec_val List.length].
  - cbn. lia.
  - rewrite (IH (acc * 10 + (c - 48))%N), (IH (0 * 10 + (c - 48))%N).
    rewrite Nat2N.inj_succ, N.pow_succ_r'. nia.
Qed.
Lemma fixed_digits_text num p : (0 < p)%nat ->
  decimal_text (fixed_digits num (N.of_nat p)) num p.
Proof.
  intros Hp. unfold fixed_digits. rewrite Nat2N.id.
  set (P := (10 ^ N.of_nat p)%N).
  assert (HP : P <> 0%N) by (apply N.pow_nonzero; lia).
  pose proof (N.mod_lt num P HP) as L.
  destruct (numeral_pad p (Z.of_N (num mod P)) Hp) as (H1 & H2 & H3).
  { split; [lia|]. rewrite <- nat_N_Z, <- (N2Z.inj_pow 10). apply N2Z.inj_lt in L. exact L. }
  rewrite dec_of_Z_nonneg, N2Z.id in H1, H2, H3 by lia.
  set (fp := pad_left p (dec_of_N (num mod P))) in *.
  exists (dec_of_N (num / P)), fp.
  split; [reflexivity|]. split; [apply dec_of_N_nonempty|]. split; [exact H1|].
  assert (D : Forall (fun c => 48 <= c <= 57)%N (dec_of_N (num / P))).
  { eapply Forall_impl; [|apply dec_of_N_digits]. intros c Hc. apply is_digit_range, Hc. }
  split; [apply Forall_app; auto|].
  unfold digits_value. rewrite digits_value_val, dec_val_app, dec_val_dec_of_N.
  rewrite dec_val_shift, H1. fold P.
  change 0%Z with (Z.of_N 0) in H3. rewrite fold_dec_val in H3.
  - apply N2Z.inj in H3. rewrite H3. rewrite N.mul_comm. symmetry. apply N.div_mod, HP.
  - eapply Forall_impl; [|exact H2]. intros c Hc. apply is_digit_range, Hc.
Qed.

Lemma round_nearest m e p : nearest (round_scaled m e (N.of_nat p)) p m e.
Proof.
  unfold nearest, round_scaled. cbv zeta.
  assert (Ep : (10 ^ Z.of_nat p = Z.of_N (10 ^ N.of_nat p))%Z) by (rewrite N2Z.inj_pow, nat_N_Z; reflexivity).
  rewrite Ep. generalize (10 ^ N.of_nat p)%N. intros P.
  destruct (Z.leb_spec 0 e) as [He|He].
  - rewrite (Z.max_r 0 e), (Z.max_l 0 (-e)) by lia.
    rewrite !N2Z.inj_mul, N2Z.inj_pow, Z2N.id by lia. change (Z.of_N 2) with 2%Z.
    change (2 ^ 0)%Z with 1%Z. set (u := (2 ^ e)%Z).
    match goal with |- (2 * Z.abs ?x <= 1)%Z => assert (x = 0)%Z as -> by lia end. lia.
  - rewrite (Z.max_l 0 e), (Z.max_r 0 (-e)) by lia.
    assert (Ed : (2 ^ (- e) = Z.of_N (2 ^ Z.to_N (- e)))%Z) by (rewrite N2Z.inj_pow, Z2N.id by lia; reflexivity).
    rewrite Ed. assert (HD : (2 ^ Z.to_N (- e) <> 0)%N) by (apply N.pow_nonzero; lia).
    revert HD. generalize (2 ^ Z.to_N (- e))%N. intros d HD.
    pose proof (N.div_mod (m * P) d HD) as E. pose proof (N.mod_lt (m * P) d HD) as L.
    set (q := (m * P / d)%N) in *. set (r := ((m * P) mod d)%N) in *. clearbody q r.
    assert (EZ : (Z.of_N m * Z.of_N P = Z.of_N d * Z.of_N q + Z.of_N r)%Z) by lia.
    change (2 ^ 0)%Z with 1%Z. rewrite Z.mul_1_r, EZ.
    destruct (N.compare_spec (2 * r) d) as [C|C|C]; [destruct (N.even q)|..]; nia.
Qed.
Lemma round_positive m e : (0 < round_scaled m e 6)%N <-> not_tiny m e.
Proof.
  unfold not_tiny, round_scaled. cbv zeta. change (10 ^ 6)%N with 1000000%N.
  destruct (Z.leb_spec 0 e) as [He|He].
  - rewrite (Z.max_r 0 e), (Z.max_l 0 (-e)) by lia. change (2 ^ 0)%Z with 1%Z.
    assert (E : (2 ^ e = Z.of_N (2 ^ Z.to_N e))%Z) by (rewrite N2Z.inj_pow, Z2N.id by lia; reflexivity).
    rewrite E. generalize (2 ^ Z.to_N e)%N. intros u. nia.
  - rewrite (Z.max_l 0 e), (Z.max_r 0 (-e)) by lia. change (2 ^ 0)%Z with 1%Z.
    assert (Ed : (2 ^ (- e) = Z.of_N (2 ^ Z.to_N (- e)))%Z) by (rewrite N2Z.inj_pow, Z2N.id by lia; reflexivity).
    rewrite Ed. assert (HD : (2 ^ Z.to_N (- e) <> 0)%N) by (apply N.pow_nonzero; lia).
    revert HD. generalize (2 ^ Z.to_N (- e))%N. intros d HD.
    pose proof (N.div_mod (m * 1000000) d HD) as E. pose proof (N.mod_lt (m * 1000000) d HD) as L.
    set (q := (m * 1000000 / d)%N) in *. set (r := ((m * 1000000) mod d)%N) in *. clearbody q r.
    assert (G : (0 < q -> d <= d * q)%N) by nia.
    assert (G0 : (q = 0 -> d * q = 0)%N) by (intros ->; lia).
    assert (K : (Z.of_N d < 2000000 * Z.of_N m * 1)%Z <-> (d < 2 * (d * q + r))%N) by lia.
    rewrite K. clear K E.
    destruct (N.compare_spec (2 * r) d) as [C|C|C]; [destruct (N.even q) eqn:Q|..].
    + lia.
    + assert (q <> 0)%N by (intros ->; discriminate). lia.
    + lia.
    + lia.
Qed.
Lemma int_positive m e : m <> 0%N -> flt_is_int (FFin false m e) = true -> not_tiny m e.
Proof.
  intros Hm. unfold flt_is_int, not_tiny. destruct (Z.leb_spec 0 e) as [He|He].
  - intros _. rewrite (Z.max_r 0 e), (Z.max_l 0 (-e)) by lia. change (2 ^ 0)%Z with 1%Z.
    pose proof (Z.pow_pos_nonneg 2 e ltac:(lia) He). nia.
  - rewrite (Z.max_l 0 e), (Z.max_r 0 (-e)) by lia. change (2 ^ 0)%Z with 1%Z.
    assert (Ed : (2 ^ (- e) = Z.of_N (2 ^ Z.to_N (- e)))%Z) by (rewrite N2Z.inj_pow, Z2N.id by lia; reflexivity).
    rewrite Ed. assert (HD : (2 ^ Z.to_N (- e) <> 0)%N) by (apply N.pow_nonzero; lia).
    revert HD. generalize (2 ^ Z.to_N (- e))%N. intros d HD H. apply N.eqb_eq in H.
    pose proof (N.div_mod m d HD) as E. rewrite H in E.
    set (q := (m / d)%N) in *. clearbody q. assert (q <> 0)%N by (intros ->; lia). clear H. nia.
Qed.
Lemma round1_positive m e : m <> 0%N -> flt_is_int (FFin false m e) = true -> (0 < round_scaled m e 1)%N.
Proof.
  intros Hm Hi. pose proof (round_nearest m e 1) as R. unfold nearest in R. change (N.of_nat 1) with 1%N in R.
  cbv zeta in R. change (10 ^ Z.of_nat 1)%Z with 10%Z in R.
  destruct (N.eq_dec (round_scaled m e 1) 0) as [E|E]; [|lia]. exfalso. rewrite E in R. clear E.
  unfold flt_is_int in Hi. destruct (Z.leb_spec 0 e) as [He|He].
  - rewrite (Z.max_r 0 e), (Z.max_l 0 (-e)) in R by lia. change (2 ^ 0)%Z with 1%Z in R.
    pose proof (Z.pow_pos_nonneg 2 e ltac:(lia) He). nia.
  - rewrite (Z.max_l 0 e), (Z.max_r 0 (-e)) in R by lia. change (2 ^ 0)%Z with 1%Z in R.
    assert (Ed : (2 ^ (- e) = Z.of_N (2 ^ Z.to_N (- e)))%Z) by (rewrite N2Z.inj_pow, Z2N.id by lia; reflexivity).
    rewrite Ed in R. assert (HD : (2 ^ Z.to_N (- e) <> 0)%N) by (apply N.pow_nonzero; lia).
    revert R Hi HD. generalize (2 ^ Z.to_N (- e))%N. intros d R Hi HD. apply N.eqb_eq in Hi.
    pose proof (N.div_mod m d HD) as E. rewrite Hi in E.
    set (q := (m / d)%N) in *. clearbody q. assert (q <> 0)%N by (intros ->; lia). clear Hi. nia.
Qed.

(** the text of the clause for a finite positive sample *)
Lemma sample_text m e : m <> 0%N -> exists d num p,
  sample_clause (Some (FFin false m e)) = $" SAMPLE " ++ d
  /\ decimal_text d num p /\ nearest num p m e /\ ((0 < num)%N <-> not_tiny m e).
Proof.
  intros Hm. cbn [sample_clause]. unfold fmt_fixed. cbn [app].
  destruct (flt_is_int (FFin false m e)) eqn:I.
  - exists (fixed_digits (round_scaled m e 1) 1), (round_scaled m e 1), 1%nat.
    split; [reflexivity|]. split; [apply (fixed_digits_text _ 1); lia|].
    split; [apply (round_nearest m e 1)|]. split; intros _; [apply int_positive|apply round1_positive]; assumption.
  - exists (fixed_digits (round_scaled m e 6) 6), (round_scaled m e 6), 6%nat.
    split; [reflexivity|]. split; [apply (fixed_digits_text _ 6); lia|].
    split; [apply (round_nearest m e 6)|apply round_positive].
Qed.
