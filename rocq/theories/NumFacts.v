(** Decimal numerals: length, zero padding. *)
From Coq Require Import DecimalFacts ZifyN ZifyNat.
From Verif Require Import PyBase PyFacts DateTime SpecTime.

Lemma dec_val_ge s : forall acc, (acc * 10 ^ N.of_nat (List.length s) <= dec_val acc s)%N.
Proof.
  induction s as [|c s IH]; intros acc; cbn [dec_val List.length].
  - cbn. lia.
  - rewrite Nat2N.inj_succ, N.pow_succ_r'. specialize (IH (acc * 10 + (c - 48))%N). nia.
Qed.
Lemma dec_of_N_first n c s : (0 < n)%N -> dec_of_N n = c :: s -> c <> 48%N.
Proof.
  intros Hn H ->. unfold dec_of_N in H.
  pose proof (DecimalN.Unsigned.to_of (N.to_uint n)) as U. rewrite DecimalN.Unsigned.of_to in U.
  destruct (N.to_uint n) as [|u|u|u|u|u|u|u|u|u|u] eqn:E; try discriminate.
  unfold Decimal.unorm in U. destruct (Decimal.nzhead (Decimal.D0 u)) eqn:Z.
  - apply (f_equal N.of_uint) in E. rewrite DecimalN.Unsigned.of_to in E.
    injection U as ->. cbn in E. lia.
  - exact (nzhead_nonzero _ _ (eq_trans Z (eq_sym U))).
  - discriminate U.
  - discriminate U.
  - discriminate U.
  - discriminate U.
  - discriminate U.
  - discriminate U.
  - discriminate U.
  - discriminate U.
  - discriminate U.
Qed.
Lemma dec_of_N_length n w : (0 < w)%nat -> (n < 10 ^ N.of_nat w)%N -> (List.length (dec_of_N n) <= w)%nat.
Proof.
  intros Hw H. destruct n as [|p]; [cbn; lia|].
  destruct (dec_of_N (N.pos p)) as [|c s] eqn:E; [cbn; lia|].
  pose proof (dec_of_N_first (N.pos p) c s ltac:(lia) E) as Hc.
  pose proof (dec_of_N_digits (N.pos p)) as D. rewrite E in D. inversion D; subst.
  apply is_digit_range in H2.
  pose proof (dec_val_dec_of_N (N.pos p)) as V. rewrite E in V. cbn [dec_val] in V.
  pose proof (dec_val_ge s (0 * 10 + (c - 48))%N) as G. rewrite V in G.
  cbn [List.length].
  assert (10 ^ N.of_nat (List.length s) < 10 ^ N.of_nat w)%N by nia.
  apply N.pow_lt_mono_r_iff in H0; [|lia]. lia.
Qed.
Lemma fold_dec_val s : forall acc, is_dec s ->
  fold_left (fun a c => 10 * a + (Z.of_N c - 48))%Z s (Z.of_N acc) = Z.of_N (dec_val acc s).
Proof.
  induction s as [|c s IH]; intros acc D; [reflexivity|]. inversion D; subst. cbn [fold_left dec_val].
  rewrite <- IH by assumption. f_equal. apply is_digit_range in H1. lia.
Qed.
Lemma dec_val_zeros k s : dec_val 0 (repeat 48%N k ++ s) = dec_val 0 s.
Proof. induction k; [reflexivity|]. cbn. exact IHk. Qed.
Lemma numeral_pad w z : (0 < w)%nat -> (0 <= z < 10 ^ Z.of_nat w)%Z -> numeral w z (pad_left w (dec_of_Z z)).
Proof.
  intros Hw [H0 H]. rewrite dec_of_Z_nonneg by exact H0. unfold pad_left, numeral.
  assert (L : (List.length (dec_of_N (Z.to_N z)) <= w)%nat).
  { apply dec_of_N_length; [exact Hw|]. apply N2Z.inj_lt. rewrite Z2N.id by exact H0.
    rewrite N2Z.inj_pow. rewrite nat_N_Z. exact H. }
  assert (D : is_dec (repeat 48%N (w - List.length (dec_of_N (Z.to_N z))) ++ dec_of_N (Z.to_N z))).
  { apply Forall_app. split; [|apply dec_of_N_digits].
    apply Forall_forall. intros x Hx. apply repeat_spec in Hx. subst. reflexivity. }
  split; [|split].
  - rewrite app_length, repeat_length. lia.
  - eapply Forall_impl; [|exact D]. intros c Hc. apply is_digit_range, Hc.
  - change 0%Z with (Z.of_N 0). rewrite fold_dec_val by exact D.
    rewrite dec_val_zeros, dec_val_dec_of_N. lia.
Qed.
