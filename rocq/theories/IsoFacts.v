(** ISO texts of datetimes with a UTC offset, and what they determine (C50). *)
From Coq Require Import ZifyBool.
From Verif Require Import PyBase PyFacts DateTime SpecTime DateFacts NumFacts TimeProps SpecMetricsQuery.
Local Open Scope Z_scope.

Lemma tz_text o : match o with Some z => Z.abs z < 24 * 3600 * 1000000 | None => True end -> offset_text o (tz_iso o).
Proof.
  destruct o as [us|]; [|reflexivity]. intros H. cbn [offset_text]. unfold tz_iso.
  set (a := Z.abs us) in *. assert (0 <= a) as H0 by (unfold a; lia).
  assert (0 <= a / 1000000 < 86400) as S. { split; [apply Z.div_pos; lia|apply Z.div_lt_upper_bound; lia]. }
  set (s := a / 1000000) in *. set (f := a mod 1000000).
  assert (0 <= f < 1000000) as F by (apply Z.mod_pos_bound; lia).
  assert (a = s * 1000000 + f) as Ea. { unfold s, f. pose proof (Z.div_mod a 1000000). lia. }
  assert (0 <= s / 3600 < 24) as Hh. { split; [apply Z.div_pos; lia|apply Z.div_lt_upper_bound; lia]. }
  assert (0 <= s / 60 mod 60 < 60) as Hm by (apply Z.mod_pos_bound; lia).
  assert (0 <= s mod 60 < 60) as Hs by (apply Z.mod_pos_bound; lia).
  assert (s = (s / 3600 * 60 + s / 60 mod 60) * 60 + s mod 60) as Es.
  { pose proof (Z.div_mod s 60). pose proof (Z.div_mod (s / 60) 60). rewrite Z.div_div in * by lia. change (60 * 60) with 3600 in *. lia. }
  exists (pad2 (s / 3600)), (pad2 (s / 60 mod 60)),
    (if (s mod 60 =? 0) && (f =? 0) then [] else $":" ++ pad2 (s mod 60) ++ (if f =? 0 then [] else $"." ++ pad_left 6 (dec_of_Z f))),
    (s / 3600), (s / 60 mod 60), (s mod 60), f.
  assert (forall z, 0 <= z < 100 -> numeral 2 z (pad2 z)) as N2.
  { intros z Hz. apply numeral_pad; [lia|]. change (10 ^ Z.of_nat 2) with 100. exact Hz. }
  split; [reflexivity|]. split; [apply N2; lia|]. split; [apply N2; lia|]. do 3 (split; [lia|]). split; [lia|].
  destruct (Z.eqb_spec f 0) as [Ef|Ef].
  - destruct (Z.eqb_spec (s mod 60) 0) as [E0|E0]; cbn [andb]; [left; auto|]. right; left.
    split; [exact Ef|]. split; [exact E0|]. exists (pad2 (s mod 60)). split; [rewrite app_nil_r; reflexivity|apply N2; lia].
  - right; right. split; [exact Ef|]. rewrite andb_false_r. eexists _, _. split; [reflexivity|]. split; [apply N2; lia|].
    apply numeral_pad; [lia|]. change (10 ^ Z.of_nat 6) with 1000000. lia.
Qed.
Lemma datetime_full_text t : real_datetime t -> full_iso_text t (datetime_iso t).
Proof.
  intros R. destruct R as (Hd & Hh & Hm & Hs & Hu & Ho).
  exists (datetime_iso (mkDT (dt_date t) (dt_hour t) (dt_min t) (dt_sec t) (dt_us t) None)), (tz_iso (dt_tz t)).
  split; [|split; [apply datetime_iso_text; [repeat split; cbn; try assumption; apply Hd || lia|reflexivity]|apply tz_text, Ho]].
  unfold datetime_iso. cbn [dt_date dt_hour dt_min dt_sec dt_us dt_tz tz_iso]. rewrite app_nil_r, <- !app_assoc. reflexivity.
Qed.

(** ** the text determines the datetime *)
Lemma app_len {A} (a a' b b' : list A) : List.length a = List.length a' -> a ++ b = a' ++ b' -> a = a' /\ b = b'.
Proof.
  revert a'. induction a as [|x a IH]; intros [|y a'] L E; try discriminate L; [auto|].
  injection E as -> E. destruct (IH a') as (-> & ->); auto.
Qed.
Lemma num_app w z z' s s' b b' : numeral w z s -> numeral w z' s' -> s ++ b = s' ++ b' -> z = z' /\ b = b'.
Proof.
  intros (L & _ & V) (L' & _ & V') E. apply app_len in E as (-> & ->); [|congruence]. split; congruence.
Qed.
Lemma num_only w z z' s s' : numeral w z s -> numeral w z' s' -> s = s' -> z = z'.
Proof. intros (_ & _ & V) (_ & _ & V') ->. congruence. Qed.
Lemma tail_sep c (x y : str) : c :: x = c :: y -> x = y.
Proof. congruence. Qed.
Lemma offset_head o b : offset_text o b -> o = None /\ b = [] \/ exists us c r, o = Some us /\ b = c :: r /\ (c = 43 \/ c = 45)%N.
Proof.
  destruct o as [us|]; cbn; [|auto]. intros (hh & mm & rest & h & m & sec & frac & -> & _).
  right. destruct (us <? 0); eexists _, _, _; (split; [reflexivity|]); (split; [reflexivity|]); auto.
Qed.
Lemma offset_fun o o' b : offset_text o b -> offset_text o' b -> o = o'.
Proof.
  intros H H'. destruct (offset_head _ _ H) as [(-> & ->)|(us & c & r & -> & Eb & Hc)].
  { destruct (offset_head _ _ H') as [(-> & _)|(us & c & r & _ & E & _)]; [reflexivity|discriminate]. }
  destruct (offset_head _ _ H') as [(_ & E)|(us' & c' & r' & -> & Eb' & Hc')]; [congruence|].
  f_equal. cbn in H, H'.
  destruct H as (hh & mm & rest & h & m & sec & frac & E & Hh & Hm & Bm & Bs & Bf & V & T).
  destruct H' as (hh' & mm' & rest' & h' & m' & sec' & frac' & E' & Hh' & Hm' & Bm' & Bs' & Bf' & V' & T').
  rewrite E in E'. clear Eb Eb' E.
  assert (hh ++ $":" ++ mm ++ rest = hh' ++ $":" ++ mm' ++ rest' /\ (us <? 0) = (us' <? 0)) as (E & Sg).
  { destruct (us <? 0), (us' <? 0); try discriminate E'; (split; [apply tail_sep in E'; exact E'|reflexivity]). }
  destruct (num_app _ _ _ _ _ _ _ Hh Hh' E) as (-> & E1). apply tail_sep in E1.
  destruct (num_app _ _ _ _ _ _ _ Hm Hm' E1) as (-> & E2).
  assert (sec = sec' /\ frac = frac') as (-> & ->).
  { destruct T as [(-> & -> & ->)|[(-> & N & ss & -> & Ns)|(N & ss & ff & -> & Ns & Nf)]],
      T' as [(-> & -> & ->)|[(-> & N' & ss' & -> & Ns')|(N' & ss' & ff' & -> & Ns' & Nf')]]; try discriminate E2; auto.
    - apply tail_sep in E2. split; [|reflexivity]. eapply num_only; eassumption.
    - apply tail_sep in E2. exfalso. assert (ss ++ [] = ss' ++ $"." ++ ff') as E3 by (rewrite app_nil_r; exact E2).
      destruct (num_app _ _ _ _ _ _ _ Ns Ns' E3) as (_ & E4). discriminate E4.
    - apply tail_sep in E2. exfalso. assert (ss ++ $"." ++ ff = ss' ++ []) as E3 by (rewrite app_nil_r; exact E2).
      destruct (num_app _ _ _ _ _ _ _ Ns Ns' E3) as (_ & E4). discriminate E4.
    - apply tail_sep in E2. destruct (num_app _ _ _ _ _ _ _ Ns Ns' E2) as (-> & E4). split; [reflexivity|].
      apply tail_sep in E4. eapply num_only; eassumption. }
  lia.
Qed.
Lemma full_iso_fun t t' s : full_iso_text t s -> full_iso_text t' s -> t = t'.
Proof.
  intros (a & b & E & (y & mo & d & h & mi & se & fr & Ea & H1 & H2 & H3 & H4 & H5 & H6 & H7) & Ho)
         (a' & b' & E' & (y' & mo' & d' & h' & mi' & se' & fr' & Ea' & G1 & G2 & G3 & G4 & G5 & G6 & G7) & Go).
  rewrite E in E'. clear E s. subst a a'. cbn [dt_date dt_hour dt_min dt_sec dt_us] in *.
  rewrite <- !app_assoc in E'.
  destruct (num_app _ _ _ _ _ _ _ H1 G1 E') as (Q1 & E1). apply tail_sep in E1.
  destruct (num_app _ _ _ _ _ _ _ H2 G2 E1) as (Q2 & E2). apply tail_sep in E2.
  destruct (num_app _ _ _ _ _ _ _ H3 G3 E2) as (Q3 & E3). apply tail_sep in E3.
  destruct (num_app _ _ _ _ _ _ _ H4 G4 E3) as (Q4 & E4). apply tail_sep in E4.
  destruct (num_app _ _ _ _ _ _ _ H5 G5 E4) as (Q5 & E5). apply tail_sep in E5.
  destruct (num_app _ _ _ _ _ _ _ H6 G6 E5) as (Q6 & E6).
  assert (dt_us t = dt_us t' /\ b = b') as (Q7 & ->).
  { destruct H7 as [(-> & ->)|(N & u & -> & Nu)], G7 as [(-> & ->)|(N' & u' & -> & Nu')]; cbn [app] in E6.
    - auto.
    - exfalso. destruct (offset_head _ _ Ho) as [(_ & ->)|(us & c & r & _ & -> & Hc)]; [discriminate E6|].
      injection E6 as E6 _. subst c. destruct Hc; discriminate.
    - exfalso. destruct (offset_head _ _ Go) as [(_ & ->)|(us & c & r & _ & -> & Hc)]; [discriminate E6|].
      injection E6 as E6 _. subst c. destruct Hc; discriminate.
    - apply tail_sep in E6. destruct (num_app _ _ _ _ _ _ _ Nu Nu' E6). auto. }
  pose proof (offset_fun _ _ _ Ho Go) as Q8.
  destruct t as [[]], t' as [[]]; cbn in *. congruence.
Qed.
