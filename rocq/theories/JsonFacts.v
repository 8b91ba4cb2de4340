(** Lemmas about JSON texts (C61) *)
From Verif Require Import PyBase PyFacts DateTime Objects SpecText NumFacts SampleFacts Json SpecJson.
Require Import Permutation Lia.

Scheme value_mut := Minimality for value Sort Prop
with items_mut := Minimality for items Sort Prop
with members_mut := Minimality for members Sort Prop.

(** ** The encoder writes strings *)
Lemma hex_digit_ok n : (n < 16)%N -> hex (hex_digit n) n.
Proof.
  intros H. unfold hex_digit. destruct (n <? 10)%N eqn:E.
  - apply N.ltb_lt in E. replace n with (48 + n - 48)%N at 2 by lia. constructor; lia.
  - apply N.ltb_ge in E. replace n with (87 + n - 87)%N at 2 by lia. constructor; lia.
Qed.
Lemma u_escape_ok n t u : (n < 65536)%N -> chars t u -> chars (u_escape n ++ t) (n :: u).
Proof.
  intros H C. unfold u_escape, hex4, BSL. cbn [app].
  assert (n = 4096 * (n / 4096 mod 16) + 256 * (n / 256 mod 16) + 16 * (n / 16 mod 16) + n mod 16)%N as E.
  { rewrite (N.mod_small (n / 4096)) by (apply N.div_lt_upper_bound; lia).
    pose proof (N.div_mod n 16 ltac:(lia)) as A1. pose proof (N.div_mod (n / 16) 16 ltac:(lia)) as A2.
    pose proof (N.div_mod (n / 256) 16 ltac:(lia)) as A3.
    rewrite N.div_div in A2 by lia. change (16 * 16)%N with 256%N in A2.
    rewrite N.div_div in A3 by lia. change (256 * 16)%N with 4096%N in A3. lia. }
  rewrite E at 5.
  apply ch_unicode; try (apply hex_digit_ok, N.mod_lt; lia). exact C.
Qed.
Lemma json_char_ok c t u : (c < 1114112)%N -> chars t u -> chars (json_char c ++ t) (units c ++ u).
Proof.
  intros H C. unfold json_char, DQ, BSL.
  repeat match goal with |- context [N.eqb c ?k] =>
    destruct (N.eqb_spec c k); [subst c; cbn [app]; apply ch_escape; [cbn; tauto|exact C]|] end.
  unfold units. destruct (in_range 32 126 c) eqn:R.
  - unfold in_range in R. apply andb_true_iff in R as [R1 R2]. apply N.leb_le in R1, R2.
    pose proof (ch_plain c t u R1 ltac:(assumption) ltac:(assumption) C) as P. unfold units in P. destruct (c <? 65536)%N eqn:L; [exact P|]. apply N.ltb_ge in L. lia.
  - destruct (c <? 65536)%N eqn:L.
    + apply N.ltb_lt in L. cbn [app]. apply u_escape_ok; assumption.
    + apply N.ltb_ge in L. rewrite <- app_assoc. cbn [app].
      apply u_escape_ok; [|apply u_escape_ok; [|exact C]].
      * assert ((c - 65536) / 1024 < 1024)%N by (apply N.div_lt_upper_bound; lia). lia.
      * pose proof (N.mod_lt (c - 65536) 1024). lia.
Qed.
Lemma json_str_ok s : code_points s -> string_text (json_str s) (utf16 s).
Proof.
  intros H. unfold json_str. apply (a_string (flat_map json_char s)).
  induction H as [|c s Hc _ IH]; [constructor|]. cbn [flat_map utf16]. apply json_char_ok; assumption.
Qed.

(** ** ... numbers *)
Lemma digit_iff c : is_digit c = true <-> (48 <= c <= 57)%N.
Proof. unfold is_digit, in_range. rewrite andb_true_iff, !N.leb_le. reflexivity. Qed.
Lemma is_dec_all s : is_dec s <-> all_digits s.
Proof. unfold is_dec, all_digits. rewrite !Forall_forall. setoid_rewrite digit_iff. reflexivity. Qed.
Lemma digits_value_dec s : digits_value s = dec_val 0 s.
Proof. apply digits_value_val. Qed.
Lemma dec_of_N_int n : int_part (dec_of_N n).
Proof.
  destruct (N.eq_dec n 0) as [->|H]; [left; reflexivity|]. right.
  destruct (dec_of_N n) as [|c s] eqn:E; [elim (dec_of_N_nonempty n E)|]. exists c, s.
  pose proof (dec_of_N_digits n) as D. rewrite E in D. apply is_dec_all in D. inversion_clear D as [|? ? C D'].
  pose proof (dec_of_N_first n c s ltac:(lia) E). repeat split; try exact D'; lia.
Qed.
Lemma dec_of_Z_number z : number (dec_of_Z z) z 0.
Proof.
  destruct (Z.neg_nonneg_cases z) as [H|H].
  - rewrite dec_of_Z_neg by exact H.
    pose proof (a_number true (dec_of_N (Z.to_N (- z))) [] [] [] 0 (dec_of_N_int _) fr_none ex_none) as N.
    rewrite !app_nil_r, digits_value_dec, dec_val_dec_of_N in N. cbn in N.
    replace (- Z.of_N (Z.to_N (- z)))%Z with z in N by lia. exact N.
  - rewrite dec_of_Z_nonneg by exact H.
    pose proof (a_number false (dec_of_N (Z.to_N z)) [] [] [] 0 (dec_of_N_int _) fr_none ex_none) as N.
    rewrite !app_nil_r, digits_value_dec, dec_val_dec_of_N in N. cbn [minus_sign app List.length] in N.
    replace (Z.of_N (Z.to_N z)) with z in N by lia. exact N.
Qed.

(** ** ... arrays and objects *)
Lemma items_join w1 w w2 ss vs : blank w1 -> blank w -> blank w2 -> Forall2 value ss vs -> ss <> [] ->
  items (w1 ++ join (44%N :: w) ss ++ w2) vs.
Proof.
  intros B1 B B2 F. revert w1 B1. induction F as [|s v ss vs V F IH]; intros w1 B1 N; [congruence|].
  destruct F as [|s2 v2 ss vs V2 F].
  - cbn [join]. apply i_one; assumption.
  - assert (w1 ++ join (44%N :: w) (s :: s2 :: ss) ++ w2 = w1 ++ s ++ [] ++ $"," ++ (w ++ join (44%N :: w) (s2 :: ss) ++ w2)) as ->.
    { change (join (44%N :: w) (s :: s2 :: ss)) with (s ++ (44%N :: w) ++ join (44%N :: w) (s2 :: ss)).
      rewrite <- !app_assoc. reflexivity. }
    apply i_more; try assumption; [constructor|]. apply IH; [assumption|discriminate].
Qed.
Definition member_text (kv : str * str) : str := json_str (fst kv) ++ $": " ++ snd kv.
Definition writes (kt : str * str) (m : list N * jval) : Prop :=
  code_points (fst kt) /\ fst m = utf16 (fst kt) /\ value (snd kt) (snd m).
Lemma members_join w1 w w2 ps ms : blank w1 -> blank w -> blank w2 -> Forall2 writes ps ms -> ps <> [] ->
  members (w1 ++ join (44%N :: w) (map member_text ps) ++ w2) ms.
Proof.
  intros B1 B B2 F. revert w1 B1. induction F as [|[k s] [n v] ps ms (K & E & V) F IH]; intros w1 B1 N; [congruence|].
  cbn [fst snd] in *. subst n. assert (blank [32%N]) as B32 by (constructor; [cbn; auto|constructor]).
  destruct F as [|p2 m2 ps ms V2 F].
  - cbn [map join]. unfold member_text. cbn [fst snd].
    assert (w1 ++ (json_str k ++ $": " ++ s) ++ w2 = w1 ++ json_str k ++ [] ++ $":" ++ [32%N] ++ s ++ w2) as ->
      by (rewrite <- !app_assoc; reflexivity).
    apply m_one; try assumption; [apply json_str_ok, K|constructor].
  - assert (w1 ++ join (44%N :: w) (map member_text ((k, s) :: p2 :: ps)) ++ w2
      = w1 ++ json_str k ++ [] ++ $":" ++ [32%N] ++ s ++ [] ++ $"," ++ (w ++ join (44%N :: w) (map member_text (p2 :: ps)) ++ w2)) as ->.
    { change (join (44%N :: w) (map member_text ((k, s) :: p2 :: ps)))
        with ((json_str k ++ $": " ++ s) ++ (44%N :: w) ++ join (44%N :: w) (map member_text (p2 :: ps))).
      rewrite <- !app_assoc. reflexivity. }
    apply m_more; try assumption; [apply json_str_ok, K|constructor|constructor|]. apply IH; [assumption|discriminate].
Qed.

Section Dumps.
Context {RT : PyRT}.
Lemma json_dumps_list l : json_dumps (OList l) = let! ss := mapM json_dumps l in Ok ($"[" ++ join ($", ") ss ++ $"]").
Proof.
  cbn [json_dumps]. match goal with |- bind (?a l) _ = _ => replace (a l) with (mapM json_dumps l); [reflexivity|] end.
  induction l as [|x l IH]; [reflexivity|]. cbn [mapM]. rewrite IH. reflexivity.
Qed.
Lemma json_dumps_tuple l : json_dumps (OTuple l) = json_dumps (OList l).
Proof. reflexivity. Qed.
Lemma json_dumps_dict ks vs : json_dumps (ODict ks vs) =
  let! ss := mapM json_dumps vs in Ok ($"{" ++ join ($", ") (map member_text (combine ks ss)) ++ $"}").
Proof.
  cbn [json_dumps]. match goal with |- bind (?a vs) _ = _ => replace (a vs) with (mapM json_dumps vs); [reflexivity|] end.
  induction vs as [|x l IH]; [reflexivity|]. cbn [mapM]. rewrite IH. reflexivity.
Qed.
Lemma json_pretty_list b n l : json_pretty b n (OList l) = let! ss := mapM (json_pretty b (S n)) l in Ok (indented ($"[") ($"]") n ss).
Proof.
  cbn [json_pretty]. match goal with |- bind (?a l) _ = _ => replace (a l) with (mapM (json_pretty b (S n)) l); [reflexivity|] end.
  induction l as [|x l IH]; [reflexivity|]. cbn [mapM]. rewrite IH. reflexivity.
Qed.
Lemma json_pretty_tuple b n l : json_pretty b n (OTuple l) = json_pretty b n (OList l).
Proof. reflexivity. Qed.
Lemma json_pretty_dict b n ks vs : json_pretty b n (ODict ks vs) =
  let! ss := mapM (json_pretty b (S n)) vs in
  Ok (indented ($"{") ($"}") n (map member_text ((if b then sort_keys else id) (combine ks ss)))).
Proof.
  cbn [json_pretty]. match goal with |- bind (?a vs) _ = _ => replace (a vs) with (mapM (json_pretty b (S n)) vs); [reflexivity|] end.
  induction vs as [|x l IH]; [reflexivity|]. cbn [mapM]. rewrite IH. reflexivity.
Qed.

Lemma insert_perm p l : Permutation (insert_key p l) (p :: l).
Proof.
  induction l as [|q l IH]; [reflexivity|]. cbn [insert_key]. destruct (str_leb _ _); [reflexivity|].
  rewrite IH. apply perm_swap.
Qed.
Lemma sort_perm l : Permutation (sort_keys l) l.
Proof. induction l as [|p l IH]; [reflexivity|]. cbn [sort_keys fold_right]. rewrite insert_perm. constructor. exact IH. Qed.

Lemma blank_nil : blank [].
Proof. constructor. Qed.
Lemma blank_space : blank [32%N].
Proof. constructor; [cbn; auto|constructor]. Qed.
Lemma blank_line n : blank (new_line n).
Proof.
  constructor; [cbn; auto|]. apply Forall_forall. intros c H. apply repeat_spec in H. subst c. cbn. auto.
Qed.

(** an array or object written between brackets *)
Lemma array_compact ss vs : Forall2 value ss vs -> value ($"[" ++ join ($", ") ss ++ $"]") (JArr vs).
Proof.
  intros F. destruct F as [|s v ss vs V F]; [apply (v_empty_array []), blank_nil|].
  pose proof (items_join [] [32%N] [] (s :: ss) (v :: vs) blank_nil blank_space blank_nil (Forall2_cons _ _ V F) ltac:(discriminate)) as I.
  cbn [app] in I. rewrite app_nil_r in I. apply v_array, I.
Qed.
Lemma object_compact ps ms : Forall2 writes ps ms -> value ($"{" ++ join ($", ") (map member_text ps) ++ $"}") (JObj ms).
Proof.
  intros F. destruct F as [|s v ss vs V F]; [apply (v_empty_object []), blank_nil|].
  pose proof (members_join [] [32%N] [] (s :: ss) (v :: vs) blank_nil blank_space blank_nil (Forall2_cons _ _ V F) ltac:(discriminate)) as I.
  cbn [app] in I. rewrite app_nil_r in I. apply v_object, I.
Qed.
Lemma array_indented n ss vs : Forall2 value ss vs -> value (indented ($"[") ($"]") n ss) (JArr vs).
Proof.
  intros F. destruct F as [|s v ss vs V F]; [apply (v_empty_array []), blank_nil|].
  pose proof (items_join _ _ _ (s :: ss) (v :: vs) (blank_line (S n)) (blank_line (S n)) (blank_line n) (Forall2_cons _ _ V F) ltac:(discriminate)) as I.
  apply v_array in I. unfold indented. revert I. generalize (join (44%N :: new_line (S n)) (s :: ss)). intros j. rewrite <- !app_assoc. auto.
Qed.
Lemma object_indented n ps ms : Forall2 writes ps ms -> value (indented ($"{") ($"}") n (map member_text ps)) (JObj ms).
Proof.
  intros F. destruct F as [|s v ss vs V F]; [apply (v_empty_object []), blank_nil|].
  pose proof (members_join _ _ _ (s :: ss) (v :: vs) (blank_line (S n)) (blank_line (S n)) (blank_line n) (Forall2_cons _ _ V F) ltac:(discriminate)) as I.
  apply v_object in I. unfold indented. cbn [map] in *.
  revert I. generalize (join (44%N :: new_line (S n)) (member_text s :: map member_text ss)). intros j. rewrite <- !app_assoc. auto.
Qed.
Lemma writes_combine ks ss js : Forall code_points ks -> Forall2 value ss js -> 
  Forall2 writes (combine ks ss) (combine (map utf16 ks) js).
Proof.
  intros K. revert ss js. induction K as [|k ks C K IH]; intros ss js F; [constructor|].
  destruct F as [|s j ss js V F]; [constructor|]. cbn. constructor; [split; auto|apply IH, F].
Qed.
Lemma each (f : obj -> result str) l ss :
  Forall (fun o => ordinary o -> forall s, f o = Ok s -> exists v, value s v /\ is_json o v) l ->
  Forall ordinary l -> mapM f l = Ok ss -> exists vs, Forall2 value ss vs /\ Forall2 is_json l vs.
Proof.
  intros I O M. apply mapM_Ok in M. induction M as [|o s l ss E M IH]; [exists []; split; constructor|].
  inversion_clear I as [|? ? I1 I2]. inversion_clear O as [|? ? O1 O2].
  destruct (IH I2 O2) as (vs & V & J). destruct (I1 O1 s E) as (v & V1 & J1). exists (v :: vs). split; constructor; assumption.
Qed.
Lemma dumps_ok : forall o, ordinary o -> forall s, json_dumps o = Ok s -> exists v, value s v /\ is_json o v.
Proof.
  assert (forall l, Forall (fun o => ordinary o -> forall s, json_dumps o = Ok s -> exists v, value s v /\ is_json o v) l ->
    Forall ordinary l -> forall s, json_dumps (OList l) = Ok s -> exists vs, value s (JArr vs) /\ Forall2 is_json l vs) as L.
  { intros l I O s E. rewrite json_dumps_list in E. apply bind_Ok in E as (ss & M & E). injection E as <-.
    destruct (each _ _ _ I O M) as (vs & V & J). exists vs. split; [apply array_compact, V|exact J]. }
  induction o using obj_ind'; intros O s' E; try (inversion O; fail).
  - injection E as <-. exists JNull. split; constructor.
  - injection E as <-. exists (JBool b). split; [destruct b|]; constructor.
  - injection E as <-. exists (JNum z 0). split; constructor. apply dec_of_Z_number.
  - inversion O; subst. injection E as <-. exists (JNum x y). split; constructor; assumption.
  - inversion O; subst. injection E as <-. exists (JStr (utf16 s)). split; constructor. apply json_str_ok. assumption.
  - inversion O; subst. edestruct L as (vs & V & J); [exact H|eassumption|exact E|]. exists (JArr vs). split; [exact V|constructor; exact J].
  - inversion O; subst. rewrite json_dumps_tuple in E.
    edestruct L as (vs & V & J); [exact H|eassumption|exact E|]. exists (JArr vs). split; [exact V|constructor; exact J].
  - inversion O; subst. rewrite json_dumps_dict in E. apply bind_Ok in E as (ss & M & E). injection E as <-.
    destruct (each _ _ _ H H4 M) as (js & V & J). exists (JObj (combine (map utf16 ks) js)). split.
    + apply object_compact, writes_combine; assumption.
    + econstructor; [assumption|exact J|reflexivity].
Qed.
Lemma pretty_ok b : forall o, ordinary o -> forall n s, json_pretty b n o = Ok s -> exists v, value s v /\ is_json o v.
Proof.
  assert (forall n l, Forall (fun o => ordinary o -> forall n s, json_pretty b n o = Ok s -> exists v, value s v /\ is_json o v) l ->
    Forall (fun o => ordinary o -> forall s, json_pretty b n o = Ok s -> exists v, value s v /\ is_json o v) l) as Sp.
  { intros n l. apply Forall_impl. intros o H O s. apply H, O. }
  assert (forall l, Forall (fun o => ordinary o -> forall n s, json_pretty b n o = Ok s -> exists v, value s v /\ is_json o v) l ->
    Forall ordinary l -> forall n s, json_pretty b n (OList l) = Ok s -> exists vs, value s (JArr vs) /\ Forall2 is_json l vs) as L.
  { intros l I O n s E. rewrite json_pretty_list in E. apply bind_Ok in E as (ss & M & E). injection E as <-.
    destruct (each _ _ _ (Sp (S n) _ I) O M) as (vs & V & J). exists vs. split; [apply array_indented, V|exact J]. }
  induction o using obj_ind'; intros O lv s' E; try (inversion O; fail).
  - injection E as <-. exists JNull. split; constructor.
  - injection E as <-. exists (JBool b0). split; [destruct b0|]; constructor.
  - injection E as <-. exists (JNum z 0). split; constructor. apply dec_of_Z_number.
  - inversion O; subst. injection E as <-. exists (JNum x y). split; constructor; assumption.
  - inversion O; subst. injection E as <-. exists (JStr (utf16 s)). split; constructor. apply json_str_ok. assumption.
  - inversion O; subst. edestruct L as (vs & V & J); [exact H|eassumption|exact E|]. exists (JArr vs). split; [exact V|constructor; exact J].
  - inversion O; subst. rewrite json_pretty_tuple in E.
    edestruct L as (vs & V & J); [exact H|eassumption|exact E|]. exists (JArr vs). split; [exact V|constructor; exact J].
  - inversion O; subst. rewrite json_pretty_dict in E. apply bind_Ok in E as (ss & M & E). injection E as <-.
    destruct (each _ _ _ (Sp (S lv) _ H) H4 M) as (js & V & J).
    pose proof (writes_combine ks ss js ltac:(assumption) V) as W.
    assert (Permutation (combine ks ss) ((if b then sort_keys else id) (combine ks ss))) as P.
    { destruct b; [symmetry; apply sort_perm|reflexivity]. }
    destruct (Permutation_Forall2 P W) as (ms & P2 & W2).
    exists (JObj ms). split; [apply object_indented, W2|]. econstructor; [assumption|exact J|]. symmetry. exact P2.
Qed.

(** ** When the encoder succeeds *)
Lemma sendable_all (f : obj -> result str) l :
  Forall (fun o => (sendable o -> exists s, f o = Ok s) /\ (~ sendable o -> f o = Raise TypeError)) l ->
  (Forall sendable l -> exists ss, mapM f l = Ok ss) /\ (~ Forall sendable l -> mapM f l = Raise TypeError).
Proof.
  intros H. induction H as [|o l (A & B) H (IA & IB)]; [split; [exists []; reflexivity|intros N; elim N; constructor]|].
  cbn [mapM]. split.
  - intros F. inversion_clear F as [|? ? F1 F2]. destruct (A F1) as (s & ->), (IA F2) as (ss & ->). cbn. eauto.
  - intros N. destruct (f o) as [s|e] eqn:E.
    + cbn. rewrite IB; [reflexivity|]. intros F. apply N. constructor; [|exact F].
      assert (~ ~ sendable o) as NN by (intros X; apply B in X; discriminate).
      clear -NN. revert NN.
      assert (forall o, sendable o \/ ~ sendable o) as D.
      { assert (forall l, Forall (fun o => sendable o \/ ~ sendable o) l -> Forall sendable l \/ ~ Forall sendable l) as DL.
        { intros l H. induction H as [|x l [X|X] H IH]; [left; constructor| |right; intros F; inversion F; auto].
          destruct IH; [left; constructor; assumption|right; intros F; inversion F; auto]. }
        induction o0 using obj_ind'; try (left; constructor; fail); try (right; intros X; inversion X; fail);
          (destruct (DL _ H) as [Y|Y]; [left; constructor; exact Y|right; intros X; inversion X; auto]). }
      destruct (D o); tauto.
    + cbn. assert (~ sendable o) as X. { intros X. apply A in X as (s & X). discriminate. }
      apply B in X. injection X as ->. reflexivity.
Qed.
Lemma dumps_sendable : forall o, (sendable o -> exists s, json_dumps o = Ok s) /\ (~ sendable o -> json_dumps o = Raise TypeError).
Proof.
  induction o using obj_ind'; try (split; [intros _; eexists; reflexivity|intros N; elim N; constructor]; fail);
    try (split; [intros X; inversion X|reflexivity]; fail); apply sendable_all in H as (A & B).
  - rewrite json_dumps_list. split.
    + intros X. inversion X; subst. destruct A as (ss & ->); [assumption|]. cbn. eauto.
    + intros X. rewrite B; [reflexivity|]. intros F. apply X. constructor. exact F.
  - rewrite json_dumps_tuple, json_dumps_list. split.
    + intros X. inversion X; subst. destruct A as (ss & ->); [assumption|]. cbn. eauto.
    + intros X. rewrite B; [reflexivity|]. intros F. apply X. constructor. exact F.
  - rewrite json_dumps_dict. split.
    + intros X. inversion X; subst. destruct A as (ss & ->); [assumption|]. cbn. eauto.
    + intros X. rewrite B; [reflexivity|]. intros F. apply X. constructor. exact F.
Qed.
Lemma pretty_sendable b : forall o, (sendable o -> forall n, exists s, json_pretty b n o = Ok s)
  /\ (~ sendable o -> forall n, json_pretty b n o = Raise TypeError).
Proof.
  assert (forall l, Forall (fun o => (sendable o -> forall n, exists s, json_pretty b n o = Ok s)
    /\ (~ sendable o -> forall n, json_pretty b n o = Raise TypeError)) l -> forall n, 
    (Forall sendable l -> exists ss, mapM (json_pretty b n) l = Ok ss) /\ (~ Forall sendable l -> mapM (json_pretty b n) l = Raise TypeError)) as SA.
  { intros l H n. apply sendable_all. revert H. apply Forall_impl. intros o (A & B). split; intros X; auto. }
  induction o using obj_ind'; try (split; [intros _ n; eexists; reflexivity|intros N; elim N; constructor]; fail);
    try (split; [intros X; inversion X|reflexivity]; fail); pose proof (SA _ H) as AB; clear H.
  - split; intros X n; rewrite json_pretty_list; destruct (AB (S n)) as (A & B).
    + inversion X; subst. destruct A as (ss & ->); [assumption|]. cbn. eauto.
    + rewrite B; [reflexivity|]. intros F. apply X. constructor. exact F.
  - split; intros X n; rewrite json_pretty_tuple, json_pretty_list; destruct (AB (S n)) as (A & B).
    + inversion X; subst. destruct A as (ss & ->); [assumption|]. cbn. eauto.
    + rewrite B; [reflexivity|]. intros F. apply X. constructor. exact F.
  - split; intros X n; rewrite json_pretty_dict; destruct (AB (S n)) as (A & B).
    + inversion X; subst. destruct A as (ss & ->); [assumption|]. cbn. eauto.
    + rewrite B; [reflexivity|]. intros F. apply X. constructor. exact F.
Qed.

(** ** Only printable ASCII characters are written *)
Definition printable (s : str) : Prop := Forall (fun c => 32 <= c <= 126)%N s.
Lemma printable_app a b : printable a -> printable b -> printable (a ++ b).
Proof. intros A B. apply Forall_app. auto. Qed.
Lemma hex_digit_range n : (n < 16 -> 32 <= hex_digit n <= 126)%N.
Proof. unfold hex_digit. destruct (n <? 10)%N eqn:E; intros H; [apply N.ltb_lt in E|apply N.ltb_ge in E]; lia. Qed.
Lemma u_escape_printable n : printable (u_escape n).
Proof.
  unfold u_escape, hex4, BSL. repeat constructor; try lia; apply hex_digit_range, N.mod_lt; lia.
Qed.
Lemma json_char_printable c : printable (json_char c).
Proof.
  unfold json_char, DQ, BSL.
  repeat match goal with |- context [N.eqb c ?k] => destruct (N.eqb_spec c k); [repeat constructor; lia|] end.
  destruct (in_range 32 126 c) eqn:R.
  - unfold in_range in R. apply andb_true_iff in R as [R1 R2]. apply N.leb_le in R1, R2. constructor; [lia|constructor].
  - destruct (c <? 65536)%N; [|apply printable_app]; apply u_escape_printable.
Qed.
Lemma json_str_printable s : printable (json_str s).
Proof.
  unfold json_str, DQ. constructor; [lia|]. apply printable_app; [|constructor; [lia|constructor]].
  induction s as [|c s IH]; [constructor|]. cbn [flat_map]. apply printable_app; [apply json_char_printable|exact IH].
Qed.
Lemma digits_printable s : all_digits s -> printable s.
Proof. apply Forall_impl. lia. Qed.
Lemma number_printable t m e : number t m e -> printable t.
Proof.
  intros []. repeat apply printable_app.
  - destruct neg; repeat constructor; cbn; lia.
  - destruct H as [->|(c & s & -> & C & D)]; [repeat constructor; cbn; lia|]. constructor; [lia|apply digits_printable, D].
  - destruct H0; [constructor|]. constructor; [cbn; lia|apply digits_printable, H2].
  - destruct H1; [constructor|]. apply printable_app; [destruct H1 as [->| ->]; repeat constructor; cbn; lia|].
    apply printable_app; [|apply digits_printable; assumption].
    destruct H4 as [->|[_ ->]]; [destruct neg0|]; repeat constructor; cbn; lia.
Qed.
Lemma join_printable sep l : printable sep -> Forall printable l -> printable (join sep l).
Proof.
  intros S F. induction F as [|x l X F IH]; [constructor|]. destruct l as [|y l]; [exact X|].
  change (join sep (x :: y :: l)) with (x ++ sep ++ join sep (y :: l)). repeat apply printable_app; assumption.
Qed.
Lemma dumps_printable : forall o, ordinary o -> forall s, json_dumps o = Ok s -> printable s.
Proof.
  assert (forall l ss, Forall (fun o => ordinary o -> forall s, json_dumps o = Ok s -> printable s) l ->
    Forall ordinary l -> mapM json_dumps l = Ok ss -> Forall printable ss) as A.
  { intros l ss I O M. apply mapM_Ok in M. induction M as [|o s l ss E M IH]; [constructor|].
    inversion_clear I; inversion_clear O. constructor; auto. }
  assert (forall l, Forall (fun o => ordinary o -> forall s, json_dumps o = Ok s -> printable s) l ->
    Forall ordinary l -> forall s, json_dumps (OList l) = Ok s -> printable s) as L.
  { intros l I O s E. rewrite json_dumps_list in E. apply bind_Ok in E as (ss & M & E). injection E as <-.
    constructor; [lia|]. apply printable_app; [|repeat constructor; cbn; lia].
    apply join_printable; [repeat constructor; cbn; lia|]. eapply A; eassumption. }
  induction o using obj_ind'; intros O s' E; try (inversion O; fail).
  - injection E as <-. repeat constructor; cbn; lia.
  - injection E as <-. destruct b; repeat constructor; cbn; lia.
  - injection E as <-. apply (number_printable _ z 0), dec_of_Z_number.
  - inversion O; subst. injection E as <-. eapply number_printable. eassumption.
  - injection E as <-. apply json_str_printable.
  - inversion O; subst. eapply L; eassumption.
  - inversion O; subst. rewrite json_dumps_tuple in E. eapply L; eassumption.
  - inversion O; subst. rewrite json_dumps_dict in E. apply bind_Ok in E as (ss & M & E). injection E as <-.
    constructor; [lia|]. apply printable_app; [|repeat constructor; cbn; lia].
    apply join_printable; [repeat constructor; cbn; lia|].
    pose proof (A vs ss H ltac:(assumption) M) as P. clear -P. revert ks. induction P as [|s ss S P IH]; intros [|k ks]; try constructor; [|apply IH].
    unfold member_text. cbn [fst snd]. apply printable_app; [apply json_str_printable|]. apply printable_app; [repeat constructor; cbn; lia|exact S].
Qed.
End Dumps.

(** ** A text denotes at most one value *)
Definition starts (P : N -> Prop) (x : str) : Prop := match x with [] => False | c :: _ => P c end.
Lemma span_split (P : N -> Prop) w w' x y : Forall P w -> Forall P w' -> ~ starts P x -> ~ starts P y ->
  w ++ x = w' ++ y -> w = w' /\ x = y.
Proof.
  intros F. revert w'. induction F as [|c w C F IH]; intros w' F' X Y E.
  - destruct F' as [|c' w' C' F']; [auto|]. cbn in E. subst x. elim X. exact C'.
  - destruct F' as [|c' w' C' F'].
    + cbn in E. subst y. elim Y. exact C.
    + cbn in E. injection E as -> E. destruct (IH w' F' X Y E) as (-> & ->). auto.
Qed.
Definition ws (c : N) : Prop := In c [32; 9; 10; 13]%N.
Definition digit (c : N) : Prop := (48 <= c <= 57)%N.
Lemma hex_fun c a b : hex c a -> hex c b -> a = b.
Proof. intros A B. destruct A; inversion B; subst; lia. Qed.
Lemma escapes_fun e a b : In (e, a) escapes -> In (e, b) escapes -> a = b.
Proof.
  cbn. intros A B.
  repeat match goal with H : _ \/ _ |- _ => destruct H end; try tauto; congruence.
Qed.
Lemma escapes_not_u a : ~ In (117%N, a) escapes.
Proof. cbn. intros A. repeat match goal with H : _ \/ _ |- _ => destruct H end; try tauto; discriminate. Qed.
Lemma chars_fun t u : chars t u -> forall t' u' r r', chars t' u' -> t ++ 34%N :: r = t' ++ 34%N :: r' ->
  t = t' /\ u = u' /\ r = r'.
Proof.
  intros C. induction C as [|c t u A B D C IH|e c t u A C IH|a b c d a' b' c' d' t u A B D F C IH]; intros t2 u2 r r' C2 E.
  - destruct C2 as [|c t u A B D C|e c t u A C|a b c d a' b' c' d' t u A B D F C]; cbn in E; try (injection E; intros; subst; congruence);
      try (injection E as E; auto).
  - destruct C2 as [|c2 t2 u2 A2 B2 D2 C2|e2 c2 t2 u2 A2 C2|a b c2 d a' b' c' d' t2 u2 A2 B2 D2 F2 C2]; cbn in E;
      try (injection E; intros; subst; congruence).
    injection E as -> E. destruct (IH _ _ _ _ C2 E) as (-> & -> & ->). auto.
  - destruct C2 as [|c2 t2 u2 A2 B2 D2 C2|e2 c2 t2 u2 A2 C2|a b c2 d a' b' c' d' t2 u2 A2 B2 D2 F2 C2]; cbn in E;
      try (injection E; intros; subst; congruence).
    + injection E as -> E. destruct (IH _ _ _ _ C2 E) as (-> & -> & ->). rewrite (escapes_fun _ _ _ A A2). auto.
    + injection E as -> E. elim (escapes_not_u _ A).
  - destruct C2 as [|c2 t2 u2 A2 B2 D2 C2|e2 c2 t2 u2 A2 C2|a2 b2 c2 d2 a2' b2' c2' d2' t2 u2 A2 B2 D2 F2 C2]; cbn in E;
      try (injection E; intros; subst; congruence).
    + injection E as <- E. elim (escapes_not_u _ A2).
    + injection E as -> -> -> -> E. destruct (IH _ _ _ _ C2 E) as (-> & -> & ->).
      rewrite (hex_fun _ _ _ A A2), (hex_fun _ _ _ B B2), (hex_fun _ _ _ D D2), (hex_fun _ _ _ F F2). auto.
Qed.
Lemma string_fun t u t' u' r r' : string_text t u -> string_text t' u' -> t ++ r = t' ++ r' -> t = t' /\ u = u' /\ r = r'.
Proof.
  intros [a x A] [b y B] E. cbn in E. injection E as E. rewrite <- !app_assoc in E. cbn in E.
  destruct (chars_fun _ _ A _ _ _ _ B E) as (-> & -> & ->). auto.
Qed.

Definition numc (c : N) : Prop := digit c \/ In c ($".eE+-").
Lemma numc_digits s : all_digits s -> Forall numc s.
Proof. apply Forall_impl. intros c H. left. exact H. Qed.
Ltac numc_lit := repeat constructor; unfold numc; cbn; tauto.
Lemma int_digits s : int_part s -> all_digits s.
Proof.
  intros [->|(c & s' & -> & C & D)]; constructor; try exact D; try (cbn; lia). constructor.
Qed.
Lemma number_numc t m e : number t m e -> Forall numc t.
Proof.
  intros [neg ip ft fd et ex I F X]. repeat (apply Forall_app; split).
  - destruct neg; numc_lit.
  - apply numc_digits, int_digits, I.
  - destruct F as [|d _ D]; [constructor|]. apply Forall_app. split; [numc_lit|apply numc_digits, D].
  - destruct X as [|e' sign neg' d E _ D S]; [constructor|]. apply Forall_app. split; [destruct E as [->| ->]; numc_lit|].
    apply Forall_app. split; [|apply numc_digits, D]. destruct S as [->|[_ ->]]; [destruct neg'|]; numc_lit.
Qed.
Lemma exponent_head et ex : exponent et ex -> ~ starts digit et.
Proof. intros [|e sign neg d [->| ->] _ _ _]; cbn; unfold digit; lia. Qed.
Lemma fraction_head ft fd et ex : fraction ft fd -> exponent et ex -> ~ starts digit (ft ++ et).
Proof. intros [|d _ _] X; [apply (exponent_head _ _ X)|]. cbn. unfold digit. lia. Qed.
Lemma int_head ip r : int_part ip -> starts digit (ip ++ r).
Proof. intros [->|(c & s' & -> & C & D)]; cbn; unfold digit; lia. Qed.
Lemma digits_head d r : d <> [] -> all_digits d -> starts digit (d ++ r).
Proof. intros N H. destruct H as [|c s C D]; [elim N; reflexivity|]. exact C. Qed.
Lemma minus_fun neg neg' x y : starts digit x -> starts digit y -> minus_sign neg ++ x = minus_sign neg' ++ y -> neg = neg' /\ x = y.
Proof.
  intros X Y E. destruct neg, neg'; cbn in E; auto; [injection E; auto| |]; subst; cbn in *; unfold digit in *; lia.
Qed.
Lemma exponent_fun t a b : exponent t a -> exponent t b -> a = b.
Proof.
  intros A. revert b. destruct A as [|e sign neg d E N D S]; intros b B; inversion B as [|e' sign' neg' d' E' N' D' S' EQ]; subst; auto.
  - destruct E' as [->| ->]; discriminate.
  - destruct E as [->| ->]; discriminate.
  - assert (sign ++ d = sign' ++ d') as EQ2.
    { destruct E as [->| ->], E' as [->| ->]; cbn in EQ; congruence. }
    pose proof (digits_head d [] N D) as H. pose proof (digits_head d' [] N' D') as H'. rewrite app_nil_r in H, H'.
    destruct S as [->|[-> ->]], S' as [->|[-> ->]].
    + destruct (minus_fun _ _ _ _ H H' EQ2) as (-> & ->). reflexivity.
    + destruct neg; cbn in EQ2; [discriminate|]. subst d. cbn in H. unfold digit in H. lia.
    + destruct neg'; cbn in EQ2; [discriminate|]. subst d'. cbn in H'. unfold digit in H'. lia.
    + injection EQ2 as ->. reflexivity.
Qed.
Lemma number_fun t m e m' e' : number t m e -> number t m' e' -> m = m' /\ e = e'.
Proof.
  intros [neg ip ft fd et ex I F X] B. inversion B as [neg' ip' ft' fd' et' ex' I' F' X' EQ]; subst.
  apply minus_fun in EQ as (<- & EQ); [|apply int_head; assumption|apply int_head; assumption].
  apply (span_split digit) in EQ as (<- & EQ); [|apply int_digits, I'|apply int_digits, I|apply (fraction_head _ _ _ _ F' X')|apply (fraction_head _ _ _ _ F X)].
  assert (fd = fd' /\ et = et') as (<- & <-).
  { destruct F as [|d N D], F' as [|d' N' D']; cbn in EQ.
    - auto.
    - destruct X as [|? ? ? ? [->| ->]]; discriminate.
    - destruct X' as [|? ? ? ? [->| ->]]; discriminate.
    - injection EQ as EQ. apply (span_split digit) in EQ as (-> & ->); auto; eapply exponent_head; eassumption. }
  rewrite (exponent_fun _ _ _ X X'). auto.
Qed.

(** what may follow a value *)
Definition delimited (r : str) : Prop := match r with [] => True | c :: _ => In c [32; 9; 10; 13; 44; 58; 93; 125]%N end.
Lemma delimited_numc r : delimited r -> ~ starts numc r.
Proof.
  destruct r as [|c r]; cbn; [auto|]. unfold numc, digit. cbn.
  intros D [N|N]; repeat match goal with H : _ \/ _ |- _ => destruct H end; subst; try lia; try tauto; discriminate.
Qed.
Lemma number_split t m e t' m' e' r r' : number t m e -> number t' m' e' -> delimited r -> delimited r' ->
  t ++ r = t' ++ r' -> t = t' /\ m = m' /\ e = e' /\ r = r'.
Proof.
  intros A B D D' E.
  apply (span_split numc) in E as (<- & <-); try (eapply number_numc; eassumption); try (apply delimited_numc; assumption).
  destruct (number_fun _ _ _ _ _ A B). auto.
Qed.
Lemma number_head t m e : number t m e -> exists c t', t = c :: t' /\ (c = 45%N \/ digit c).
Proof.
  intros [neg ip ft fd et ex I F X]. destruct neg; [eexists _, _; split; [reflexivity|]; left; reflexivity|].
  destruct I as [->|(c & s' & -> & C & D)].
  - exists 48%N. eexists. split; [reflexivity|]. right. unfold digit. lia.
  - exists c. eexists. split; [reflexivity|]. right. unfold digit. lia.
Qed.
Lemma value_head t v : value t v -> exists c t', t = c :: t' /\ ~ ws c /\ ~ In c [44; 58; 93; 125]%N.
Proof.
  intros H; inversion H; subst;
    try (eexists _, _; split; [reflexivity|]; unfold ws; cbn; split; intros X; repeat destruct X as [X|X]; try discriminate; tauto).
  - apply number_head in H0 as (c & t' & -> & C). eexists _, _. split; [reflexivity|].
    unfold digit, ws in *. cbn. split; intros X; repeat destruct X as [X|X]; try tauto; subst; destruct C; try discriminate; lia.
  - destruct H0. eexists _, _. split; [reflexivity|]. unfold ws. cbn. split; intros X; repeat destruct X as [X|X]; try discriminate; tauto.
Qed.
Lemma value_solid t v x : value t v -> ~ starts ws (t ++ x).
Proof. intros V. apply value_head in V as (c & t' & -> & N & _). exact N. Qed.
Lemma string_solid t v x : string_text t v -> ~ starts ws (t ++ x).
Proof. intros []. cbn. unfold ws. cbn. intros X; repeat destruct X as [X|X]; try discriminate; tauto. Qed.
Lemma char_solid c x : ~ ws c -> ~ starts ws ((c :: x : str)).
Proof. auto. Qed.
Lemma blank_delimited w x : blank w -> delimited x -> delimited (w ++ x).
Proof. intros [|c w' C B] D; [exact D|]. cbn in *. tauto. Qed.
Ltac not_ws := unfold ws; cbn; let X := fresh in intros X; repeat destruct X as [X|X]; try discriminate; tauto.
Lemma items_head t vs : items t vs -> exists w c x, t = w ++ c :: x /\ blank w /\ ~ ws c /\ c <> 93%N.
Proof.
  intros H; inversion H; subst;
    match goal with V : value _ _ |- _ => apply value_head in V as (c & x & -> & N & M) end;
    (eexists w1, c, _; split; [reflexivity|]; repeat split; auto; intros ->; apply M; cbn; tauto).
Qed.
Lemma members_head t ms : members t ms -> exists w x, t = w ++ 34%N :: x /\ blank w.
Proof.
  intros H; inversion H; subst; match goal with V : string_text _ _ |- _ => destruct V end;
    (eexists w1, _; split; [reflexivity|assumption]).
Qed.
Lemma not_empty_items w r t vs r' : blank w -> items t vs -> w ++ 93%N :: r = t ++ 93%N :: r' -> False.
Proof.
  intros B I E. apply items_head in I as (w' & c & x & -> & B' & N & M). rewrite <- app_assoc in E.
  apply (span_split ws) in E as (_ & E); [|exact B|exact B'|cbn; not_ws|exact N]. cbn in E. congruence.
Qed.
Lemma not_empty_members w r t vs r' : blank w -> members t vs -> w ++ 125%N :: r = t ++ 125%N :: r' -> False.
Proof.
  intros B I E. apply members_head in I as (w' & x & -> & B'). rewrite <- app_assoc in E.
  apply (span_split ws) in E as (_ & E); [|exact B|exact B'|cbn; not_ws|cbn; not_ws]. discriminate.
Qed.
Definition value_det t v := forall t' v' r r', value t' v' -> delimited r -> delimited r' -> t ++ r = t' ++ r' -> t = t' /\ v = v' /\ r = r'.
Definition items_det t vs := forall t' vs' r r', items t' vs' -> t ++ 93%N :: r = t' ++ 93%N :: r' -> t = t' /\ vs = vs' /\ r = r'.
Definition members_det t ms := forall t' ms' r r', members t' ms' -> t ++ 125%N :: r = t' ++ 125%N :: r' -> t = t' /\ ms = ms' /\ r = r'.
Ltac expose := repeat match goal with
  | H : number _ _ _ |- _ => apply number_head in H as (?c & ?t' & -> & ?C)
  | H : string_text _ _ |- _ => destruct H end.
Ltac clash E := exfalso; expose; cbn in E; try discriminate E;
  apply (f_equal (@hd N 0%N)) in E; cbn in E; subst; unfold digit in *;
  match goal with H : _ \/ _ |- _ => destruct H; try discriminate; lia end.
Lemma item_step w1 t v w2 x w1' t' v' w2' x' c c' :
  value_det t v -> value t v -> value t' v' -> w1 ++ t ++ w2 ++ c :: x = w1' ++ t' ++ w2' ++ c' :: x' ->
  blank w1 -> blank w2 -> blank w1' -> blank w2' ->
  In c [44; 93; 125]%N -> In c' [44; 93; 125]%N ->
  w1 = w1' /\ t = t' /\ v = v' /\ w2 = w2' /\ c = c' /\ x = x'.
Proof.
  intros P V V' E B1 B2 B1' B2' C C'.
  assert (forall d, In d [44; 93; 125]%N -> ~ ws d) as NW.
  { intros d I. cbn in I. repeat destruct I as [I|I]; subst; try (intros X; unfold ws in X; cbn in X; repeat destruct X as [X|X]; try discriminate; tauto). }
  assert (forall w d y, blank w -> In d [44; 93; 125]%N -> delimited (w ++ d :: y)) as DL.
  { intros w d y B I. apply blank_delimited; [exact B|]. cbn in *. tauto. }
  apply (span_split ws) in E as (<- & E); [|exact B1|exact B1'|eapply value_solid; exact V|eapply value_solid; exact V'].
  destruct (P _ _ _ _ V' (DL _ _ _ B2 C) (DL _ _ _ B2' C') E) as (<- & <- & E2). clear E. rename E2 into E.
  apply (span_split ws) in E as (<- & E); [|exact B2|exact B2'|apply NW, C|apply NW, C'].
  injection E as -> ->. repeat split; reflexivity.
Qed.
Lemma value_fun t v : value t v -> value_det t v.
Proof.
  apply (value_mut value_det items_det members_det).
  - intros t' v' r r' V _ _ E. inversion V; subst; try (clash E); try (cbn in E; injection E as ->; auto).
  - intros t' v' r r' V _ _ E. inversion V; subst; try (clash E); try (cbn in E; injection E as ->; auto).
  - intros t' v' r r' V _ _ E. inversion V; subst; try (clash E); try (cbn in E; injection E as ->; auto).
  - intros t1 m e N t' v' r r' V D D' E. inversion V; subst; try (clash E).
    destruct (number_split _ _ _ _ _ _ _ _ N H D D' E) as (-> & -> & -> & ->). auto.
  - intros t1 u N t' v' r r' V D D' E. inversion V; subst; try (clash E).
    destruct (string_fun _ _ _ _ _ _ N H E) as (-> & -> & ->). auto.
  - intros w B t' v' r r' V D D' E. inversion V; subst; try (clash E).
    + cbn in E. injection E as E. rewrite <- !app_assoc in E. cbn in E.
      apply (span_split ws) in E as (<- & E); [|exact B|assumption|cbn; not_ws|cbn; not_ws]. injection E as ->. auto.
    + cbn in E. injection E as E. rewrite <- !app_assoc in E. cbn in E. elim (not_empty_items _ _ _ _ _ B H E).
  - intros t1 vs I P t' v' r r' V D D' E. inversion V; subst; try (clash E).
    + cbn in E. injection E as E. rewrite <- !app_assoc in E. cbn in E. symmetry in E. elim (not_empty_items _ _ _ _ _ H I E).
    + cbn in E. injection E as E. rewrite <- !app_assoc in E. cbn in E. destruct (P _ _ _ _ H E) as (-> & -> & ->). auto.
  - intros w B t' v' r r' V D D' E. inversion V; subst; try (clash E).
    + cbn in E. injection E as E. rewrite <- !app_assoc in E. cbn in E.
      apply (span_split ws) in E as (<- & E); [|exact B|assumption|cbn; not_ws|cbn; not_ws]. injection E as ->. auto.
    + cbn in E. injection E as E. rewrite <- !app_assoc in E. cbn in E. elim (not_empty_members _ _ _ _ _ B H E).
  - intros t1 vs I P t' v' r r' V D D' E. inversion V; subst; try (clash E).
    + cbn in E. injection E as E. rewrite <- !app_assoc in E. cbn in E. symmetry in E. elim (not_empty_members _ _ _ _ _ H I E).
    + cbn in E. injection E as E. rewrite <- !app_assoc in E. cbn in E. destruct (P _ _ _ _ H E) as (-> & -> & ->). auto.
  - intros w1 t1 v1 w2 B1 V P B2 t' vs' r r' I E. inversion I; subst; rewrite <- !app_assoc in E; cbn [app lit] in E.
    + (match goal with V' : value _ _ |- _ => destruct (item_step _ _ _ _ _ _ _ _ _ _ _ _ P V V' E) as (-> & -> & -> & -> & _ & ->) end); auto; try (cbn; tauto).
    + (match goal with V' : value _ _ |- _ => destruct (item_step _ _ _ _ _ _ _ _ _ _ _ _ P V V' E) as (_ & _ & _ & _ & X & _) end); auto; try (cbn; tauto). discriminate.
  - intros w1 t1 v1 w2 t2 vs B1 V P B2 I2 P2 t' vs' r r' I E. inversion I; subst; rewrite <- !app_assoc in E; cbn [app lit] in E.
    + (match goal with V' : value _ _ |- _ => destruct (item_step _ _ _ _ _ _ _ _ _ _ _ _ P V V' E) as (_ & _ & _ & _ & X & _) end); auto; try (cbn; tauto). discriminate.
    + (match goal with V' : value _ _ |- _ => destruct (item_step _ _ _ _ _ _ _ _ _ _ _ _ P V V' E) as (-> & -> & -> & -> & _ & E2) end); auto; try (cbn; tauto). clear E; rename E2 into E.
      match goal with J : _ |- _ => destruct (P2 _ _ _ _ J E) as (-> & -> & ->) end; auto.
  - intros w1 k n w2 w3 t1 v1 w4 B1 K B2 B3 V P B4 t' ms' r r' I E. inversion I; subst; rewrite <- !app_assoc in E; cbn [app lit] in E;
      (apply (span_split ws) in E as (<- & E); [|assumption|assumption|eapply string_solid; eassumption|eapply string_solid; eassumption]);
      (match goal with K' : string_text ?k' ?n' |- _ => destruct (string_fun _ _ k' n' _ _ K K' E) as (<- & <- & E2) end; clear E; rename E2 into E);
      (apply (span_split ws) in E as (<- & E); [|assumption|assumption|cbn; not_ws|cbn; not_ws]); injection E as E.
    + (match goal with V' : value _ _ |- _ => destruct (item_step _ _ _ _ _ _ _ _ _ _ _ _ P V V' E) as (-> & -> & -> & -> & _ & ->) end); auto; try (cbn; tauto).
    + (match goal with V' : value _ _ |- _ => destruct (item_step _ _ _ _ _ _ _ _ _ _ _ _ P V V' E) as (_ & _ & _ & _ & X & _) end); auto; try (cbn; tauto). discriminate.
  - intros w1 k n w2 w3 t1 v1 w4 t2 ms B1 K B2 B3 V P B4 M2 P2 t' ms' r r' I E. inversion I; subst; rewrite <- !app_assoc in E; cbn [app lit] in E;
      (apply (span_split ws) in E as (<- & E); [|assumption|assumption|eapply string_solid; eassumption|eapply string_solid; eassumption]);
      (match goal with K' : string_text ?k' ?n' |- _ => destruct (string_fun _ _ k' n' _ _ K K' E) as (<- & <- & E2) end; clear E; rename E2 into E);
      (apply (span_split ws) in E as (<- & E); [|assumption|assumption|cbn; not_ws|cbn; not_ws]); injection E as E.
    + (match goal with V' : value _ _ |- _ => destruct (item_step _ _ _ _ _ _ _ _ _ _ _ _ P V V' E) as (_ & _ & _ & _ & X & _) end); auto; try (cbn; tauto). discriminate.
    + (match goal with V' : value _ _ |- _ => destruct (item_step _ _ _ _ _ _ _ _ _ _ _ _ P V V' E) as (-> & -> & -> & -> & _ & E2) end); auto; try (cbn; tauto). clear E; rename E2 into E.
      match goal with J : _ |- _ => destruct (P2 _ _ _ _ J E) as (-> & -> & ->) end; auto.
Qed.
Lemma json_text_fun s v v' : json_text s v -> json_text s v' -> v = v'.
Proof.
  intros (w1 & t & w2 & -> & B1 & V & B2) (w1' & t' & w2' & E & B1' & V' & B2').
  apply (span_split ws) in E as (<- & E); [|assumption|assumption|eapply value_solid; eassumption|eapply value_solid; eassumption].
  rewrite <- (app_nil_r w2), <- (app_nil_r w2') in E.
  assert (delimited []) as D by exact I.
  destruct (value_fun t v V _ _ _ _ V' (blank_delimited _ _ B2 D) (blank_delimited _ _ B2' D) E) as (_ & -> & _). reflexivity.
Qed.

(** ** The word NaN is not JSON: no text has the letter N outside strings *)
Fixpoint scan (st : nat) (s : str) : bool :=
  match s with
  | [] => true
  | c :: s' =>
      match st with
      | 0 => if N.eqb c 34 then scan 1 s' else if N.eqb c 78 then false else scan 0 s'
      | 1 => if N.eqb c 34 then scan 0 s' else if N.eqb c 92 then scan 2 s' else scan 1 s'
      | _ => scan 1 s'
      end
  end.
Definition skips (t : str) : Prop := forall r, scan 0 (t ++ r) = scan 0 r.
Lemma skips_app a b : skips a -> skips b -> skips (a ++ b).
Proof. intros A B r. rewrite <- app_assoc, A. apply B. Qed.
Lemma skips_chars t : Forall (fun c => c <> 34%N /\ c <> 78%N) t -> skips t.
Proof.
  intros F r. induction F as [|c t (A & B) F IH]; [reflexivity|]. cbn [app scan].
  apply N.eqb_neq in A, B. rewrite A, B. exact IH.
Qed.
Lemma skips_blank w : blank w -> skips w.
Proof.
  intros B. apply skips_chars. revert B. apply Forall_impl. intros c C. cbn in C. split; intros ->; repeat destruct C as [C|C]; discriminate || tauto.
Qed.
Lemma hex_plain a b : hex a b -> N.eqb a 34 = false /\ N.eqb a 92 = false.
Proof. intros [] ; split; apply N.eqb_neq; lia. Qed.
Lemma skips_string t u : string_text t u -> skips t.
Proof.
  intros [x y C] r. cbn [app scan]. change (N.eqb 34 34) with true. cbv iota. rewrite <- app_assoc. cbn [app].
  induction C as [|c t1 u1 A B D C IH|e c t1 u1 A C IH|a b c d a' b' c' d' t1 u1 A B D F C IH]; [reflexivity|..]; cbn [app scan].
  - apply N.eqb_neq in B, D. rewrite B, D. exact IH.
  - change (N.eqb 92 34) with false. change (N.eqb 92 92) with true. cbv iota. exact IH.
  - change (N.eqb 92 34) with false. change (N.eqb 92 92) with true. cbv iota.
    apply hex_plain in A as (-> & ->), B as (-> & ->), D as (-> & ->), F as (-> & ->). exact IH.
Qed.
Lemma skips_number t m e : number t m e -> skips t.
Proof.
  intros N. apply number_numc in N. apply skips_chars. revert N. apply Forall_impl. intros c [D|D].
  - unfold digit in D. split; lia.
  - cbn in D. split; intros ->; repeat destruct D as [D|D]; discriminate || tauto.
Qed.
Lemma skips_value t v : value t v -> skips t.
Proof.
  apply (value_mut (fun t _ => skips t) (fun t _ => skips t) (fun t _ => skips t)); intros;
    repeat apply skips_app; eauto using skips_blank, skips_string, skips_number; intros r; reflexivity.
Qed.
Lemma json_text_scan s v : json_text s v -> scan 0 s = true.
Proof.
  intros (w1 & t & w2 & -> & B1 & V & B2). rewrite (skips_blank _ B1), (skips_value _ _ V).
  rewrite <- (app_nil_r w2). apply (skips_blank _ B2).
Qed.

(** ** Code units determine text without surrogates *)
Lemma units_head c : scalar_value c -> exists x u, units c = x :: u /\ (c = x /\ u = [] /\ ~ (55296 <= x < 57344)%N
  \/ exists y, u = [y] /\ (55296 <= x < 56320)%N /\ (56320 <= y < 57344)%N /\ (c = 65536 + (x - 55296) * 1024 + (y - 56320))%N).
Proof.
  intros S. unfold units, scalar_value in *. destruct (c <? 65536)%N eqn:E.
  - apply N.ltb_lt in E. eexists _, _. split; [reflexivity|]. left. repeat split. lia.
  - apply N.ltb_ge in E. eexists _, _. split; [reflexivity|]. right. eexists. split; [reflexivity|].
    assert ((c - 65536) / 1024 < 1024)%N by (apply N.div_lt_upper_bound; lia).
    pose proof (N.mod_lt (c - 65536) 1024 ltac:(lia)). pose proof (N.div_mod (c - 65536) 1024 ltac:(lia)). lia.
Qed.
Lemma utf16_inj s s' : Forall scalar_value s -> Forall scalar_value s' -> utf16 s = utf16 s' -> s = s'.
Proof.
  intros F. revert s'. induction F as [|c s C F IH]; intros s' F' E.
  - destruct F' as [|c' s' C' F']; [reflexivity|]. cbn in E. destruct (units_head c' C') as (x & u & U & _). rewrite U in E. discriminate.
  - destruct F' as [|c' s' C' F'].
    + cbn in E. destruct (units_head c C) as (x & u & U & _). rewrite U in E. discriminate.
    + unfold utf16 in E. cbn [flat_map] in E. destruct (units_head c C) as (x & u & U & A), (units_head c' C') as (x' & u' & U' & A').
      rewrite U, U' in E. cbn [app] in E. injection E as <- E.
      destruct A as [(-> & -> & R)|(y & -> & R1 & R2 & ->)], A' as [(-> & -> & R')|(y' & -> & R1' & R2' & ->)]; cbn [app] in E; try lia.
      * f_equal. apply IH; assumption.
      * injection E as <- E. f_equal. apply IH; assumption.
Qed.
