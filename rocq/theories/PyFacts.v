(** Lemmas about PyBase. *)
From Verif Require Import PyBase.

Lemma str_eqb_eq a b : str_eqb a b = true <-> a = b.
Proof.
  revert b; induction a as [|x a IH]; intros [|y b]; cbn; try (split; congruence).
  rewrite andb_true_iff, N.eqb_eq, IH. split; [intros [-> ->]; reflexivity|].
  intros H; injection H; auto.
Qed.
Lemma str_eqb_refl a : str_eqb a a = true.
Proof. apply str_eqb_eq; reflexivity. Qed.
Lemma str_eqb_neq a b : str_eqb a b = false <-> a <> b.
Proof.
  destruct (str_eqb a b) eqn:E.
  - apply str_eqb_eq in E. split; [discriminate|intros H; elim H; exact E].
  - split; [|reflexivity]. intros _ H. apply str_eqb_eq in H. congruence.
Qed.
Lemma str_eq_dec (a b : str) : {a = b} + {a <> b}.
Proof. destruct (str_eqb a b) eqn:E; [left; apply str_eqb_eq, E|right; apply str_eqb_neq, E]. Qed.

Lemma mem_str_In x l : mem_str x l = true <-> In x l.
Proof.
  unfold mem_str. rewrite existsb_exists. split.
  - intros (y & H & E). apply str_eqb_eq in E. subst; exact H.
  - intros H. exists x. split; [exact H|apply str_eqb_refl].
Qed.
Lemma mem_char_In x l : mem_char x l = true <-> In x l.
Proof.
  unfold mem_char. rewrite existsb_exists. split.
  - intros (y & H & E). apply N.eqb_eq in E. subst; exact H.
  - intros H. exists x. split; [exact H|apply N.eqb_refl].
Qed.

Lemma prefixb_iff p s : prefixb p s = true <-> exists r, s = p ++ r.
Proof.
  revert s; induction p as [|x p IH]; intros s; cbn.
  - split; [exists s; reflexivity|reflexivity].
  - destruct s as [|y s]; [split; [discriminate|intros [r H]; discriminate]|].
    rewrite andb_true_iff, N.eqb_eq, IH. split.
    + intros [-> [r ->]]. exists r; reflexivity.
    + intros [r H]. injection H as -> ->. split; [reflexivity|eexists; reflexivity].
Qed.
Lemma prefixb_app p s : prefixb p (p ++ s) = true.
Proof. apply prefixb_iff; eexists; reflexivity. Qed.

(** replace with a one-character pattern maps each character *)
Lemma replace_char c rep s :
  replace [c] rep s = flat_map (fun x => if N.eqb c x then rep else [x]) s.
Proof.
  unfold replace. induction s as [|x s IH]; [reflexivity|].
  cbn [repl prefixb flat_map List.length Nat.sub].
  rewrite andb_true_r. destruct (N.eqb c x); cbn [app]; rewrite IH; reflexivity.
Qed.

Lemma split_once_None c s : split_once c s = None <-> ~ In c s.
Proof.
  induction s as [|x s IH]; cbn; [split; [intros _ []|reflexivity]|].
  destruct (N.eqb_spec x c) as [->|Hn].
  - split; [discriminate|intros H; elim H; left; reflexivity].
  - destruct (split_once c s) as [[a b]|].
    + split; [discriminate|]. intros H. destruct IH as [_ IH].
      assert (Some (a, b) = None) by (apply IH; intros Hi; apply H; right; exact Hi). discriminate.
    + split; [|reflexivity]. intros _ [H|H]; [auto|]. apply IH; auto.
Qed.
Lemma split_once_Some c s a b : split_once c s = Some (a, b) -> s = a ++ c :: b /\ ~ In c a.
Proof.
  revert a b; induction s as [|x s IH]; cbn; intros a b H; [discriminate|].
  destruct (N.eqb_spec x c) as [->|Hn].
  - injection H as <- <-. split; [reflexivity|intros []].
  - destruct (split_once c s) as [[a' b']|]; [|discriminate]. injection H as <- <-.
    destruct (IH a' b' eq_refl) as [-> Hi]. split; [reflexivity|].
    intros [H|H]; [auto|exact (Hi H)].
Qed.
Lemma split_once_app c a b : ~ In c a -> split_once c (a ++ c :: b) = Some (a, b).
Proof.
  induction a as [|x a IH]; cbn; intros H.
  - rewrite N.eqb_refl. reflexivity.
  - destruct (N.eqb_spec x c) as [->|Hn]; [elim H; left; reflexivity|].
    rewrite IH; [reflexivity|intros Hi; apply H; right; exact Hi].
Qed.

Lemma lstrip_id f s : match s with [] => True | c :: _ => f c = false end -> lstrip f s = s.
Proof. destruct s as [|c s]; cbn; [reflexivity|intros ->; reflexivity]. Qed.

(** * result *)
Lemma bind_Ok {A B} (r : result A) (f : A -> result B) b :
  bind r f = Ok b <-> exists a, r = Ok a /\ f a = Ok b.
Proof.
  destruct r as [a|e]; cbn; split.
  - intros H; exists a; auto.
  - intros (a' & H & Hf). injection H as <-. exact Hf.
  - discriminate.
  - intros (a' & H & _). discriminate.
Qed.
Lemma bind_Raise {A B} (r : result A) (f : A -> result B) e :
  bind r f = Raise e <-> r = Raise e \/ exists a, r = Ok a /\ f a = Raise e.
Proof.
  destruct r as [a|e']; cbn; split.
  - intros H; right; exists a; auto.
  - intros [H|(a' & H & Hf)]; [discriminate|injection H as <-; exact Hf].
  - intros H; injection H as ->; left; reflexivity.
  - intros [H|(a' & H & _)]; [injection H as ->; reflexivity|discriminate].
Qed.
Lemma assert_Ok b e u : assert_ b e = Ok u <-> b = true.
Proof. unfold assert_; destruct b, u; split; congruence. Qed.
Lemma assert_Raise b e e' : assert_ b e = Raise e' <-> b = false /\ e' = e.
Proof. unfold assert_; destruct b; split; try intros [? ?]; try intros H; try congruence. split; congruence. Qed.

Lemma mapM_Ok {A B} (f : A -> result B) l ys :
  mapM f l = Ok ys <-> Forall2 (fun x y => f x = Ok y) l ys.
Proof.
  revert ys; induction l as [|x l IH]; intros ys; cbn.
  - split; [intros H; injection H as <-; constructor|intros H; inversion H; reflexivity].
  - rewrite bind_Ok. split.
    + intros (y & Hy & H). apply bind_Ok in H as (ys' & Hys & H). injection H as <-.
      constructor; [exact Hy|apply IH, Hys].
    + intros H; inversion H as [|? y ? ys' Hy Hys]; subst. exists y. split; [exact Hy|].
      apply bind_Ok. exists ys'. split; [apply IH, Hys|reflexivity].
Qed.
Lemma mapM_Raise {A B} (f : A -> result B) l e :
  mapM f l = Raise e -> exists x, In x l /\ f x = Raise e.
Proof.
  induction l as [|x l IH]; cbn; [discriminate|]. intros H.
  apply bind_Raise in H as [H|(y & Hy & H)]; [exists x; auto|].
  apply bind_Raise in H as [H|(ys & _ & H)]; [|discriminate].
  destruct (IH H) as (z & Hz & E). exists z; auto.
Qed.
Lemma mapM_ext {A B} (f g : A -> result B) l :
  (forall x, In x l -> f x = g x) -> mapM f l = mapM g l.
Proof.
  induction l as [|x l IH]; cbn; intros H; [reflexivity|].
  rewrite H by auto. rewrite IH by auto. reflexivity.
Qed.

Lemma option_eqb_iff {A} (f : A -> A -> bool) x y :
  (forall a b, f a b = true <-> a = b) -> option_eqb f x y = true <-> x = y.
Proof.
  intros H. destruct x as [a|], y as [b|]; cbn; try (split; congruence).
  rewrite H. split; congruence.
Qed.

(** * Decimal numerals *)
Definition is_dec (s : str) : Prop := Forall (fun c => is_digit c = true) s.

Lemma lit_app a b : lit (a ++ b)%string = lit a ++ lit b.
Proof.
  unfold lit. induction a as [|x a IH]; [reflexivity|]. cbn. f_equal. exact IH.
Qed.

(** value of a decimal numeral, for reading back *)
Fixpoint dec_val (acc : N) (s : str) : N :=
  match s with [] => acc | c :: s' => dec_val (acc * 10 + (c - 48)) s' end%N.

Lemma dec_val_app acc a b : dec_val acc (a ++ b) = dec_val (dec_val acc a) b.
Proof. revert acc; induction a as [|x a IH]; cbn; intros acc; [reflexivity|apply IH]. Qed.

Lemma uint_digits u : is_dec (lit (DecimalString.NilEmpty.string_of_uint u)).
Proof. unfold is_dec. induction u; cbn; constructor; try exact IHu; reflexivity. Qed.

Lemma lit_cons c s : lit (String c s) = N_of_ascii c :: lit s.
Proof. reflexivity. Qed.

Lemma uint_val_acc u : forall p,
  dec_val (N.pos p) (lit (DecimalString.NilEmpty.string_of_uint u)) = N.pos (Pos.of_uint_acc u p).
Proof.
  induction u as [|u IH|u IH|u IH|u IH|u IH|u IH|u IH|u IH|u IH|u IH]; intros p;
    cbn [DecimalString.NilEmpty.string_of_uint Pos.of_uint_acc]; [reflexivity|..];
    rewrite lit_cons; cbn [dec_val];
    match goal with |- dec_val ?a _ = N.pos (Pos.of_uint_acc _ ?q) =>
      replace a with (N.pos q); [apply IH|cbn [N_of_ascii N_of_digits]; lia] end.
Qed.
Lemma uint_val u :
  dec_val 0 (lit (DecimalString.NilEmpty.string_of_uint u)) = N.of_uint u.
Proof.
  unfold N.of_uint.
  induction u as [|u IH|u IH|u IH|u IH|u IH|u IH|u IH|u IH|u IH|u IH]; [reflexivity|exact IH|..];
    cbn [DecimalString.NilEmpty.string_of_uint Pos.of_uint]; rewrite lit_cons; cbn [dec_val];
    match goal with |- dec_val ?a _ = N.pos (Pos.of_uint_acc _ ?q) =>
      replace a with (N.pos q); [apply uint_val_acc|reflexivity] end.
Qed.

(** str(n) reads back as n *)
Lemma dec_val_dec_of_N n : dec_val 0 (dec_of_N n) = n.
Proof. unfold dec_of_N. rewrite uint_val. apply DecimalN.Unsigned.of_to. Qed.
Lemma dec_of_N_digits n : is_dec (dec_of_N n).
Proof. apply uint_digits. Qed.
Lemma dec_of_N_nonempty n : dec_of_N n <> [].
Proof.
  intros H. unfold dec_of_N in H.
  assert (N.to_uint n = Decimal.Nil) as E by (destruct (N.to_uint n); [reflexivity|discriminate..]).
  destruct n as [|p]; [discriminate|].
  apply (f_equal N.of_uint) in E. rewrite DecimalN.Unsigned.of_to in E. discriminate.
Qed.
Lemma dec_of_N_inj a b : dec_of_N a = dec_of_N b -> a = b.
Proof. intros H. rewrite <- (dec_val_dec_of_N a), H. apply dec_val_dec_of_N. Qed.

(** shape of str(z) *)
Lemma dec_of_Z_nonneg z : (0 <= z)%Z -> dec_of_Z z = dec_of_N (Z.to_N z).
Proof. destruct z as [|p|p]; intros H; [reflexivity|reflexivity|lia]. Qed.
Lemma dec_of_Z_neg z : (z < 0)%Z -> dec_of_Z z = 45%N :: dec_of_N (Z.to_N (- z)).
Proof. destruct z as [|p|p]; intros H; [lia|lia|reflexivity]. Qed.

Lemma is_digit_range c : is_digit c = true <-> (48 <= c <= 57)%N.
Proof. unfold is_digit, in_range. rewrite andb_true_iff, !N.leb_le. lia. Qed.

Lemma dec_of_Z_inj a b : dec_of_Z a = dec_of_Z b -> a = b.
Proof.
  intros H. destruct (Z.neg_nonneg_cases a) as [Ha|Ha], (Z.neg_nonneg_cases b) as [Hb|Hb].
  - rewrite !dec_of_Z_neg in H by assumption. injection H as H. apply dec_of_N_inj in H. lia.
  - rewrite dec_of_Z_neg, dec_of_Z_nonneg in H by assumption.
    pose proof (dec_of_N_digits (Z.to_N b)) as D. rewrite <- H in D. inversion D; discriminate.
  - rewrite dec_of_Z_nonneg, dec_of_Z_neg in H by assumption.
    pose proof (dec_of_N_digits (Z.to_N a)) as D. rewrite H in D. inversion D; discriminate.
  - rewrite !dec_of_Z_nonneg in H by assumption. apply dec_of_N_inj in H. lia.
Qed.
