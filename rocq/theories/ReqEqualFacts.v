(** Equal requests (C103). *)
From Verif Require Import PyBase PyFacts DateTime Objects Query Metrics MetricsQuery Json JsonFacts Request RequestFacts PyEqFacts SpecJson SpecEqual SpecReqEqual.
From Coq Require Import Permutation.

(** * The order of entries does not matter when keys are sorted *)
Lemma leb_refl a : str_leb a a = true.
Proof. induction a as [|x a IH]; [reflexivity|]. cbn [str_leb]. rewrite IH, N.eqb_refl. apply orb_true_r. Qed.
Lemma leb_total a : forall b, str_leb a b = false -> str_leb b a = true.
Proof.
  induction a as [|x a IH]; intros [|y b]; cbn [str_leb]; try discriminate; [reflexivity|].
  rewrite orb_false_iff, orb_true_iff, andb_false_iff, andb_true_iff, N.ltb_ge, N.ltb_lt, N.eqb_neq, N.eqb_eq. intros (A & B).
  destruct (N.eq_dec y x) as [->|D]; [right; split; [reflexivity|]|left; lia].
  destruct B as [B|B]; [contradiction|]. apply IH, B.
Qed.
Lemma leb_antisym a : forall b, str_leb a b = true -> str_leb b a = true -> a = b.
Proof.
  induction a as [|x a IH]; intros [|y b]; cbn [str_leb]; try discriminate; [reflexivity|].
  rewrite !orb_true_iff, !andb_true_iff, !N.ltb_lt, !N.eqb_eq. intros [A|(A & B)] [C|(C & D)]; try lia.
  subst. rewrite (IH b B D). reflexivity.
Qed.
Lemma leb_trans a : forall b c, str_leb a b = true -> str_leb b c = true -> str_leb a c = true.
Proof.
  induction a as [|x a IH]; intros [|y b] [|z c]; cbn [str_leb]; try discriminate; try reflexivity.
  rewrite !orb_true_iff, !andb_true_iff, !N.ltb_lt, !N.eqb_eq. intros [A|(A & B)] [C|(C & D)]; try (left; lia).
  right. split; [congruence|]. eapply IH; eassumption.
Qed.
Lemma insert_swap p q : fst p <> fst q -> forall l, insert_key p (insert_key q l) = insert_key q (insert_key p l).
Proof.
  intros D.
  assert (PQ : str_leb (fst p) (fst q) = negb (str_leb (fst q) (fst p))).
  { destruct (str_leb (fst p) (fst q)) eqn:A, (str_leb (fst q) (fst p)) eqn:B; try reflexivity.
    - exfalso. apply D, leb_antisym; assumption.
    - apply leb_total in A. congruence. }
  induction l as [|r l IH]; cbn [insert_key].
  - rewrite PQ. destruct (str_leb (fst q) (fst p)); reflexivity.
  - destruct (str_leb (fst q) (fst r)) eqn:Q, (str_leb (fst p) (fst r)) eqn:P; cbn [insert_key]; rewrite ?P, ?Q.
    + rewrite PQ. destruct (str_leb (fst q) (fst p)); reflexivity.
    + destruct (str_leb (fst p) (fst q)) eqn:X; [|reflexivity]. rewrite (leb_trans _ _ _ X Q) in P. discriminate.
    + destruct (str_leb (fst q) (fst p)) eqn:X; [|reflexivity]. rewrite (leb_trans _ _ _ X P) in Q. discriminate.
    + rewrite IH. reflexivity.
Qed.
Lemma sort_same l m : Permutation l m -> NoDup (map fst l) -> sort_keys l = sort_keys m.
Proof.
  induction 1 as [|x l m P IH|x y l|l m n P IH Q IH']; intros N; cbn [sort_keys fold_right map] in *.
  - reflexivity.
  - inversion_clear N. unfold sort_keys in IH. rewrite IH by assumption. reflexivity.
  - apply insert_swap. inversion_clear N as [|? ? A B]. intros E. apply A. left. congruence.
  - rewrite IH by exact N. apply IH'. apply (Permutation_NoDup (Permutation_map fst P)), N.
Qed.

Section F.
Context {RT : PyRT}.

Lemma mapM_pairs (f : obj -> result str) : forall ks vs, List.length ks = List.length vs ->
  mapM (fun kv : str * obj => let! s := f (snd kv) in Ok (fst kv, s)) (combine ks vs) = let! ss := mapM f vs in Ok (combine ks ss).
Proof.
  induction ks as [|k ks IH]; intros [|v vs] L; try discriminate L; [reflexivity|]. injection L as L.
  cbn [combine mapM fst snd]. rewrite (IH vs L). destruct (f v); [|reflexivity]. cbn [bind]. destruct (mapM f vs); reflexivity.
Qed.
Definition alike_results {A} (r r' : result (list A)) : Prop :=
  match r, r' with Ok l, Ok m => Permutation l m | Raise TypeError, Raise TypeError => True | _, _ => False end.
Lemma mapM_perm {A B} (f : A -> result B) l m : (forall x e, f x = Raise e -> e = TypeError) -> Permutation l m -> alike_results (mapM f l) (mapM f m).
Proof.
  intros T. assert (TM : forall l e, mapM f l = Raise e -> e = TypeError).
  { intros k e M. apply mapM_Raise in M as (x & _ & X). exact (T x e X). }
  induction 1 as [|x l m P IH|x y l|l m n P IH Q IH']; cbn [mapM].
  - constructor.
  - destruct (f x) as [b|e] eqn:X; [|rewrite (T _ _ X); exact I]. cbn [bind].
    destruct (mapM f l) as [u|e], (mapM f m) as [v|e']; cbn in *; try contradiction; try (destruct e; contradiction); [constructor; exact IH|exact IH].
  - destruct (f x) as [b|e] eqn:X; destruct (f y) as [c|e'] eqn:Y; cbn [bind].
    + destruct (mapM f l) as [u|e] eqn:U; cbn; [apply perm_swap|]. rewrite (TM _ _ U). exact I.
    + rewrite (T _ _ Y). exact I.
    + rewrite (T _ _ X). destruct (mapM f l) as [u|e0] eqn:U; exact I.
    + rewrite (T _ _ X), (T _ _ Y). exact I.
  - destruct (mapM f l) as [u|[]], (mapM f m) as [v|[]], (mapM f n) as [w|[]]; cbn in *; try contradiction; try exact I. etransitivity; eassumption.
Qed.
Lemma pretty_error b n o e : json_pretty b n o = Raise e -> e = TypeError.
Proof.
  revert n e. induction o using obj_ind'; intros lv er; try (cbn [json_pretty]; congruence).
  - rewrite json_pretty_list. intros E. apply bind_Raise in E as [E|(ss & _ & E)]; [|discriminate].
    apply mapM_Raise in E as (x & I & X). rewrite Forall_forall in H. exact (H x I _ _ X).
  - rewrite json_pretty_tuple, json_pretty_list. intros E. apply bind_Raise in E as [E|(ss & _ & E)]; [|discriminate].
    apply mapM_Raise in E as (x & I & X). rewrite Forall_forall in H. exact (H x I _ _ X).
  - rewrite json_pretty_dict. intros E. apply bind_Raise in E as [E|(ss & _ & E)]; [|discriminate].
    apply mapM_Raise in E as (x & I & X). rewrite Forall_forall in H. exact (H x I _ _ X).
Qed.
Lemma mapM_same {A B} (f : A -> result B) l m : Forall2 (fun x y => f x = f y) l m -> mapM f l = mapM f m.
Proof. induction 1 as [|x y l m E _ IH]; [reflexivity|]. cbn [mapM]. rewrite E, IH. reflexivity. Qed.
Lemma combine_keys : forall (ks : list str) (ss : list str), List.length ks = List.length ss -> map fst (combine ks ss) = ks.
Proof. induction ks as [|k ks IH]; intros [|s ss] L; try discriminate L; [reflexivity|]. injection L as L. cbn. rewrite (IH ss L). reflexivity. Qed.
Lemma mapM_len {A B} (f : A -> result B) l r : mapM f l = Ok r -> List.length l = List.length r.
Proof. intros M. apply mapM_Ok in M. induction M; cbn; congruence. Qed.
Theorem pretty_reordered : forall o o', reordered o o' -> forall n, json_pretty true n o = json_pretty true n o'.
Proof.
  fix rec 3. intros o o' [x|l m F|l m F|ks vs ks' vs' ws N L L' F P] n.
  - reflexivity.
  - rewrite !json_pretty_list. rewrite (mapM_same (json_pretty true (S n)) l m); [reflexivity|].
    revert l m F. fix all 3. intros l m [|x y l' m' X F']; constructor; [apply rec, X|apply all, F'].
  - rewrite !json_pretty_tuple, !json_pretty_list. rewrite (mapM_same (json_pretty true (S n)) l m); [reflexivity|].
    revert l m F. fix all 3. intros l m [|x y l' m' X F']; constructor; [apply rec, X|apply all, F'].
  - rewrite !json_pretty_dict.
    assert (E : mapM (json_pretty true (S n)) vs = mapM (json_pretty true (S n)) ws).
    { apply mapM_same. clear - F rec. revert vs ws F. fix all 3. intros vs ws [|x y l' m' X F']; constructor; [apply rec, X|apply all, F']. }
    assert (LW : List.length ks = List.length ws) by (rewrite L; clear - F; induction F; cbn; congruence).
    rewrite E. clear E F rec.
    assert (T : forall (kv : str * obj) e, (let! s := json_pretty true (S n) (snd kv) in Ok (fst kv, s)) = Raise e -> e = TypeError).
    { intros kv e H. apply bind_Raise in H as [H|(y & _ & H)]; [exact (pretty_error _ _ _ _ H)|discriminate]. }
    pose proof (mapM_perm (fun kv : str * obj => let! s := json_pretty true (S n) (snd kv) in Ok (fst kv, s)) _ _ T P) as A.
    rewrite !mapM_pairs in A by assumption.
    destruct (mapM (json_pretty true (S n)) ws) as [ss|e] eqn:W, (mapM (json_pretty true (S n)) vs') as [ss'|e'] eqn:W'; cbn [bind alike_results] in A |- *; try contradiction.
    + rewrite (sort_same _ _ A); [reflexivity|]. rewrite combine_keys; [exact N|]. rewrite <- (mapM_len _ _ _ W). exact LW.
    + destruct e; contradiction.
    + destruct e, e'; try contradiction. reflexivity.
Qed.

(** * The fields of a request *)
Lemma text_eq a b : py_eq a b = true -> (exists s, a = OStr s /\ b = OStr s) \/ ((forall s, a <> OStr s) /\ forall s, b <> OStr s).
Proof.
  intros E. destruct a; destruct b; try discriminate E; try (right; split; intros ?; discriminate).
  cbn [py_eq] in E. apply str_eqb_eq in E. subst. left. eexists. split; reflexivity.
Qed.
Lemma check_safe_eq a b : py_eq a b = true -> check_safe a = check_safe b.
Proof. intros E. destruct (text_eq a b E) as [(s & -> & ->)|(A & B)]; [reflexivity|]. destruct a; destruct b; try reflexivity; exfalso; (eapply A; reflexivity) || (eapply B; reflexivity). Qed.
Lemma check_parent_eq a b : py_eq a b = true -> check_parent a = check_parent b.
Proof. intros E. destruct (text_eq a b E) as [(s & -> & ->)|(A & B)]; [reflexivity|]. destruct a; destruct b; try reflexivity; exfalso; (eapply A; reflexivity) || (eapply B; reflexivity). Qed.
Lemma is_dict_eq a b : py_eq a b = true -> is_dict a = is_dict b.
Proof. intros E. destruct a; destruct b; try discriminate E; reflexivity. Qed.
Lemma check_safe_text a : check_safe a = Ok tt -> exists s, a = OStr s.
Proof. destruct a; try discriminate. eauto. Qed.
Lemma check_parent_text a : check_parent a = Ok tt -> exists s, a = OStr s.
Proof. destruct a; try discriminate. eauto. Qed.
Lemma text_same a b s : py_eq a b = true -> a = OStr s -> b = a.
Proof. intros E ->. destruct (text_eq _ b E) as [(t & X & ->)|(A & _)]; [congruence|]. elim (A s). reflexivity. Qed.
Lemma flag_eq v w : py_eq v w = true -> look_same v w -> (flag_ok v = true /\ w = v) \/ (flag_ok v = false /\ flag_ok w = false).
Proof.
  intros E L. destruct v; cbn in L; try (subst w; first [left; split; reflexivity|right; split; reflexivity]);
    destruct w; try discriminate E; try (left; split; reflexivity); right; split; reflexivity.
Qed.
Lemma flags_same f f' : flags_eq f f' -> flags_alike (RFlags f) (RFlags f') ->
  (flags_validate f = Ok tt /\ f' = f) \/ (flags_validate f = Raise InvalidFlagError /\ flags_validate f' = Raise InvalidFlagError).
Proof.
  intros E L. unfold flags_eq, flags_alike in *. destruct f as [a b c d e g], f' as [a' b' c' d' e' g'].
  unfold flags_validate, flag_fields in *. cbn [fl_totals fl_consistent fl_turbo fl_debug fl_dry_run fl_legacy] in *.
  repeat match goal with H : Forall2 _ (_ :: _) (_ :: _) |- _ => inversion_clear H end. cbn [snd] in *.
  cbn [check_all snd].
  destruct (flag_eq a a') as [(Ka & ->)|(Ka & Na)]; [assumption|assumption|rewrite Ka|rewrite Ka, Na; right; split; reflexivity]; cbn [assert_ bind].
  destruct (flag_eq b b') as [(Kb & ->)|(Kb & Nb)]; [assumption|assumption|rewrite Kb|rewrite Kb, Nb; right; split; reflexivity]; cbn [assert_ bind].
  destruct (flag_eq c c') as [(Kc & ->)|(Kc & Nc)]; [assumption|assumption|rewrite Kc|rewrite Kc, Nc; right; split; reflexivity]; cbn [assert_ bind].
  destruct (flag_eq d d') as [(Kd & ->)|(Kd & Nd)]; [assumption|assumption|rewrite Kd|rewrite Kd, Nd; right; split; reflexivity]; cbn [assert_ bind].
  destruct (flag_eq e e') as [(Ke & ->)|(Ke & Ne)]; [assumption|assumption|rewrite Ke|rewrite Ke, Ne; right; split; reflexivity]; cbn [assert_ bind].
  destruct (flag_eq g g') as [(Kg & ->)|(Kg & Ng)]; [assumption|assumption|rewrite Kg|rewrite Kg, Ng; right; split; reflexivity]; cbn [assert_ bind].
  left. split; reflexivity.
Qed.
Lemma rflags_same f f' : rflags_eq f f' -> flags_alike f f' ->
  rflags_validate f = rflags_validate f' /\ rflags_to_dict f = rflags_to_dict f'.
Proof.
  intros E L. destruct f as [|f|o], f' as [|f'|o']; cbn [rflags_eq] in E; try contradiction; try (split; reflexivity).
  destruct (flags_same f f' E L) as [(_ & ->)|(A & B)]; [split; reflexivity|].
  cbn [rflags_validate rflags_to_dict]. unfold flags_to_dict. rewrite A, B. split; reflexivity.
Qed.

(** * Delete queries *)
Lemma eq_list_len l : forall m, eq_list l m = true -> List.length l = List.length m.
Proof. induction l as [|x l IH]; intros [|y m]; cbn; try discriminate; [reflexivity|]. rewrite andb_true_iff. intros (_ & E). rewrite (IH _ E). reflexivity. Qed.
Lemma py_len_eq a b : py_eq a b = true -> py_len a = py_len b.
Proof.
  intros E. destruct a; destruct b; try discriminate E; try reflexivity; cbn [py_len]; cbn [py_eq] in E; fold eq_list in E.
  - apply str_eqb_eq in E. subst. reflexivity.
  - apply str_eqb_eq in E. subst. reflexivity.
  - rewrite (eq_list_len _ _ E). reflexivity.
  - rewrite (eq_list_len _ _ E). reflexivity.
  - apply dict_iff in E as (L & _). rewrite L. reflexivity.
Qed.
Lemma real_item ks vs v : NoDup ks -> List.length ks = List.length vs -> In v vs -> exists k, dict_item k ks vs = Some v.
Proof.
  revert vs. induction ks as [|k ks IH]; intros [|w vs] N L I; try discriminate L; [contradiction|].
  apply NoDup_cons_iff in N as (NK & N). injection L as L. destruct I as [->|I].
  - exists k. cbn [dict_item]. rewrite str_eqb_refl. reflexivity.
  - destruct (IH vs N L I) as (k' & D). exists k'. cbn [dict_item]. destruct (str_eqb k k') eqn:K; [|exact D].
    apply str_eqb_eq in K. subst. apply dict_item_in in D as (D & _). contradiction.
Qed.
Lemma delete_valid_one q q' : real_dict (dq_columns q') -> delete_eq q q' -> delete_validate q = Ok tt -> delete_validate q' = Ok tt.
Proof.
  intros R' (_ & E). unfold delete_validate. destruct (dq_columns q) as [| | | | | | | | | |ks vs| | | | | | | | | | | | | | | | | | | | | | |]; try discriminate.
  destruct (dq_columns q') as [| | | | | | | | | |ks' vs'| | | | | | | | | | | | | | | | | | | | | | |]; try discriminate E. cbn [real_dict] in *.
  destruct R' as (N' & L'). apply dict_iff in E as (L & E). destruct ks as [|k ks]; [discriminate|]. destruct ks' as [|k' ks']; [discriminate L|].
  rewrite !check_all_iff, !Forall_forall. intros H w I. destruct (real_item _ _ _ N' L' I) as (x & D). specialize (E x). rewrite D in E.
  destruct (dict_item x (k :: ks) vs) as [v|] eqn:D0; [|contradiction]. cbn [same_items] in E. rewrite <- (py_len_eq _ _ E).
  apply dict_item_in in D0 as (_ & D0). exact (H v D0).
Qed.
Lemma delete_eq_sym q q' : delete_eq q q' -> delete_eq q' q.
Proof. intros (A & B). split; rewrite py_eq_sym; assumption. Qed.

(** * Whole requests *)
Context {ST : PyStr}.
Lemma validate_same r r' : request_eq r r' -> flags_alike (rq_flags r) (rq_flags r') ->
  rquery_validate (rq_query r) = rquery_validate (rq_query r') -> request_validate r = request_validate r'.
Proof.
  intros (D & A & Q & F & P & T) L V. unfold request_validate.
  rewrite (check_safe_eq _ _ D), (check_safe_eq _ _ A), (check_parent_eq _ _ P), (is_dict_eq _ _ T), V, (proj1 (rflags_same _ _ F L)). reflexivity.
Qed.
Lemma bind_unit (r : result unit) (k : unit -> result unit) : bind r k = Ok tt <-> r = Ok tt /\ k tt = Ok tt.
Proof. destruct r as [[]|]; cbn; [|split; [discriminate|intros (K & _); discriminate]]. split; [auto|intros (_ & K); exact K]. Qed.
Lemma valid_parts r : request_validate r = Ok tt <->
  check_safe (rq_dataset r) = Ok tt /\ check_safe (rq_app r) = Ok tt /\ check_parent (rq_parent r) = Ok tt /\ is_dict (rq_tenants r) = true
  /\ rquery_validate (rq_query r) = Ok tt /\ rflags_validate (rq_flags r) = Ok tt.
Proof.
  unfold request_validate. rewrite !bind_unit. unfold assert_. destruct (is_dict (rq_tenants r)); intuition congruence.
Qed.
Lemma valid_iff r r' : request_eq r r' -> flags_alike (rq_flags r) (rq_flags r') ->
  (rquery_validate (rq_query r) = Ok tt <-> rquery_validate (rq_query r') = Ok tt) ->
  (request_validate r = Ok tt <-> request_validate r' = Ok tt).
Proof.
  intros (D & A & Q & F & P & T) L V. rewrite !valid_parts.
  rewrite (check_safe_eq _ _ D), (check_safe_eq _ _ A), (check_parent_eq _ _ P), (is_dict_eq _ _ T), V, (proj1 (rflags_same _ _ F L)). reflexivity.
Qed.

(** * Payloads *)
(** the entries of two dictionaries, one by one: the same key, and the same value unless the key
    is [open] *)
Definition entry_rel (opened : str -> Prop) (R : obj -> obj -> Prop) (p p' : str * obj) : Prop :=
  fst p = fst p' /\ (snd p = snd p' \/ opened (fst p) /\ R (snd p) (snd p')).
Section E.
Variables (opened : str -> Prop) (R : obj -> obj -> Prop).
Lemma put_rel k v v' : (v = v' \/ opened k /\ R v v') -> forall d d', Forall2 (entry_rel opened R) d d' ->
  Forall2 (entry_rel opened R) (dict_put d k v) (dict_put d' k v').
Proof.
  intros V d d' F. induction F as [|[a x] [b y] d d' (K & X) F IH]; cbn [dict_put].
  - constructor; [split; [reflexivity|exact V]|constructor].
  - cbn [fst snd] in *. subst b. destruct (str_eqb k a) eqn:E.
    + apply str_eqb_eq in E. subst. constructor; [split; [reflexivity|exact V]|exact F].
    + constructor; [split; [reflexivity|exact X]|exact IH].
Qed.
Lemma puts_rel l l' : Forall2 (entry_rel opened R) l l' -> forall d d', Forall2 (entry_rel opened R) d d' ->
  Forall2 (entry_rel opened R) (dict_puts d l) (dict_puts d' l').
Proof.
  unfold dict_puts. induction 1 as [|[a x] [b y] l l' (K & X) F IH]; intros d d' D; [exact D|]. cbn [fold_left fst snd] in *. subst b.
  apply IH, put_rel; assumption.
Qed.
Lemma same_rel d : Forall2 (entry_rel opened R) d d.
Proof. induction d; constructor; [split; auto|assumption]. Qed.
Lemma rel_keys p p' : Forall2 (entry_rel opened R) p p' -> map fst p = map fst p'.
Proof. induction 1 as [|x y l m (K & _) _ IH]; [reflexivity|]. cbn. rewrite K, IH. reflexivity. Qed.
Lemma rel_item k p p' : Forall2 (entry_rel opened R) p p' ->
  same_items (fun v w => v = w \/ opened k /\ R v w) (payload_at k (dict_obj p)) (payload_at k (dict_obj p')).
Proof.
  induction 1 as [|[a x] [b y] l m (K & X) _ IH]; [exact I|]. cbn [dict_obj payload_at map dict_item fst snd] in *. subst b.
  destruct (str_eqb a k) eqn:E; [|exact IH]. apply str_eqb_eq in E. subst. exact X.
Qed.
End E.
Lemma rel_eq_same opened p p' : Forall2 (entry_rel opened eq) p p' -> p = p'.
Proof. induction 1 as [|[a x] [b y] l m (K & X) _ IH]; [reflexivity|]. cbn in *. assert (x = y) by tauto. congruence. Qed.
Lemma rel_pretty opened (R : obj -> obj -> Prop) p p' n : (forall v w, R v w -> forall n, json_pretty true n v = json_pretty true n w) ->
  Forall2 (entry_rel opened R) p p' -> json_pretty true n (dict_obj p) = json_pretty true n (dict_obj p').
Proof.
  intros H F. unfold dict_obj. rewrite !json_pretty_dict, <- (rel_keys opened R p p' F).
  rewrite (mapM_same (json_pretty true (S n)) (map snd p) (map snd p')); [reflexivity|].
  induction F as [|[a x] [b y] l m (K & X) _ IH]; constructor; [|exact IH]. cbn in *. destruct X as [->|(_ & X)]; [reflexivity|apply H, X].
Qed.

(** the keys whose values may differ: the tenants, and the query of a delete request *)
Definition may_differ (q : rquery) (k : str) : Prop := k = $"tenant_ids" \/ k = $"query" /\ match q with RDelete _ => True | _ => False end.
Definition query_sent (R : obj -> obj -> Prop) (q q' : rquery) : Prop :=
  match q, q' with
  | RQuery q, RQuery q' => serialize q = serialize q'
  | RMetrics q, RMetrics q' => snd (mq_serialize q) = snd (mq_serialize q')
  | RDelete q, RDelete q' => R (ODict [$"columns"] [dq_columns q]) (ODict [$"columns"] [dq_columns q']) /\ delete_validate q = delete_validate q'
  | ROther _, ROther _ => True
  | _, _ => False
  end.
Lemma to_dict_rel (R : obj -> obj -> Prop) r r' : request_eq r r' -> flags_alike (rq_flags r) (rq_flags r') -> request_validate r = request_validate r' ->
  R (rq_tenants r) (rq_tenants r') -> query_sent R (rq_query r) (rq_query r') ->
  match snd (request_to_dict r), snd (request_to_dict r') with
  | Ok d, Ok d' => exists p p', d = dict_obj p /\ d' = dict_obj p' /\ Forall2 (entry_rel (may_differ (rq_query r)) R) p p'
  | Raise e, Raise e' => e = e'
  | _, _ => False
  end.
Proof.
  intros E L V T S. unfold request_to_dict. rewrite <- V. destruct (request_validate r) as [[]|e] eqn:V0; [|reflexivity].
  pose proof E as (D & A & Q & F & P & _). rewrite <- (proj2 (rflags_same _ _ F L)). destruct (rflags_to_dict (rq_flags r)) as [fl|e]; [|reflexivity].
  apply valid_parts in V0 as (VD & VA & VP & _). apply check_safe_text in VD as (ds & VD), VA as (ap & VA). apply check_parent_text in VP as (pa & VP).
  pose proof (text_same _ _ _ D VD) as D'. pose proof (text_same _ _ _ A VA) as A'. pose proof (text_same _ _ _ P VP) as P'.
  destruct (rq_query r) as [q|q|q|o] eqn:RQ, (rq_query r') as [q'|q'|q'|o'] eqn:RQ'; cbn [query_sent] in S; try contradiction.
  - cbn [snd]. rewrite <- S. destruct (serialize q) as [x|e]; [|reflexivity]. cbn [bind]. do 2 eexists. split; [reflexivity|]. split; [reflexivity|].
    rewrite D', A', P'. apply puts_rel; [constructor|]. apply puts_rel; [|apply same_rel].
    repeat (constructor; [first [split; [reflexivity|left; reflexivity]|split; [reflexivity|right; split; [left; reflexivity|exact T]]]|]). constructor.
  - destruct (mq_serialize q) as [q1 [x|e]], (mq_serialize q') as [q1' [x'|e']]; cbn [snd bind] in *; try discriminate S; [|congruence].
    injection S as <-. do 2 eexists. split; [reflexivity|]. split; [reflexivity|].
    rewrite D', A', P'. apply puts_rel; [constructor; [split; [reflexivity|left; reflexivity]|constructor]|]. apply puts_rel; [|apply same_rel].
    repeat (constructor; [first [split; [reflexivity|left; reflexivity]|split; [reflexivity|right; split; [left; reflexivity|exact T]]]|]). constructor.
  - destruct S as (S & W). cbn [snd]. unfold delete_serialize. rewrite <- W. destruct (delete_validate q) as [[]|e]; [|reflexivity]. cbn [bind].
    do 2 eexists. split; [reflexivity|]. split; [reflexivity|].
    rewrite A', P'. apply puts_rel; [|apply same_rel].
    repeat (constructor; [first [split; [reflexivity|left; reflexivity]|split; [reflexivity|right; split; [left; reflexivity|exact T]]|split; [reflexivity|right; split; [right; split; [reflexivity|exact I]|exact S]]]|]). constructor.
  - reflexivity.
Qed.
End F.
