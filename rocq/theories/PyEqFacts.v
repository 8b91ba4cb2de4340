(** Python equality on SDK objects (C11). *)
From Verif Require Import PyBase PyFacts DateTime Objects Exprs.

Fixpoint eq_list (l1 l2 : list obj) : bool :=
  match l1, l2 with
  | [], [] => true
  | x :: l1', y :: l2' => py_eq x y && eq_list l1' l2'
  | _, _ => false
  end.

Lemma str_eqb_sym a b : str_eqb a b = str_eqb b a.
Proof.
  revert b; induction a as [|x a IH]; intros [|y b]; cbn; try reflexivity.
  rewrite IH, N.eqb_sym. reflexivity.
Qed.
Lemma list_eqb_sym {A} (f : A -> A -> bool) a b :
  (forall x y, f x y = f y x) -> list_eqb f a b = list_eqb f b a.
Proof.
  intros H. revert b; induction a as [|x a IH]; intros [|y b]; cbn; try reflexivity.
  rewrite IH, H. reflexivity.
Qed.
Lemma option_eqb_sym {A} (f : A -> A -> bool) a b :
  (forall x y, f x y = f y x) -> option_eqb f a b = option_eqb f b a.
Proof. intros H. destruct a, b; cbn; auto. Qed.
Lemma bool_eqb_sym a b : Bool.eqb a b = Bool.eqb b a.
Proof. destruct a, b; reflexivity. Qed.
Lemma op_eqb_sym a b : op_eqb a b = op_eqb b a.
Proof. destruct a, b; reflexivity. Qed.
Lemma flt_eqb_sym a b : flt_eqb a b = flt_eqb b a.
Proof.
  destruct a as [| |n1 m1 e1], b as [| |n2 m2 e2]; cbn; try reflexivity; [apply bool_eqb_sym|].
  unfold fin_cmp. rewrite Z.min_comm.
  rewrite Z.compare_antisym. destruct (Z.compare _ _); reflexivity.
Qed.
Lemma num_eqb_sym a b : num_eqb a b = num_eqb b a.
Proof. destruct a, b; cbn; try apply flt_eqb_sym; try reflexivity. apply Z.eqb_sym. Qed.
Lemma sc_eqb_sym a b : sc_eqb a b = sc_eqb b a.
Proof. unfold sc_eqb. rewrite str_eqb_sym, bool_eqb_sym. reflexivity. Qed.
Lemma dm_eqb_sym a b : dm_eqb a b = dm_eqb b a.
Proof.
  unfold dm_eqb. rewrite sc_eqb_sym. f_equal. apply andb_comm.
Qed.
Lemma entity_eqb_sym a b : entity_eqb a b = entity_eqb b a.
Proof.
  unfold entity_eqb. rewrite str_eqb_sym.
  rewrite (option_eqb_sym str_eqb) by apply str_eqb_sym.
  rewrite (option_eqb_sym flt_eqb) by apply flt_eqb_sym.
  rewrite (option_eqb_sym dm_eqb) by apply dm_eqb_sym. reflexivity.
Qed.
Lemma storage_eqb_sym a b : storage_eqb a b = storage_eqb b a.
Proof.
  unfold storage_eqb. rewrite str_eqb_sym.
  rewrite (option_eqb_sym flt_eqb) by apply flt_eqb_sym.
  rewrite (option_eqb_sym dm_eqb) by apply dm_eqb_sym. reflexivity.
Qed.
Lemma column_eqb_sym a b : column_eqb a b = column_eqb b a.
Proof.
  unfold column_eqb. rewrite str_eqb_sym.
  rewrite (option_eqb_sym entity_eqb) by apply entity_eqb_sym.
  rewrite !(option_eqb_sym str_eqb _ (c_sub b)) by apply str_eqb_sym.
  rewrite !(option_eqb_sym str_eqb _ (c_key b)) by apply str_eqb_sym. reflexivity.
Qed.
Lemma rel_eqb_sym a b : rel_eqb a b = rel_eqb b a.
Proof.
  unfold rel_eqb. rewrite str_eqb_sym, entity_eqb_sym, (entity_eqb_sym (r_rhs a)). reflexivity.
Qed.
Lemma seqk_eqb_sym a b : seqk_eqb a b = seqk_eqb b a.
Proof. destruct a, b; reflexivity. Qed.
Lemma bcls_eqb_sym a b : bcls_eqb a b = bcls_eqb b a.
Proof. destruct a, b; reflexivity. Qed.
Lemma boolop_eqb_sym a b : boolop_eqb a b = boolop_eqb b a.
Proof. destruct a, b; reflexivity. Qed.
Lemma direction_eqb_sym a b : direction_eqb a b = direction_eqb b a.
Proof. destruct a, b; reflexivity. Qed.
Lemma date_eqb_sym a b : date_eqb a b = date_eqb b a.
Proof. unfold date_eqb. rewrite Z.eqb_sym, (Z.eqb_sym (d_month a)), (Z.eqb_sym (d_day a)). reflexivity. Qed.
Lemma datetime_eqb_sym a b : datetime_eqb a b = datetime_eqb b a.
Proof. unfold datetime_eqb. rewrite Z.eqb_sym. destruct (dt_tz a), (dt_tz b); reflexivity. Qed.

Lemma eq_list_sym l : Forall (fun x => forall y, py_eq x y = py_eq y x) l ->
  forall m, eq_list l m = eq_list m l.
Proof.
  induction 1 as [|x l Hx _ IH]; intros [|y m]; cbn; try reflexivity. rewrite Hx, IH. reflexivity.
Qed.

(** * Dictionaries: the same keys, in any order, and equal values *)
Fixpoint eq_dict (seen ks : list str) (vs : list obj) (ks' : list str) (vs' : list obj) {struct vs} : bool :=
  match ks, vs with
  | k :: ks1, v :: vs1 =>
      (mem_str k seen || match dict_item k ks' vs' with Some w => py_eq v w | None => false end)
      && eq_dict (k :: seen) ks1 vs1 ks' vs'
  | _, _ => true
  end.
Lemma py_eq_dict ks vs ks' vs' : py_eq (ODict ks vs) (ODict ks' vs') = Nat.eqb (List.length ks) (List.length ks') && dict_within ks' vs' ks vs && eq_dict [] ks vs ks' vs'.
Proof. reflexivity. Qed.
Lemma dict_item_in k v : forall ks vs, dict_item k ks vs = Some v -> In k ks /\ In v vs.
Proof.
  induction ks as [|k' ks IH]; intros [|w vs]; cbn [dict_item]; try discriminate.
  destruct (str_eqb k' k) eqn:E.
  - injection 1 as ->. apply str_eqb_eq in E. subst. split; left; reflexivity.
  - intros H. destruct (IH vs H). split; right; assumption.
Qed.
Lemma eq_dict_iff ks' vs' : forall vs ks seen, eq_dict seen ks vs ks' vs' = true <->
  (forall k v, ~ In k seen -> dict_item k ks vs = Some v -> exists w, dict_item k ks' vs' = Some w /\ py_eq v w = true).
Proof.
  induction vs as [|v vs IH]; intros [|k ks] seen; cbn [eq_dict dict_item]; try (split; [discriminate|reflexivity]).
  rewrite andb_true_iff, orb_true_iff, mem_str_In, IH. split.
  - intros (A & B) k0 v0 N. destruct (str_eqb k k0) eqn:E.
    + injection 1 as ->. apply str_eqb_eq in E. subst k0. destruct A as [A|A]; [contradiction|].
      destruct (dict_item k ks' vs') as [w|]; [|discriminate]. eauto.
    + intros H. apply B; [|exact H]. intros [->|I]; [rewrite str_eqb_refl in E; discriminate|contradiction].
  - intros H. split.
    + destruct (in_dec (list_eq_dec N.eq_dec) k seen) as [I|I]; [left; exact I|right].
      destruct (H k v I) as (w & -> & E); [rewrite str_eqb_refl; reflexivity|exact E].
    + intros k0 v0 N D. apply H; [intros I; apply N; right; exact I|].
      destruct (str_eqb k k0) eqn:E; [|exact D]. apply str_eqb_eq in E. subst. exfalso. apply N. left. reflexivity.
Qed.
Definition same_items (r : obj -> obj -> Prop) (x y : option obj) : Prop :=
  match x, y with Some v, Some w => r v w | None, None => True | _, _ => False end.
Lemma dict_iff ks vs ks' vs' : py_eq (ODict ks vs) (ODict ks' vs') = true <->
  List.length ks = List.length ks' /\ forall k, same_items (fun v w => py_eq v w = true) (dict_item k ks vs) (dict_item k ks' vs').
Proof.
  rewrite py_eq_dict, !andb_true_iff, eq_dict_iff, Nat.eqb_eq, and_assoc. apply and_iff_compat_l.
  unfold dict_within. rewrite forallb_forall. split.
  - intros (A & B) k. destruct (dict_item k ks vs) as [v|] eqn:D.
    + destruct (B k v (fun F => F) D) as (w & -> & E). exact E.
    + destruct (dict_item k ks' vs') as [w|] eqn:D'; [|exact I].
      specialize (A k (proj1 (dict_item_in _ _ _ _ D'))). rewrite D', D in A. discriminate.
  - intros H. split.
    + intros k _. specialize (H k). destruct (dict_item k ks' vs'), (dict_item k ks vs); try reflexivity; contradiction.
    + intros k v _ D. specialize (H k). rewrite D in H. destruct (dict_item k ks' vs') as [w|]; [eauto|contradiction].
Qed.

Lemma dict_sym ks vs : Forall (fun x => forall y, py_eq x y = py_eq y x) vs ->
  forall ks' vs', py_eq (ODict ks vs) (ODict ks' vs') = py_eq (ODict ks' vs') (ODict ks vs).
Proof.
  intros H ks' vs'. rewrite Forall_forall in H. apply Bool.eq_iff_eq_true. rewrite !dict_iff.
  split; (intros (L & E); split; [congruence|]); intros k; specialize (E k); destruct (dict_item k ks vs) as [v|] eqn:D, (dict_item k ks' vs') as [w|];
    try exact E; apply dict_item_in in D as (_ & D); cbn [same_items] in *; rewrite (H v D) in *; exact E.
Qed.
Theorem py_eq_sym : forall a b, py_eq a b = py_eq b a.
Proof.
  intros a; induction a using obj_ind'; intros y; destruct y; try reflexivity;
    cbn [py_eq num_of]; fold eq_list; try (apply num_eqb_sym).
  - apply str_eqb_sym.
  - apply str_eqb_sym.
  - apply date_eqb_sym.
  - apply datetime_eqb_sym.
  - apply eq_list_sym; assumption.
  - apply eq_list_sym; assumption.
  - apply (dict_sym ks vs H).
  - apply op_eqb_sym.
  - apply boolop_eqb_sym.
  - apply direction_eqb_sym.
  - apply column_eqb_sym.
  - rewrite column_eqb_sym, (option_eqb_sym str_eqb) by apply str_eqb_sym. reflexivity.
  - rewrite str_eqb_sym, (seqk_eqb_sym ik), (seqk_eqb_sym pk), (andb_comm f is_function).
    fold (eq_list il inits). fold (eq_list pl params). fold (eq_list inits il). fold (eq_list params pl).
    rewrite (eq_list_sym il), (eq_list_sym pl) by assumption.
    rewrite (option_eqb_sym str_eqb a) by apply str_eqb_sym. reflexivity.
  - apply str_eqb_sym.
  - rewrite (seqk_eqb_sym k), (list_eqb_sym str_eqb ids) by apply str_eqb_sym. f_equal. apply IHa.
  - apply entity_eqb_sym.
  - apply storage_eqb_sym.
  - apply dm_eqb_sym.
  - apply rel_eqb_sym.
  - rewrite seqk_eqb_sym, (list_eqb_sym rel_eqb) by apply rel_eqb_sym. reflexivity.
  - rewrite IHa1, IHa2, op_eqb_sym. reflexivity.
  - rewrite bcls_eqb_sym, boolop_eqb_sym, seqk_eqb_sym. f_equal. apply eq_list_sym; assumption.
  - rewrite IHa, direction_eqb_sym. reflexivity.
  - rewrite seqk_eqb_sym, (list_eqb_sym column_eqb), Z.eqb_sym by apply column_eqb_sym. reflexivity.
  - apply Z.eqb_sym.
  - apply Z.eqb_sym.
  - apply Z.eqb_sym.
  - apply bool_eqb_sym.
  - apply bool_eqb_sym.
  - apply N.eqb_sym.
Qed.

(** * Reflexivity: only a NaN differs from itself *)
Definition flt_nan_free (f : flt) : bool := match f with FNan => false | _ => true end.
Definition opt_nan_free (f : option flt) : bool :=
  match f with Some f => flt_nan_free f | None => true end.
Definition entity_nan_free (e : entity) : bool := opt_nan_free (e_sample e).
Definition column_nan_free (c : column) : bool :=
  match c_entity c with Some e => entity_nan_free e | None => true end.
Fixpoint nan_free (o : obj) : bool :=
  match o with
  | OFloat f => flt_nan_free f
  | OList l | OTuple l | ODict _ l | OBoolC _ _ _ l => forallb nan_free l
  | OColumn c | OAliased c _ => column_nan_free c
  | OFunc _ _ _ il _ pl _ => forallb nan_free il && forallb nan_free pl
  | OLambda _ _ b => nan_free b
  | OEntity e => entity_nan_free e
  | OStorage s => opt_nan_free (st_sample s)
  | ORel r => entity_nan_free (r_lhs r) && entity_nan_free (r_rhs r)
  | OJoin _ l => forallb (fun r => entity_nan_free (r_lhs r) && entity_nan_free (r_rhs r)) l
  | OCond l _ r => nan_free l && nan_free r
  | OOrderBy e _ => nan_free e
  | OLimitBy _ l _ => forallb column_nan_free l
  | _ => true
  end.

Lemma flt_eqb_refl f : flt_nan_free f = true -> flt_eqb f f = true.
Proof.
  destruct f; cbn; [discriminate|intros _; destruct neg; reflexivity|intros _].
  unfold fin_cmp. rewrite Z.compare_refl. reflexivity.
Qed.
Lemma opt_flt_refl f : opt_nan_free f = true -> option_eqb flt_eqb f f = true.
Proof. destruct f; cbn; [apply flt_eqb_refl|reflexivity]. Qed.
Lemma option_eqb_refl {A} (f : A -> A -> bool) x : (forall a, f a a = true) -> option_eqb f x x = true.
Proof. destruct x; cbn; auto. Qed.
Lemma list_eqb_refl {A} (f : A -> A -> bool) x : (forall a, f a a = true) -> list_eqb f x x = true.
Proof. intros H. induction x; cbn; [reflexivity|]. rewrite H, IHx. reflexivity. Qed.
Lemma list_eqb_refl_on {A} (p : A -> bool) (f : A -> A -> bool) x :
  (forall a, p a = true -> f a a = true) -> forallb p x = true -> list_eqb f x x = true.
Proof.
  intros H. induction x; cbn; [reflexivity|]. intros E. apply andb_true_iff in E as [E1 E2].
  rewrite H by exact E1. apply IHx, E2.
Qed.
Lemma sc_eqb_refl c : sc_eqb c c = true.
Proof. unfold sc_eqb. rewrite str_eqb_refl, eqb_reflx. reflexivity. Qed.
Lemma sc_incl_refl l : sc_incl l l = true.
Proof.
  unfold sc_incl. apply forallb_forall. intros x Hx. apply existsb_exists.
  exists x. split; [exact Hx|apply sc_eqb_refl].
Qed.
Lemma dm_eqb_refl d : dm_eqb d d = true.
Proof. unfold dm_eqb. rewrite !sc_incl_refl, sc_eqb_refl. reflexivity. Qed.
Lemma entity_eqb_refl e : entity_nan_free e = true -> entity_eqb e e = true.
Proof.
  intros H. unfold entity_eqb. rewrite str_eqb_refl, (option_eqb_refl str_eqb) by apply str_eqb_refl.
  rewrite opt_flt_refl by exact H. rewrite option_eqb_refl by apply dm_eqb_refl. reflexivity.
Qed.
Lemma column_eqb_refl c : column_nan_free c = true -> column_eqb c c = true.
Proof.
  unfold column_nan_free, column_eqb. intros H.
  rewrite str_eqb_refl, !(option_eqb_refl str_eqb) by apply str_eqb_refl.
  destruct (c_entity c); cbn; [rewrite entity_eqb_refl by exact H|]; reflexivity.
Qed.
Lemma rel_eqb_refl r : entity_nan_free (r_lhs r) && entity_nan_free (r_rhs r) = true -> rel_eqb r r = true.
Proof.
  intros H. apply andb_true_iff in H as [H1 H2]. unfold rel_eqb.
  rewrite !entity_eqb_refl, str_eqb_refl by assumption. reflexivity.
Qed.
Lemma eq_list_refl l : Forall (fun x => nan_free x = true -> py_eq x x = true) l ->
  forallb nan_free l = true -> eq_list l l = true.
Proof.
  induction 1 as [|x l Hx _ IH]; cbn; [reflexivity|]. intros E. apply andb_true_iff in E as [E1 E2].
  rewrite Hx by exact E1. apply IH, E2.
Qed.

Theorem py_eq_refl : forall a, nan_free a = true -> py_eq a a = true.
Proof.
  intros a; induction a using obj_ind'; cbn [nan_free]; intros Hn; try reflexivity;
    cbn [py_eq num_of num_eqb]; fold eq_list; try (apply Z.eqb_refl); try (apply N.eqb_refl);
    try (apply str_eqb_refl).
  - apply flt_eqb_refl, Hn.
  - unfold date_eqb. rewrite !Z.eqb_refl. reflexivity.
  - unfold datetime_eqb. rewrite Z.eqb_refl. destruct (dt_tz t); reflexivity.
  - apply eq_list_refl; assumption.
  - apply eq_list_refl; assumption.
  - fold eq_dict. rewrite <- !py_eq_dict. apply dict_iff. split; [reflexivity|]. intros k. unfold same_items.
    destruct (dict_item k ks vs) as [v|] eqn:D; [|exact I]. apply dict_item_in in D as (_ & D).
    rewrite Forall_forall in H. rewrite forallb_forall in Hn. apply H; [exact D|apply Hn, D].
  - destruct o; reflexivity.
  - destruct o; reflexivity.
  - destruct d; reflexivity.
  - apply column_eqb_refl, Hn.
  - rewrite column_eqb_refl, option_eqb_refl by (assumption || apply str_eqb_refl). reflexivity.
  - apply andb_true_iff in Hn as [H1 H2].
    fold (eq_list il il). fold (eq_list pl pl).
    rewrite str_eqb_refl, !eq_list_refl, option_eqb_refl by (assumption || apply str_eqb_refl).
    destruct ik, pk, f; reflexivity.
  - rewrite list_eqb_refl, IHa by (assumption || apply str_eqb_refl). destruct k; reflexivity.
  - apply entity_eqb_refl, Hn.
  - unfold storage_eqb. rewrite str_eqb_refl, opt_flt_refl, option_eqb_refl by (assumption || apply dm_eqb_refl).
    reflexivity.
  - apply dm_eqb_refl.
  - apply rel_eqb_refl, Hn.
  - rewrite (list_eqb_refl_on _ _ _ rel_eqb_refl Hn). destruct k; reflexivity.
  - apply andb_true_iff in Hn as [H1 H2]. rewrite IHa1, IHa2 by assumption. destruct o; reflexivity.
  - fold (eq_list l l). rewrite eq_list_refl by assumption. destruct c, o, k; reflexivity.
  - rewrite IHa by assumption. destruct d; reflexivity.
  - rewrite (list_eqb_refl_on _ _ _ column_eqb_refl Hn), Z.eqb_refl. destruct k; reflexivity.
  - destruct b; reflexivity.
  - destruct b; reflexivity.
Qed.

(** * Functions *)

(** the tuple whose hash is hash(f): the dataclass-generated __hash__ of a frozen class uses
    every field, also the alias (function.py:31, 111) *)
Definition seq_obj (k : seqk) (l : list obj) : obj :=
  match k with KNone => ONone | KTuple => OTuple l | _ => OList l end.
Definition hash_key (o : obj) : obj :=
  match o with
  | OFunc _ n ik il pk pl a =>
      OTuple [OStr n; seq_obj ik il; seq_obj pk pl;
              match a with Some a => OStr a | None => ONone end]
  | _ => o
  end.

(** two function objects that differ only in alias, at least one a CurriedFunction *)
Lemma curried_alias_ignored f f' n ik il pk pl a a' :
  f && f' = false -> nan_free (OFunc f n ik il pk pl a) = true ->
  py_eq (OFunc f n ik il pk pl a) (OFunc f' n ik il pk pl a') = true.
Proof.
  intros Hf Hn. pose proof (py_eq_refl _ Hn) as H. cbn [py_eq] in *.
  apply andb_true_iff in H as [H _]. rewrite H, Hf. reflexivity.
Qed.
Lemma function_alias_counts n pk pl a a' : a <> a' ->
  py_eq (OFunc true n KNone [] pk pl a) (OFunc true n KNone [] pk pl a') = false.
Proof.
  intros H. cbn [py_eq]. cbn [andb]. apply andb_false_iff. right.
  destruct (option_eqb str_eqb a a') eqn:E; [|reflexivity].
  apply (option_eqb_iff _ _ _ str_eqb_eq) in E. congruence.
Qed.

Lemma c11_not_transitive {RT : PyRT} : exists a b c,
  mk_function (OStr ($"count")) (OList []) (OStr ($"x")) = Ok a
  /\ mk_curried (OStr ($"count")) ONone (OList []) ONone = Ok b
  /\ mk_function (OStr ($"count")) (OList []) (OStr ($"y")) = Ok c
  /\ py_eq a b = true /\ py_eq b c = true /\ py_eq a c = false.
Proof.
  do 3 eexists. split; [reflexivity|]. split; [reflexivity|]. split; [reflexivity|]. repeat split; reflexivity.
Qed.
Lemma c11_hash {RT : PyRT} : exists a b,
  mk_curried (OStr ($"count")) ONone (OList []) (OStr ($"x")) = Ok a
  /\ mk_curried (OStr ($"count")) ONone (OList []) (OStr ($"y")) = Ok b
  /\ py_eq a b = true /\ hash_key a <> hash_key b.
Proof.
  do 2 eexists. split; [reflexivity|]. split; [reflexivity|]. split; [reflexivity|discriminate].
Qed.
