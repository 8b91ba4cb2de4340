(** Queries that differ in string values send texts that differ in those literals (C79). *)
From Verif Require Import PyBase PyFacts DateTime Objects Exprs Translate Optimizer Finder Query SpecExpr ExprFacts WfFacts PrintProps
  SpecOccurs SpecQuery SpecSnql SpecLogic TextFacts LiteralFacts OptFacts FinderFacts SnqlFacts SnqlDenote EqText EqValid SpecSwap.

Scheme swap_ind2 := Induction for swap Sort Prop with swaps_ind2 := Induction for swaps Sort Prop.
Combined Scheme swap_mut from swap_ind2, swaps_ind2.

Section S.
Context {RT : PyRT}.

(** * Texts *)
Lemma ts_refl t : text_swapped [] t t.
Proof. induction t; constructor; assumption. Qed.
Lemma ts_app l m a b c d : text_swapped l a b -> text_swapped m c d -> text_swapped (l ++ m) (a ++ c) (b ++ d).
Proof. intros H K. induction H; cbn [app]; rewrite <- ?app_assoc; [exact K|constructor; assumption|constructor; assumption]. Qed.
Lemma ts_pre p l a b : text_swapped l a b -> text_swapped l (p ++ a) (p ++ b).
Proof. intros H. exact (ts_app [] l _ _ _ _ (ts_refl p) H). Qed.
Lemma ts_post p l a b : text_swapped l a b -> text_swapped l (a ++ p) (b ++ p).
Proof. intros H. rewrite <- (app_nil_r l). exact (ts_app l [] _ _ _ _ H (ts_refl p)). Qed.
Lemma ts_one s s' : text_swapped [(s, s')] (text_of_string s) (text_of_string s').
Proof. rewrite <- (app_nil_r (text_of_string s)), <- (app_nil_r (text_of_string s')). exact (ts_literal s s' [] [] [] ts_end). Qed.
Lemma ts_empty l a b : text_swapped l a b -> nonempty a = nonempty b /\ (a = [] -> l = []).
Proof. intros H. destruct H; cbn; split; try reflexivity; discriminate. Qed.
Inductive texts_swapped : list (str * str) -> list str -> list str -> Prop :=
| tss_nil : texts_swapped [] [] []
| tss_cons l m a b c d : text_swapped l a b -> texts_swapped m c d -> texts_swapped (l ++ m) (a :: c) (b :: d).
Lemma ts_join sep l a b : texts_swapped l a b -> text_swapped l (join sep a) (join sep b).
Proof.
  induction 1 as [|l m a b c d H K IH]; [constructor|]. destruct K as [|l' m' a' b' c' d' H' K'].
  - rewrite app_nil_r. exact H.
  - cbn [join] in *. apply ts_app; [exact H|]. apply ts_pre. exact IH.
Qed.
Lemma ts_filter l a b : texts_swapped l a b -> texts_swapped l (filter nonempty a) (filter nonempty b).
Proof.
  induction 1 as [|l m a b c d H K IH]; [constructor|]. cbn [filter]. destruct (ts_empty l a b H) as (E & N). rewrite <- E.
  destruct a as [|x a]; cbn [nonempty]; [rewrite (N eq_refl); exact IH|]. constructor; assumption.
Qed.

(** * Kinds and scalars *)
Lemma swaps_Forall2 l a b : swaps l a b -> Forall2 (fun x y => exists m, swap m x y) a b.
Proof. induction 1; constructor; eauto. Qed.
Lemma swap_kind l a b : swap l a b -> is_expression a = is_expression b /\ is_literal a = is_literal b /\ is_none a = is_none b
  /\ init_ok a = init_ok b /\ is_param_expr a = is_param_expr b /\ is_col_or_func a = is_col_or_func b /\ is_func a = is_func b
  /\ is_condition_obj a = is_condition_obj b.
Proof. intros H. destruct H; repeat split. Qed.
Lemma swap_scalar_mut : (forall l a b, swap l a b -> is_scalar a = is_scalar b) /\ (forall l a b, swaps l a b -> scalar_all a = scalar_all b).
Proof.
  apply swap_mut; intros; try reflexivity; try (rewrite ?is_scalar_list, ?is_scalar_tuple; assumption).
  cbn [scalar_all]. destruct (swap_kind _ _ _ s) as (-> & _). rewrite H, H0. reflexivity.
Qed.
Definition swap_scalar := proj1 swap_scalar_mut.
Definition swaps_scalar := proj2 swap_scalar_mut.

(** * Printing *)
Lemma rel_Ok {A B} (R : A -> B -> Prop) a b : R a b -> rel R (Ok a) (Ok b).
Proof. auto. Qed.
Definition prints (l : list (str * str)) (a b : obj) : Prop := wf a -> forall al, rel (text_swapped l) (visit false al a) (visit false al b).
Definition prints_all (l : list (str * str)) (a b : list obj) : Prop :=
  Forall wf a -> forall al, rel (texts_swapped l) (mapM (visit false al) a) (mapM (visit false al) b).
Lemma filter_all {A} (f : A -> bool) l : Forall (fun x => f x = true) l -> filter f l = l.
Proof. induction 1 as [|x l H _ IH]; [reflexivity|]. cbn. rewrite H, IH. reflexivity. Qed.
Lemma swaps_inits l a b : swaps l a b -> Forall (fun x => init_ok x = true) a -> Forall (fun x => init_ok x = true) b.
Proof.
  induction 1 as [|l1 l2 x y a b H K IH]; intros F; [constructor|]. inversion_clear F as [|? ? F1 F2]. constructor; [|auto].
  destruct (swap_kind _ _ _ H) as (_ & _ & _ & E & _). congruence.
Qed.
Lemma swaps_params l a b : swaps l a b -> Forall param_ok a -> Forall param_ok b.
Proof.
  induction 1 as [|l1 l2 x y a b H K IH]; intros F; [constructor|]. inversion_clear F as [|? ? F1 F2]. constructor; [|auto].
  destruct (swap_kind _ _ _ H) as (_ & _ & _ & _ & E & _). unfold param_ok in *.
  rewrite <- is_param_expr_iff, <- is_scalar_true in *. rewrite <- E, <- (swap_scalar _ _ _ H). exact F1.
Qed.
Lemma swaps_nil l b : swaps l [] b -> l = [] /\ b = [].
Proof. intros H. inversion H. auto. Qed.
Lemma swap_none l b : swap l ONone b -> l = [] /\ b = ONone.
Proof. intros H. inversion H. auto. Qed.
Lemma unary_none x o y : check_condition x o y = Ok tt -> is_unary o = true -> y = ONone.
Proof. unfold check_condition. intros H U. rewrite U in H. destruct (negb (is_col_or_func x)); [discriminate H|]. destruct y; try discriminate H. reflexivity. Qed.
Lemma wf_func_inv f n ik il pk pl a : wf (OFunc f n ik il pk pl a) -> (ik = KNone -> il = []) /\ (pk = KNone -> pl = [])
  /\ Forall (fun x => init_ok x = true) il /\ Forall param_ok pl /\ Forall wf il /\ Forall wf pl.
Proof. intros W. inversion W; subst. auto 10. Qed.
Lemma wf_cond_inv x o y : wf (OCond x o y) -> check_condition x o y = Ok tt /\ wf x /\ wf y.
Proof. intros W. inversion W; subst. auto. Qed.
Lemma prints_mut : (forall l a b, swap l a b -> prints l a b) /\ (forall l a b, swaps l a b -> prints_all l a b).
Proof.
  apply swap_mut; unfold prints, prints_all.
  - intros o _ al. destruct (visit false al o); cbn; [apply ts_refl|reflexivity].
  - intros s s' _ _ al. cbn [visit stringify_literal rel]. rewrite <- !text_of_string_quoted. apply ts_one.
  - intros l a b H IH W al. rewrite !visit_list, !is_scalar_list, (swaps_scalar _ _ _ H). destruct (scalar_all b); [cbn [bind]|reflexivity].
    eapply rel_bind; [apply IH; inversion W; assumption|]. intros x y T. apply rel_Ok, ts_pre, ts_post, ts_join, T.
  - intros l a b H IH W al. rewrite !visit_tuple, !is_scalar_tuple, (swaps_scalar _ _ _ H). destruct (scalar_all b); [cbn [bind]|reflexivity].
    eapply rel_bind; [apply IH; inversion W; assumption|]. intros x y T. apply rel_Ok, ts_pre, ts_post, ts_join, T.
  - intros l1 l2 f n ik il il' pk pl pl' a H IH K IK W al. apply wf_func_inv in W as (I1 & P1 & I2 & P2 & Wi & Wp).
    rewrite !visit_func, (filter_all _ _ I2), (filter_all _ _ (swaps_inits _ _ _ H I2)), (visit_params_all al pl P2), (visit_params_all al pl' (swaps_params _ _ _ K P2)).
    apply (rel_bind (text_swapped l1)).
    { destruct ik; try (eapply rel_bind; [apply IH, Wi|]; intros x y T; apply rel_Ok, ts_pre, ts_post, ts_join, T).
      rewrite (I1 eq_refl) in H. apply swaps_nil in H as (-> & _). apply rel_Ok, ts_refl. }
    intros i i' Ti. apply (rel_bind (text_swapped l2)).
    { destruct pk; try (eapply rel_bind; [apply IK, Wp|]; intros x y T; apply rel_Ok, ts_pre, ts_post, ts_join, T).
      rewrite (P1 eq_refl) in K. apply swaps_nil in K as (-> & _). apply rel_Ok, ts_refl. }
    intros p p' Tp. apply rel_Ok, ts_pre, ts_app; [exact Ti|]. apply ts_post, Tp.
  - intros l k ids b b' H IH W al. cbn [visit]. eapply rel_bind; [apply IH; inversion W; assumption|].
    intros x y T. apply rel_Ok. apply ts_pre, ts_pre, ts_pre, T.
  - intros l1 l2 x x' o y y' H IH K IK W al. apply wf_cond_inv in W as (C & Wx & Wy). rewrite !visit_cond.
    apply (rel_bind (text_swapped l2)).
    { destruct (is_unary o) eqn:U.
      - rewrite (unary_none _ _ _ C U) in K. apply swap_none in K as (-> & _). apply rel_Ok, ts_refl.
      - destruct (swap_kind _ _ _ K) as (_ & _ & _ & _ & _ & -> & _). rewrite (swap_scalar _ _ _ K).
        assert (P : rel (text_swapped l2) (let! s := visit false al y in Ok ($" " ++ s)) (let! s := visit false al y' in Ok ($" " ++ s))).
        { eapply rel_bind; [apply IK, Wy|]. intros u v T. apply rel_Ok, ts_pre, T. }
        destruct (is_col_or_func y'); [exact P|]. destruct (is_scalar y') as [[]|]; cbn [bind]; [exact P|reflexivity|reflexivity]. }
    intros r r' Tr. eapply rel_bind; [apply IH, Wx|]. intros t t' Tt. apply rel_Ok, ts_app; [exact Tt|]. apply ts_pre, ts_pre, Tr.
  - intros l c o k a b H IH W al. rewrite !visit_bool. eapply rel_bind; [apply IH; inversion W; assumption|].
    intros x y T. apply rel_Ok, ts_pre, ts_post, ts_join, T.
  - intros l e e' d H IH W al. cbn [visit]. eapply rel_bind; [apply IH; inversion W; assumption|].
    intros x y T. apply rel_Ok. apply ts_post, T.
  - intros _ al. constructor.
  - intros l1 l2 x y a b H IH K IK W al. inversion_clear W as [|? ? W1 W2]. cbn [mapM].
    eapply rel_bind; [apply IH, W1|]. intros t t' T. eapply rel_bind; [apply IK, W2|]. intros u u' U. apply rel_Ok. constructor; assumption.
Qed.

(** * Validity *)
Lemma swap_find_mut : (forall l a b, swap l a b -> find TColumn a = find TColumn b)
  /\ (forall l a b, swaps l a b -> find_exprs TColumn a = find_exprs TColumn b /\ find_all TColumn a = find_all TColumn b).
Proof.
  apply swap_mut; try reflexivity.
  - intros l a b H _. cbn [find]. change (is_scalar (OList a) ;! Ok [] = is_scalar (OList b) ;! Ok ([] : list obj)).
    rewrite !is_scalar_list, (swaps_scalar _ _ _ H). reflexivity.
  - intros l a b H _. cbn [find]. change (is_scalar (OTuple a) ;! Ok [] = is_scalar (OTuple b) ;! Ok ([] : list obj)).
    rewrite !is_scalar_tuple, (swaps_scalar _ _ _ H). reflexivity.
  - intros l1 l2 f n ik il il' pk pl pl' a H (E1 & _) K (E2 & _). rewrite !find_func, E1, E2. reflexivity.
  - intros l k ids b b' H IH. cbn [find isinst is_tident]. exact IH.
  - intros l1 l2 x x' o y y' H IH K IK. cbn [find]. rewrite IH, IK. destruct (swap_kind _ _ _ K) as (-> & _). reflexivity.
  - intros l c o k a b H (_ & E). rewrite !find_bool. exact E.
  - intros l e e' d H IH. cbn [find isinst]. exact IH.
  - split; reflexivity.
  - intros l1 l2 x y a b H IH K (E1 & E2). cbn [find_exprs find_all]. destruct (swap_kind _ _ _ H) as (-> & _). rewrite IH, E1, E2. split; reflexivity.
Qed.
Definition swap_find := proj1 swap_find_mut.
Lemma swap_params_items l a b : swaps l a b -> check_param_items a = check_param_items b.
Proof.
  induction 1 as [|l1 l2 x y a b H K IH]; [reflexivity|]. cbn [check_param_items].
  destruct (swap_kind _ _ _ H) as (_ & _ & _ & _ & -> & _). rewrite (swap_scalar _ _ _ H), IH. reflexivity.
Qed.
Lemma swaps_forallb (f : obj -> bool) l a b : (forall m x y, swap m x y -> f x = f y) -> swaps l a b -> forallb f a = forallb f b.
Proof. intros F. induction 1 as [|l1 l2 x y a b H K IH]; [reflexivity|]. cbn [forallb]. rewrite (F _ _ _ H), IH. reflexivity. Qed.
Lemma swaps_length l a b : swaps l a b -> List.length a = List.length b.
Proof. induction 1; cbn; congruence. Qed.
Lemma swap_revalidate l a b : swap l a b -> revalidate a = revalidate b.
Proof.
  intros H. destruct H as [o|s s' N|l a b H|l a b H|l1 l2 f n ik il il' pk pl pl' a H K|l k ids b b' H|l1 l2 x x' o y y' H K|l c o k a b H|l e e' d H]; try reflexivity; cbn [revalidate].
  - rewrite (swap_params_items _ _ _ K), (swaps_forallb init_ok _ _ _ (fun m x y S => proj1 (proj2 (proj2 (proj2 (swap_kind m x y S))))) H). reflexivity.
  - destruct (swap_kind _ _ _ H) as (_ & _ & _ & _ & _ & _ & -> & _). reflexivity.
  - unfold check_condition. destruct (swap_kind _ _ _ H) as (_ & _ & _ & _ & _ & -> & _). destruct (swap_kind _ _ _ K) as (_ & _ & E & _ & _ & -> & _).
    rewrite (swap_scalar _ _ _ K). change (match y with ONone => true | _ => false end) with (is_none y). rewrite E. reflexivity.
  - unfold check_bool_items. rewrite (swaps_length _ _ _ H), (swaps_forallb is_condition_obj _ _ _ (fun m x y S => proj2 (proj2 (proj2 (proj2 (proj2 (proj2 (proj2 (swap_kind m x y S)))))))) H). reflexivity.
  - destruct (swap_kind _ _ _ H) as (_ & _ & _ & _ & _ & -> & _). reflexivity.
Qed.
(** clauses of related queries *)
Definition in_seq (k : clause) (o : obj) : Prop := is_list_clause k = true -> o = ONone \/ exists l, list_or_tuple o l.
Lemma seq_in_seq c k : seq_typed c -> in_seq k (get k c).
Proof. intros T L. destruct k; try discriminate L; (eapply (T _); reflexivity). Qed.
Lemma swap_iter l a b x : swap l a b -> list_or_tuple a x -> exists y, list_or_tuple b y /\ swaps l x y.
Proof.
  intros H T. inversion T; subst; inversion H; subst; try (eexists; split; [constructor|assumption]); exists x; (split; [constructor|]).
  - clear. induction x as [|o x IH]; [constructor|]. apply (sws_cons [] []); [constructor|exact IH].
  - clear. induction x as [|o x IH]; [constructor|]. apply (sws_cons [] []); [constructor|exact IH].
Qed.
Lemma list_truthy o l : list_or_tuple o l -> truthy o = negb (match l with [] => true | _ => false end) /\ iter o = Ok l /\ is_none o = false.
Proof. intros H. destruct H as [l|l]; destruct l; repeat split. Qed.
Lemma swap_validate_clause l k a b : swap l a b -> in_seq k a -> validate_clause k a = validate_clause k b.
Proof.
  intros H T. unfold validate_clause, list_validate, opt_validate. destruct (swap_kind _ _ _ H) as (_ & _ & <- & _).
  destruct (is_list_clause k) eqn:L; [|rewrite (swap_revalidate _ _ _ H); reflexivity]. destruct (T L) as [->|(x & X)]; [reflexivity|].
  destruct (swap_iter _ _ _ _ H X) as (y & Y & S). destruct (list_truthy _ _ X) as (_ & -> & ->), (list_truthy _ _ Y) as (_ & -> & _). cbn [bind].
  clear - S. induction S as [|l1 l2 u v x y H K IH]; [reflexivity|]. cbn [check_all]. rewrite (swap_revalidate _ _ _ H), IH. reflexivity.
Qed.
Lemma swap_search_clause l k a b : swap l a b -> in_seq k a -> search_clause TColumn k a = search_clause TColumn k b.
Proof.
  intros H T. unfold search_clause, search_terms, search_one. destruct (is_list_clause k) eqn:L.
  - destruct (T L) as [->|(x & X)]; [apply swap_none in H as (_ & ->); reflexivity|]. destruct (swap_iter _ _ _ _ H X) as (y & Y & S).
    destruct (list_truthy _ _ X) as (-> & -> & _), (list_truthy _ _ Y) as (-> & -> & _). cbn [bind].
    assert (E : mapM (find TColumn) x = mapM (find TColumn) y).
    { clear - S. induction S as [|l1 l2 u v x y H K IH]; [reflexivity|]. cbn [mapM]. rewrite (swap_find _ _ _ H), IH. reflexivity. }
    rewrite E. destruct S; reflexivity.
  - rewrite (swap_find _ _ _ H). destruct H as [o|s s' N|l a b H|l a b H| | | | |]; try reflexivity; [destruct s, s'; reflexivity| |]; destruct H; reflexivity.
Qed.
Lemma swaps_clauses c c' (P : clause -> obj -> obj -> Prop) : forall ks l, swaps l (map (fun k => get k c) ks) (map (fun k => get k c') ks) ->
  Forall (fun k => exists m, swap m (get k c) (get k c')) ks.
Proof. induction ks as [|k ks IH]; intros l H; [constructor|]. cbn [map] in H. inversion H; subst. constructor; eauto. Qed.
Lemma swap_get l c c' k : swaps l (clause_values c) (clause_values c') -> exists m, swap m (get k c) (get k c').
Proof.
  intros H. pose proof (swaps_clauses c c' (fun _ _ _ => True) snql_order l H) as F. rewrite Forall_forall in F. apply F. destruct k; cbn; tauto.
Qed.
Definition clauses_swapped (c c' : clauses) : Prop := forall k, exists m, swap m (get k c) (get k c').
Lemma swap_search q q' : match q, q' with QBase b _, QBase b' _ => b = b' | QSub _ _, QSub _ _ => True | _, _ => False end ->
  clauses_swapped (q_clauses q) (q_clauses q') -> seq_typed (q_clauses q) -> search TColumn q = search TColumn q'.
Proof.
  intros B C T. unfold search. assert (search_match TColumn q = search_match TColumn q') as ->.
  { destruct q, q'; cbn in B; try contradiction; subst; reflexivity. }
  assert (E : forall ks, mapM (fun k => search_clause TColumn k (get k (q_clauses q))) ks = mapM (fun k => search_clause TColumn k (get k (q_clauses q'))) ks).
  { induction ks as [|k ks IH]; [reflexivity|]. cbn [mapM]. destruct (C k) as (m & S).
    rewrite (swap_search_clause _ _ _ _ S (seq_in_seq _ k T)), IH. reflexivity. }
  rewrite E. reflexivity.
Qed.
Lemma swaps_inner_names l a b : swaps l a b -> inner_names a = inner_names b.
Proof. unfold inner_names. induction 1 as [|l1 l2 x y a b H K IH]; [reflexivity|]. cbn [flat_map]. rewrite IH. f_equal. destruct H; reflexivity. Qed.
Lemma seq_clauses q : seq_typed_query q -> seq_typed (q_clauses q).
Proof. destruct q; [auto|intros [_ H]; exact H]. Qed.
Lemma swap_clauses_of l q q' : swap_query l q q' -> clauses_swapped (q_clauses q) (q_clauses q').
Proof. intros H k. destruct H; eapply swap_get; eassumption. Qed.
Lemma swap_match l q q' : swap_query l q q' -> seq_typed_query q -> validate_match q = validate_match q'.
Proof.
  intros H T. unfold validate_match. rewrite (swap_search q q').
  - destruct H as [l b c c' H|l1 l2 i i' c c' H K]; [reflexivity|]. destruct T as [T _]. apply seq_clauses in T. apply swap_clauses_of in H.
    destruct (search TColumn (QSub i' c')) as [cols|]; [cbn [bind]|reflexivity]. unfold validate_subquery.
    destruct (H CSelect) as (m & S). cbn [get] in S. destruct (swap_kind _ _ _ S) as (_ & _ & <- & _).
    destruct (seq_in_seq _ CSelect T eq_refl) as [E|(x & X)]; cbn [get] in *; [rewrite E; reflexivity|].
    destruct (swap_iter _ _ _ _ S X) as (y & Y & W). destruct (list_truthy _ _ X) as (_ & -> & ->), (list_truthy _ _ Y) as (_ & -> & _). cbn [bind].
    rewrite (swaps_inner_names _ _ _ W). reflexivity.
  - destruct H; cbn; auto.
  - eapply swap_clauses_of, H.
  - apply seq_clauses, T.
Qed.
Lemma swap_valid_clauses c c' : clauses_swapped c c' -> seq_typed c ->
  check_all (fun k => validate_clause k (get k c)) all_clauses = check_all (fun k => validate_clause k (get k c')) all_clauses.
Proof.
  intros C T. generalize all_clauses as ks. induction ks as [|k ks IH]; [reflexivity|]. cbn [check_all]. destruct (C k) as (m & S).
  rewrite IH, (swap_validate_clause _ _ _ _ S (seq_in_seq _ k T)). reflexivity.
Qed.
Lemma bind_both (A : Type) (r r' : result unit) (k k' : unit -> result A) : r = r' -> (r = Ok tt -> k tt = k' tt) -> bind r k = bind r' k'.
Proof. intros <- E. destruct r as [[]|]; [exact (E eq_refl)|reflexivity]. Qed.
Definition totals_ok (o : obj) : Prop := validate_clause CTotals o = Ok tt.
Lemma swap_combine l q q' : swap_query l q q' -> seq_typed_query q -> totals_ok (get CTotals (q_clauses q)) -> validate_combine q = validate_combine q'.
Proof.
  intros H T V. unfold validate_combine. rewrite (swap_match l q q' H T). apply swap_clauses_of in H. apply seq_clauses in T.
  apply bind_both; [reflexivity|intros _]. apply bind_both; [|intros _].
  - destruct (H CSelect) as (m & S). cbn [get] in S. destruct (swap_kind _ _ _ S) as (_ & _ & <- & _).
    destruct (seq_in_seq _ CSelect T eq_refl) as [E|(x & X)]; cbn [get] in *; [rewrite E; reflexivity|].
    destruct (swap_iter _ _ _ _ S X) as (y & Y & W). destruct (list_truthy _ _ X) as (_ & -> & ->), (list_truthy _ _ Y) as (_ & -> & _). cbn [bind].
    rewrite (swaps_length _ _ _ W). reflexivity.
  - destruct (H CGroupby) as (m & S). destruct (H CTotals) as (n & U). cbn [get] in S, U, V.
    assert (truthy (c_groupby (q_clauses q)) = truthy (c_groupby (q_clauses q'))) as ->.
    { destruct (seq_in_seq _ CGroupby T eq_refl) as [E|(x & X)]; cbn [get] in *; [rewrite E in *; apply swap_none in S as (_ & ->); reflexivity|].
      destruct (swap_iter _ _ _ _ S X) as (y & Y & W). destruct (list_truthy _ _ X) as (-> & _), (list_truthy _ _ Y) as (-> & _). destruct W; reflexivity. }
    destruct U; try reflexivity; discriminate V.
Qed.
Lemma check_all_in {A} (f : A -> result unit) l x : check_all f l = Ok tt -> In x l -> f x = Ok tt.
Proof. induction l as [|y l IH]; cbn [check_all]; intros H I; [destruct I|]. apply bind_Ok in H as ([] & H & K). destruct I as [<-|I]; auto. Qed.
Lemma swap_valid l q q' : swap_query l q q' -> seq_typed_query q -> validate q = validate q'.
Proof.
  intros H. induction H as [l b c c' H|l1 l2 i i' c c' H IH K]; intros T; cbn [validate].
  - apply bind_both; [reflexivity|intros _]. apply bind_both; [apply swap_valid_clauses; [intros k; eapply swap_get, H|exact T]|]. intros V.
    apply (swap_combine l); [constructor; exact H|exact T|]. apply (check_all_in _ _ CTotals V). cbn; tauto.
  - apply bind_both; [apply IH, T|intros _]. apply bind_both; [apply swap_valid_clauses; [intros k; eapply swap_get, K|apply T]|]. intros V.
    apply (swap_combine (l1 ++ l2)); [constructor; assumption|exact T|]. apply (check_all_in _ _ CTotals V). cbn; tauto.
Qed.

(** * Required columns *)
Lemma swaps_app l m a b c d : swaps l a b -> swaps m c d -> swaps (l ++ m) (a ++ c) (b ++ d).
Proof. intros H K. induction H; cbn [app]; [exact K|]. rewrite <- app_assoc. constructor; assumption. Qed.
Lemma swaps_one l a b : swap l a b -> swaps l [a] [b].
Proof. intros H. rewrite <- (app_nil_r l). constructor; [exact H|constructor]. Qed.
Lemma swaps_refl a : swaps [] a a.
Proof. induction a; [constructor|]. apply (sws_cons [] []); [constructor|assumption]. Qed.
Lemma swap_flatten_mut : (forall l a b, swap l a b -> swaps l (flatten1 a) (flatten1 b))
  /\ (forall l a b, swaps l a b -> swaps l (flat_map flatten1 a) (flat_map flatten1 b)).
Proof.
  apply swap_mut; try (intros; apply swaps_one; constructor; assumption); cbn [flat_map].
  - intros o. apply swaps_refl.
  - intros l c o k a b H IH. destruct c; try exact IH; apply swaps_one; constructor; exact H.
  - constructor.
  - intros. apply swaps_app; assumption.
Qed.
Lemma swap_matching l ops n al x y : swap l x y -> matching_cond ops n al x = matching_cond ops n al y.
Proof. intros H. destruct H as [| | | | | |l1 l2 x x' o y y' H K| |]; try reflexivity. cbn [matching_cond]. destruct H; reflexivity. Qed.
Lemma swap_check_required l e a b : swap l a b -> in_seq CWhere a -> check_entity_required e a = check_entity_required e b.
Proof.
  intros H T. unfold check_entity_required. destruct (e_dm e) as [d|]; [|reflexivity]. unfold check_required_with.
  destruct (T eq_refl) as [->|(x & X)]; [apply swap_none in H as (_ & ->); reflexivity|].
  destruct (swap_iter _ _ _ _ H X) as (y & Y & W). destruct (list_truthy _ _ X) as (-> & -> & _), (list_truthy _ _ Y) as (-> & -> & _). cbn [bind].
  replace (negb match y with [] => true | _ => false end) with (negb match x with [] => true | _ => false end) by (destruct W; reflexivity).
  destruct (negb (negb _)); [reflexivity|]. apply (proj2 swap_flatten_mut) in W.
  assert (E : forall ops n, existsb (matching_cond ops n (e_alias e)) (get_first_level_and_conditions x) = existsb (matching_cond ops n (e_alias e)) (get_first_level_and_conditions y)).
  { intros ops n. unfold get_first_level_and_conditions. revert W. generalize (flat_map flatten1 x) (flat_map flatten1 y). intros fx fy W. clear H. induction W as [|l1 l2 u v p r S R IH]; [reflexivity|]. cbn [existsb]. rewrite IH, (swap_matching _ _ _ _ _ _ S). reflexivity. }
  cbn [forallb]. rewrite !E. f_equal. assert (F : forall req, forallb (fun r => existsb (matching_cond [EQ; IN] (sc_name r) (e_alias e)) (get_first_level_and_conditions x)) req
    = forallb (fun r => existsb (matching_cond [EQ; IN] (sc_name r) (e_alias e)) (get_first_level_and_conditions y)) req).
  { induction req as [|r req IH]; [reflexivity|]. cbn [forallb]. rewrite IH, E. reflexivity. }
  rewrite F. reflexivity.
Qed.
Lemma swap_required l q q' : swap_query l q q' -> seq_typed_query q -> validate_required_columns q = validate_required_columns q'.
Proof.
  intros H. induction H as [l b c c' H|l1 l2 i i' c c' H IH K]; intros T; cbn [validate_required_columns]; [|apply IH, T].
  destruct (swap_get l c c' CWhere H) as (m & S). cbn [get] in S. pose proof (seq_in_seq c CWhere T) as Q. cbn [get] in Q.
  destruct b as [e|s|k rels]; [eapply swap_check_required; eassumption|reflexivity|].
  induction (join_entities rels) as [|e es IH]; [reflexivity|]. cbn [check_all]. rewrite IH, (swap_check_required _ e _ _ S Q). reflexivity.
Qed.

(** * Queries *)
Lemma swap_print_clause al l k a b : wf a -> swap l a b -> in_seq k a -> rel (text_swapped l) (print_clause al k a) (print_clause al k b).
Proof.
  intros W H T. unfold print_clause. destruct (is_list_clause k) eqn:L.
  - destruct (T L) as [->|(x & X)]; [apply swap_none in H as (-> & ->); constructor|].
    destruct (swap_iter _ _ _ _ H X) as (y & Y & S). destruct (list_truthy _ _ X) as (-> & -> & _), (list_truthy _ _ Y) as (-> & -> & _). cbn [bind].
    assert (Forall wf x) as Wx by (inversion X; subst; inversion W; assumption). destruct S as [|l1 l2 u v x y H1 H2]; [constructor|]. cbn [negb].
    eapply rel_bind; [apply (proj2 prints_mut (l1 ++ l2)); [constructor; assumption|exact Wx]|]. intros t t' Tt. apply rel_Ok, ts_pre, ts_join, Tt.
  - destruct (swap_kind _ _ _ H) as (_ & _ & E & _). rewrite <- E. destruct (is_none a) eqn:N.
    + destruct a; try discriminate N. apply swap_none in H as (-> & _). constructor.
    + eapply rel_bind; [apply (proj1 prints_mut _ _ _ H W)|]. intros t t' Tt. apply rel_Ok, ts_pre, Tt.
Qed.
Lemma swap_print_clauses al c c' : (forall k, wf (get k c)) -> seq_typed c -> forall ks l, swaps l (map (fun k => get k c) ks) (map (fun k => get k c') ks) ->
  rel (texts_swapped l) (mapM (fun k => print_clause al k (get k c)) ks) (mapM (fun k => print_clause al k (get k c')) ks).
Proof.
  intros W T. induction ks as [|k ks IH]; intros l H; cbn [map] in H; inversion H; subst; [constructor|]. cbn [mapM].
  eapply rel_bind; [apply swap_print_clause; [apply W|eassumption|apply seq_in_seq, T]|]. intros t t' Tt.
  eapply rel_bind; [apply IH; eassumption|]. intros u u' Tu. apply rel_Ok. constructor; assumption.
Qed.
Lemma swap_print_query l q q' : swap_query l q q' -> wf_query q -> seq_typed_query q -> forall sep, rel (text_swapped l) (print_query sep q) (print_query sep q').
Proof.
  intros H. induction H as [l b c c' H|l1 l2 i i' c c' H IH K]; intros W T sep; cbn [print_query]; destruct W as (W1 & W2).
  - destruct (visit false _ (obj_of_base b)) as [m|]; [cbn [bind]|reflexivity].
    eapply rel_bind; [apply swap_print_clauses; [exact W2|exact T|exact H]|]. intros t t' Tt. apply rel_Ok, ts_join, ts_filter. apply (tss_cons []); [apply ts_refl|exact Tt].
  - destruct T as (T1 & T2). eapply rel_bind; [apply IH; assumption|]. intros s s' Ts.
    eapply rel_bind; [apply swap_print_clauses; [exact W2|exact T2|exact K]|]. intros t t' Tt. apply rel_Ok, ts_join, ts_filter.
    apply tss_cons; [apply ts_pre, ts_post, Ts|exact Tt].
Qed.

(** * Merging *)
Lemma swap_self : (forall l a b, swap l a b -> a = b -> l = []) /\ (forall l a b, swaps l a b -> a = b -> l = []).
Proof.
  apply swap_mut; try reflexivity; intros; subst;
    repeat match goal with E : _ = _ |- _ => injection E; clear E; intros; subst end; try contradiction; auto;
    repeat match goal with K : ?x = ?x -> _ |- _ => rewrite (K eq_refl); clear K end; try reflexivity.
Qed.
Lemma swap_cond_left l x o y y' : swap l (OCond x o y) (OCond x o y') -> swap l y y'.
Proof. intros H. inversion H; subst; [constructor|]. match goal with K : swap ?l x x |- _ => rewrite (proj1 swap_self _ _ _ K eq_refl) end. assumption. Qed.
Lemma swap_shared sh l a b : swaps l a b -> Forall2 same_left a b ->
  match shared_rhs sh a, shared_rhs sh b with Some r, Some r' => swaps l r r' | None, None => True | _, _ => False end.
Proof.
  intros H. induction H as [|l1 l2 x y a b H K IH]; intros F; [constructor|]. inversion F as [|? ? ? ? F1 F2]; subst. specialize (IH F2).
  destruct F1 as [u o v v'|c o k m n G]; [|exact I]. cbn [shared_rhs]. destruct o; try exact I. destruct (py_eq u sh); [|exact I].
  destruct (shared_rhs sh a), (shared_rhs sh b); try contradiction; [|exact I]. constructor; [eapply swap_cond_left, H|exact IH].
Qed.
Lemma swap_merge_left l c c' : swap l c c' -> same_left c c' -> match merge c, merge c' with Some n, Some n' => swap l n n' | None, None => True | _, _ => False end.
Proof.
  intros H S. unfold merge. destruct S as [x o y y'|c o k a b F]; [exact I|]. cbn [merge_try]. destruct o; [exact I|].
  assert (K : swaps l a b) by (inversion H; subst; [apply swaps_refl|assumption]). clear H.
  destruct K as [|l1 l2 u v a b H K]; [exact I|]. inversion F as [|? ? ? ? F1 F2]; subst. destruct F1 as [x o y y'|]; [|exact I]. destruct o; try exact I.
  pose proof (swap_shared x l2 a b K F2) as W. destruct (shared_rhs x a), (shared_rhs x b); try contradiction; [|exact I].
  apply (sw_cond [] (l1 ++ l2)); [constructor|]. constructor. constructor; [eapply swap_cond_left, H|exact W].
Qed.
Lemma merge_none c : ~ mergeable c -> merge c = None.
Proof. intros H. unfold merge. destruct (merge_try c) as [[l r]|] eqn:E; [|reflexivity]. destruct H. apply merge_try_mergeable. eauto. Qed.
Lemma swap_merge l c c' : swap l c c' -> merged_alike c c' -> match merge c, merge c' with Some n, Some n' => swap l n n' | None, None => True | _, _ => False end.
Proof. intros H [S|(N & N')]; [apply swap_merge_left; assumption|]. rewrite !merge_none by assumption. exact I. Qed.
Lemma opt_item_wf c : wf c -> wf (opt_item c).
Proof.
  intros W. pose proof (optimize_merge c W) as E. rewrite optimize_condition_try in E. unfold opt_item, merge in *. destruct (merge_try c) as [[l r]|] eqn:M; [|exact W].
  destruct (merge_try_wf c l r W M) as (Wl & Wr). apply bind_Ok in E as (n & E & _). unfold mk_condition in E. destruct (negb _); [discriminate E|].
  apply bind_Ok in E as ([] & E & _). constructor; [exact E|exact Wl|]. constructor. exact Wr.
Qed.
Definition merges (c : obj) : bool := match merge c with Some _ => true | None => false end.
Lemma swap_optimized l a b : swaps l a b -> Forall2 merged_alike a b -> existsb merges a = existsb merges b /\ swaps l (map opt_item a) (map opt_item b).
Proof.
  intros H. induction H as [|l1 l2 x y a b H K IH]; intros F; [split; constructor|]. inversion F as [|? ? ? ? F1 F2]; subst. destruct (IH F2) as (E & S).
  pose proof (swap_merge _ _ _ H F1) as M. cbn [existsb map]. rewrite E. unfold merges at 1 3, opt_item at 1 3.
  destruct (merge x), (merge y); try contradiction; (split; [reflexivity|constructor; assumption]).
Qed.
Lemma swaps_upd c c' v v' : (forall m, swap m (get CWhere c) (get CWhere c') -> swap m v v') -> forall ks l,
  swaps l (map (fun k => get k c) ks) (map (fun k => get k c') ks) ->
  swaps l (map (fun k => get k (upd CWhere v c)) ks) (map (fun k => get k (upd CWhere v' c')) ks).
Proof.
  intros V. induction ks as [|k ks IH]; intros l H; cbn [map] in *; [exact H|]. inversion H; subst. constructor; [|auto].
  rewrite !get_upd_where. destruct k; auto.
Qed.
Lemma swap_query_upd l q q' v v' : swap_query l q q' -> (forall m, swap m (get CWhere (q_clauses q)) (get CWhere (q_clauses q')) -> swap m v v') ->
  swap_query l (q_with q (upd CWhere v (q_clauses q))) (q_with q' (upd CWhere v' (q_clauses q'))).
Proof. intros H V. destruct H; cbn [q_with q_clauses] in *; constructor; try assumption; apply swaps_upd; assumption. Qed.
Lemma list_or_tuple_same o a b : list_or_tuple o a -> list_or_tuple o b -> a = b.
Proof. intros H K. inversion H; subst; inversion K; reflexivity. Qed.
Lemma replace_valid q v : validate q = Ok tt -> replace_clause q CWhere v = Ok (q_with q (upd CWhere v (q_clauses q))).
Proof.
  intros X. unfold replace_clause, post_init. destruct q as [b c|i c]; [reflexivity|]. cbn [q_with q_clauses].
  cbn [validate] in X. destruct (validate i); [reflexivity|discriminate].
Qed.
Lemma wf_get q k : wf_query q -> wf (get k (q_clauses q)).
Proof. destruct q; intros (_ & H); apply H. Qed.
Lemma swap_serialize l q q' : wf_query q -> wf_query q' -> seq_typed_query q -> swap_query l q q' -> merged_alike_where q q' ->
  rel (text_swapped l) (serialize q) (serialize q').
Proof.
  intros W W' T H S. unfold serialize. pose proof (swap_valid l q q' H T) as X. destruct (validate q) as [[]|] eqn:V; rewrite <- X; [cbn [bind]|reflexivity].
  unfold optimize_query. destruct (swap_clauses_of l q q' H CWhere) as (m & R). cbn [get] in R. destruct (swap_kind _ _ _ R) as (_ & _ & <- & _).
  pose proof (seq_in_seq _ CWhere (seq_clauses q T) eq_refl) as Q. cbn [get] in Q. destruct Q as [E|(a & A)].
  { rewrite E. cbn [is_none bind]. apply swap_print_query; assumption. }
  destruct (swap_iter _ _ _ _ R A) as (b & B & _). destruct (list_truthy _ _ A) as (_ & -> & ->), (list_truthy _ _ B) as (_ & -> & _). cbn [bind].
  pose proof (S a b A B) as F. pose proof (wf_get q CWhere W) as Wa. pose proof (wf_get q' CWhere W') as Wb. cbn [get] in Wa, Wb.
  assert (Fa : Forall wf a) by (revert Wa; destruct A; intros Wa; inversion Wa; assumption).
  assert (Fb : Forall wf b) by (revert Wb; destruct B; intros Wb; inversion Wb; assumption).
  rewrite (optimize_items a Fa), (optimize_items b Fb). fold merges. cbn [bind].
  assert (M : forall n, swap n (get CWhere (q_clauses q)) (get CWhere (q_clauses q')) -> swaps n a b).
  { intros n N. destruct (swap_iter _ _ _ _ N A) as (b' & B' & K). rewrite (list_or_tuple_same _ _ _ B B'). exact K. }
  rewrite <- (proj1 (swap_optimized m a b (M m R) F)). destruct (existsb merges a); cbn [bind]; [|apply swap_print_query; assumption].
  rewrite !replace_valid by (congruence || exact V). cbn [bind]. apply swap_print_query.
  - apply swap_query_upd; [exact H|]. intros n N. constructor. apply swap_optimized; [apply M, N|exact F].
  - assert (Wo : wf (OList (map opt_item a))) by (constructor; clear - Fa; induction Fa; constructor; auto using opt_item_wf).
    destruct q as [c1 c|i c]; cbn [q_with q_clauses wf_query] in *; destruct W as (W1 & W2); (split; [exact W1|]); intros k; rewrite get_upd_where; destruct k; auto.
  - destruct q as [c1 c|i c]; cbn [q_with q_clauses seq_typed_query] in *; [|destruct T as (T1 & T); split; [exact T1|]];
      intros k sep K; rewrite get_upd_where; destruct k; try (exact (T _ sep K)); right; eexists; constructor.
Qed.
End S.
