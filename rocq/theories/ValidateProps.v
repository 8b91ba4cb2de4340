(** Query validation (C23, C25-C29): what validate() accepts. *)
From Verif Require Import PyBase PyFacts Regex Objects Exprs SpecExpr ExprFacts ExprProps WfFacts Finder Query
  SpecQuery SpecSetters SpecRefs FinderFacts PrintProps SetterProps.

Section V.
Context {RT : PyRT}.

Lemma check_all_Ok {A} (f : A -> result unit) l : check_all f l = Ok tt <-> Forall (fun x => f x = Ok tt) l.
Proof.
  induction l as [|x l IH]; cbn; [split; [constructor|reflexivity]|]. split.
  - intros E. apply bind_Ok in E as ([] & E1 & E2). constructor; [exact E1|apply IH, E2].
  - intros F. inversion F; subst. match goal with H : f x = _ |- _ => rewrite H end. apply IH. assumption.
Qed.
Lemma check_all_Raise {A} (f : A -> result unit) l e : check_all f l = Raise e -> exists x, In x l /\ f x = Raise e.
Proof.
  induction l as [|x l IH]; cbn; [discriminate|]. destruct (f x) as [[]|e'] eqn:E; cbn.
  - intros H. apply IH in H as (y & I & H). eauto.
  - intros H. injection H as ->. eauto.
Qed.
Lemma unit_Ok (r : result unit) u : r = Ok u <-> r = Ok tt.
Proof. destruct u; tauto. Qed.

(** * columns and data models *)
Lemma base_name_det n b b' : base_name n b -> base_name n b' -> b = b'.
Proof.
  intros [H1 E1] [H2 E2].
  assert (K : forall (b b' key key' : str), ~ In 91%N b -> ~ In 91%N b' -> b ++ [91%N] ++ key = b' ++ [91%N] ++ key' -> b = b').
  { clear. induction b as [|x b IH]; intros [|y b'] key key' A B E; cbn in *; try congruence.
    - exfalso. apply B. left. congruence.
    - exfalso. apply A. left. congruence.
    - injection E as <- E. f_equal. apply (IH b' key key'); auto. }
  destruct E1 as [E1|[k1 E1]], E2 as [E2|[k2 E2]].
  - congruence.
  - exfalso. apply H1. rewrite <- E1, E2. apply in_app_iff. cbn. auto.
  - exfalso. apply H2. rewrite <- E2, E1. apply in_app_iff. cbn. auto.
  - apply (K b b' k1 k2 H1 H2). rewrite <- E1. exact E2.
Qed.
Lemma wf_base c : wf_column c ->
  base_name (c_name c) (match c_sub c with Some (x :: s) => x :: s | _ => c_name c end).
Proof.
  intros (N & P & _). unfold column_parts in P. destruct (split_once LBR (c_name c)) as [[a b]|] eqn:E.
  - injection P as <- _. apply split_once_Some in E as [E H]. destruct a as [|x a].
    + exfalso. destruct N as (f & body & sub & nl & N & F & _). rewrite N in E. cbn in E. injection E as E _.
      unfold LBR, ascii_letter in *. subst f. destruct F as [[F|F]|F]; lia.
    + split; [exact H|]. right. exists b. exact E.
  - injection P as <- _. apply split_once_None in E. split; [exact E|auto].
Qed.
Lemma data_model_iff dm c : wf_column c ->
  validate_data_model dm (c_name c) (c_sub c) = Ok tt <-> forall d, dm = Some d -> has_column d c.
Proof.
  intros W. apply wf_base in W as B. unfold validate_data_model. destruct dm as [d|]; [|split; [discriminate|reflexivity]].
  set (t := match c_sub c with Some (x :: s) => x :: s | _ => c_name c end) in *. split.
  - destruct (dm_contains d t) eqn:E; [|discriminate]. intros _ d' H. injection H as <-.
    exists t. split; [exact B|]. apply dm_contains_iff, E.
  - intros H. destruct (H d eq_refl) as (b & B' & I). rewrite (base_name_det _ _ _ B' B) in I.
    apply dm_contains_iff in I. rewrite I. reflexivity.
Qed.
Lemma data_model_raise dm n s e : validate_data_model dm n s = Raise e -> e = InvalidColumnError.
Proof.
  unfold validate_data_model. destruct dm as [d|]; [|discriminate].
  destruct (dm_contains d _); [discriminate|]. intros H; injection H as <-. reflexivity.
Qed.

(** * the match rules *)
Lemma assoc_In k l v : assoc k l = Some v -> In (k, v) l.
Proof.
  induction l as [|[a b] l IH]; cbn; [discriminate|]. destruct (str_eqb a k) eqn:E.
  - apply str_eqb_eq in E. intros H; injection H as <-. subst. auto.
  - auto.
Qed.
Lemma alias_mappings_iff rels a n : In (a, n) (alias_mappings rels) <-> joined rels a n.
Proof.
  unfold alias_mappings, joined. rewrite in_flat_map. split.
  - intros (r & I & H). rewrite in_app_iff in H. unfold alias_pair in H.
    destruct H as [H|H]; [exists r, (r_lhs r)|exists r, (r_rhs r)]; (split; [exact I|split; [auto|]]);
      (destruct (e_alias _) as [x|]; [|contradiction]); destruct H as [H|[]]; injection H as <- <-; auto.
  - intros (r & e & I & H & A & N). exists r. split; [exact I|]. rewrite in_app_iff. unfold alias_pair.
    destruct H as [-> | ->]; [left|right]; rewrite A, N; left; reflexivity.
Qed.
(** a consistent list of mappings: one name per alias *)
Definition consistent (maps : list (str * str)) : Prop :=
  forall a n n', In (a, n) maps -> In (a, n') maps -> n = n'.
Lemma join_check_gen maps : forall seen, (forall a n n', In (a, n) seen -> In (a, n') seen -> n = n') ->
  join_check seen maps = Ok tt <-> consistent (seen ++ maps).
Proof.
  induction maps as [|[a n] maps IH]; intros seen S; cbn.
  - rewrite app_nil_r. split; [intros _; exact S|reflexivity].
  - assert (C : forall (l : list (str * str)), consistent (((a, n) :: seen) ++ l) <-> consistent (seen ++ (a, n) :: l)).
    { intros l. unfold consistent.
      assert (M : forall x, In x (((a, n) :: seen) ++ l) <-> In x (seen ++ (a, n) :: l)).
      { intros x. cbn. rewrite !in_app_iff. cbn. tauto. }
      split; intros H ? ? ? A B; eapply H; apply M; eassumption. }
    destruct (assoc a seen) as [e|] eqn:E.
    + apply assoc_In in E. destruct (str_eqb e n) eqn:Q.
      * apply str_eqb_eq in Q. subst e. rewrite IH; [apply C|].
        intros b x y [H|H] [H'|H']; try (injection H as <- <-); try (injection H' as <- <-); eauto; congruence.
      * split; [discriminate|]. intros H. apply str_eqb_neq in Q. elim Q. apply (H a); apply in_app_iff; cbn; auto.
    + assert (N : forall v, ~ In (a, v) seen).
      { intros v I. clear - E I. induction seen as [|[x y] seen IH]; [exact I|]. cbn in E, I.
        destruct (str_eqb x a) eqn:Q; [discriminate|]. destruct I as [I|I]; [|auto].
        injection I as -> ->. rewrite str_eqb_refl in Q. discriminate. }
      rewrite IH; [apply C|]. intros b x y [H|H] [H'|H']; try (injection H as <- <-); try (injection H' as <- <-);
        try (exfalso; eapply N; eassumption); eauto; congruence.
Qed.
Lemma join_check_iff maps : join_check [] maps = Ok tt <-> consistent maps.
Proof. apply (join_check_gen maps []). intros a n n' []. Qed.
Lemma assoc_consistent a n maps : consistent maps -> assoc a (alias_dict maps) = Some n <-> In (a, n) maps.
Proof.
  intros C. unfold alias_dict. split.
  - intros E. apply assoc_In in E. apply in_rev, E.
  - intros I. destruct (assoc a (rev maps)) as [n'|] eqn:E.
    + apply assoc_In, in_rev in E. f_equal. eapply C; eassumption.
    + exfalso. apply in_rev in I. clear - E I. induction (rev maps) as [|[x y] l IH]; [exact I|]. cbn in E, I.
      destruct (str_eqb x a) eqn:Q; [discriminate|]. destruct I as [I|I]; [|auto].
      injection I as -> ->. rewrite str_eqb_refl in Q. discriminate.
Qed.

Definition only_columns (cols : list obj) : Prop := Forall (fun o => exists c, o = OColumn c) cols.
Lemma search_columns q cols : search TColumn q = Ok cols -> only_columns cols.
Proof.
  intros E. apply Forall_forall. intros x I. apply (search_exact q cols E) in I as (c & -> & _). eauto.
Qed.

(** ** soundness, for every query *)
Lemma join_with_sound maps cols c : validate_join_with maps cols = Ok tt -> In (OColumn c) cols ->
  exists e a, c_entity c = Some e /\ e_alias e = Some a /\ assoc a (alias_dict maps) = Some (e_name e).
Proof.
  intros E I. apply check_all_Ok in E. rewrite Forall_forall in E. specialize (E _ I). cbn in E.
  destruct (c_entity c) as [e|]; [|discriminate]. destruct (e_alias e) as [a|] eqn:A; [|discriminate].
  destruct (assoc a (alias_dict maps)) as [n|] eqn:N; [|discriminate]. apply assert_Ok, str_eqb_eq in E. subst n.
  exists e, a. auto.
Qed.
Lemma inner_names_iff l n : In n (inner_names l) <-> exists x, In x l /\
  ((exists c, x = OColumn c /\ c_name c = n) \/ exists f m ik il pk pl, x = OFunc f m ik il pk pl (Some n)).
Proof.
  unfold inner_names. rewrite in_flat_map. split.
  - intros (x & I & H). exists x. split; [exact I|]. destruct x; try contradiction.
    + destruct H as [<-|[]]. left; eauto.
    + destruct alias as [a|]; [|contradiction]. destruct H as [<-|[]]. right; eauto 10.
  - intros (x & I & [(c & -> & <-)|(f & m & ik & il & pk & pl & ->)]); exists (OColumn c) || eexists; (split; [exact I|]); cbn; auto.
Qed.
Lemma subquery_sound inner cols c : validate_subquery inner cols = Ok tt -> In (OColumn c) cols -> offered inner (c_name c).
Proof.
  unfold validate_subquery. destruct (is_none _) eqn:N; [discriminate|]. intros E I. apply bind_Ok in E as (sel & S & E).
  apply check_all_Ok in E. rewrite Forall_forall in E. specialize (E _ I). cbn in E. apply assert_Ok, mem_str_In in E.
  apply inner_names_iff in E as (x & J & H). exists sel, x. split; [|auto].
  destruct H as [(c' & -> & _)|(f & m & ik & il & pk & pl & ->)].
  all: destruct (c_select (q_clauses inner)); try discriminate; cbn in S; injection S as <-; try constructor;
    apply in_map_iff in J as (? & J & _); discriminate.
Qed.
Lemma dm_sound dm cols c : validate_dm dm cols = Ok tt -> In (OColumn c) cols ->
  validate_data_model dm (c_name c) (c_sub c) = Ok tt.
Proof. intros E I. apply check_all_Ok in E. rewrite Forall_forall in E. exact (E _ I). Qed.

Lemma validate_parts q : validate q = Ok tt <->
  match q with QBase b _ => base_validate b = Ok tt | QSub i _ => validate i = Ok tt end
  /\ (forall k, validate_clause k (get k (q_clauses q)) = Ok tt) /\ validate_combine q = Ok tt.
Proof.
  assert (K : forall c, check_all (fun k => validate_clause k (get k c)) all_clauses = Ok tt <->
    forall k, validate_clause k (get k c) = Ok tt).
  { intros c. rewrite check_all_Ok, Forall_forall. split; [intros H k; apply H; destruct k; cbn; tauto|auto]. }
  destruct q as [b c|i c]; cbn [validate q_clauses]; rewrite <- (K c); (split;
    [intros E; apply bind_Ok in E as ([] & E1 & E); apply bind_Ok in E as ([] & E2 & E); auto
    |intros (-> & E2 & E3); cbn [bind]; rewrite E2; exact E3]).
Qed.
Lemma validate_match_ok q : validate q = Ok tt -> validate_match q = Ok tt.
Proof.
  intros E. apply validate_parts in E as (_ & _ & E). unfold validate_combine in E. apply bind_Ok in E as ([] & E & _). exact E.
Qed.
Lemma c25_lemma k rels cl c : validate (QBase (BJoin k rels) cl) = Ok tt -> query_refers (QBase (BJoin k rels) cl) c ->
  exists e a, c_entity c = Some e /\ e_alias e = Some a /\ joined rels a (e_name e).
Proof.
  intros E R. apply validate_match_ok in E. unfold validate_match in E. apply bind_Ok in E as (cols & S & E).
  assert (I : In (OColumn c) cols) by (apply (search_exact _ _ S); eauto).
  apply (join_with_sound _ _ _ E) in I as (e & a & H1 & H2 & H3). exists e, a. repeat split; try assumption.
  apply assoc_In in H3. unfold alias_dict in H3. apply in_rev in H3. apply alias_mappings_iff, H3.
Qed.
Lemma c26_lemma inner cl c : validate (QSub inner cl) = Ok tt -> query_refers (QSub inner cl) c ->
  offered inner (c_name c).
Proof.
  intros E R. apply validate_match_ok in E. unfold validate_match in E. apply bind_Ok in E as (cols & S & E).
  assert (I : In (OColumn c) cols) by (apply (search_exact _ _ S); eauto).
  eapply subquery_sound; eassumption.
Qed.
(** every subquery inside, at any depth *)
Inductive inside : query -> query -> Prop :=
| in_self q : inside q q
| in_sub q i c : inside q i -> inside q (QSub i c).
Lemma inside_valid q' q : inside q' q -> validate q = Ok tt -> validate q' = Ok tt.
Proof. induction 1 as [|q' i c _ IH]; [auto|]. intros E. apply IH. apply validate_parts in E as (E & _). exact E. Qed.

Lemma wf_item k c x : (forall k, wf (get k c)) -> clause_item k (get k c) x -> wf x.
Proof.
  intros W. unfold clause_item. specialize (W k). destruct (snql_separator k); [|intros ->; exact W].
  intros (l & L & I). destruct L; inversion W; subst; match goal with H : Forall wf _ |- _ => rewrite Forall_forall in H; auto end.
Qed.
Lemma wf_refers o c : wf o -> refers o c -> wf_column c.
Proof.
  intros W R. induction R; inversion W; subst; auto;
    try (apply IHR; match goal with H : Forall wf _ |- _ => rewrite Forall_forall in H; auto; fail end).
  match goal with H : Forall wf_column _ |- _ => rewrite Forall_forall in H; auto end.
Qed.
Lemma wf_query_refers q c : (forall k, wf (get k (q_clauses q))) -> query_refers q c -> wf_column c.
Proof. intros W (k & x & I & R). exact (wf_refers x c (wf_item k (q_clauses q) x W I) R). Qed.
Lemma wf_query_clauses q : wf_query q -> forall k, wf (get k (q_clauses q)).
Proof. destruct q; intros [_ H]; exact H. Qed.
Lemma c27_lemma q c dm : wf_query q -> (forall i, q_match q <> MQuery i) ->
  (forall e, q_match q = MObj (OEntity e) -> e_dm e = dm) -> (forall s, q_match q = MObj (OStorage s) -> st_dm s = dm) ->
  (forall k rels, q_match q <> MObj (OJoin k rels)) ->
  validate q = Ok tt -> query_refers q c -> forall d, dm = Some d -> has_column d c.
Proof.
  intros W N HE HS NJ E R d D. pose proof (wf_query_clauses q W) as W'. clear W. rename W' into W. pose proof (wf_query_refers _ _ W R) as WC.
  apply validate_match_ok in E. unfold validate_match in E. apply bind_Ok in E as (cols & S & E).
  assert (I : In (OColumn c) cols) by (apply (search_exact _ _ S); eauto).
  destruct q as [[e|s|k rels] cl|i cl]; cbn in *.
  - eapply (proj1 (data_model_iff (e_dm e) c WC)); [eapply dm_sound; eassumption|]. rewrite (HE e eq_refl). exact D.
  - eapply (proj1 (data_model_iff (st_dm s) c WC)); [eapply dm_sound; eassumption|]. rewrite (HS s eq_refl). exact D.
  - elim (NJ k rels). reflexivity.
  - elim (N i). reflexivity.
Qed.

(** ** completeness *)
Definition searchable (o : obj) : bool :=
  match o with
  | OColumn _ | OAliased _ _ | OFunc _ _ _ _ _ _ _ | OIdent _ | OLambda _ _ _ | OCond _ _ _ | OBoolC _ _ _ _
  | OOrderBy _ _ | OLimitBy _ _ _ | OLimit _ | OOffset _ | OGranularity _ | OTotals _ => true
  | _ => false
  end.
Lemma scalar_not_expression o : scalar o -> is_expression o = false.
Proof. intros [o' L|l F|l F]; [destruct L|..]; reflexivity. Qed.
Lemma find_exprs_total l : Forall (fun o => wf o -> searchable o = true -> exists r, find TColumn o = Ok r) l -> Forall wf l ->
  Forall (fun o => is_expression o = true -> searchable o = true) l -> exists r, find_exprs TColumn l = Ok r.
Proof.
  induction 1 as [|x l Hx _ IH]; intros W S; [eexists; reflexivity|]. inversion_clear W. inversion_clear S. cbn.
  destruct IH as [r IH]; [assumption..|]. destruct (is_expression x); [|eauto].
  destruct Hx as [a Ha]; auto. change ((fix find_exprs (l0 : list obj) : result (list obj) :=
         match l0 with
         | [] => Ok []
         | x0 :: l' => if is_expression x0 then let! a := find TColumn x0 in let! r0 := find_exprs l' in Ok (a ++ r0) else find_exprs l'
         end) l) with (find_exprs TColumn l). rewrite Ha, IH. cbn. eauto.
Qed.
Lemma find_all_total l : Forall (fun o => wf o -> searchable o = true -> exists r, find TColumn o = Ok r) l -> Forall wf l ->
  Forall (fun o => searchable o = true) l -> exists r, find_all TColumn l = Ok r.
Proof.
  induction 1 as [|x l Hx _ IH]; intros W S; [eexists; reflexivity|]. inversion_clear W. inversion_clear S.
  destruct IH as [r IH]; [assumption..|]. destruct Hx as [a Ha]; auto.
  unfold find_all in *. rewrite Ha, IH. cbn. eauto.
Qed.
Lemma find_total o : wf o -> searchable o = true -> exists l, find TColumn o = Ok l.
Proof.
  induction o using obj_ind'; intros W S; try discriminate S; try (eexists; reflexivity).
  - rewrite find_func. inversion W; subst.
    destruct (find_exprs_total il) as [r1 ->]; [assumption..| |].
    { rewrite Forall_forall in *. intros x I E.
      match goal with H : forall x, In x il -> init_ok x = true |- _ => specialize (H x I); destruct x; discriminate || reflexivity end. }
    destruct (find_exprs_total pl) as [r2 ->]; [assumption..| |].
    { rewrite Forall_forall in *. intros x I E.
      match goal with H : forall x, In x pl -> param_ok x |- _ => destruct (H x I) as [P|P] end.
      - destruct P as [? []|? []| |]; reflexivity.
      - apply scalar_not_expression in P. congruence. }
    cbn. eauto.
  - cbn [find isinst is_tident]. inversion W; subst. apply IHo; [assumption|]. destruct o; discriminate || reflexivity.
  - cbn [find]. inversion W; subst.
    match goal with H : check_condition _ _ _ = _ |- _ => apply check_condition_Ok in H as (L & U & R) end.
    destruct IHo1 as [a ->]; [assumption|destruct L as [[]|[]]; reflexivity|]. cbn [bind].
    destruct (negb (is_unary o2) && is_expression o3) eqn:X; [|eauto]. apply andb_true_iff in X as [_ X].
    destruct IHo2 as [b ->]; [assumption| |cbn; eauto].
    destruct R as [[]|[[]|R]]; try reflexivity. apply scalar_not_expression in R. congruence.
  - rewrite find_bool. inversion W; subst. apply find_all_total; [assumption..|].
    match goal with H : Forall (fun x => is_condition_obj x = true) _ |- _ => eapply Forall_impl; [|exact H] end.
    intros [] X; discriminate || reflexivity.
  - cbn [find isinst]. inversion W; subst. apply IHo; [assumption|]. destruct o; discriminate || reflexivity.
  - cbn [find isinst]. inversion W; subst. destruct l; [congruence|]. eauto.
Qed.
Lemma item_searchable k x : item_class k x -> searchable x = true.
Proof.
  destruct k; cbn; intros H; try (destruct H; reflexivity);
    try (destruct H as [? ->]; reflexivity); destruct H as (? & ? & ? & ->); reflexivity.
Qed.
Lemma search_clause_total k o : wf o ->
  (o = ONone \/ match snql_separator k with
    | Some _ => exists l, list_or_tuple o l /\ Forall (item_class k) l
    | None => item_class k o end) -> exists r, search_clause TColumn k o = Ok r.
Proof.
  intros W [-> |H]; [unfold search_clause; destruct (is_list_clause k); eexists; reflexivity|].
  assert (L : forall l, list_or_tuple o l -> Forall (item_class k) l -> exists r, search_terms TColumn o = Ok r).
  { intros l L F. unfold search_terms. destruct (truthy o); [|eauto].
    assert (iter o = Ok l) as -> by (destruct L; reflexivity). cbn [bind].
    assert (Wl : Forall wf l) by (destruct L; inversion W; assumption).
    assert (exists fs, mapM (find TColumn) l = Ok fs) as [fs ->]; [|cbn; eauto].
    clear - RT F Wl. induction F as [|x l Hx _ IH]; [eexists; reflexivity|]. inversion_clear Wl. destruct IH as [fs IH]; [assumption|].
    destruct (find_total x) as [a Ha]; [assumption|eapply item_searchable, Hx|]. cbn [mapM]. rewrite Ha, IH. cbn. eauto. }
  unfold search_clause. destruct k; cbn [snql_separator is_list_clause] in *;
    try (destruct H as (l & H1 & H2); eapply L; eassumption);
    unfold search_one; (destruct (truthy o); [|eauto]); apply find_total; try exact W; eapply item_searchable; exact H.
Qed.
Lemma search_total q : wf_query q -> class_typed (q_clauses q) -> exists cols, search TColumn q = Ok cols.
Proof.
  intros W T. unfold search.
  assert (exists m, search_match TColumn q = Ok m) as [m ->].
  { destruct q as [[e|s|k rels] c|i c]; try (eexists; reflexivity). destruct W as [W _]. cbn in W. inversion W; subst.
    match goal with H : wf_join _ |- _ => destruct H as [H _] end. cbn. destruct rels; [congruence|eauto]. }
  cbn [bind]. pose proof (wf_query_clauses q W) as W'.
  assert (exists cs, mapM (fun c => search_clause TColumn c (get c (q_clauses q))) all_clauses = Ok cs) as [cs ->]; [|cbn; eauto].
  induction all_clauses as [|k ks [cs IH]]; [eexists; reflexivity|]. cbn [mapM].
  destruct (search_clause_total k (get k (q_clauses q))) as [r Hr]; [apply W'|apply T|]. rewrite Hr, IH. cbn. eauto.
Qed.

(** revalidation of API objects *)
Lemma alias_revalidate a : wf_alias a -> optstr_alias_ok a = true.
Proof.
  unfold wf_alias, optstr_alias_ok. destruct a as [s|]; [|reflexivity]. intros H. destruct (H s eq_refl) as [N (body & nl & E & F & O)].
  destruct s as [|x s]; [congruence|]. apply alias_re_iff. exists body, nl. auto.
Qed.
Lemma sample_revalidate s : wf_sample s -> sample_ok s = true.
Proof. destruct s as [f|]; [|reflexivity]. intros H. cbn. rewrite (proj2 (flt_le0_iff f) (H f eq_refl)). reflexivity. Qed.
Lemma column_revalidate c : wf_column c ->
  column_validate c = Ok tt <-> forall e d, c_entity c = Some e -> e_dm e = Some d -> has_column d c.
Proof.
  intros W. pose proof W as (N & _ & E). unfold column_validate. rewrite (proj2 (column_name_re_iff _) N).
  destruct (c_entity c) as [e|]; [|split; [discriminate|reflexivity]].
  destruct (E e eq_refl) as ((_ & A & _) & B & _). unfold column_entity_check. destruct (e_alias e) as [[|x a]|] eqn:EA; [elim (A eq_refl)| |elim (B eq_refl)].
  rewrite (data_model_iff (e_dm e) c W). split; [intros H e' d H1; injection H1 as <-; auto|intros H d; apply H; reflexivity].
Qed.
Lemma column_revalidate_raise c e : wf_column c -> column_validate c = Raise e -> e = InvalidColumnError.
Proof.
  unfold column_validate, column_entity_check. intros _. destruct (re_matches _ _); [|intros H; injection H as <-; reflexivity].
  destruct (c_entity c) as [en|]; [|discriminate]. destruct (e_alias en) as [[|x a]|]; try (intros H; injection H as <-; reflexivity).
  apply data_model_raise.
Qed.
Lemma wf_revalidate o : wf o -> searchable o = true -> (forall c, o <> OColumn c) -> revalidate o = Ok tt.
Proof.
  intros W S N. destruct W; try discriminate S; try (elim (N c); reflexivity); cbn [revalidate].
  - rewrite alias_revalidate by assumption. reflexivity.
  - match goal with F : function_name _ |- _ => apply function_name_re_iff in F; rewrite F end.
    rewrite alias_revalidate by assumption.
    match goal with F : Forall (fun x => init_ok x = true) _ |- _ => rewrite Forall_forall in F; rewrite (proj2 (forallb_forall _ _) F) end.
    cbn. apply check_param_items_iff. assumption.
  - match goal with F : identifier_name _ |- _ => apply identifier_re_iff in F; rewrite F end. reflexivity.
  - match goal with F : Forall identifier_name _ |- _ => rewrite Forall_forall in F end.
    match goal with F : is_func _ = true |- _ => rewrite F end. rewrite andb_true_r. apply assert_Ok.
    apply forallb_forall. intros x I. apply identifier_re_iff. auto.
  - assumption.
  - apply check_bool_items_iff. split; [assumption|]. eapply Forall_impl; [|exact H0]. intros x. apply is_condition_obj_iff.
  - rewrite H. reflexivity.
  - apply assert_Ok. rewrite !andb_true_iff, negb_true_iff, Nat.ltb_ge, Z.ltb_lt, Z.leb_le.
    destruct l; [congruence|]. cbn. lia.
  - unfold validate_int_literal. destruct (Z.ltb_spec (pyint_Z n) 1); [lia|]. rewrite Z.gtb_ltb. destruct (Z.ltb_spec 10000 (pyint_Z n)); [lia|reflexivity].
  - unfold validate_int_literal. destruct (Z.ltb_spec (pyint_Z n) 0); [lia|reflexivity].
  - unfold validate_int_literal. destruct (Z.ltb_spec (pyint_Z n) 1); [lia|reflexivity].
  - reflexivity.
Qed.
Lemma base_revalidate b : wf (obj_of_base b) -> base_validate b = Ok tt.
Proof.
  unfold base_validate. destruct b as [e|s|k rels]; cbn [obj_of_base revalidate]; intros W; inversion W; subst.
  - match goal with H : wf_entity _ |- _ => destruct H as (N & A & S) end. apply assert_Ok.
    rewrite (proj2 (word_name_re_iff _) N), (sample_revalidate _ S). destruct (e_alias e) as [[|]|] eqn:EA; [elim (A eq_refl)|reflexivity..].
  - match goal with H : wf_storage _ |- _ => destruct H as (N & S) end. apply assert_Ok.
    rewrite (proj2 (word_name_re_iff _) N), (sample_revalidate _ S). reflexivity.
  - match goal with H : wf_join _ |- _ => destruct H as (N & _ & J) end. unfold join_validate. destruct rels; [congruence|exact J].
Qed.
Lemma revalidate_raise x e : wf x -> searchable x = true -> revalidate x = Raise e -> e = InvalidColumnError.
Proof.
  intros W S E. destruct x; try discriminate S; try (rewrite wf_revalidate in E; [discriminate|assumption..|discriminate]).
  cbn in E. inversion W; subst. eapply column_revalidate_raise; eassumption.
Qed.
Lemma validate_clause_iff k c : wf (get k c) ->
  (get k c = ONone \/ match snql_separator k with
    | Some _ => exists l, list_or_tuple (get k c) l /\ Forall (item_class k) l
    | None => item_class k (get k c) end) ->
  (validate_clause k (get k c) = Ok tt <->
   forall x e d, clause_item k (get k c) (OColumn x) -> c_entity x = Some e -> e_dm e = Some d -> has_column d x)
  /\ forall e, validate_clause k (get k c) = Raise e -> e = InvalidColumnError.
Proof.
  set (o := get k c). intros W T.
  assert (L : forall l, list_or_tuple o l -> Forall (item_class k) l ->
    (list_validate o = Ok tt <-> forall x e d, In (OColumn x) l -> c_entity x = Some e -> e_dm e = Some d -> has_column d x)
    /\ forall e, list_validate o = Raise e -> e = InvalidColumnError).
  { intros l L F. unfold list_validate. assert (is_none o = false) as -> by (destruct L; reflexivity).
    assert (iter o = Ok l) as -> by (destruct L; reflexivity). cbn [bind].
    assert (Wl : Forall wf l) by (destruct L; inversion W; assumption).
    rewrite Forall_forall in F, Wl. split.
    - rewrite check_all_Ok, Forall_forall. split.
      + intros H x e d I. specialize (H _ I). specialize (Wl _ I). inversion Wl; subst. cbn in H.
        rewrite column_revalidate in H by assumption. apply H.
      + intros H x I. specialize (Wl x I). specialize (F x I). destruct x; try (apply wf_revalidate; [exact Wl|eapply item_searchable, F|discriminate]).
        cbn. inversion Wl; subst. apply column_revalidate; [assumption|]. intros; eapply H; eassumption.
    - intros e E. apply check_all_Raise in E as (x & I & E).
      eapply revalidate_raise; [apply Wl, I|eapply item_searchable, F, I|exact E]. }
  assert (ONE : snql_separator k = None -> item_class k o ->
    is_none o = false /\ (forall c, o <> OColumn c) /\ revalidate o = Ok tt).
  { clear - W. intros K H. assert (S : searchable o = true) by (eapply item_searchable, H).
    assert (C : forall c, o <> OColumn c).
    { intros c' E. rewrite E in H. destruct k; try discriminate K; cbn in H; destruct H as (? & H); try discriminate H;
        destruct H as (? & ? & H); discriminate H. }
    split; [|split; [exact C|apply wf_revalidate; assumption]]. destruct o; try discriminate S; reflexivity. }
  unfold validate_clause, clause_item. destruct T as [T|T].
  - rewrite T. destruct k; cbn; split; try (split; [|reflexivity]; try (intros _ x e d (l & H & _); inversion H); intros _ x e d H; discriminate); discriminate.
  - destruct k; cbn [is_list_clause snql_separator] in *;
      try (destruct T as (l & T1 & T2); destruct (L l T1 T2) as [L1 L2]; split; [|exact L2];
           rewrite L1; split; [intros H x e d (l' & T' & I); assert (l' = l) as -> by (destruct T1; inversion T'; reflexivity); eauto
                              |intros H x e d I; eapply H; eauto]).
    all: specialize (ONE eq_refl T); destruct ONE as (ON & OC & R); unfold opt_validate; rewrite ON, R;
      (split; [split; [|reflexivity]|discriminate]); intros _ x e d H; symmetry in H; elim (OC _ H).
Qed.

Lemma match_iff q cols : wf_query q -> search TColumn q = Ok cols ->
  (forall i, q_match q = MQuery i -> class_typed_query i /\ validate i = Ok tt) ->
  (validate_match q = Ok tt <-> forall c, query_refers q c -> match_rule q c)
  /\ forall e, validate_match q = Raise e -> e = InvalidMatchError \/ e = InvalidColumnError.
Proof.
  intros W S Q. unfold validate_match. rewrite S. cbn [bind].
  assert (IN : forall c, query_refers q c <-> In (OColumn c) cols).
  { intros c. rewrite (search_exact _ _ S). split; [eauto|]. intros (c' & E & R). injection E as ->. exact R. }
  pose proof (search_columns _ _ S) as OC. unfold only_columns in OC.
  assert (WC : forall c, In (OColumn c) cols -> wf_column c).
  { intros c I. apply IN in I. eapply wf_query_refers; [|exact I]. apply wf_query_clauses, W. }
  destruct q as [[e|s|k rels] cl|i cl]; cbn [match_rule].
  - split.
    + unfold validate_dm. rewrite check_all_Ok. rewrite Forall_forall. split.
      * intros H c R. apply IN in R. apply data_model_iff; [auto|]. exact (H _ R).
      * intros H x I. rewrite Forall_forall in OC. destruct (OC x I) as [c ->]. apply data_model_iff; [auto|]. apply H, IN, I.
    + intros x E. apply check_all_Raise in E as (y & I & E). rewrite Forall_forall in OC. destruct (OC y I) as [c ->].
      right. eapply data_model_raise, E.
  - split.
    + unfold validate_dm. rewrite check_all_Ok. rewrite Forall_forall. split.
      * intros H c R. apply IN in R. apply data_model_iff; [auto|]. exact (H _ R).
      * intros H x I. rewrite Forall_forall in OC. destruct (OC x I) as [c ->]. apply data_model_iff; [auto|]. apply H, IN, I.
    + intros x E. apply check_all_Raise in E as (y & I & E). rewrite Forall_forall in OC. destruct (OC y I) as [c ->].
      right. eapply data_model_raise, E.
  - destruct W as [W _]. cbn in W. inversion W; subst.
    match goal with H : wf_join _ |- _ => destruct H as (_ & _ & J) end. apply join_check_iff in J. split.
    + split.
      * intros H c R. apply IN in R. destruct (join_with_sound _ _ _ H R) as (e & a & H1 & H2 & H3).
        exists e, a. repeat split; try assumption. apply alias_mappings_iff. apply assoc_consistent; assumption.
      * intros H. apply check_all_Ok, Forall_forall. intros x I. rewrite Forall_forall in OC. destruct (OC x I) as [c ->].
        destruct (H c (proj2 (IN c) I)) as (e & a & -> & -> & N). apply alias_mappings_iff in N.
        rewrite (proj2 (assoc_consistent a (e_name e) _ J) N). apply assert_Ok, str_eqb_refl.
    + intros x E. apply check_all_Raise in E as (y & I & E). rewrite Forall_forall in OC. destruct (OC y I) as [c ->].
      left. destruct (c_entity c) as [e|]; [|injection E as <-; reflexivity]. destruct (e_alias e); [|injection E as <-; reflexivity].
      destruct (assoc _ _); [|injection E as <-; reflexivity]. apply assert_Raise in E as [_ E]. exact E.
  - destruct (Q i eq_refl) as [T V]. apply validate_parts in V as (_ & _ & V). unfold validate_combine in V.
    apply bind_Ok in V as ([] & _ & V). apply bind_Ok in V as ([] & V & _).
    unfold validate_subquery. destruct (is_none (c_select (q_clauses i))) eqn:NN; [discriminate|].
    assert (CT : class_typed (q_clauses i)) by (destruct i; cbn in T; tauto).
    destruct (CT CSelect) as [CS|(l & L & F)]; cbn [get] in *; [rewrite CS in NN; discriminate|].
    assert (IT : iter (c_select (q_clauses i)) = Ok l) by (destruct L; reflexivity). rewrite IT. cbn [bind]. split.
    + rewrite check_all_Ok, Forall_forall. split.
      * intros H c R. apply IN in R. specialize (H _ R). cbn in H. apply assert_Ok, mem_str_In, inner_names_iff in H as (x & J & H).
        exists l, x. auto.
      * intros H x I. rewrite Forall_forall in OC. destruct (OC x I) as [c ->]. apply assert_Ok, mem_str_In, inner_names_iff.
        destruct (H c (proj2 (IN c) I)) as (l' & y & L' & J & D). exists y. split; [|exact D].
        assert (l' = l) as -> by (destruct L; inversion L'; reflexivity). exact J.
    + intros x E. apply check_all_Raise in E as (y & I & E). rewrite Forall_forall in OC. destruct (OC y I) as [c ->].
      apply assert_Raise in E as [_ E]. auto.
Qed.
Lemma lt_fun o l l' : list_or_tuple o l -> list_or_tuple o l' -> l = l'.
Proof. intros H H'. destruct H; inversion H'; reflexivity. Qed.
Lemma select_totals c : class_typed c ->
  ((if is_none (c_select c) then Raise InvalidQueryError
    else let! l := iter (c_select c) in if Nat.eqb (List.length l) 0 then Raise InvalidQueryError else Ok tt) = Ok tt
   <-> select_rule c)
  /\ (forall e, (if is_none (c_select c) then Raise InvalidQueryError
    else let! l := iter (c_select c) in if Nat.eqb (List.length l) 0 then Raise InvalidQueryError else Ok tt) = Raise e -> e = InvalidQueryError)
  /\ ((if truthy (c_totals c) then
     match c_totals c with
     | OTotals b => if b && negb (truthy (c_groupby c)) then Raise InvalidQueryError else Ok tt
     | _ => Raise AttributeError
     end else Ok tt) = Ok tt <-> totals_rule c)
  /\ (forall e, (if truthy (c_totals c) then
     match c_totals c with
     | OTotals b => if b && negb (truthy (c_groupby c)) then Raise InvalidQueryError else Ok tt
     | _ => Raise AttributeError
     end else Ok tt) = Raise e -> e = InvalidQueryError).
Proof.
  intros T. unfold select_rule, totals_rule. split; [|split; [|split]].
  - destruct (T CSelect) as [E|(l & L & _)]; cbn [get] in *.
    + rewrite E. split; [discriminate|]. intros (x & l & H). inversion H.
    + assert (iter (c_select c) = Ok l) as -> by (destruct L; reflexivity).
      assert (is_none (c_select c) = false) as -> by (destruct L; reflexivity). cbn [bind]. destruct l as [|x l]; cbn.
      * split; [discriminate|]. intros (y & l' & H). pose proof (lt_fun _ _ _ L H). discriminate.
      * split; [eauto|reflexivity].
  - intros e. destruct (T CSelect) as [E|(l & L & _)]; cbn [get] in *.
    + rewrite E. cbn. intros H; injection H as <-. reflexivity.
    + assert (iter (c_select c) = Ok l) as -> by (destruct L; reflexivity).
      assert (is_none (c_select c) = false) as -> by (destruct L; reflexivity). cbn [bind]. destruct (Nat.eqb _ 0); intros H; inversion H; reflexivity.
  - assert (G : truthy (c_groupby c) = true <-> exists x l, list_or_tuple (c_groupby c) (x :: l)).
    { destruct (T CGroupby) as [E|(l & L & _)]; cbn [get] in *.
      - rewrite E. cbn. split; [discriminate|]. intros (x & l & H). inversion H.
      - split.
        + intros H. destruct l as [|x l]; [|eauto]. exfalso. inversion L as [l0 E1 E2|l0 E1 E2]; rewrite <- E1, E2 in H; discriminate H.
        + intros (x & l' & H). inversion H; reflexivity. }
    rewrite <- G. destruct (T CTotals) as [E|[b E]]; cbn [get] in *; rewrite E; cbn [truthy].
    + split; [discriminate|reflexivity].
    + destruct b; cbn [andb]; [|split; [discriminate|reflexivity]].
      destruct (truthy (c_groupby c)); cbn; split; auto; [discriminate|]. intros H. specialize (H eq_refl). discriminate.
  - intros e. destruct (T CTotals) as [E|[b E]]; cbn [get] in *; rewrite E; cbn [truthy]; [discriminate|].
    destruct (b && _); intros H; inversion H; reflexivity.
Qed.

Lemma class_typed_here q : class_typed_query q -> class_typed (q_clauses q).
Proof. destruct q; cbn; tauto. Qed.
Lemma c28_lemma q : wf_query q -> class_typed_query q ->
  (validate q = Ok tt <-> valid_query q /\ own_models_query q)
  /\ forall e, validate q = Raise e -> e = InvalidQueryError \/ e = InvalidMatchError \/ e = InvalidColumnError.
Proof.
  assert (STEP : forall q, wf_query q -> class_typed (q_clauses q) ->
    (forall i, q_match q = MQuery i -> class_typed_query i /\ validate i = Ok tt) ->
    ((check_all (fun k => validate_clause k (get k (q_clauses q))) all_clauses ;! validate_combine q) = Ok tt <->
      own_models (q_clauses q) /\ select_rule (q_clauses q) /\ totals_rule (q_clauses q) /\ forall c, query_refers q c -> match_rule q c)
    /\ forall e, (check_all (fun k => validate_clause k (get k (q_clauses q))) all_clauses ;! validate_combine q) = Raise e ->
      e = InvalidQueryError \/ e = InvalidMatchError \/ e = InvalidColumnError).
  { clear q. intros q W T I. pose proof (wf_query_clauses q W) as WC.
    assert (VC := fun k => validate_clause_iff k (q_clauses q) (WC k) (T k)).
    destruct (search_total q W T) as [cols S]. destruct (match_iff q cols W S I) as [M1 M2].
    destruct (select_totals _ T) as (S1 & S2 & T1 & T2). unfold own_models. split.
    - split.
      + intros E. apply bind_Ok in E as ([] & E & C). rewrite check_all_Ok, Forall_forall in E.
        unfold validate_combine in C. apply bind_Ok in C as ([] & C1 & C). apply bind_Ok in C as ([] & C2 & C3).
        split; [|split; [apply S1, C2|split; [apply T1, C3|apply M1, C1]]].
        intros k x e d. apply (VC k). apply E. destruct k; cbn; tauto.
      + intros (O & A & B & C). apply S1 in A. apply T1 in B. apply M1 in C.
        assert (E : check_all (fun k => validate_clause k (get k (q_clauses q))) all_clauses = Ok tt).
        { apply check_all_Ok, Forall_forall. intros k _. apply (VC k). intros x e d. apply O. }
        rewrite E. cbn [bind]. unfold validate_combine. rewrite C. cbn [bind]. rewrite A. exact B.
    - intros e E. apply bind_Raise in E as [E|([] & _ & E)].
      + apply check_all_Raise in E as (k & _ & E). right; right. apply (VC k), E.
      + unfold validate_combine in E. apply bind_Raise in E as [E|([] & _ & E)]; [apply M2 in E; tauto|].
        apply bind_Raise in E as [E|([] & _ & E)]; [apply S2 in E|apply T2 in E]; tauto. }
  induction q as [b c|i IH c]; cbn [wf_query class_typed_query]; intros W T.
  - assert (B : base_validate b = Ok tt) by (apply base_revalidate, W). cbn [validate]. rewrite B. cbn [bind].
    destruct (STEP (QBase b c)) as [S1 S2]; [exact W|exact T|discriminate|].
    split; [|exact S2]. cbn [q_clauses] in S1. rewrite S1. cbn [valid_query own_models_query q_clauses]. tauto.
  - destruct W as [W1 W2], T as [T1 T2]. destruct (IH W1 T1) as [IH1 IH2]. cbn [validate].
    destruct (validate i) as [[]|x] eqn:E; cbn [bind].
    + destruct (STEP (QSub i c)) as [S1 S2]; [split; assumption|exact T2| |].
      { intros i' H. injection H as <-. auto. }
      split; [|exact S2]. cbn [q_clauses] in S1. rewrite S1.
      change (valid_query (QSub i c)) with (valid_query i /\ select_rule c /\ totals_rule c /\ forall c0, query_refers (QSub i c) c0 -> match_rule (QSub i c) c0).
      cbn [own_models_query]. tauto.
    + split; [|intros e H; injection H as <-; apply IH2; reflexivity].
      split; [discriminate|]. intros [[H _] [H' _]]. assert (Raise x = Ok tt) by (apply IH1; split; assumption). discriminate.
Qed.

(** typed by the setters implies typed *)
Lemma stores_class k v x : stores k v x ->
  match snql_separator k with Some _ => exists l, list_or_tuple x l /\ Forall (item_class k) l | None => item_class k x end.
Proof. intros H; destruct H; cbn; eauto 10 using lt_list. Qed.
Lemma clause_typed_class c : clause_typed c -> class_typed c.
Proof. intros H k. destruct (H k) as [->|[v S]]; [auto|]. right. eapply stores_class, S. Qed.
Lemma typed_class q : typed_query q -> class_typed_query q.
Proof. induction q as [b c|i IH c]; cbn; [apply clause_typed_class|]. intros [A B]. split; [auto|apply clause_typed_class, B]. Qed.
Lemma class_seq_typed c : class_typed c -> seq_typed c.
Proof. intros H k sep E. destruct (H k) as [->|K]; [auto|]. rewrite E in K. destruct K as (l & L & _). eauto. Qed.
Lemma class_seq_typed_query q : class_typed_query q -> seq_typed_query q.
Proof. induction q as [b c|i IH c]; cbn; [apply class_seq_typed|]. intros [A B]. split; [auto|apply class_seq_typed, B]. Qed.
End V.
