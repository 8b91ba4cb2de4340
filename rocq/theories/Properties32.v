(** C86-C88: valid queries made from other valid queries. *)
From Verif Require Import PyBase PyFacts Objects Exprs Translate Query SpecExpr SpecQuery SpecSetters SpecRefs SpecChange
  ExprFacts ExprProps WfFacts PrintProps SetterProps ValidateProps ChangeFacts ApiTac Concrete Properties1 Properties4.

Section P.
Context {RT : PyRT}.

(** ** C86 What valid queries consist of can be left out, repeated, reordered and combined *)
Theorem C86_combine : forall qs q,
  Forall (fun q0 => api_query q0 /\ class_typed_query q0 /\ same_source q0 q /\ validate q0 = Ok tt) qs ->
  api_query q -> class_typed_query q -> taken_from qs q ->
  select_rule (q_clauses q) -> totals_rule (q_clauses q) -> validate q = Ok tt.
Proof.
  intros qs q F A T K S R. apply C28_validate_partial; [exact A|exact T|]. rewrite Forall_forall in F.
  apply (taken_valid qs q K); [| |exact S|exact R]; apply Forall_forall; intros q0 I; destruct (F q0 I) as (A0 & T0 & S0 & V0).
  - exact S0.
  - apply C28_validate_partial; assumption.
Qed.
(** a clause other than SELECT can be dropped; BY only without TOTALS *)
Theorem C86_drop_clause : forall q k, api_query q -> class_typed_query q -> validate q = Ok tt -> k <> CSelect ->
  (k = CGroupby -> c_totals (q_clauses q) <> OTotals true) ->
  validate (q_with q (upd k ONone (q_clauses q))) = Ok tt.
Proof.
  intros q k A T V NS NG. pose proof V as V0. apply C28_validate_partial in V0 as (V0 & _); [|exact A|exact T].
  apply valid_unfold in V0 as (_ & S & R & _).
  assert (G : forall k' x, given k' (q_with q (upd k ONone (q_clauses q))) x -> given k' q x).
  { intros k' x (N & I). rewrite with_clauses in N, I. destruct (q_clauses q) eqn:E.
    unfold given. rewrite E. destruct k, k'; cbn [upd get] in N, I; (split; assumption) || (elim N; reflexivity). }
  apply (C86_combine [q]).
  - constructor; [|constructor]. split; [exact A|]. split; [exact T|]. split; [eexists; reflexivity|exact V].
  - destruct q as [b c|i c]; destruct A as (A & B); (split; [exact A|]); intros k'; specialize (B k'); destruct c, k, k'; cbn in *; try exact B; apply api_none.
  - assert (C : forall c, class_typed c -> class_typed (upd k ONone c)).
    { intros c H k'. specialize (H k'). destruct c, k, k'; cbn in *; try exact H; left; reflexivity. }
    destruct q as [b c|i c]; [apply C, T|]. destruct T as (T & U). split; [exact T|apply C, U].
  - intros k' x H. exists q. split; [left; reflexivity|apply G, H].
  - rewrite with_clauses. destruct (q_clauses q), k; cbn in *; try exact S. congruence.
  - rewrite with_clauses. unfold totals_rule in *. destruct (q_clauses q), k; cbn in *; try exact R; try discriminate.
    intros E. elim (NG eq_refl E).
Qed.
(** further filters never make the check of the required columns fail *)
Theorem C86_more_filters : forall q q', seq_typed_query q -> seq_typed_query q' -> same_source q q' ->
  (forall x, given CWhere q x -> given CWhere q' x) -> validate_required_columns q = Ok tt -> validate_required_columns q' = Ok tt.
Proof.
  intros q q' T T' (c' & ->) M V. apply C31_required in V; [|exact T]. apply C31_required; [exact T'|].
  assert (W : forall d a, required_ok d a (c_where (q_clauses q)) -> required_ok d a (c_where c')).
  { intros d a. apply required_more. intros l L NE.
    assert (G : forall x, In x l -> exists l', list_or_tuple (c_where c') l' /\ In x l').
    { intros x I. destruct (M x) as (_ & l2 & L2 & I2); [|rewrite with_clauses in L2; eauto].
      split; [cbn; intros E; rewrite E in L; inversion L|]. exists l. auto. }
    destruct l as [|x l]; [congruence|]. destruct (G x (or_introl eq_refl)) as (l' & L' & _). exists l'. split; [exact L'|].
    intros y I. destruct (G y I) as (l2 & L2 & I2). assert (l2 = l') as <-; [|exact I2]. inversion L2; inversion L'; congruence. }
  destruct q as [[e|s|k rels] c|i c]; cbn [q_with query_required_ok q_clauses] in *.
  - intros d E. apply W, V, E.
  - exact I.
  - intros r J. destruct (V r J) as (A & B). split; intros d E; apply W; [apply A|apply B]; exact E.
  - exact V.
Qed.

(** ** C87 What a query shows can be used by a query on top of it *)
Theorem C87_use_partial : forall inner cl, api_query inner -> class_typed_query inner -> validate inner = Ok tt ->
  api_clauses cl -> class_typed cl -> select_rule cl -> totals_rule cl ->
  (forall c, query_refers (QSub inner cl) c -> c_entity c = None /\ offered inner (c_name c)) ->
  validate (QSub inner cl) = Ok tt.
Proof.
  intros i cl A T V A' T' S R H. apply C28_validate_partial in V as (V & O); [|exact A|exact T].
  apply C28_validate_partial; [split; assumption|split; assumption|]. cbn [valid_query own_models_query q_clauses].
  split; [split; [exact V|split; [exact S|split; [exact R|]]]|split; [exact O|]].
  - intros c C. apply H, C.
  - intros k x e d I E. destruct (H x) as (N & _); [|congruence]. exists k, (OColumn x). split; [exact I|constructor].
Qed.
(** any of the offered names that are column names, together *)
Theorem C87_select_partial : forall inner ns, api_query inner -> class_typed_query inner -> validate inner = Ok tt ->
  ns <> [] -> Forall (fun n => api (OStr n) /\ offered inner n /\ column_name n) ns ->
  exists xs, Forall2 (fun n x => mk_column (OStr n) ONone = Ok x) ns xs
    /\ validate (QSub inner (upd CSelect (OList xs) no_clauses)) = Ok tt.
Proof.
  intros i ns A T V NE F.
  assert (X : exists xs, Forall2 (fun n x => mk_column (OStr n) ONone = Ok x) ns xs).
  { clear NE. induction F as [|n ns (_ & _ & C) F IH]; [exists []; constructor|]. destruct IH as (xs & IH).
    destruct (proj2 (C01_column_accepts (OStr n) ONone)) as (x & X); [exists n; split; [reflexivity|split; [exact C|left; reflexivity]]|].
    exists (x :: xs). constructor; assumption. }
  destruct X as (xs & X). exists xs. split; [exact X|].
  assert (Y : Forall (fun x => exists c, x = OColumn c /\ c_entity c = None /\ offered i (c_name c) /\ api x) xs).
  { clear NE. induction X as [|n x ns xs H X IH]; [constructor|]. inversion_clear F as [|? ? (AN & O & _) F']. constructor; [|apply IH, F'].
    pose proof (api_column (OStr n) ONone x AN api_none H) as AX.
    apply C01_column_stores in H as (c & -> & N & E). exists c. split; [reflexivity|]. injection N as <-.
    split; [destruct (c_entity c); [discriminate|reflexivity]|]. split; assumption. }
  assert (XN : exists x l, xs = x :: l) by (destruct X; [congruence|eauto]).
  rewrite Forall_forall in Y. apply C87_use_partial; [exact A|exact T|exact V| | | | |].
  - intros []; cbn; try apply api_none. apply api_list, Forall_forall. intros x I. destruct (Y x I) as (c & _ & _ & _ & H). exact H.
  - intros []; cbn; auto. right. exists xs. split; [constructor|]. apply Forall_forall. intros x I.
    destruct (Y x I) as (c & -> & _). constructor.
  - destruct XN as (x & l & ->). exists x, l. constructor.
  - intros E. discriminate E.
  - intros c (k & x & I & R). destruct k; unfold clause_item in I; cbn in I; try (destruct I as (l & L & _); inversion L; fail);
      try (subst x; inversion R; fail).
    destruct I as (l & L & I). inversion L; subst. destruct (Y x I) as (c' & -> & E & O & _). inversion R; subst. auto.
Qed.
(** false: a function can be named with an alias that is no column name ... *)
Theorem C87_alias_refuted : exists inner n, api_query inner /\ class_typed_query inner /\ validate inner = Ok tt
  /\ shown inner n /\ forall ent, mk_column (OStr n) ent = Raise InvalidColumnError.
Proof.
  exists (QBase (BEntity (mkEntity ($"e") None None None))
    (upd CSelect (OList [OFunc true ($"count") KNone [] KList [] (Some ($"count()"))]) no_clauses)), ($"count()").
  split; [api_query_tac|]. split; [intros []; cbn; auto; right; eexists; split; repeat constructor|].
  split; [vm_compute; reflexivity|]. split; [|intros ent; vm_compute; reflexivity].
  left. eexists _, _. split; [constructor|]. split; [left; reflexivity|]. right. do 6 eexists. reflexivity.
Qed.
(** ... and the alias of a column is not known outside *)
Theorem C87_aliased_refuted : exists inner n x, api_query inner /\ class_typed_query inner /\ validate inner = Ok tt
  /\ shown inner n /\ mk_column (OStr n) ONone = Ok x
  /\ validate (QSub inner (upd CSelect (OList [x]) no_clauses)) = Raise InvalidMatchError.
Proof.
  exists (QBase (BEntity (mkEntity ($"e") None None None))
    (upd CSelect (OList [OAliased (mkColumn ($"a") None None None) (Some ($"b"))]) no_clauses)), ($"b").
  eexists. split; [api_query_tac|]. split; [intros []; cbn; auto; right; eexists; split; repeat constructor|].
  split; [vm_compute; reflexivity|]. split.
  { right. exists (mkColumn ($"a") None None None). split; [discriminate|]. eexists. split; [constructor|left; reflexivity]. }
  split; vm_compute; reflexivity.
Qed.

(** ** C88 A data model can be extended or dropped *)
Theorem C88_columns : forall n e d' o, mk_column n (OEntity e) = Ok o -> looser (e_dm e) d' ->
  exists o', mk_column n (OEntity (mkEntity (e_name e) (e_alias e) (e_sample e) d')) = Ok o'.
Proof.
  intros n e d' o H L. apply C01_column_accepts. destruct (proj1 (C01_column_accepts n (OEntity e)) (ex_intro _ o H)) as (m & -> & C & E).
  exists m. split; [reflexivity|]. split; [exact C|]. right. destruct E as [E|(e0 & a & E & A & N & D)]; [discriminate|]. injection E as <-.
  eexists _, a. split; [reflexivity|]. split; [exact A|]. split; [exact N|]. intros m' M. destruct (L m' M) as (m0 & M0 & C0). apply C0, D, M0.
Qed.
Theorem C88_validate : forall me ms q, (forall e, looser (e_dm e) (me e)) -> (forall s, looser (st_dm s) (ms s)) ->
  api_query q -> class_typed_query q -> validate q = Ok tt -> validate (with_models me ms q) = Ok tt.
Proof.
  intros me ms q LE LS A T V. apply C28_validate_partial in V; [|exact A|exact T].
  apply c28_lemma; [apply new_wf_query; [exact LE|apply api_wf_query, A]|apply new_typed_query, T|].
  apply new_valid; assumption.
Qed.
Theorem C88_required : forall me ms q, (forall e, not_stricter (e_dm e) (me e)) -> class_typed_query q ->
  validate_required_columns q = Ok tt -> validate_required_columns (with_models me ms q) = Ok tt.
Proof.
  intros me ms q L T V. apply C31_required in V; [|apply class_seq_typed_query, T].
  apply C31_required; [apply class_seq_typed_query, new_typed_query, T|]. apply new_required; assumption.
Qed.
End P.

#[local] Existing Instance demoRT.
(** the WHERE of one valid query, the SELECT of another, twice *)
Definition ch_one : query := QBase (BEntity v_e)
  (upd CSelect (OList [v_col None ($"org_id")]) (upd CWhere (OList [OCond (v_col None ($"ts")) GTE (OInt 1)]) no_clauses)).
Definition ch_two : query := QBase (BEntity v_e) (upd CSelect (OTuple [v_col None ($"ts"); v_col None ($"org_id")]) no_clauses).
Definition ch_mix : query := QBase (BEntity v_e)
  (upd CSelect (OList [v_col None ($"org_id"); v_col None ($"ts"); v_col None ($"ts")])
     (upd CWhere (OTuple [OCond (v_col None ($"ts")) GTE (OInt 1); OCond (v_col None ($"ts")) GTE (OInt 1)]) no_clauses)).
Example C86_case : validate ch_one = Ok tt /\ validate ch_two = Ok tt /\ api_query ch_mix /\ class_typed_query ch_mix
  /\ same_source ch_one ch_mix /\ same_source ch_two ch_mix /\ taken_from [ch_one; ch_two] ch_mix
  /\ select_rule (q_clauses ch_mix) /\ validate ch_mix = Ok tt.
Proof.
  split; [vm_compute; reflexivity|]. split; [vm_compute; reflexivity|]. split; [api_query_tac|].
  split; [intros []; cbn; auto; right; eexists; split; repeat constructor|].
  split; [eexists; reflexivity|]. split; [eexists; reflexivity|]. split; [|split; [eexists _, _; constructor|vm_compute; reflexivity]].
  intros k x (N & I). destruct k; cbn in N; try congruence; destruct I as (l & L & I); inversion L; subst; cbn in I.
  - exists ch_two. split; [right; left; reflexivity|]. split; [discriminate|]. eexists. split; [constructor|]. cbn. intuition.
  - exists ch_one. split; [left; reflexivity|]. split; [discriminate|]. eexists. split; [constructor|]. cbn. intuition.
Qed.
Example C87_case : offered v_join ($"org_id") /\ offered v_join ($"fx") /\ validate v_join = Ok tt
  /\ validate (QSub v_join (upd CSelect (OList [v_col None ($"fx"); v_col None ($"org_id")]) no_clauses)) = Ok tt.
Proof.
  split; [eexists _, _; split; [constructor|]; split; [left; reflexivity|]; left; eexists; split; reflexivity|].
  split; [eexists _, _; split; [constructor|]; split; [right; left; reflexivity|]; right; do 6 eexists; reflexivity|].
  split; vm_compute; reflexivity.
Qed.
(** one more column for every entity with a model *)
Definition ch_more (e : entity) : option data_model :=
  option_map (fun m => mkDM (mkSC ($"more") false :: dm_columns m) (dm_time m)) (e_dm e).
Example C88_case : (forall e, looser (e_dm e) (ch_more e)) /\ (forall e, not_stricter (e_dm e) (ch_more e))
  /\ validate v_sub = Ok tt /\ with_models ch_more st_dm v_sub <> v_sub
  /\ validate (QBase (BEntity v_e) (upd CSelect (OList [v_col None ($"more")]) no_clauses)) = Raise InvalidColumnError
  /\ validate (with_models ch_more st_dm (QBase (BEntity v_e) (upd CSelect (OList [v_col None ($"more")]) no_clauses))) = Ok tt.
Proof.
  split; [|split; [|split; [vm_compute; reflexivity|split; [vm_compute; discriminate|split; vm_compute; reflexivity]]]].
  - intros e m' E. unfold ch_more in E. destruct (e_dm e) as [m|]; [|discriminate]. injection E as <-. exists m. split; [reflexivity|].
    intros n I. right. exact I.
  - intros e m' E. unfold ch_more in E. destruct (e_dm e) as [m|]; [|discriminate]. injection E as <-. exists m. split; [reflexivity|].
    split; [reflexivity|]. intros r' [<-|I] Q; [discriminate Q|]. eauto.
Qed.

Print Assumptions C86_combine.
Print Assumptions C86_drop_clause.
Print Assumptions C86_more_filters.
Print Assumptions C87_use_partial.
Print Assumptions C87_select_partial.
Print Assumptions C87_alias_refuted.
Print Assumptions C87_aliased_refuted.
Print Assumptions C88_columns.
Print Assumptions C88_validate.
Print Assumptions C88_required.
