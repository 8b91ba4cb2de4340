(** C20, C30-C33, C36: facts about whole queries. *)
From Verif Require Import PyBase PyFacts DateTime Utf8 Objects Exprs SpecExpr ExprFacts ExprProps WfFacts Translate Finder Optimizer Query
  SpecText TextFacts LiteralFacts SpecOccurs TameFacts SpecQuery RenameFacts PrintProps SpecLogic OptFacts
  SpecSetters SetterProps SpecRefs FinderFacts ValidateProps SpecHazard PyEqFacts TotalFacts SpecOrder OneLine.

Section Q.
Context {RT : PyRT}.

(** * printing a query *)
Definition clause_fine (o : obj) : bool := match o with OList l | OTuple l => forallb fine l | _ => fine o end.
Fixpoint query_fine (q : query) : bool :=
  match q with
  | QBase _ c => forallb (fun k => clause_fine (get k c)) all_clauses
  | QSub i c => query_fine i && forallb (fun k => clause_fine (get k c)) all_clauses
  end.
Definition has_hazard (e : exn) (q : query) : Prop := exists o x, part_of o q /\ occurs x o /\ hazard e x.

Lemma item_shown k x : item_class k x -> shown x.
Proof.
  destruct k; cbn [item_class]; intros H;
    try (destruct H; right; constructor; fail); decompose [ex] H; subst; right; constructor.
Qed.
Lemma clause_tot al k o : wf o ->
  (o = ONone \/ match snql_separator k with
    | Some _ => exists l, list_or_tuple o l /\ Forall (item_class k) l
    | None => item_class k o end) ->
  is_ok (print_clause al k o) = clause_fine o
  /\ forall e, print_clause al k o = Raise e -> exists x, occurs x o /\ hazard e x.
Proof.
  intros W T. unfold print_clause. rewrite listed_sep. destruct (snql_separator k) as [sep|].
  - destruct T as [-> |(l & L & F)]; [split; [reflexivity|discriminate]|].
    pose proof (lt_wf _ _ L W) as Wl. destruct (lt_iter o l L) as [EI ET]. rewrite EI, ET.
    assert (CF : clause_fine o = forallb fine l) by (destruct L; reflexivity). rewrite CF.
    assert (M : Forall (tot al) l).
    { rewrite Forall_forall in *. intros x Hx. apply visit_tot; [auto|]. eapply item_shown; eauto. }
    apply mapM_tot in M as [M1 M2]. destruct l as [|x l]; [split; [reflexivity|discriminate]|]. cbn [bind].
    rewrite <- M1. destruct (mapM (visit false al) (x :: l)) as [ss|e]; cbn [bind is_ok]; (split; [reflexivity|]); [discriminate|].
    intros e0 E0. injection E0 as <-. destruct (M2 e eq_refl) as (y & z & H1 & H2 & H3). exists z. split; [|exact H3].
    clear - L H1 H2. destruct L; econstructor; eassumption.
  - destruct T as [-> |T]; [split; [reflexivity|discriminate]|].
    assert (N : is_none o = false) by (destruct o; try reflexivity; destruct k; cbn in T; try (inversion T; fail); decompose [ex] T; discriminate).
    rewrite N. pose proof (visit_tot al o W (item_shown k o T)) as [T1 T2].
    assert (CF : clause_fine o = fine o) by (destruct o; reflexivity). rewrite CF, <- T1.
    destruct (visit false al o); cbn [bind is_ok]; (split; [reflexivity|]); [discriminate|].
    intros e0 E0. injection E0 as <-. apply T2. reflexivity.
Qed.
Lemma clauses_tot al c ks : (forall k, wf (get k c)) -> class_typed c ->
  is_ok (mapM (fun k => print_clause al k (get k c)) ks) = forallb (fun k => clause_fine (get k c)) ks
  /\ forall e, mapM (fun k => print_clause al k (get k c)) ks = Raise e -> exists k x, occurs x (get k c) /\ hazard e x.
Proof.
  intros W T. induction ks as [|k ks [I1 I2]]; [split; [reflexivity|discriminate]|]. cbn [mapM forallb].
  destruct (clause_tot al k (get k c) (W k) (T k)) as [T1 T2]. rewrite <- I1, <- T1.
  destruct (print_clause al k (get k c)) as [s|e]; cbn [bind is_ok andb].
  - destruct (mapM _ ks); cbn [bind is_ok]; (split; [reflexivity|]); [discriminate|].
    intros e0 E0. injection E0 as <-. apply I2. reflexivity.
  - split; [reflexivity|]. intros e0 E0. injection E0 as <-. destruct (T2 e eq_refl) as (x & H). exists k, x. exact H.
Qed.
Lemma base_visit al b : exists s, visit false al (obj_of_base b) = Ok s.
Proof. destruct b; cbn; eauto. Qed.
Lemma print_tot q : wf_query q -> class_typed_query q -> forall sep,
  is_ok (print_query sep q) = query_fine q /\ forall e, print_query sep q = Raise e -> has_hazard e q.
Proof.
  induction q as [b c|i IH c]; intros W T sep; cbn [print_query query_fine].
  - destruct W as [W1 W2]. set (al := match b with BJoin _ _ => true | _ => false end).
    destruct (base_visit al b) as [s ->]. cbn [bind]. destruct (clauses_tot al c all_clauses W2 T) as [C1 C2]. rewrite <- C1.
    destruct (mapM _ all_clauses); cbn [bind is_ok]; (split; [reflexivity|]); [discriminate|].
    intros e0 E0. injection E0 as <-. destruct (C2 _ eq_refl) as (k & x & H1 & H2). exists (get k c), x.
    split; [constructor|split; assumption].
  - destruct W as [W1 W2], T as [T1 T2]. destruct (IH W1 T1 ($" ")) as [I1 I2]. rewrite <- I1.
    destruct (print_query ($" ") i) as [s|e]; cbn [bind is_ok andb].
    + destruct (clauses_tot false c all_clauses W2 T2) as [C1 C2]. rewrite <- C1.
      destruct (mapM _ all_clauses); cbn [bind is_ok]; (split; [reflexivity|]); [discriminate|].
      intros e0 E0. injection E0 as <-. destruct (C2 _ eq_refl) as (k & x & H1 & H2). exists (get k c), x.
      split; [constructor|split; assumption].
    + split; [reflexivity|]. intros e0 E0. injection E0 as <-. destruct (I2 _ eq_refl) as (o & x & H1 & H2 & H3).
      exists o, x. split; [constructor; exact H1|split; assumption].
Qed.

(** * the optimized query *)
(** neither a list nor a condition *)
Definition kept (x : obj) : Prop := (forall l, x <> OList l) /\ forall l o r, x <> OCond l o r.
Lemma hazard_kept e x : hazard e x -> kept x.
Proof. intros H. destruct H; split; discriminate. Qed.
Lemma optimize_condition_wf c n : wf c -> optimize_condition c = Ok (Some n) ->
  wf n /\ a_condition n /\ fine n = fine c /\ forall x, occurs x n -> kept x -> occurs x c.
Proof.
  intros W E. rewrite optimize_condition_try in E. destruct (merge_try c) as [[lhs rs]|] eqn:M; [|discriminate].
  apply bind_Ok in E as (n' & E & E'). injection E' as <-. unfold mk_condition in E.
  destruct (negb (is_col_or_func lhs)) eqn:N; [discriminate|]. apply bind_Ok in E as ([] & CC & E). injection E as <-.
  assert (MG : mergeable c) by (apply merge_try_mergeable; eauto). apply merge_try_merged in M. destruct MG as [cls k l1 r1 rest F].
  inversion M; subst. assert (W' : Forall wf (OCond lhs EQ r1 :: rest)) by (inversion W; assumption).
  assert (Wr : Forall wf (r1 :: map rhs_of rest)).
  { inversion_clear W' as [|y z A B]. constructor; [inversion A; assumption|]. clear - B F.
    induction F as [|y z (l & r & -> & _) _ IH]; [constructor|]. inversion_clear B. constructor; [|apply IH; assumption].
    match goal with H : wf (OCond _ _ _) |- _ => inversion H; assumption end. }
  assert (Wl : wf lhs) by (inversion_clear W' as [|y z A B]; inversion A; assumption).
  split; [|split; [constructor|split]].
  - constructor; [exact CC|exact Wl|constructor; exact Wr].
  - cbn [fine forallb is_unary orb]. inversion_clear W' as [|y z A B].
    assert (G : fine lhs && forallb fine (map rhs_of rest) = fine lhs && forallb fine rest).
    { clear - F B Wl. induction F as [|y z (l & r & -> & P) _ IH]; [reflexivity|]. inversion_clear B as [|? ? H1 H2].
      cbn [map forallb rhs_of fine is_unary orb].
      assert (K : fine l = fine lhs) by (apply py_eq_fine; [inversion H1; assumption|exact Wl|exact P]). rewrite K.
      specialize (IH H2). destruct (fine lhs); [|reflexivity]. cbn [andb] in *. rewrite IH. reflexivity. }
    destruct (fine lhs) eqn:FL; [|reflexivity]. cbn [andb] in *. rewrite G. reflexivity.
  - intros x O H. inversion O; subst.
    + elim (proj2 H _ _ _ eq_refl).
    + eapply oc_cond; [left; reflexivity|]. apply oc_lhs. assumption.
    + match goal with O : occurs x (OList _) |- _ => inversion O; subst end; [elim (proj1 H _ eq_refl)|].
      match goal with I : In _ (r1 :: _) |- _ => destruct I as [I|I] end.
      * subst. eapply oc_cond; [left; reflexivity|]. apply oc_rhs. assumption.
      * match goal with I : In _ (map rhs_of rest) |- _ => apply in_map_iff in I as (z & Ez & Iz) end.
        rewrite Forall_forall in F. destruct (F _ Iz) as (l & r & -> & _). cbn in Ez. subst.
        eapply oc_cond; [right; exact Iz|]. apply oc_rhs. assumption.
Qed.
Lemma optimize_list_wf l l' : Forall wf l -> Forall a_condition l -> optimize l = Ok (Some l') ->
  Forall wf l' /\ Forall a_condition l' /\ forallb fine l' = forallb fine l
  /\ forall x, occurs x (OList l') -> kept x -> exists y, In y l /\ occurs x y.
Proof.
  intros W C E. unfold optimize in E. apply bind_Ok in E as (rs & E & H). destruct (existsb _ rs); [|discriminate].
  injection H as <-.
  assert (K : forall rs, mapM (fun c => let! r := optimize_condition c in Ok (c, r)) l = Ok rs ->
    Forall2 (fun c n => wf n /\ a_condition n /\ fine n = fine c /\ forall x, occurs x n -> kept x -> occurs x c) l
      (map (fun cr => match snd cr with Some n => n | None => fst cr end) rs)).
  { clear E rs. induction l as [|c l IH]; cbn [mapM]; intros rs E; [injection E as <-; constructor|].
    apply bind_Ok in E as (cr & E1 & E). apply bind_Ok in E as (rs' & E2 & E). injection E as <-.
    apply bind_Ok in E1 as (r & E1 & E3). injection E3 as <-. inversion_clear W. inversion_clear C. cbn [map fst snd]. constructor; [|apply IH; assumption].
    destruct r as [n|]; [eapply optimize_condition_wf; eassumption|]. auto. }
  apply K in E. clear K W C. set (l' := map _ rs) in *. clearbody l'. induction E as [|c n l l' (A & B & D & G) _ (I1 & I2 & I3 & I4)].
  - repeat split; try constructor. intros x O Hz. inversion O; subst; [elim (proj1 Hz _ eq_refl)|]. contradiction.
  - split; [constructor; assumption|]. split; [constructor; assumption|]. split; [cbn [forallb]; congruence|].
    intros x O Hz. inversion O as [|? y ? I O'| | | | | | | | | | | | | |]; subst; [elim (proj1 Hz _ eq_refl)|]. destruct I as [<-|I].
    + exists c. split; [left; reflexivity|]. eapply G; eassumption.
    + destruct (I4 x) as (z & Hz1 & Hz2); [econstructor; eassumption|exact Hz|]. exists z. split; [right; exact Hz1|exact Hz2].
Qed.

Lemma where_cases c : class_typed c -> get CWhere c = ONone \/ exists l, list_or_tuple (get CWhere c) l /\ Forall a_condition l.
Proof. intros T. exact (T CWhere). Qed.
(** what the optimizer does to a query *)
Lemma optimize_query_spec q : wf_query q -> class_typed_query q -> inner_valid q ->
  (exists l, filters q l /\ Forall (fun c => ~ mergeable c) l /\ optimize_query q = Ok q)
  \/ exists l l', filters q l /\ optimize l = Ok (Some l') /\ Forall wf l /\ Forall a_condition l
       /\ optimize_query q = Ok (q_with q (upd CWhere (OList l') (q_clauses q))).
Proof.
  intros W T V. unfold optimize_query. pose proof (class_typed_here q T) as TC. apply where_cases in TC.
  change (get CWhere (q_clauses q)) with (c_where (q_clauses q)) in TC. unfold filters. destruct TC as [E|(l & L & F)].
  - left. exists []. split; [left; auto|]. split; [constructor|]. rewrite E. reflexivity.
  - assert (N : is_none (c_where (q_clauses q)) = false) by (destruct L; reflexivity). rewrite N.
    destruct (lt_iter _ _ L) as [EI _]. rewrite EI. cbn [bind].
    assert (Wl : Forall wf l) by (eapply lt_wf; [exact L|apply (wf_query_clauses q W CWhere)]).
    destruct (optimize_total l Wl) as [[l'|] E]; rewrite E; cbn [bind].
    + right. exists l, l'. repeat split; auto. unfold replace_clause. apply post_init_iff. split; [reflexivity|].
      intros i Hi. apply V. rewrite <- Hi. symmetry. apply q_match_with.
    + left. exists l. split; [auto|]. split; [apply optimize_None, E|reflexivity].
Qed.
Lemma optimized_typed q l l' : wf_query q -> class_typed_query q -> filters q l ->
  Forall wf l' -> Forall a_condition l' ->
  wf_query (q_with q (upd CWhere (OList l') (q_clauses q))) /\ class_typed_query (q_with q (upd CWhere (OList l') (q_clauses q))).
Proof.
  intros W T FL W' C'.
  assert (A : forall k, wf (get k (upd CWhere (OList l') (q_clauses q)))).
  { intros k. destruct (clause_dec CWhere k) as [<-|N].
    - rewrite get_upd_same. constructor. exact W'.
    - rewrite get_upd_other by exact N. apply wf_query_clauses, W. }
  assert (B : class_typed (upd CWhere (OList l') (q_clauses q))).
  { intros k. destruct (clause_dec CWhere k) as [<-|N].
    - rewrite get_upd_same. right. cbn. exists l'. split; [constructor|exact C'].
    - rewrite get_upd_other by exact N. apply class_typed_here, T. }
  destruct q; cbn in *; tauto.
Qed.
Lemma fine_where q l l' : filters q l -> forallb fine l' = forallb fine l ->
  query_fine (q_with q (upd CWhere (OList l') (q_clauses q))) = query_fine q.
Proof.
  intros FL E.
  assert (K : forallb (fun k => clause_fine (get k (upd CWhere (OList l') (q_clauses q)))) all_clauses
    = forallb (fun k => clause_fine (get k (q_clauses q))) all_clauses).
  { assert (WF : clause_fine (c_where (q_clauses q)) = forallb fine l).
    { destruct FL as [[-> ->]|L]; [reflexivity|]. destruct L; reflexivity. }
    destruct (q_clauses q) as [s g a w h o lb li f gr t]. cbn [forallb all_clauses get upd c_select c_groupby c_array_join c_where c_having
      c_orderby c_limitby c_limit c_offset c_granularity c_totals] in *. cbn [clause_fine]. rewrite E, WF. reflexivity. }
  destruct q; cbn [q_with query_fine q_clauses] in *; [exact K|]. rewrite K. reflexivity.
Qed.
Lemma part_with q c o : part_of o (q_with q c) -> part_of o q \/ exists k, o = get k c.
Proof. intros P. destruct q; cbn [q_with] in P; inversion P; subst; eauto using po_base, po_inner. Qed.
Lemma part_clause k q : part_of (get k (q_clauses q)) q.
Proof. destruct q; constructor. Qed.
Lemma hazard_where e q l l' : filters q l -> (forall x, occurs x (OList l') -> kept x -> exists y, In y l /\ occurs x y) ->
  has_hazard e (q_with q (upd CWhere (OList l') (q_clauses q))) -> has_hazard e q.
Proof.
  intros FL G (o & x & P & O & Hz). apply part_with in P as [P|[k ->]]; [exists o, x; auto|].
  destruct (clause_dec CWhere k) as [<-|N].
  - rewrite get_upd_same in O. destruct (G x O (hazard_kept e x Hz)) as (y & I & O'). exists (get CWhere (q_clauses q)), x.
    split; [apply part_clause|]. split; [|exact Hz]. cbn [get]. destruct FL as [[-> ->]|L]; [contradiction|].
    destruct L; econstructor; eassumption.
  - rewrite get_upd_other in O by exact N. exists (get k (q_clauses q)), x. split; [apply part_clause|auto].
Qed.

Lemma validate_inner q : validate q = Ok tt -> inner_valid q.
Proof. destruct q as [b c|i c]; intros H j E; [discriminate|]. injection E as <-. cbn [validate] in H. apply bind_Ok in H as ([] & H & _). exact H. Qed.

(** * C33 *)
Lemma c33_print q : wf_query q -> class_typed_query q -> validate q = Ok tt ->
  (exists s, print q = Ok s) \/ (exists e, print q = Raise e /\ has_hazard e q).
Proof.
  intros W T V. unfold print. rewrite V. cbn [bind]. destruct (print_tot q W T [NL]) as [_ P].
  destruct (print_query [NL] q); eauto.
Qed.
Lemma c33_serialize q : wf_query q -> class_typed_query q -> validate q = Ok tt ->
  (exists s, serialize q = Ok s) \/ (exists e, serialize q = Raise e /\ has_hazard e q).
Proof.
  intros W T V. unfold serialize. rewrite V. cbn [bind].
  destruct (optimize_query_spec q W T (validate_inner q V)) as [(l & _ & _ & E)|(l & l' & FL & E1 & Wl & Cl & E)]; rewrite E; cbn [bind].
  - destruct (print_tot q W T ($" ")) as [_ P]. destruct (print_query ($" ") q); eauto.
  - destruct (optimize_list_wf l l' Wl Cl E1) as (W' & C' & _ & HZ). destruct (optimized_typed q l l' W T FL W' C') as [Wq Tq].
    destruct (print_tot _ Wq Tq ($" ")) as [_ P]. destruct (print_query ($" ") _) as [s|e]; [eauto|].
    right. exists e. split; [reflexivity|]. apply (hazard_where e q l l' FL HZ). apply P. reflexivity.
Qed.

(** * C21 *)
Lemma names_or_kept x : names_are one_line x \/ kept x.
Proof. destruct x; try (left; exact I); right; split; discriminate. Qed.
Lemma c21_lemma q s : float_one_line -> wf_query q -> class_typed_query q -> query_one_line q -> serialize q = Ok s -> one_line s.
Proof.
  intros FR W T N E. unfold serialize in E. apply bind_Ok in E as ([] & V & E). apply bind_Ok in E as (q' & EO & E).
  assert (S : one_line ($" ")) by (intros [X|[]]; discriminate X).
  destruct (optimize_query_spec q W T (validate_inner q V)) as [(l & FL & NM & E')|(l & l' & FL & E1 & Wl & Cl & E')]; rewrite E' in EO; injection EO as <-.
  - eapply query_text_one_line; eassumption.
  - destruct (optimize_list_wf l l' Wl Cl E1) as (W' & C' & _ & G). destruct (optimized_typed q l l' W T FL W' C') as [Wq Tq].
    eapply query_text_one_line; [exact FR|exact S|exact Wq| |exact E]. intros o x P O.
    destruct (names_or_kept x) as [H|H]; [exact H|]. apply part_with in P as [P|[k ->]]; [exact (N o x P O)|].
    destruct (clause_dec CWhere k) as [<-|NE].
    + rewrite get_upd_same in O. destruct (G x O H) as (y & I & O'). apply (N (get CWhere (q_clauses q))); [apply part_clause|].
      cbn [get]. destruct FL as [[_ ->]|L]; [contradiction|]. destruct L; econstructor; eassumption.
    + rewrite get_upd_other in O by exact NE. exact (N _ x (part_clause k q) O).
Qed.

(** * C20 *)
Lemma c20_same q : wf_query q -> class_typed_query q -> is_ok (serialize q) = is_ok (print q).
Proof.
  intros W T. unfold serialize, print. destruct (validate q) as [[]|e] eqn:V; [|reflexivity]. cbn [bind].
  destruct (print_tot q W T [NL]) as [P _]. rewrite P.
  destruct (optimize_query_spec q W T (validate_inner q V)) as [(l & _ & _ & E)|(l & l' & FL & E1 & Wl & Cl & E)]; rewrite E; cbn [bind].
  - apply (print_tot q W T ($" ")).
  - destruct (optimize_list_wf l l' Wl Cl E1) as (W' & C' & Fi & HZ). destruct (optimized_typed q l l' W T FL W' C') as [Wq Tq].
    rewrite <- (fine_where q l l' FL Fi). apply (print_tot _ Wq Tq ($" ")).
Qed.
Lemma print_query_raise q : forall e sep sep', print_query sep q = Raise e -> print_query sep' q = Raise e.
Proof.
  destruct q as [b c|i c]; intros e sep sep'; cbn [print_query].
  - destruct (visit false _ (obj_of_base b)); cbn [bind]; [|auto]. destruct (mapM _ all_clauses); cbn [bind]; [discriminate|auto].
  - destruct (print_query ($" ") i); cbn [bind]; [|auto]. destruct (mapM _ all_clauses); cbn [bind]; [discriminate|auto].
Qed.
Lemma c20_text q l : wf_query q -> class_typed_query q -> filters q l -> Forall (fun c => ~ mergeable c) l ->
  (exists parts, query_parts q parts /\ serialize q = Ok (join ($" ") parts) /\ print q = Ok (join [NL] parts))
  \/ (exists e, serialize q = Raise e /\ print q = Raise e).
Proof.
  intros W T FL NM. unfold serialize, print. destruct (validate q) as [[]|e] eqn:V; [|right; exists e; auto]. cbn [bind].
  assert (E : optimize_query q = Ok q).
  { unfold optimize_query. destruct FL as [[-> _]|L]; [reflexivity|]. destruct (is_none _); [reflexivity|].
    destruct (lt_iter _ _ L) as [-> _]. cbn [bind]. rewrite (optimize_not_mergeable l NM). reflexivity. }
  rewrite E. cbn [bind]. pose proof (class_seq_typed_query q T) as ST. destruct (print_query ($" ") q) as [s|e] eqn:P.
  - left. apply (print_query_parts q W ST) in P as (parts & P & ->). exists parts. split; [exact P|]. split; [reflexivity|].
    apply (print_query_parts q W ST). exists parts. auto.
  - right. exists e. split; [reflexivity|]. apply (print_query_raise q e ($" ")), P.
Qed.
Lemma c20_raise q e : wf_query q -> class_typed_query q -> validate q = Raise e -> serialize q = Raise e /\ print q = Raise e.
Proof. intros W T V. unfold serialize, print. rewrite V. auto. Qed.

(** * C36 *)
Lemma c36_lemma q s : wf_query q -> class_typed_query q -> serialize q = Ok s ->
  exists q' parts l l', same_but_where q q' /\ query_parts q' parts /\ s = join ($" ") parts
    /\ filters q l /\ filters q' l' /\ Forall2 optimized_at l l'
    /\ (forall I, in_is_any I -> sees_python_equality I -> group_truth I l' = group_truth I l)
    /\ (Forall merges_exactly l -> forall I, in_is_any I -> sees_text I -> group_truth I l' = group_truth I l).
Proof.
  intros W T E. unfold serialize in E. apply bind_Ok in E as ([] & V & E). apply bind_Ok in E as (q' & EO & E).
  destruct (optimize_query_spec q W T (validate_inner q V)) as [(l & FL & NM & E')|(l & l' & FL & E1 & Wl & Cl & E')]; rewrite E' in EO; injection EO as <-.
  - apply print_query_parts in E as (parts & P & ->); [|exact W|apply class_seq_typed_query, T].
    exists q, parts, l, l. split; [split; reflexivity|]. repeat (split; [assumption || reflexivity|]).
    split; [|split; reflexivity]. clear - NM. induction NM; constructor; auto. right. auto.
  - destruct (optimize_list_wf l l' Wl Cl E1) as (W' & C' & _). destruct (optimized_typed q l l' W T FL W' C') as [Wq Tq].
    apply print_query_parts in E as (parts & P & ->); [|exact Wq|apply class_seq_typed_query, Tq].
    exists (q_with q (upd CWhere (OList l') (q_clauses q))), parts, l, l'.
    split. { split; [apply q_match_with|]. intros k N. rewrite q_clauses_with. apply get_upd_other. auto. }
    repeat (split; [assumption || reflexivity|]).
    split. { right. rewrite q_clauses_with. change (c_where (upd CWhere (OList l') (q_clauses q))) with (get CWhere (upd CWhere (OList l') (q_clauses q))).
      rewrite get_upd_same. constructor. }
    split; [apply optimize_Some, E1|]. split.
    + intros I H1 H2. eapply c34_general; eassumption.
    + intros X I H1 H2. eapply c34_text; eassumption.
Qed.

(** * C32 *)
Lemma flatten1_and o k l : flatten1 (OBoolC BAnd o k l) = flat_map flatten1 l.
Proof. reflexivity. Qed.
Lemma flatten_leaves c : leaves c (flatten1 c).
Proof.
  induction c using obj_ind'; try (apply lv_leaf; intros (? & ? & ? & ?); discriminate).
  destruct c; try (apply lv_leaf; intros (? & ? & ? & E); discriminate E).
  rewrite flatten1_and. constructor. induction H as [|x l Hx _ IH]; cbn [flat_map]; constructor; assumption.
Qed.
Lemma c32_leaves l : leaves_all l (get_first_level_and_conditions l).
Proof. induction l as [|c l IH]; [constructor|]. apply lv_cons; [apply flatten_leaves|exact IH]. Qed.
Scheme leaves_mut := Induction for leaves Sort Prop with leaves_all_mut := Induction for leaves_all Sort Prop.
Combined Scheme leaves_ind2 from leaves_mut, leaves_all_mut.
Lemma leaves_facts : (forall c l, leaves c l -> Forall (fun x => ~ is_and x) l /\ forall v, forallb (holds v) l = holds v c)
  /\ (forall cs l, leaves_all cs l -> Forall (fun x => ~ is_and x) l /\ forall v, forallb (holds v) l = forallb (holds v) cs).
Proof.
  apply leaves_ind2.
  - intros c N. split; [repeat constructor; exact N|]. intros v. cbn. apply andb_true_r.
  - intros o k cs ls _ [A B]. split; [exact A|]. exact B.
  - split; [constructor|reflexivity].
  - intros c cs l ls _ [A B] _ [A' B']. split; [apply Forall_app; auto|]. intros v. rewrite forallb_app, B, B'. reflexivity.
Qed.
Lemma c32_lemma l : leaves_all l (get_first_level_and_conditions l)
  /\ Forall (fun x => ~ is_and x) (get_first_level_and_conditions l)
  /\ forall v, forallb (holds v) l = forallb v (get_first_level_and_conditions l).
Proof.
  pose proof (c32_leaves l) as L. split; [exact L|]. apply (proj2 leaves_facts) in L as [A B]. split; [exact A|].
  intros v. rewrite <- B. clear - A. induction A as [|x m N _ IH]; [reflexivity|]. cbn [forallb]. rewrite IH. f_equal.
  destruct x; try reflexivity. destruct cls; try reflexivity. elim N. eexists _, _, _. reflexivity.
Qed.
Lemma leaves_det : (forall c l, leaves c l -> forall l', leaves c l' -> l = l')
  /\ (forall cs l, leaves_all cs l -> forall l', leaves_all cs l' -> l = l').
Proof.
  apply leaves_ind2.
  - intros c N l' H. inversion H; subst; [reflexivity|]. elim N. eexists _, _, _. reflexivity.
  - intros o k cs ls _ IH l' H. inversion H as [c N|]; subst; [elim N; eexists _, _, _; reflexivity|auto].
  - intros l' H. inversion H. reflexivity.
  - intros c cs l ls _ IH1 _ IH2 l' H. inversion H; subst. f_equal; auto.
Qed.
(** three-valued *)
Lemma and3_assoc a b c : and3 (and3 a b) c = and3 a (and3 b c).
Proof. destruct a, b, c; reflexivity. Qed.
Lemma all3_app l m : all3 (l ++ m) = and3 (all3 l) (all3 m).
Proof.
  unfold all3. induction l as [|x l IH]; cbn [app fold_right]; [destruct (fold_right and3 TTrue m); reflexivity|]. rewrite IH, and3_assoc. reflexivity.
Qed.
Lemma and3_true a : and3 a TTrue = a.
Proof. destruct a; reflexivity. Qed.
Definition and_cls (c : obj) : Prop := forall x, occurs x c -> forall o k l, x = OBoolC BAnd o k l -> o = AND.
Lemma c32_truth I l : Forall and_cls l -> group_truth I (get_first_level_and_conditions l) = group_truth I l.
Proof.
  unfold group_truth, get_first_level_and_conditions. intros F.
  assert (K : forall c, and_cls c -> all3 (map (truth I) (flatten1 c)) = truth I c).
  { clear l F. induction c using obj_ind'; intros A; try (apply and3_true; fail).
    match goal with |- context [OBoolC ?x _ _ _] => destruct x end; try (apply and3_true; fail).
    rewrite flatten1_and. assert (o = AND) as -> by (eapply A; [constructor|reflexivity]). cbn [truth].
    assert (A' : Forall and_cls l).
    { apply Forall_forall. intros y Hy x Ox. apply A. econstructor; eassumption. }
    clear A. induction H as [|x l Hx _ IH]; [reflexivity|]. inversion_clear A'. cbn [flat_map map]. rewrite map_app, all3_app, IH by assumption.
    rewrite Hx by assumption. reflexivity. }
  induction F as [|c l A _ IH]; [reflexivity|]. cbn [flat_map map]. rewrite map_app, all3_app, IH, K by assumption. reflexivity.
Qed.

(** * C31 *)
Lemma top_level_iff c x : In c (flatten1 x) <-> top_level c x.
Proof.
  induction x using obj_ind';
    try (cbn [flatten1 In]; split; [intros [<-|[]]; apply tl_self; discriminate|intros T; inversion T; subst; auto; fail]).
  match goal with |- context [OBoolC ?x _ _ _] => destruct x end; try (cbn [flatten1 In]; split; [intros [<-|[]]; apply tl_self; discriminate|intros T; inversion T; subst; auto; fail]).
  rewrite flatten1_and, in_flat_map. rewrite Forall_forall in H. split.
  - intros (y & Hy & I). eapply tl_and; [exact Hy|]. apply H; assumption.
  - intros T. inversion T as [? N|]; subst; [elim (N _ _ _ eq_refl)|]. exists y. split; [assumption|]. apply H; assumption.
Qed.
Lemma matching_iff ops name alias c : matching_cond ops name alias c = true <-> condition_on ops name alias c.
Proof.
  unfold matching_cond, condition_on. split.
  - destruct c; try discriminate. destruct c1; try discriminate. intros H. apply andb_true_iff in H as [H H3].
    apply andb_true_iff in H as [H1 H2]. apply str_eqb_eq in H2. apply existsb_exists in H3 as (o' & I & E).
    eexists _, _, _. split; [reflexivity|]. split; [destruct o, o'; try discriminate E; exact I|]. split; [exact H2|].
    intros e Ee. rewrite Ee in H1. apply option_str_eq, H1.
  - intros (k & o & r & -> & I & <- & A). apply andb_true_iff. split; [apply andb_true_iff; split|].
    + destruct (c_entity k) as [e|] eqn:Ee; [|reflexivity]. apply option_eqb_iff; [apply str_eqb_eq|]. auto.
    + apply str_eqb_eq. reflexivity.
    + apply existsb_exists. exists o. split; [exact I|]. destruct o; reflexivity.
Qed.
Lemma has_iff ops name alias l : existsb (matching_cond ops name alias) (get_first_level_and_conditions l) = true
  <-> exists x c, In x l /\ top_level c x /\ condition_on ops name alias c.
Proof.
  rewrite existsb_exists. unfold get_first_level_and_conditions. split.
  - intros (c & I & M). apply in_flat_map in I as (x & Ix & Ic). exists x, c. rewrite <- top_level_iff, <- matching_iff. auto.
  - intros (x & c & I & T & M). exists c. rewrite matching_iff. split; [|exact M]. apply in_flat_map. exists x. rewrite top_level_iff. auto.
Qed.
Lemma required_entity e w : (w = ONone \/ exists l, list_or_tuple w l) ->
  (check_entity_required e w = Ok tt <-> entity_required_ok e w)
  /\ forall x, check_entity_required e w = Raise x -> x = RequiredColumnError.
Proof.
  intros T. unfold check_entity_required, entity_required_ok. destruct (e_dm e) as [d|].
  2:{ split; [|discriminate]. split; [intros _ d H; discriminate|reflexivity]. }
  unfold check_required_with, required_ok. destruct T as [-> |(l & L)].
  { cbn. split; [|intros x H; congruence]. split; [discriminate|]. intros H. destruct (H d eq_refl) as (l & L & _). inversion L. }
  destruct (lt_iter _ _ L) as [EI ET]. rewrite ET. destruct l as [|c l].
  { cbn. split; [|intros x H; congruence]. split; [discriminate|]. intros H. destruct (H d eq_refl) as (l & L' & _ & (x & c & I & _) & _).
    rewrite (lt_fun _ _ _ L' L) in I. destruct I. }
  set (ll := c :: l) in *. cbn [negb]. rewrite EI. cbn [bind].
  destruct (forallb _ (dm_required d)) eqn:R; cbn [bind].
  - set (ops := [GTE; LT]). destruct (forallb _ ops) eqn:G.
    + split; [|discriminate]. split; [|reflexivity]. intros _ d0 E0. injection E0 as <-. exists ll. split; [exact L|]. cbn zeta.
      rewrite forallb_forall in R, G. split; [|split].
      * intros r I Q. apply has_iff. apply R. unfold dm_required. apply filter_In. auto.
      * apply has_iff. apply G. left. reflexivity.
      * apply has_iff. apply G. right. left. reflexivity.
    + split; [|intros x H; congruence]. split; [discriminate|]. intros H. destruct (H d eq_refl) as (l' & L' & _ & H1 & H2).
      rewrite (lt_fun _ _ _ L' L) in *. apply has_iff in H1, H2. cbn [forallb ops] in G. rewrite H1, H2 in G. discriminate.
  - split; [|intros x H; congruence]. split; [discriminate|]. intros H. destruct (H d eq_refl) as (l' & L' & H1 & _).
    rewrite (lt_fun _ _ _ L' L) in *. exfalso. assert (forallb (fun r => existsb (matching_cond [EQ; IN] (sc_name r) (e_alias e)) (get_first_level_and_conditions ll)) (dm_required d) = true); [|congruence].
    apply forallb_forall. intros r I. apply filter_In in I as [I Q]. apply has_iff. apply H1; assumption.
Qed.
Lemma c31_lemma q : seq_typed_query q ->
  (validate_required_columns q = Ok tt <-> query_required_ok q)
  /\ forall e, validate_required_columns q = Raise e -> e = RequiredColumnError.
Proof.
  induction q as [b c|i IH c]; [|intros [T1 _]; apply IH, T1]. intros T.
  assert (TW : c_where c = ONone \/ exists l, list_or_tuple (c_where c) l) by (eapply (T CWhere); reflexivity).
  destruct b as [e|s|k rels]; cbn [validate_required_columns query_required_ok].
  - apply required_entity, TW.
  - split; [split; auto|discriminate].
  - split.
    + rewrite check_all_Ok, Forall_forall. unfold join_entities. split.
      * intros H r I. split; apply (required_entity _ _ TW), H; apply in_flat_map; exists r; cbn; auto.
      * intros H e I. apply in_flat_map in I as (r & I & [<-|[<-|[]]]); apply (required_entity _ _ TW), H; exact I.
    + intros e E. apply check_all_Raise in E as (x & _ & E). apply (required_entity x _ TW), E.
Qed.

(** * C30 *)
Lemma check_all_order {A} (f : A -> result unit) l l' e : (forall x e', In x l -> f x = Raise e' -> e' = e) ->
  (forall x, In x l' <-> In x l) -> check_all f l' = check_all f l.
Proof.
  intros F H. destruct (check_all f l) as [[]|e1] eqn:E.
  - apply check_all_Ok. apply check_all_Ok in E. rewrite Forall_forall in *. intros x I. apply E, H, I.
  - pose proof E as E'. apply check_all_Raise in E as (x & I & E). pose proof (F x e1 I E) as ->.
    destruct (check_all f l') as [[]|e2] eqn:E2.
    + apply check_all_Ok in E2. rewrite Forall_forall in E2. apply H in I. rewrite (E2 x I) in E. discriminate.
    + apply check_all_Raise in E2 as (y & J & E2). apply H in J. rewrite (F y e2 J E2). reflexivity.
Qed.
Lemma join_check_raise maps : forall seen e, join_check seen maps = Raise e -> e = InvalidExpressionError.
Proof.
  induction maps as [|[a n] maps IH]; cbn [join_check]; intros seen e E; [discriminate|].
  destruct (assoc a seen); [|eauto]. destruct (str_eqb _ n); [eauto|congruence].
Qed.
Lemma consistent_same maps maps' : (forall x, In x maps' <-> In x maps) -> consistent maps <-> consistent maps'.
Proof. intros H. unfold consistent. split; intros C a n n' I J; eapply C; apply H; eassumption. Qed.
Lemma join_check_order maps maps' : (forall x, In x maps' <-> In x maps) -> join_check [] maps' = join_check [] maps.
Proof.
  intros H. pose proof (consistent_same _ _ H) as C. rewrite <- !join_check_iff in C.
  destruct (join_check [] maps) as [[]|e] eqn:E, (join_check [] maps') as [[]|e'] eqn:E'; try reflexivity.
  - apply proj1 in C. discriminate (C eq_refl).
  - apply proj2 in C. discriminate (C eq_refl).
  - apply join_check_raise in E, E'. congruence.
Qed.
Lemma mk_join_order om r : reorders om -> join_in_order om r = mk_join r.
Proof.
  intros H. unfold join_in_order, mk_join. destruct (as_list_or_tuple r) as [[k [|x l]]|]; try reflexivity.
  destruct (all_rels (x :: l)) as [rs|]; [|reflexivity]. rewrite (join_check_order _ (om (alias_mappings rs)) (H _)). reflexivity.
Qed.
Lemma base_order om b : reorders om -> base_in_order om b = base_validate b.
Proof.
  intros H. destruct b as [e|s|k rels]; try reflexivity. destruct rels as [|r rels]; [reflexivity|]. cbn [base_in_order].
  exact (join_check_order _ _ (H _)).
Qed.
Definition join_column (maps : list (str * str)) (o : obj) : result unit :=
  match o with
  | OColumn c =>
      match c_entity c with
      | None => Raise InvalidMatchError
      | Some e =>
          match e_alias e with
          | None => Raise InvalidMatchError
          | Some a =>
              match assoc a (alias_dict maps) with
              | None => Raise InvalidMatchError
              | Some n => assert_ (str_eqb n (e_name e)) InvalidMatchError
              end
          end
      end
  | _ => Raise AssertionError
  end.
Lemma join_with_order maps maps' cols cols' : consistent maps -> only_columns cols ->
  (forall x, In x maps' <-> In x maps) -> (forall x, In x cols' <-> In x cols) ->
  validate_join_with maps' cols' = validate_join_with maps cols.
Proof.
  intros C O HM HC. unfold only_columns in O. rewrite Forall_forall in O. unfold validate_join_with.
  set (f := join_column). change (check_all (f maps') cols' = check_all (f maps) cols).
  assert (E : forall x, f maps' x = f maps x).
  { intros x. unfold f, join_column. destruct x; try reflexivity. destruct (c_entity c) as [e|]; [|reflexivity]. destruct (e_alias e) as [a|]; [|reflexivity].
    assert (A : assoc a (alias_dict maps') = assoc a (alias_dict maps)); [|rewrite A; reflexivity].
    assert (C' : consistent maps') by (eapply consistent_same; [|exact C]; intros; symmetry; apply HM).
    assert (K : forall n, assoc a (alias_dict maps') = Some n <-> assoc a (alias_dict maps) = Some n).
    { intros n. rewrite !assoc_consistent by assumption. apply HM. }
    destruct (assoc a (alias_dict maps')) as [n|], (assoc a (alias_dict maps)) as [n'|]; try reflexivity.
    - pose proof (proj1 (K n) eq_refl). congruence.
    - pose proof (proj1 (K n) eq_refl). congruence.
    - pose proof (proj2 (K n') eq_refl). congruence. }
  transitivity (check_all (f maps) cols').
  - clear - E. induction cols' as [|x l IH]; [reflexivity|]. cbn [check_all]. rewrite E, IH. reflexivity.
  - apply check_all_order with (e := InvalidMatchError); [|exact HC]. intros x e I. unfold f, join_column.
    destruct (O x I) as [c ->]. destruct (c_entity c) as [e0|]; [|congruence]. destruct (e_alias e0) as [a|]; [|congruence].
    destruct (assoc a _) as [n|]; [|congruence]. destruct (str_eqb n _); cbn; congruence.
Qed.
Lemma match_order oc om q : reorders oc -> reorders om -> wf_query q -> match_in_order oc om q = validate_match q.
Proof.
  intros HC HM W. unfold match_in_order, validate_match. destruct (search TColumn q) as [cols|e] eqn:S; [|reflexivity].
  cbn [bind]. pose proof (search_columns q cols S) as OC. pose proof OC as O. unfold only_columns in O. rewrite Forall_forall in O.
  assert (D : forall dm, validate_dm dm (oc cols) = validate_dm dm cols).
  { intros dm. unfold validate_dm. apply check_all_order with (e := InvalidColumnError); [|apply HC].
    intros x e I. destruct (O x I) as [c ->]. apply data_model_raise. }
  destruct q as [[e|s|k rels] c|i c]; try apply D.
  - apply join_with_order; [|exact OC|apply HM|apply HC]. apply join_check_iff.
    destruct W as [W _]. apply base_revalidate in W. destruct rels; [discriminate|exact W].
  - unfold validate_subquery. destruct (is_none _); [reflexivity|]. destruct (iter _) as [sel|e]; [|reflexivity]. cbn [bind].
    apply check_all_order with (e := InvalidMatchError); [|apply HC]. intros x e I. destruct (O x I) as [cc ->].
    destruct (mem_str _ _); cbn; congruence.
Qed.
Lemma validate_order oc om q : reorders oc -> reorders om -> wf_query q -> validate_in_order oc om q = validate q.
Proof.
  intros HC HM. induction q as [b c|i IH c]; intros W.
  - cbn [validate_in_order validate]. rewrite base_order by exact HM. unfold combine_in_order, validate_combine.
    rewrite (match_order oc om _ HC HM W). reflexivity.
  - cbn [validate_in_order validate]. rewrite IH by apply W. unfold combine_in_order, validate_combine.
    rewrite (match_order oc om _ HC HM W). reflexivity.
Qed.
Lemma forallb_same {A} (f : A -> bool) l l' : (forall x, In x l' <-> In x l) -> forallb f l' = forallb f l.
Proof.
  intros H. destruct (forallb f l) eqn:E.
  - apply forallb_forall. rewrite forallb_forall in E. intros x I. apply E, H, I.
  - destruct (forallb f l') eqn:E'; [|reflexivity]. rewrite <- E. symmetry. apply forallb_forall. rewrite forallb_forall in E'.
    intros x I. apply E', H, I.
Qed.
Lemma entity_required_order oq e w : reorders oq -> entity_required_in_order oq e w = check_entity_required e w.
Proof.
  intros H. unfold entity_required_in_order, check_entity_required. destruct (e_dm e) as [d|]; [|reflexivity].
  unfold check_required_with. destruct (negb _); [reflexivity|]. destruct (iter w); [|reflexivity]. cbn [bind].
  rewrite (forallb_same _ _ _ (H (dm_required d))). reflexivity.
Qed.
Lemma required_order_lemma oe oq q : reorders oe -> reorders oq -> seq_typed_query q ->
  required_in_order oe oq q = validate_required_columns q.
Proof.
  intros HE HQ. induction q as [b c|i IH c]; [|intros [T _]; apply IH, T]. intros T.
  assert (TW : c_where c = ONone \/ exists l, list_or_tuple (c_where c) l) by (eapply (T CWhere); reflexivity).
  destruct b as [e|s|k rels]; cbn [required_in_order validate_required_columns]; [apply entity_required_order, HQ|reflexivity|].
  transitivity (check_all (fun e => check_entity_required e (c_where c)) (oe (join_entities rels))).
  - generalize (oe (join_entities rels)) as l. induction l as [|x l IH]; [reflexivity|]. cbn [check_all].
    rewrite entity_required_order by exact HQ. rewrite IH. reflexivity.
  - apply check_all_order with (e := RequiredColumnError); [|apply HE]. intros x e _. apply required_entity, TW.
Qed.
End Q.

(** * wrappers in API terms *)
Section W.
Context {RT : PyRT}.
Lemma c18_expression o : api o -> visit false true o = visit false false (qualified o).
Proof. intros A. apply visit_qualified, wf_aliased_columns, api_wf, A. Qed.
Lemma c18_column c e a : c_entity c = Some e -> e_alias e = Some a ->
  item_text true (OColumn c) (a ++ $"." ++ c_name c) /\ item_text false (OColumn c) (c_name c).
Proof.
  intros E A. unfold item_text, qualified, bare. cbn [rename visit]. unfold qualified_column, bare_column, tr_column. rewrite E, A. auto.
Qed.
Lemma c18_entity n a sm dm : exists rest,
  item_text true (OEntity (mkEntity n (Some a) sm dm)) ($"(" ++ a ++ $": " ++ n ++ rest)
  /\ item_text false (OEntity (mkEntity n (Some a) sm dm)) ($"(" ++ n ++ rest).
Proof.
  exists (sample_clause sm ++ $")"). unfold item_text, qualified, bare. cbn [rename visit].
  unfold qualified_entity, bare_entity, tr_entity. cbn [e_alias e_name e_sample app]. split; [|reflexivity].
  rewrite <- !app_assoc. reflexivity.
Qed.
Lemma c18_print q s : api_query q -> seq_typed_query q -> print q = Ok s ->
  exists parts, query_parts q parts /\ s = join [10%N] parts.
Proof.
  intros A T E. unfold print in E. apply bind_Ok in E as ([] & _ & E). apply print_query_parts in E; [exact E|apply api_wf_query, A|exact T].
Qed.
Lemma c19_print q : api_query q -> seq_typed_query q -> validate q = Ok tt -> forall s,
  print q = Ok s <-> exists parts, query_parts q parts /\ s = join [10%N] parts.
Proof.
  intros A T V s. unfold print. rewrite V. cbn [bind]. apply print_query_parts; [apply api_wf_query, A|exact T].
Qed.
Lemma c19_serialize q s : api_query q -> class_typed_query q -> serialize q = Ok s ->
  exists q' parts l l', query_parts q' parts /\ s = join ($" ") parts /\ same_but_where q q'
    /\ filters q l /\ filters q' l' /\ Forall2 optimized_at l l'.
Proof.
  intros A T E. destruct (c36_lemma q s (api_wf_query q A) T E) as (q' & parts & l & l' & H1 & H2 & H3 & H4 & H5 & H6 & _).
  exists q', parts, l, l'. auto 10.
Qed.
Lemma c23_failures q e : built q -> api_query q ->
  (validate q = Raise e -> e = InvalidQueryError \/ e = InvalidMatchError \/ e = InvalidColumnError)
  /\ (serialize q = Raise e \/ print q = Raise e ->
      e = InvalidQueryError \/ e = InvalidMatchError \/ e = InvalidColumnError
      \/ exists o x, part_of o q /\ occurs x o /\ hazard e x).
Proof.
  intros B A. pose proof (typed_class q (built_typed q B)) as T. pose proof (api_wf_query q A) as W.
  assert (V : forall e, validate q = Raise e -> e = InvalidQueryError \/ e = InvalidMatchError \/ e = InvalidColumnError)
    by (apply (c28_lemma q W T)).
  split; [apply V|]. intros H. destruct (validate q) as [[]|e'] eqn:E.
  - right. right. right. destruct H as [H|H].
    + destruct (c33_serialize q W T E) as [(s & E')|(e' & E' & Z)]; [congruence|]. replace e with e' by congruence. exact Z.
    + destruct (c33_print q W T E) as [(s & E')|(e' & E' & Z)]; [congruence|]. replace e with e' by congruence. exact Z.
  - assert (e = e') as ->; [|destruct (V e' eq_refl) as [->|[->| ->]]; auto].
    unfold serialize, print in H. rewrite E in H. cbn in H. destruct H; congruence.
Qed.
Lemma c22_calls cs q : made q ->
  (forall q', do_calls q cs = Ok q' -> Forall acceptable cs
    /\ (forall k, clause_after k cs (get k (q_clauses q)) (get k (q_clauses q')))
    /\ match_after cs (q_match q) (q_match q'))
  /\ (Forall acceptable cs -> exists q', do_calls q cs = Ok q').
Proof. intros M. apply calls_spec, made_inner, M. Qed.
Lemma c22_extensional q q' : q_match q = q_match q' -> (forall k, get k (q_clauses q) = get k (q_clauses q')) -> q = q'.
Proof.
  intros M H. apply query_ext; [exact M|]. destruct (q_clauses q) as [a1 a2 a3 a4 a5 a6 a7 a8 a9 a10 a11], (q_clauses q') as [b1 b2 b3 b4 b5 b6 b7 b8 b9 b10 b11].
  pose proof (H CSelect). pose proof (H CGroupby). pose proof (H CArrayJoin). pose proof (H CWhere). pose proof (H CHaving).
  pose proof (H COrderby). pose proof (H CLimitby). pose proof (H CLimit). pose proof (H COffset). pose proof (H CGranularity). pose proof (H CTotals).
  cbn in *. congruence.
Qed.
End W.
