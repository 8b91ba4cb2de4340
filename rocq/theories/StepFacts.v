(** C107: trees of queries with the same match. *)
From Verif Require Import PyBase PyFacts DateTime Objects Exprs Translate Optimizer Query SpecTime TimeProps DateFacts SpecExpr SpecText TextFacts SpecOccurs SpecQuery
  SpecSetters SpecRefs SpecOrder SpecLogic PyEqFacts OptFacts WfFacts LiteralFacts SampleFacts SetterProps PrintProps QueryProps SpecSnql SnqlFacts SnqlDenote SnqlQuery AlikeFacts SpecServer ServerFacts TextProps SpecStep.
From Coq Require Import Lia.

Section S.
Context {RT : PyRT}.

Lemma match_shows q : wf_query q -> class_typed_query q -> named_query q -> forall s, print_query ($" ") q = Ok s ->
  exists m, forall q' s', q_match q' = q_match q -> wf_query q' -> class_typed_query q' -> named_query q' -> print_query ($" ") q' = Ok s' ->
    exists parts, (forall k, denotes_part (joined q) k (get k (q_clauses q')) (parts k)) /\ good_query (QTree m parts) /\ text_of_query (QTree m parts) = s'.
Proof.
  destruct q as [b c|i c]; intros W T N s E; destruct W as [W1 W2]; cbn [print_query] in E.
  - assert (NB : named (obj_of_base b)) by (apply N; constructor).
    apply bind_Ok in E as (m & E1 & _).
    assert (G : exists mt, forall parts, good_parts parts -> good_query (QTree mt parts) /\ text_of_query (QTree mt parts) = ($"MATCH " ++ m) ++ text_of_parts parts order).
    { destruct b as [e|st|kk rels]; cbn [obj_of_base visit] in *; apply Ok_inj in E1; subst m; inversion W1 as [| | | | | | | | | | | | | | | | | | | | |e' We|s' Ws|r' Wr|k' r' Wj| | | | | | | | |]; subst.
      + destruct (bare_shows e We) as (a & n & sm & DE & GE & ->).
        exists (MEntity n sm). intros parts G. split; [constructor; assumption|].
        cbn [text_of_query]. rewrite <- app_assoc. reflexivity.
      + destruct Ws as [NS SS]. destruct (sample_shows _ SS) as (t & DS & ES & GS).
        exists (MStorage (st_name st) t). intros parts G.
        split; [constructor; [split; [discriminate|]; split; [apply entity_name_text, NS|exact GS]|exact G]|].
        cbn [text_of_query text_of_ent]. unfold tr_storage. rewrite ES, <- !app_assoc. reflexivity.
      + destruct Wj as (NE & FW & _). destruct (rels_show rels FW) as (ts & DR & GR & ER).
        { intros r Hr. apply (named_sub _ _ NB). intros; eapply oc_join; eassumption. }
        exists (MJoin ts). intros parts G. split.
        * constructor; [|exact GR|exact G]. intros ->. inversion DR. congruence.
        * cbn [text_of_query]. unfold tr_join. rewrite ER, <- app_assoc. reflexivity. }
    destruct G as (mt & G). exists mt. intros q' s' M W' T' N' E'. destruct q' as [b' c'|i' c']; cbn [q_match] in M; [|destruct b; discriminate M].
    assert (b' = b) as -> by (destruct b, b'; cbn in M; congruence). destruct W' as [_ W2']. cbn [print_query] in E'.
    assert (NC : forall k, items_named k (get k c')). { intros k x H. apply N'. eapply io_clause, H. }
    apply bind_Ok in E' as (m' & E1' & E'). assert (m' = m) as -> by congruence.
    apply bind_Ok in E' as (cs & E2 & E'). apply Ok_inj in E'. subst s'.
    cbn [filter]. change (nonempty ($"MATCH " ++ m)) with true. cbn match.
    destruct (parts_shows _ c' cs ($"MATCH " ++ m) W2' T' NC E2) as (parts & D & GP & ->).
    exists parts. split; [|apply G, GP]. intros k. cbn [q_clauses]. replace (joined (QBase b c)) with (match b with BJoin _ _ => true | _ => false end) by (destruct b; reflexivity).
    destruct b; apply D.
  - destruct T as [T1 T2]. apply bind_Ok in E as (m & E1 & _).
    destruct (query_shows i W1 T1) with (s := m) as (t & DI & GI & TI); [|exact E1|]. { intros o Ho. apply N. constructor. exact Ho. }
    exists (MSub t). intros q' s' M W' T' N' E'. destruct q' as [b' c'|i' c']; cbn [q_match] in M; [destruct b'; discriminate M|].
    injection M as ->. destruct W' as [_ W2']. destruct T' as [_ T2']. cbn [print_query] in E'.
    assert (NC : forall k, items_named k (get k c')). { intros k x H. apply N'. eapply io_sub_clause, H. }
    apply bind_Ok in E' as (m' & E1' & E'). assert (m' = m) as -> by congruence.
    apply bind_Ok in E' as (cs & E2 & E'). apply Ok_inj in E'. subst s'.
    match goal with |- context [filter nonempty (?x :: _)] => cbn [filter]; change (nonempty x) with true end. cbn match.
    match goal with |- context [join _ (?x :: filter nonempty cs)] =>
      destruct (parts_shows _ c' cs x W2' T2' NC E2) as (parts & D & G & ->) end.
    exists parts. split; [exact D|]. split; [constructor; assumption|]. rewrite <- TI.
    cbn [text_of_query]. rewrite <- !app_assoc. reflexivity.
Qed.

(** the query that is printed *)
Lemma serialize_prints q s : wf_query q -> class_typed_query q -> named_query q -> serialize q = Ok s ->
  exists q' l l', wf_query q' /\ class_typed_query q' /\ named_query q' /\ same_but_where q q' /\ filters q l /\ filters q' l' /\ Forall2 optimized_at l l'
    /\ Forall wf l /\ Forall wf l' /\ print_query ($" ") q' = Ok s.
Proof.
  intros W T N E. unfold serialize in E. apply bind_Ok in E as ([] & V & E). apply bind_Ok in E as (q' & EO & E).
  assert (WF : forall l, filters q l -> Forall wf l).
  { intros l [(_ & ->)|L]; [constructor|]. assert (WW : wf (get CWhere (q_clauses q))) by (destruct q; apply W). cbn [get] in WW. inversion L as [? X|? X]; subst; rewrite <- X in WW; inversion WW; subst; assumption. }
  destruct (optimize_query_spec q W T (validate_inner q V)) as [(l & FL & NM & E')|(l & l' & FL & E1 & Wl & Cl & E')]; rewrite E' in EO; injection EO as <-.
  - exists q, l, l. repeat (split; [first [assumption | split; reflexivity]|]).
    split; [|split; [apply WF, FL|split; [apply WF, FL|exact E]]]. clear - NM. induction NM; constructor; auto. right. auto.
  - destruct (optimize_list_wf l l' Wl Cl E1) as (W' & C' & _). destruct (optimized_typed q l l' W T FL W' C') as [Wq Tq].
    apply optimize_Some in E1 as [_ E1]. pose proof (named_where q l l' N Wl FL E1) as Nq.
    exists (q_with q (upd CWhere (OList l') (q_clauses q))), l, l'. split; [exact Wq|]. split; [exact Tq|]. split; [exact Nq|].
    split. { split; [apply q_match_with|]. intros k NE. rewrite q_clauses_with. apply get_upd_other. auto. }
    split; [exact FL|]. split; [|auto].
    right. rewrite q_clauses_with. change (c_where (upd CWhere (OList l') (q_clauses q))) with (get CWhere (upd CWhere (OList l') (q_clauses q))).
    rewrite get_upd_same. constructor.
Qed.
Lemma same_query_parts t t' : same_query t t' -> (forall k, part_of t k = part_of t' k) /\ same_query (only_match t) (only_match t').
Proof. intros S. inversion S; subst; cbn [part_of only_match]; (split; [assumption|]); constructor; auto. Qed.
Lemma same_query_sym t t' : same_query t t' -> same_query t' t.
Proof. induction 1; constructor; auto. Qed.
Lemma same_query_trans t t' t'' : same_query t t' -> same_query t' t'' -> same_query t t''.
Proof.
  intros A. revert t''. induction A as [i i' p p' A IH E|m p p' E]; intros t'' B; inversion B; subst; try (constructor; [apply IH|]; [assumption|intros k; rewrite E; auto]).
  - constructor; [exact A|]. intros k; rewrite E; auto.
  - constructor; [assumption|]. intros k; rewrite E; auto.
  - constructor. intros k; rewrite E; auto.
Qed.

(** two queries with the same match *)
Lemma two_queries q q' s s' t t' : wf_query q -> class_typed_query q -> named_query q -> wf_query q' -> class_typed_query q' -> named_query q' ->
  q_match q' = q_match q -> serialize q = Ok s -> serialize q' = Ok s' -> reads s t -> reads s' t' ->
  same_match t t' /\ exists l0 l l0' l', filters q l0 /\ Forall2 optimized_at l0 l /\ Forall wf l0 /\ Forall wf l /\ filters q' l0' /\ Forall2 optimized_at l0' l' /\ Forall wf l0' /\ Forall wf l'
   /\ (exists o, holds_filters o l /\ denotes_part (joined q) CWhere o (part_of t CWhere))
   /\ (exists o, holds_filters o l' /\ denotes_part (joined q) CWhere o (part_of t' CWhere))
   /\ forall k, k <> CWhere -> denotes_part (joined q) k (get k (q_clauses q)) (part_of t k) /\ denotes_part (joined q) k (get k (q_clauses q')) (part_of t' k).
Proof.
  intros W T N W' T' N' M E E' (G & TX) (G' & TX').
  destruct (serialize_prints q s W T N E) as (p & l0 & l & Wp & Tp & Np & (Mp & Cp) & F0 & F & O & WL0 & WL & P).
  destruct (serialize_prints q' s' W' T' N' E') as (p' & l0' & l' & Wp' & Tp' & Np' & (Mp' & Cp') & F0' & F' & O' & WL0' & WL' & P').
  destruct (match_shows p Wp Tp Np s P) as (m & K).
  destruct (K p s eq_refl Wp Tp Np P) as (ps & D & GD & TD).
  destruct (K p' s' ltac:(congruence) Wp' Tp' Np' P') as (ps' & D' & GD' & TD').
  assert (J : joined p = joined q). { destruct p as [[]|], q as [[]|]; cbn in Mp; try discriminate Mp; reflexivity. }
  rewrite J in D, D'.
  destruct (same_query_parts _ _ (query_unique _ _ GD G ltac:(congruence))) as (A1 & A2).
  destruct (same_query_parts _ _ (query_unique _ _ GD' G' ltac:(congruence))) as (B1 & B2).
  split; [eapply same_query_trans; [apply same_query_sym, A2|exact B2]|].
  exists l0, l, l0', l'. repeat (split; [assumption|]). cbn [part_of] in A1, B1.
  split; [eexists; split; [exact F|rewrite <- A1; exact (D CWhere)]|]. split; [eexists; split; [exact F'|rewrite <- B1; exact (D' CWhere)]|].
  intros k NE. rewrite <- A1, <- B1, <- (Cp k NE), <- (Cp' k NE). auto.
Qed.
Lemma where_parts al o l p : holds_filters o l -> denotes_part al CWhere o p ->
  (l = [] /\ p = None) \/ exists ts, l <> [] /\ p = Some (PConds ts) /\ Forall2 (denotes_cond al) l ts.
Proof.
  intros F D. inversion D as [|? ? L|? ? x m es I L|? ? x m ts I L DS| | | | | |]; subst; try (cbn in I; intuition discriminate).
  - left. split; [|reflexivity]. destruct F as [(_ & ->)|L]; [reflexivity|inversion L].
  - left. split; [|reflexivity]. destruct F as [(_ & ->)|L']; [reflexivity|eapply list_one; eassumption].
  - right. exists ts. destruct F as [(-> & _)|L']; [inversion L|]. rewrite (list_one _ _ _ L' L). repeat split; auto. discriminate.
Qed.
(** the conditions read, as a list *)
Lemma where_conds al o l p : holds_filters o l -> denotes_part al CWhere o p ->
  exists ts, Forall2 (denotes_cond al) l ts /\ (forall R, passes R p = all3 (map (cond_truth R) ts)) /\ p = match ts with [] => None | _ => Some (PConds ts) end.
Proof.
  intros F D. destruct (where_parts al o l p F D) as [(-> & ->)|(ts & N & -> & DS)].
  - exists []. split; [constructor|]. split; reflexivity.
  - exists ts. split; [exact DS|]. split; [reflexivity|]. destruct ts; [inversion DS; congruence|reflexivity].
Qed.
Lemma optimized_fun c a b : optimized_at c a -> optimized_at c b -> a = b.
Proof.
  intros [(M & X)|(N & ->)] [(M' & Y)|(N' & ->)]; try contradiction; [|reflexivity]. inversion X; subst; inversion Y; subst; reflexivity.
Qed.
Lemma optimized_list_fun l : forall a b, Forall2 optimized_at l a -> Forall2 optimized_at l b -> a = b.
Proof.
  induction l as [|c l IH]; intros a b A B; inversion A; subst; inversion B; subst; [reflexivity|]. f_equal; [eapply optimized_fun; eassumption|auto].
Qed.
Lemma conds_fun al l : Forall wf l -> forall a b, Forall2 (denotes_cond al) l a -> Forall2 (denotes_cond al) l b -> a = b.
Proof. intros W. eapply F2_fun. eapply Forall_impl; [|exact W]. intros c WC. apply (denotes_cond_fun al), WC. Qed.

(** ** conditions *)
Lemma having_conds al o l p : holds_filters o l -> denotes_part al CHaving o p ->
  exists ts, Forall2 (denotes_cond al) l ts /\ (forall R, passes R p = all3 (map (cond_truth R) ts)).
Proof.
  intros F D. inversion D as [|? ? L|? ? x m es I L|? ? x m ts I L DS| | | | | |]; subst; try (cbn in I; intuition discriminate).
  - exists []. split; [|reflexivity]. destruct F as [(_ & ->)|L]; [constructor|inversion L].
  - exists []. split; [|reflexivity]. destruct F as [(_ & ->)|L']; [constructor|]. rewrite (list_one _ _ _ L' L). constructor.
  - exists ts. split; [|reflexivity]. destruct F as [(-> & _)|L']; [inversion L|]. rewrite (list_one _ _ _ L' L). exact DS.
Qed.
Definition read_as (al : bool) (k : clause) (c : obj) (t : cond) : Prop :=
  exists c', (k = CWhere /\ optimized_at c c' \/ k <> CWhere /\ c' = c) /\ wf c' /\ denotes_cond al c' t.
Lemma read_as_fun al k c t t' : read_as al k c t -> read_as al k c t' -> t = t'.
Proof.
  intros (a & A & W & D) (b & B & _ & D'). assert (a = b) as <-.
  { destruct A as [(E & A)|(E & ->)], B as [(E' & B)|(E' & ->)]; try contradiction; [eapply optimized_fun; eassumption|reflexivity]. }
  eapply (denotes_cond_fun al); eassumption.
Qed.
Lemma read_as_exact al k c t : wf c -> merges_exactly c -> read_as al k c t ->
  exists t0, denotes_cond al c t0 /\ forall R, knows_in R -> cond_truth R t = cond_truth R t0.
Proof.
  intros W X (c' & [(_ & O)|(_ & ->)] & _ & D); [eapply optimized_tree; eassumption|exists t; auto].
Qed.
Lemma F2_read_where al l l' ts : Forall2 optimized_at l l' -> Forall wf l' -> Forall2 (denotes_cond al) l' ts -> Forall2 (read_as al CWhere) l ts.
Proof.
  intros O. revert ts. induction O as [|c c' l l' X O IH]; intros ts W D; inversion D; subst; [constructor|]. inversion W; subst.
  constructor; [|auto]. exists c'. auto.
Qed.
Lemma F2_read_other al k l ts : k <> CWhere -> Forall wf l -> Forall2 (denotes_cond al) l ts -> Forall2 (read_as al k) l ts.
Proof. intros N W D. induction D; inversion W; subst; constructor; auto. exists x. auto 10. Qed.
Lemma two_conditions q q' s s' t t' k l l' : wf_query q -> class_typed_query q -> named_query q -> wf_query q' -> class_typed_query q' -> named_query q' ->
  q_match q' = q_match q -> serialize q = Ok s -> serialize q' = Ok s' -> reads s t -> reads s' t' ->
  of_conditions k -> conditions_of k q l -> conditions_of k q' l' ->
  exists ts ts', Forall wf l /\ Forall wf l' /\ Forall2 (read_as (joined q) k) l ts /\ Forall2 (read_as (joined q) k) l' ts'
    /\ (forall R, passes R (part_of t k) = all3 (map (cond_truth R) ts)) /\ (forall R, passes R (part_of t' k) = all3 (map (cond_truth R) ts')).
Proof.
  intros W T N W' T' N' M E E' RT1 RT2 K F F'.
  destruct (two_queries q q' s s' t t' W T N W' T' N' M E E' RT1 RT2) as (_ & a0 & a & b0 & b & A0 & AO & WA0 & WA & B0 & BO & WB0 & WB & (o & OA & DA) & (o' & OB & DB) & X).
  assert (WL : forall q l, wf_query q -> conditions_of k q l -> Forall wf l).
  { clear. intros q l W F. assert (WW : wf (get k (q_clauses q))) by (destruct q; apply W). destruct F as [(_ & ->)|L]; [constructor|].
    inversion L as [? Z|? Z]; subst; rewrite <- Z in WW; inversion WW; subst; assumption. }
  destruct K as [-> | ->].
  - destruct (where_conds _ _ _ _ OA DA) as (ts & TS & PS & _). destruct (where_conds _ _ _ _ OB DB) as (ts' & TS' & PS' & _).
    assert (a0 = l) as -> by (eapply filters_one; [exact A0|exact F]). assert (b0 = l') as -> by (eapply filters_one; [exact B0|exact F']).
    exists ts, ts'. repeat (split; [first [assumption|eapply F2_read_where; eassumption]|]). exact PS'.
  - destruct (X CHaving ltac:(discriminate)) as [D D'].
    destruct (having_conds _ _ _ _ F D) as (ts & TS & PS). destruct (having_conds _ _ _ _ F' D') as (ts' & TS' & PS').
    pose proof (WL _ _ W F). pose proof (WL _ _ W' F').
    exists ts, ts'. repeat (split; [first [assumption|apply F2_read_other; [discriminate| |]; assumption]|]). exact PS'.
Qed.
Lemma F2_incl {A B} (D : A -> B -> Prop) l l' ts ts' : (forall a b b', D a b -> D a b' -> b = b') ->
  Forall2 D l ts -> Forall2 D l' ts' -> incl l l' -> incl ts ts'.
Proof.
  intros U F F' I y Hy.
  assert (G : exists x, In x l /\ D x y). { clear - F Hy. induction F; [destruct Hy|]. destruct Hy as [->|Hy]; [eexists; split; [left; reflexivity|assumption]|]. destruct (IHF Hy) as (z & Z & DZ). exists z. split; [right|]; assumption. }
  destruct G as (x & Hx & DX). apply I in Hx. clear - U F' Hx DX. induction F'; [destruct Hx|]. destruct Hx as [->|Hx]; [left; eapply U; eassumption|right; auto].
Qed.
(** AND, as a property of the set of its parts *)
Lemma all3_true l : all3 l = TTrue <-> forall x, In x l -> x = TTrue.
Proof.
  induction l as [|x l IH]; cbn [all3 fold_right]; [split; [intros _ ? []|reflexivity]|]. fold (all3 l). split.
  - intros E y [<-|H]; [destruct x, (all3 l); (reflexivity || discriminate)|]. apply IH; [destruct x, (all3 l); (reflexivity || discriminate)|exact H].
  - intros H. rewrite (H x (or_introl eq_refl)). rewrite (proj2 IH); [reflexivity|]. intros y Hy. apply H. right. exact Hy.
Qed.
Lemma all3_false l : all3 l = TFalse <-> In TFalse l.
Proof.
  induction l as [|x l IH]; cbn [all3 fold_right]; [split; [discriminate|intros []]|]. fold (all3 l). split.
  - intros E. destruct x; [right; apply IH; destruct (all3 l); (reflexivity || discriminate)|left; reflexivity|right; apply IH; destruct (all3 l); (reflexivity || discriminate)].
  - intros [->|H]; [reflexivity|]. apply IH in H. rewrite H. destruct x; reflexivity.
Qed.
Lemma all3_app l m : all3 (l ++ m) = and3 (all3 l) (all3 m).
Proof.
  unfold all3. induction l as [|x a IH]; cbn [fold_right app]; [destruct (fold_right and3 TTrue m); reflexivity|].
  rewrite IH. destruct x, (fold_right and3 TTrue a), (fold_right and3 TTrue m); reflexivity.
Qed.
Lemma all3_same l m : incl l m -> incl m l -> all3 l = all3 m.
Proof.
  intros A B. destruct (all3 l) eqn:E.
  - symmetry. apply all3_true. intros x H. apply (proj1 (all3_true l) E), B, H.
  - symmetry. apply all3_false. apply A. apply all3_false, E.
  - destruct (all3 m) eqn:F; [|..|reflexivity].
    + rewrite (proj2 (all3_true l)) in E; [discriminate|]. intros x H. apply (proj1 (all3_true m) F), A, H.
    + rewrite (proj2 (all3_false l)) in E; [discriminate|]. apply B, all3_false, F.
Qed.
End S.
