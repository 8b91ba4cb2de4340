(** Facts for C62: json_to_snql against SpecBody. *)
From Verif Require Import PyBase DateTime Objects Exprs PyFacts SpecExpr ExprFacts SpecLogic Query SetterProps SpecSetters
  SpecMetricsQuery Request Strptime Legacy SpecLegacy LegacyFacts LegacyProps SpecBody.
From Verif Require ExprProps StrptimeFacts.

Section Facts.
Context {RT : PyRT} {CV : PyConv}.

Lemma set_base k b c v q' : set_clause k (QBase b c) v = Ok q' <-> exists x, stores k v x /\ q' = QBase b (upd k x c).
Proof.
  rewrite set_clause_iff. split.
  - intros (x & S & -> & _). exists x. split; [exact S|reflexivity].
  - intros (x & S & ->). exists x. split; [exact S|]. split; [reflexivity|]. intros i H. discriminate H.
Qed.
Lemma given_iff ks vs k : truthy (body_get (ODict ks vs) k ONone) = true <->
  given (ODict ks vs) k (body_get (ODict ks vs) k ONone).
Proof.
  unfold given. split; [|tauto]. intros T. split; [|exact T].
  destruct (proj1 (body_get_iff ks vs k ONone _) eq_refl) as [E|(N & E)]; [exact E|]. rewrite E in T. discriminate.
Qed.
Lemma given_get ks vs k v : given (ODict ks vs) k v -> body_get (ODict ks vs) k ONone = v /\ truthy v = true.
Proof. intros (E & T). split; [|exact T]. apply body_get_iff. now left. Qed.
Lemma not_given_iff ks vs k : truthy (body_get (ODict ks vs) k ONone) = false <-> not_given (ODict ks vs) k.
Proof.
  unfold not_given. split.
  - intros T. destruct (proj1 (body_get_iff ks vs k ONone _) eq_refl) as [E|(N & E)]; [right; eauto|now left].
  - intros [N|(v & E & T)].
    + assert (body_get (ODict ks vs) k ONone = ONone) as -> by (apply body_get_iff; auto). reflexivity.
    + assert (body_get (ODict ks vs) k ONone = v) as -> by (apply body_get_iff; auto). exact T.
Qed.
Lemma none_at_iff ks vs k : body_get (ODict ks vs) k ONone = ONone <-> none_at (ODict ks vs) k.
Proof. rewrite body_get_iff. unfold none_at. tauto. Qed.
Lemma is_none_iff o : is_none o = true <-> o = ONone.
Proof. destruct o; cbn; split; congruence. Qed.
Lemma not_none ks vs k v : body_get (ODict ks vs) k ONone = v -> v <> ONone -> dict_entry (ODict ks vs) k v.
Proof. intros E N. apply body_get_iff in E as [E|(_ & E)]; [exact E|congruence]. Qed.

Lemma value_or_iff ks vs k d v : or_default (ODict ks vs) k d = v <-> value_or (ODict ks vs) k d v.
Proof.
  unfold or_default. split.
  - intros <-. destruct (truthy _) eqn:T.
    + apply vo_given, given_iff, T.
    + apply vo_default, not_given_iff, T.
  - intros [w G|N].
    + apply given_get in G as (-> & ->). reflexivity.
    + apply not_given_iff in N. now rewrite N.
Qed.
Lemma flag_iff ks vs k v : legacy_flag (ODict ks vs) k = v <-> value_or (ODict ks vs) k ONone v.
Proof. apply value_or_iff. Qed.

Lemma sample_iff ks vs s : (let v := body_get (ODict ks vs) ($"sample") ONone in
    if is_none v then Ok ONone else let! f := as_python_float v in Ok (OFloat f)) = Ok s
  <-> sample_of (ODict ks vs) s.
Proof.
  cbn zeta. split.
  - destruct (is_none _) eqn:N.
    + apply is_none_iff, none_at_iff in N. intros H. injection H as <-. now constructor.
    + intros H. apply bind_Ok in H as (f & F & H). injection H as <-.
      assert (body_get (ODict ks vs) ($"sample") ONone <> ONone) as X by (intros X; apply is_none_iff in X; congruence).
      pose proof (not_none _ _ _ _ eq_refl X) as E. revert F X E. generalize (body_get (ODict ks vs) ($"sample") ONone). intros v F X E.
      destruct v; try (apply sa_other with (1 := E); [exact X|discriminate|exact F]). cbn in F. injection F as <-. now constructor.
  - intros [N|f E|v f E N O F].
    + apply none_at_iff in N. rewrite N. reflexivity.
    + assert (body_get (ODict ks vs) ($"sample") ONone = OFloat f) as -> by (apply body_get_iff; auto). reflexivity.
    + assert (body_get (ODict ks vs) ($"sample") ONone = v) as -> by (apply body_get_iff; auto).
      destruct (is_none v) eqn:X; [apply is_none_iff in X; congruence|].
      assert (as_python_float v = to_float v) as -> by (destruct v; try reflexivity; elim (O _ eq_refl)). now rewrite F.
Qed.

Lemma mapM_iff {A B} (f : A -> result B) (R : A -> B -> Prop) (H : forall x y, f x = Ok y <-> R x y) l m :
  mapM f l = Ok m <-> Forall2 R l m.
Proof. rewrite mapM_Ok. split; apply StrptimeFacts.Forall2_impl; intros; now apply H. Qed.
Lemma aggregation_iff a e : (let! x := iter a in parse_exp (OList x)) = Ok e <-> aggregation_exp a e.
Proof.
  unfold aggregation_exp. split.
  - intros H. apply bind_Ok in H as (l & I & H). exists l. split; [now apply iter_iff|now apply parse_exp_iff].
  - intros (l & I & H). apply iter_iff in I. rewrite I. now apply parse_exp_iff.
Qed.
Lemma row_iff v e : parse_exp (tuple_to_list v) = Ok e <-> row_exp v e.
Proof.
  rewrite parse_exp_iff. split.
  - intros H. destruct v; try (apply re_other; [discriminate|exact H]). now apply re_tuple.
  - intros [l x H|w x N H]; [exact H|]. destruct w; try exact H. elim (N _ eq_refl).
Qed.
Lemma aggregations_iff ks vs es : convert_aggregations (body_get (ODict ks vs) ($"aggregations") (OList [])) = Ok es <->
  exists l, listed (ODict ks vs) ($"aggregations") l /\ Forall2 aggregation_exp l es.
Proof.
  unfold convert_aggregations. split.
  - intros H. apply bind_Ok in H as (l & I & H). exists l. split; [now apply listed_iff|]. revert H. now apply mapM_iff, aggregation_iff.
  - intros (l & I & H). apply listed_iff in I. rewrite I. cbn [bind]. revert H. apply mapM_iff, aggregation_iff.
Qed.
Lemma selected_iff ks vs es : convert_selected (body_get (ODict ks vs) ($"selected_columns") (OList [])) = Ok es <->
  exists l, listed (ODict ks vs) ($"selected_columns") l /\ Forall2 row_exp l es.
Proof.
  unfold convert_selected. split.
  - intros H. apply bind_Ok in H as (l & I & H). exists l. split; [now apply listed_iff|]. revert H. apply mapM_iff, row_iff.
  - intros (l & I & H). apply listed_iff in I. rewrite I. cbn [bind]. revert H. apply mapM_iff, row_iff.
Qed.
Lemma falsy_items v l : truthy v = false -> items_of v l -> l = [].
Proof.
  intros T I. apply iter_iff in I. destruct v; try discriminate I; injection I as <-;
    match goal with |- ?x = [] => match x with map _ ?y => destruct y | ?y => destruct y end end; reflexivity || discriminate.
Qed.
Lemma groupby_iff ks vs es : convert_groupby (body_get (ODict ks vs) ($"groupby") (OList [])) = Ok es <->
  exists l, grouped (ODict ks vs) l /\ Forall2 row_exp l es.
Proof.
  unfold convert_groupby. split.
  - intros H. apply bind_Ok in H as (l & I & H). exists l. split; [|revert H; apply mapM_iff, row_iff].
    destruct (proj1 (body_get_iff ks vs ($"groupby") (OList []) _) eq_refl) as [E|(N & E)].
    + revert I E. generalize (body_get (ODict ks vs) ($"groupby") (OList [])). intros v I E.
      assert ((exists m, v = OList m) \/ forall m, v <> OList m) as [(m & ->)|NL]
        by (destruct v; try (right; discriminate); left; eauto).
      * injection I as <-. now constructor.
      * assert (match v with OList _ => v | _ => if truthy v then OList [v] else v end = if truthy v then OList [v] else v) as X
          by (destruct v; try reflexivity; elim (NL _ eq_refl)).
        rewrite X in I. destruct (truthy v) eqn:T.
        -- injection I as <-. apply gr_one; [split; assumption|exact NL].
        -- apply iter_iff in I. pose proof (falsy_items _ _ T I). subst l. eapply gr_empty; eauto.
    + rewrite E in I. injection I as <-. now constructor.
  - intros (l & G & H). apply (mapM_iff _ _ row_iff) in H.
    assert (forall v, dict_entry (ODict ks vs) ($"groupby") v -> body_get (ODict ks vs) ($"groupby") (OList []) = v) as X
      by (intros v E; apply body_get_iff; auto).
    destruct G as [N|l E|v (E & T) NL|v E T I].
    + assert (body_get (ODict ks vs) ($"groupby") (OList []) = OList []) as -> by (apply body_get_iff; auto). exact H.
    + rewrite (X _ E). exact H.
    + rewrite (X _ E). assert (match v with OList _ => v | _ => if truthy v then OList [v] else v end = OList [v]) as ->
        by (rewrite T; destruct v; try reflexivity; elim (NL _ eq_refl)). exact H.
    + rewrite (X _ E). assert (match v with OList _ => v | _ => if truthy v then OList [v] else v end = v) as ->
        by (rewrite T; destruct v; reflexivity). apply iter_iff in I. rewrite I. exact H.
Qed.

Lemma column_made v c : mk_column v ONone = Ok c -> exists x, c = OColumn x.
Proof.
  unfold mk_column. intros H. destruct v; try discriminate H. match type of H with (if ?x then _ else _) = _ => destruct x; [|discriminate H] end. cbn [bind] in H.
  destruct (column_parts _). injection H as <-. eauto.
Qed.

(** ** ORDER BY *)
Lemma minus_iff s : startswith ($"-") s = true <-> exists t, s = $"-" ++ t.
Proof. unfold startswith. apply prefixb_iff. Qed.
Lemma no_minus_iff s : startswith ($"-") s = false <-> no_minus s.
Proof.
  unfold no_minus. split.
  - intros H t E. assert (startswith ($"-") s = true) by (apply minus_iff; eauto). congruence.
  - intros H. destruct (startswith ($"-") s) eqn:E; [|reflexivity]. apply minus_iff in E as (t & E). elim (H t E).
Qed.
Lemma minus_signs_iff s s' : minus_signs s s' <-> startswith ($"-") s = true /\ s' = lstrip is_minus s.
Proof.
  unfold minus_signs. split.
  - intros (n & -> & N). split; [apply minus_iff; exists (repeat 45%N n ++ s'); reflexivity|].
    rewrite lstrip_drop by (apply Forall_forall; intros c I; apply repeat_spec in I; subst c; reflexivity).
    destruct s' as [|c s']; [reflexivity|]. cbn [lstrip]. unfold is_minus. destruct (N.eqb_spec 45 c) as [<-|]; [|reflexivity].
    elim (N s' eq_refl).
  - intros (P & ->). apply minus_iff in P as (t & ->). destruct (lstrip_spec is_minus t) as (a & E & F & H).
    exists (List.length a). split.
    + cbn [repeat]. change (lstrip is_minus ($"-" ++ t)) with (lstrip is_minus t). cbn [app]. f_equal.
      rewrite E at 1. f_equal. clear -F. induction F as [|c a C _ IH]; [reflexivity|]. cbn. unfold is_minus in C. apply N.eqb_eq in C. subst c. f_equal. exact IH.
    + change (lstrip is_minus ($"-" ++ t)) with (lstrip is_minus t). intros u X. specialize (H _ _ X). discriminate H.
Qed.
Lemma triple_eq {A B C} (a a' : A) (b b' : B) (c c' : C) : (a, b, c) = (a', b', c') -> a = a' /\ b = b' /\ c = c'.
Proof. intros H. injection H as -> -> ->. auto. Qed.
Lemma order_item_readable o p e d o' : readable_order o -> (orderby_item o p = (o', d, Ok e) -> order_exp o e d)
  /\ (order_exp o e d -> exists o', orderby_item o p = (o', d, Ok e)).
Proof.
  intros R. split.
  - intros H. destruct R as [(s & ->)|(l & ->)].
    + cbn [orderby_item] in H. destruct (startswith ($"-") s) eqn:M; apply triple_eq in H as (<- & <- & H); apply parse_exp_iff in H.
      * eapply oe_text_desc; [|exact H]. now apply minus_signs_iff.
      * apply oe_text; [now apply no_minus_iff|exact H].
    + destruct l as [|a l]; [discriminate H|].
      assert ((exists s, a = OStr s) \/ forall s, a <> OStr s) as [(s & ->)|N] by (destruct a; try (right; discriminate); left; eauto).
      * cbn [orderby_item] in H. destruct (startswith ($"-") s) eqn:M; apply triple_eq in H as (<- & <- & H); apply parse_exp_iff in H.
        -- eapply oe_list_desc; [|exact H]. now apply minus_signs_iff.
        -- apply oe_list; [discriminate| |exact H]. intros s' r E. injection E as <- <-. now apply no_minus_iff.
      * assert (orderby_item (OList (a :: l)) p = (OList (a :: l), ASC, parse_exp (OList (a :: l)))) as X
          by (destruct a; try reflexivity; elim (N _ eq_refl)).
        rewrite X in H. apply triple_eq in H as (<- & <- & H). apply parse_exp_iff in H. apply oe_list; [discriminate| |exact H].
        intros s r E. injection E as -> ->. elim (N _ eq_refl).
  - intros H. destruct H as [s e N L|s s' e M L|s s' r e M L|l e N M L]; apply parse_exp_iff in L.
    + apply no_minus_iff in N. cbn [orderby_item]. rewrite N, L. eauto.
    + apply minus_signs_iff in M as (M & ->). cbn [orderby_item]. rewrite M, L. eauto.
    + apply minus_signs_iff in M as (M & ->). cbn [orderby_item]. rewrite M. cbn zeta. rewrite L. eauto.
    + destruct l as [|a l]; [congruence|].
      assert ((exists s, a = OStr s) \/ forall s, a <> OStr s) as [(s & ->)|X] by (destruct a; try (right; discriminate); left; eauto).
      * pose proof (M _ _ eq_refl) as Y. apply no_minus_iff in Y. cbn [orderby_item]. rewrite Y, L. eauto.
      * assert (orderby_item (OList (a :: l)) p = (OList (a :: l), ASC, parse_exp (OList (a :: l)))) as ->
          by (destruct a; try reflexivity; elim (X _ eq_refl)). rewrite L. eauto.
Qed.
Lemma readable_dec o : readable_order o \/ ~ readable_order o.
Proof. unfold readable_order. destruct o; try (left; eauto; fail); right; intros [(? & E)|(? & E)]; discriminate E. Qed.
Lemma order_item_other o p : ~ readable_order o ->
  orderby_item o p = (o, ASC, match p with Some x => Ok x | None => Raise UnboundLocalError end).
Proof. intros N. destruct o; try reflexivity; elim N; unfold readable_order; eauto. Qed.
Lemma order_exp_readable o e d : order_exp o e d -> readable_order o.
Proof. unfold readable_order. intros []; eauto. Qed.
Lemma mk_orderby_iff e d ob : mk_orderby e (ODir d) = Ok ob <-> column_or_function e /\ ob = OOrderBy e d.
Proof.
  unfold mk_orderby. split.
  - destruct e; try discriminate; intros H; injection H as <-; (split; [constructor|reflexivity]).
  - intros ([] & ->); reflexivity.
Qed.
Lemma convert_orderby_iff l : forall p obs, (exists l', convert_orderby l p = (l', Ok obs)) <-> orders_from p l obs.
Proof.
  induction l as [|o l IH]; intros p obs.
  - cbn [convert_orderby]. split.
    + intros (l' & H). injection H as _ <-. constructor.
    + intros H. inversion H. eauto.
  - cbn [convert_orderby]. split.
    + intros (l' & H). destruct (orderby_item o p) as [[o' d] r] eqn:E. destruct r as [e|]; [|discriminate H].
      destruct (mk_orderby e (ODir d)) as [ob|] eqn:M; [|discriminate H]. apply mk_orderby_iff in M as (C & ->).
      destruct (convert_orderby l (Some e)) as [rest rs] eqn:R. injection H as _ H.
      apply bind_Ok in H as (x & -> & H). injection H as <-.
      assert (orders_from (Some e) l x) as X by (apply IH; eauto).
      destruct (readable_dec o) as [Y|Y].
      * apply of_item; [|exact C|exact X]. revert E. eapply order_item_readable, Y.
      * rewrite (order_item_other _ _ Y) in E. destruct p as [y|]; [|discriminate E]. injection E as _ <- <-. now apply of_repeat.
    + intros H. inversion H as [|p' o1 e d l1 obs' X C O|e o1 l1 obs' N C O]; subst.
      * destruct (proj2 (order_item_readable o p e d o (order_exp_readable _ _ _ X)) X) as (o' & ->).
        assert (mk_orderby e (ODir d) = Ok (OOrderBy e d)) as -> by (apply mk_orderby_iff; auto).
        apply IH in O as (l' & ->). eauto.
      * rewrite (order_item_other _ _ N). assert (mk_orderby e (ODir ASC) = Ok (OOrderBy e ASC)) as -> by (apply mk_orderby_iff; auto).
        apply IH in O as (l' & ->). eauto.
Qed.
Lemma orders_are p l obs : orders_from p l obs -> Forall an_orderby obs.
Proof. induction 1; constructor; auto; constructor. Qed.
Lemma stores_orders l x : Forall an_orderby l -> stores COrderby (OList l) x <-> x = OList l.
Proof. intros F. split; [intros S; inversion S; reflexivity|intros ->; now constructor]. Qed.

Lemma orderby_iff ks vs b c q : get COrderby c = ONone ->
  (exists body', legacy_orderby (ODict ks vs) (QBase b c) = (body', Ok q)) <->
  exists ob, ordered (ODict ks vs) ob /\ q = QBase b (upd COrderby ob c).
Proof.
  intros G. unfold legacy_orderby. split.
  - intros (body' & H). destruct (truthy _) eqn:T.
    + pose proof (proj1 (given_iff _ _ _) T) as V. revert H V. generalize (body_get (ODict ks vs) ($"orderby") ONone). intros v H V.
      assert ((exists l, v = OList l) \/ forall l, v <> OList l) as [(l & ->)|NL] by (destruct v; try (right; discriminate); left; eauto).
      * destruct (convert_orderby l None) as [l' r] eqn:E. injection H as _ H. apply bind_Ok in H as (obs & -> & H).
        assert (orders_from None l obs) as O by (apply convert_orderby_iff; eauto).
        apply set_base in H as (x & S & ->). apply stores_orders in S; [|eapply orders_are, O]. subst x.
        exists (OList obs). split; [|reflexivity]. eapply or_list; eauto.
      * assert (exists r, snd (convert_orderby [v] None) = Ok r /\ set_clause COrderby (QBase b c) (OList r) = Ok q) as (obs & C & X).
        { destruct v; try (elim (NL _ eq_refl)); apply pair_equal_spec in H as (_ & H); apply bind_Ok in H as (obs & C & H); eauto. }
        destruct (convert_orderby [v] None) as [l' r] eqn:E. cbn [snd] in C. subst r.
        assert (orders_from None [v] obs) as O by (apply convert_orderby_iff; eauto).
        apply set_base in X as (x & S & ->). apply stores_orders in S; [|eapply orders_are, O]. subst x.
        exists (OList obs). split; [|reflexivity]. eapply or_one; eauto.
    + injection H as _ <-. exists ONone. split; [apply or_none, not_given_iff, T|]. f_equal. destruct c; cbn in G |- *; congruence.
  - intros (ob & O & ->). destruct O as [N|l obs V O|v obs V NL O].
    + apply not_given_iff in N. rewrite N. eexists. f_equal. f_equal. f_equal. destruct c; cbn in G |- *; congruence.
    + apply given_get in V as (-> & ->). pose proof (orders_are _ _ _ O) as F. apply convert_orderby_iff in O as (l' & ->).
      eexists. f_equal. cbn [bind]. apply set_base. exists (OList obs). split; [now constructor|reflexivity].
    + apply given_get in V as (-> & ->). pose proof (orders_are _ _ _ O) as F. apply convert_orderby_iff in O as (l' & O).
      assert (set_clause COrderby (QBase b c) (OList obs) = Ok (QBase b (upd COrderby (OList obs) c))) as S
        by (apply set_base; exists (OList obs); split; [now constructor|reflexivity]).
      destruct v; try (elim (NL _ eq_refl)); rewrite O; cbn [snd bind]; rewrite S; eauto.
Qed.

(** ** ARRAY JOIN, LIMIT BY and the numbers *)
Lemma array_join_iff ks vs b c q : get CArrayJoin c = ONone ->
  (let aj := body_get (ODict ks vs) ($"arrayjoin") ONone in
   if truthy aj then let! c' := mk_column aj ONone in set_clause CArrayJoin (QBase b c) (OList [c']) else Ok (QBase b c)) = Ok q <->
  exists x, array_join_of (ODict ks vs) x /\ q = QBase b (upd CArrayJoin x c).
Proof.
  intros G. cbn zeta. split.
  - destruct (truthy _) eqn:T; intros H.
    + apply bind_Ok in H as (col & C & H). apply set_base in H as (x & S & ->). inversion S; subst.
      exists (OList [col]). split; [|reflexivity]. eapply aj_column; [apply given_iff, T|exact C].
    + injection H as <-. exists ONone. split; [apply aj_none, not_given_iff, T|]. f_equal. destruct c; cbn in G |- *; congruence.
  - intros (x & A & ->). destruct A as [N|v col V C].
    + apply not_given_iff in N. rewrite N. f_equal. f_equal. destruct c; cbn in G |- *; congruence.
    + apply given_get in V as (-> & ->). rewrite C. cbn [bind]. apply set_base. exists (OList [col]). split; [|reflexivity].
      destruct (column_made _ _ C) as (y & ->). constructor; [discriminate|]. repeat constructor.
Qed.
Lemma whole_iff v z : as_python_int v = Ok z <-> whole v z.
Proof.
  split.
  - intros H. destruct v; try (apply wh_other; [discriminate|discriminate|exact H]).
    + cbn in H. injection H as <-. constructor.
    + cbn in H. injection H as <-. constructor.
  - intros [x|x|w x N1 N2 H]; [reflexivity..|]. destruct w; try exact H; [elim (N2 _ eq_refl)|elim (N1 _ eq_refl)].
Qed.
Lemma mk_limitby_iff x z o : mk_limitby (OList [OColumn x]) (OInt z) = Ok o <-> (1 <= z <= 10000)%Z /\ o = OLimitBy KList [x] (PInt z).
Proof.
  unfold mk_limitby. cbn [as_seq List.length Nat.ltb Nat.leb all_columns as_int pyint_Z].
  destruct (_ || _)%bool eqn:E.
  - split; [discriminate|]. intros (B & _). apply orb_true_iff in E. rewrite Z.leb_le, Z.gtb_lt in E. lia.
  - apply orb_false_iff in E. rewrite Z.leb_gt, Z.gtb_ltb, Z.ltb_ge in E. split; [intros H; injection H as <-; split; [lia|reflexivity]|].
    intros (_ & ->). reflexivity.
Qed.
Lemma limitby_iff ks vs b c q : get CLimitby c = ONone ->
  set_legacy_limitby (ODict ks vs) (QBase b c) = Ok q <->
  exists x, limitby_of (ODict ks vs) x /\ q = QBase b (upd CLimitby x c).
Proof.
  intros G. unfold set_legacy_limitby. split.
  - destruct (truthy _) eqn:T; intros H.
    + apply bind_Ok in H as (l & I & H). apply iter_iff in I. destruct l as [|lim [|name [|]]]; try discriminate H.
      apply bind_Ok in H as (col & C & H). apply bind_Ok in H as (z & Z & H). apply bind_Ok in H as (lb & L & H).
      destruct (column_made _ _ C) as (y & ->). apply mk_limitby_iff in L as (B & ->). apply set_base in H as (x & S & ->). inversion S; subst.
      eexists. split; [|reflexivity]. apply whole_iff in Z. eapply lb_given; eauto. apply given_iff, T.
    + injection H as <-. exists ONone. split; [apply lb_none, not_given_iff, T|]. f_equal. destruct c; cbn in G |- *; congruence.
  - intros (x & A & ->). destruct A as [N|v lim name y z V I C W B].
    + apply not_given_iff in N. rewrite N. f_equal. f_equal. destruct c; cbn in G |- *; congruence.
    + apply given_get in V as (-> & ->). apply iter_iff in I. rewrite I. cbn [bind]. rewrite C. cbn [bind].
      apply whole_iff in W. rewrite W. cbn [bind].
      assert (mk_limitby (OList [OColumn y]) (OInt z) = Ok (OLimitBy KList [y] (PInt z))) as -> by (apply mk_limitby_iff; auto).
      cbn [bind]. apply set_base. eexists. split; [constructor|reflexivity].
Qed.
Lemma upd_none k c : get k c = ONone -> upd k ONone c = c.
Proof. destruct c, k; cbn; congruence. Qed.
Lemma setting_iff ks vs key k b c q : get k c = ONone ->
  set_extra (ODict ks vs) key k (QBase b c) = Ok q <->
  exists x, setting (ODict ks vs) key k x /\ q = QBase b (upd k x c).
Proof.
  intros G. unfold set_extra. split.
  - destruct (is_none _) eqn:N; intros H.
    + injection H as <-. exists ONone. rewrite (upd_none _ _ G). split; [|reflexivity]. now apply se_none, none_at_iff, is_none_iff.
    + apply set_base in H as (x & S & ->). exists x. split; [|reflexivity].
      assert (body_get (ODict ks vs) key ONone <> ONone) as X by (intros X; apply is_none_iff in X; congruence).
      eapply se_given; [eapply not_none; [reflexivity|exact X]|exact X|exact S].
  - intros (x & A & ->). destruct A as [N|v x E N S].
    + apply none_at_iff in N. rewrite N, (upd_none _ _ G). reflexivity.
    + assert (body_get (ODict ks vs) key ONone = v) as -> by (apply body_get_iff; auto).
      destruct (is_none v) eqn:X; [apply is_none_iff in X; congruence|]. apply set_base. eauto.
Qed.

(** ** The whole *)
Lemma request_body b1 b2 e q : (forall k d, k <> $"orderby" -> body_get b1 k d = body_get b2 k d) ->
  legacy_request b1 e q = legacy_request b2 e q.
Proof.
  intros H. unfold legacy_request, set_extra, set_legacy_limitby, or_default, legacy_flags, legacy_flag.
  repeat match goal with |- context [body_get b1 ?k ?d] => rewrite (H k d) by discriminate end. reflexivity.
Qed.
Lemma get_after ks vs entity b' r k d : json_to_snql (ODict ks vs) entity = (b', r) -> k <> $"orderby" ->
  body_get b' k d = body_get (ODict ks vs) k d.
Proof.
  intros H N. pose proof (fun v => other_keys _ _ _ _ H k v N) as E. apply snql_body in H.
  destruct H as [->|(ks1 & vs1 & l & l' & x & D & _ & _ & ->)]; [reflexivity|]. injection D as <- <-.
  apply body_get_iff. destruct (proj1 (body_get_iff ks vs k d _) eq_refl) as [X|(X & Y)].
  - left. now apply E.
  - right. split; [|exact Y]. intros v Z. apply E in Z. now apply X in Z.
Qed.
Lemma orderby_body ks vs b c : exists b', forall q, fst (legacy_orderby (ODict ks vs) (QBase b c)) = b' /\
  (forall k d, k <> $"orderby" -> body_get b' k d = body_get (ODict ks vs) k d) /\ (q = q :> query).
Proof.
  exists (fst (legacy_orderby (ODict ks vs) (QBase b c))). intros q. split; [reflexivity|]. split; [|reflexivity].
  intros k d N. unfold legacy_orderby. destruct (truthy _) eqn:T; [|reflexivity]. apply given_iff in T as (E & _). revert E.
  generalize (body_get (ODict ks vs) ($"orderby") ONone). intros v (ks1 & vs1 & D & E). injection D as <- <-.
  destruct v; try reflexivity. destruct (convert_orderby l None) as [l' r]. cbn [fst].
  assert (forall x, dict_entry (ODict ks (put_back ($"orderby") (OList l') ks vs)) k x <-> dict_entry (ODict ks vs) k x) as X.
  { intros x. split; intros (k1 & v1 & D & Y); injection D as <- <-; eexists _, _; (split; [reflexivity|]).
    - apply (put_back_entry _ _ _ _ _ E) in Y. tauto.
    - apply (put_back_entry _ _ _ _ _ E). tauto. }
  apply body_get_iff. destruct (proj1 (body_get_iff ks vs k d _) eq_refl) as [Y|(Y & Z)].
  - left. now apply X.
  - right. split; [|exact Z]. intros w W. apply X in W. now apply Y in W.
Qed.

Lemma json_to_snql_iff ks vs entity r :
  (exists body', json_to_snql (ODict ks vs) entity = (body', Ok r)) <->
  exists q q1, legacy_query (ODict ks vs) entity = Ok q
    /\ (exists body', legacy_orderby (ODict ks vs) q = (body', Ok q1)) /\ legacy_request (ODict ks vs) entity q1 = Ok r.
Proof.
  split.
  - intros (body' & H). pose proof H as H0. unfold json_to_snql in H. destruct (legacy_query _ _) as [q|] eqn:Q; [|discriminate H].
    destruct (legacy_orderby _ _) as [b1 r1] eqn:O. apply pair_equal_spec in H as (-> & H). apply bind_Ok in H as (q1 & -> & H).
    exists q, q1. split; [reflexivity|]. split; [eauto|]. rewrite <- H. symmetry. apply request_body.
    intros k d N. eapply get_after; eauto.
  - intros (q & q1 & Q & (body' & O) & H). unfold json_to_snql. rewrite Q, O. cbn [bind]. exists body'. f_equal. rewrite <- H.
    apply request_body. intros k d N.
    destruct q as [b c|i c]; [|exfalso].
    + destruct (orderby_body ks vs b c) as (b1 & X). destruct (X q1) as (X1 & X2 & _). rewrite O in X1. cbn [fst] in X1. subst b1. now apply X2.
    + unfold legacy_query in Q. apply bind_Ok in Q as (s & _ & Q). apply bind_Ok in Q as (e & E & Q).
      apply mk_entity_name in E as (m & x & _ & ->). apply bind_Ok in Q as (q0 & Q0 & Q). injection Q0 as <-.
      apply bind_Ok in Q as (? & _ & Q). apply bind_Ok in Q as (? & _ & Q). apply bind_Ok in Q as (q2 & Q2 & Q).
      assert (exists b c, q2 = QBase b c) as (b2 & c2 & ->).
      { destruct (truthy _); [|injection Q2 as <-; eauto]. apply bind_Ok in Q2 as (? & _ & Q2). apply set_base in Q2 as (? & _ & ->). eauto. }
      apply bind_Ok in Q as (q3 & Q3 & Q). apply set_base in Q3 as (? & _ & ->). apply bind_Ok in Q as (? & _ & Q).
      apply bind_Ok in Q as (q4 & Q4 & Q). apply set_base in Q4 as (? & _ & ->). apply bind_Ok in Q as (? & _ & Q).
      apply bind_Ok in Q as (? & _ & Q). apply bind_Ok in Q as (? & _ & Q). apply bind_Ok in Q as (q5 & Q5 & Q).
      apply set_base in Q5 as (? & _ & ->). apply bind_Ok in Q as (? & _ & Q). apply bind_Ok in Q as (? & _ & Q).
      apply set_base in Q as (? & _ & Q). discriminate Q.
Qed.

Lemma where_are t cs : where_object t cs -> Forall a_condition cs.
Proof.
  intros [c _ C|l cs' _ _ F L|x c _ _ C|]; [|repeat constructor| |constructor].
  - constructor; [eapply cond_is_condition, C|constructor].
  - constructor; [eapply cond_is_condition, C|constructor].
Qed.
Lemma having_are t c : having_object t c -> a_condition c.
Proof. intros [x _ C|l cs _ _ _ _]; [eapply cond_is_condition, C|constructor]. Qed.
Lemma wheres_are items css : Forall2 where_object items css -> Forall a_condition (List.concat css).
Proof. induction 1; cbn; [constructor|]. apply Forall_app. split; [eapply where_are; eassumption|assumption]. Qed.
Lemma havings_are items cs : Forall2 having_object items cs -> Forall a_condition cs.
Proof. induction 1; constructor; [eapply having_are; eassumption|assumption]. Qed.
Lemma ids_are body k col P l : id_conditions body k col P l -> Forall a_condition l.
Proof. intros []; try constructor; [|constructor]. match goal with H : id_condition _ _ _ _ |- _ => destruct H end; constructor. Qed.
Lemma times_are body k col o l : time_conditions body k col o l -> Forall a_condition l.
Proof. intros []; repeat constructor. Qed.
Lemma extensions_are body n l : extension_conditions body n l -> Forall a_condition l.
Proof. intros []; repeat (apply Forall_app; split); eauto using ids_are, times_are. Qed.

Lemma converted_sound body entity body' r : json_to_snql body entity = (body', Ok r) -> converted body entity r.
Proof.
  intros H. destruct (snql_dict _ _ _ _ H) as (ks & vs & ->).
  destruct (proj1 (json_to_snql_iff ks vs entity r) (ex_intro _ _ H)) as (q & q1 & Q & O & R). clear H.
  unfold legacy_query in Q. apply bind_Ok in Q as (s & S & Q). apply sample_iff in S. apply bind_Ok in Q as (e & E & Q).
  destruct (mk_entity_name _ _ _ E) as (m & x & -> & ->). apply bind_Ok in Q as (q0 & Q0 & Q). injection Q0 as <-.
  apply bind_Ok in Q as (aes & A & Q). apply aggregations_iff in A as (aggs & A1 & A2).
  apply bind_Ok in Q as (ses & B & Q). apply selected_iff in B as (sels & B1 & B2).
  apply bind_Ok in Q as (q2 & Q2 & Q). apply array_join_iff in Q2 as (aj & AJ & ->); [|reflexivity].
  apply bind_Ok in Q as (q3 & Q3 & Q). apply set_base in Q3 as (x3 & S3 & ->). inversion S3 as [l3 N3 F3| | | | | | | | | | | | |]; subst.
  apply bind_Ok in Q as (ges & G & Q). apply groupby_iff in G as (gs & G1 & G2).
  apply bind_Ok in Q as (q4 & Q4 & Q). apply set_base in Q4 as (x4 & S4 & ->). inversion S4 as [|l4 F4| | | | | | | | | | | |]; subst.
  apply bind_Ok in Q as (ext & X & Q). apply extensions_iff in X. cbn [e_name] in X.
  apply bind_Ok in Q as (items & I & Q). apply listed_iff in I.
  apply bind_Ok in Q as (css & C & Q). apply mapM_Ok in C.
  assert (Forall2 where_object items css) as W by (revert C; apply StrptimeFacts.Forall2_impl; intros ? ?; apply convert_where_sound).
  apply bind_Ok in Q as (q5 & Q5 & Q). apply set_base in Q5 as (x5 & S5 & ->). inversion S5; subst.
  apply bind_Ok in Q as (hitems & HI & Q). apply listed_iff in HI.
  apply bind_Ok in Q as (hs & HC & Q). apply mapM_Ok in HC.
  assert (Forall2 having_object hitems hs) as HW by (revert HC; apply StrptimeFacts.Forall2_impl; intros ? ?; apply convert_having_sound).
  apply set_base in Q as (x6 & S6 & ->). inversion S6; subst.
  cbn [upd no_clauses] in O, R. apply orderby_iff in O as (ob & OB & ->); [|reflexivity].
  unfold legacy_request in R. apply bind_Ok in R as (q7 & L7 & R). apply limitby_iff in L7 as (lb & LB & ->); [|reflexivity].
  apply bind_Ok in R as (q8 & L8 & R). apply setting_iff in L8 as (li & LI & ->); [|reflexivity].
  apply bind_Ok in R as (q9 & L9 & R). apply setting_iff in L9 as (off & OFF & ->); [|reflexivity].
  apply bind_Ok in R as (q10 & L10 & R). apply setting_iff in L10 as (gr & GR & ->); [|reflexivity].
  apply bind_Ok in R as (q11 & L11 & R). apply setting_iff in L11 as (to & TO & ->); [|reflexivity].
  injection R as <-. cbn [upd]. unfold legacy_flags.
  eapply cv with (sample := s) (aggs := aggs) (sels := sels) (gs := gs) (items := items) (hitems := hitems); eauto;
    first [apply value_or_iff; reflexivity|apply flag_iff; reflexivity].
Qed.
Lemma complete_all {A B} (f : A -> result B) (R : A -> B -> Prop) l m :
  (forall x y, In x l -> R x y -> f x = Ok y) -> Forall2 R l m -> mapM f l = Ok m.
Proof.
  intros H F. apply mapM_Ok. induction F as [|x y l m X F IH]; constructor.
  - apply H; [now left|exact X].
  - apply IH. intros ? ? I. apply H. now right.
Qed.
Lemma converted_complete body entity r : sequences body ($"conditions") -> sequences body ($"having") ->
  converted body entity r -> exists body', json_to_snql body entity = (body', Ok r).
Proof.
  intros SC SH H. destruct H as [n sample e aggs aes sels ses aj gs ges ext items css hitems hs ob lb li off gr to
    dataset app tenants consistent turbo debug dry (ks & vs & ->) -> S E A1 A2 B1 B2 N3 F3 AJ G1 G2 F4 X I W HI HW OB LB LI OFF GR TO
    D1 D2 D3 D4 D5 D6 D7].
  apply json_to_snql_iff.
  destruct (mk_entity_name _ _ _ E) as (m & x & E1 & E2). injection E1 as <-. injection E2 as ->.
  eexists _, _. split; [|split].
  - unfold legacy_query. apply sample_iff in S. cbn zeta in S. rewrite S. cbn [bind]. rewrite E. cbn [bind].
    change (mk_query (MObj (OEntity (mkEntity n None x None))) no_clauses) with (Ok (QBase (BEntity (mkEntity n None x None)) no_clauses)).
    cbn [bind].
    assert (convert_aggregations (body_get (ODict ks vs) ($"aggregations") (OList [])) = Ok aes) as -> by (apply aggregations_iff; eauto).
    cbn [bind].
    assert (convert_selected (body_get (ODict ks vs) ($"selected_columns") (OList [])) = Ok ses) as -> by (apply selected_iff; eauto).
    cbn [bind].
    match goal with |- (let! q := ?t in _) = _ => assert (t = Ok (QBase (BEntity (mkEntity n None x None)) (upd CArrayJoin aj no_clauses))) as -> end.
    { apply array_join_iff; [reflexivity|]. eauto. }
    cbn [bind].
    match goal with |- (let! q := ?t in _) = _ => assert (t = Ok (QBase (BEntity (mkEntity n None x None)) (upd CSelect (OList (aes ++ ses)) (upd CArrayJoin aj no_clauses)))) as -> end.
    { apply set_base. eexists. split; [apply st_select; assumption|reflexivity]. }
    cbn [bind].
    assert (convert_groupby (body_get (ODict ks vs) ($"groupby") (OList [])) = Ok ges) as -> by (apply groupby_iff; eauto).
    cbn [bind].
    match goal with |- (let! q := set_clause _ (QBase _ ?c) _ in _) = _ => set (c4 := c) end.
    match goal with |- (let! q := ?t in _) = _ => assert (t = Ok (QBase (BEntity (mkEntity n None x None)) (upd CGroupby (OList ges) c4))) as -> end.
    { apply set_base. eexists. split; [apply st_groupby; assumption|reflexivity]. }
    cbn [bind e_name].
    apply extensions_iff in X. rewrite X. cbn [bind]. apply extensions_iff in X.
    pose proof I as I'. apply listed_iff in I. rewrite I. cbn [bind].
    assert (mapM convert_where items = Ok css) as ->.
    { apply complete_all with (2 := W). intros t cs J T. destruct (SC _ _ I' J) as (l & L). eapply convert_where_complete; eauto. }
    cbn [bind].
    match goal with |- (let! q := set_clause _ (QBase _ ?c) _ in _) = _ => set (c5 := c) end.
    match goal with |- (let! q := ?t in _) = _ => assert (t = Ok (QBase (BEntity (mkEntity n None x None)) (upd CWhere (OList (ext ++ List.concat css)) c5))) as -> end.
    { apply set_base. eexists. split; [|reflexivity]. apply st_where. apply Forall_app. split; [eapply extensions_are, X|eapply wheres_are, W]. }
    cbn [bind]. pose proof HI as HI'. apply listed_iff in HI. rewrite HI. cbn [bind].
    assert (mapM convert_having hitems = Ok hs) as ->.
    { apply complete_all with (2 := HW). intros t cs J T. destruct (SH _ _ HI' J) as (l & L). eapply convert_having_complete; eauto. }
    cbn [bind]. apply set_base. eexists. split; [apply st_having; eapply havings_are, HW|reflexivity].
  - apply orderby_iff; [reflexivity|]. eexists. split; [exact OB|reflexivity].
  - unfold legacy_request.
    match goal with |- (let! q := set_legacy_limitby _ (QBase ?b ?c) in _) = _ => assert (set_legacy_limitby (ODict ks vs) (QBase b c) = Ok (QBase b (upd CLimitby lb c))) as -> end.
    { apply limitby_iff; [reflexivity|]. eauto. }
    cbn [bind].
    match goal with |- (let! q := set_extra ?x1 ?x2 ?x3 (QBase ?b ?c) in _) = _ => assert (set_extra x1 x2 x3 (QBase b c) = Ok (QBase b (upd x3 li c))) as -> end.
    { apply setting_iff; [reflexivity|]. eauto. }
    cbn [bind].
    match goal with |- (let! q := set_extra ?x1 ?x2 ?x3 (QBase ?b ?c) in _) = _ => assert (set_extra x1 x2 x3 (QBase b c) = Ok (QBase b (upd x3 off c))) as -> end.
    { apply setting_iff; [reflexivity|]. eauto. }
    cbn [bind].
    match goal with |- (let! q := set_extra ?x1 ?x2 ?x3 (QBase ?b ?c) in _) = _ => assert (set_extra x1 x2 x3 (QBase b c) = Ok (QBase b (upd x3 gr c))) as -> end.
    { apply setting_iff; [reflexivity|]. eauto. }
    cbn [bind].
    match goal with |- (let! q := set_extra ?x1 ?x2 ?x3 (QBase ?b ?c) in _) = _ => assert (set_extra x1 x2 x3 (QBase b c) = Ok (QBase b (upd x3 to c))) as -> end.
    { apply setting_iff; [reflexivity|]. eauto. }
    cbn [bind upd no_clauses]. f_equal. unfold legacy_flags.
    apply value_or_iff in D1, D2, D3. apply flag_iff in D4, D5, D6, D7. subst. reflexivity.
Qed.
End Facts.
