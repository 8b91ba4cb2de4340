(** Facts for C80: what legacy bodies decoded from JSON turn into. *)
From Verif Require Import PyBase DateTime SpecTime Objects Exprs PyFacts SpecExpr ExprFacts SpecLogic Query SetterProps SpecSetters
  SpecMetricsQuery Request Strptime Legacy SpecLegacy LegacyFacts LegacyProps SpecBody BodyFacts SpecOccurs SpecQuery SpecRefs SpecJson
  SpecRequest SpecFromJson.
From Verif Require ExprProps StrptimeFacts.

Section Facts.
Context {RT : PyRT} {CV : PyConv}.

Section Pieces.
Variable P : str -> Prop.
Hypothesis PV : forall s, P s -> code_points s.
Hypothesis PI : forall a s b, P (a ++ s ++ b) -> P s.
Hypothesis D : decimal_digits.

Inductive pieces : obj -> Prop :=
| pc_none : pieces ONone
| pc_bool b : pieces (OBool b)
| pc_int z : pieces (OInt z)
| pc_float f : pieces (OFloat f)
| pc_str s : P s -> pieces (OStr s)
| pc_list l : Forall pieces l -> pieces (OList l)
| pc_tuple l : Forall pieces l -> pieces (OTuple l)
| pc_dict ks vs : Forall P ks -> Forall pieces vs -> pieces (ODict ks vs).
Definition okx (x : obj) : Prop :=
  match x with
  | OBytes _ | OExtrapolate _ => False
  | ODateTime t => exists s, P s /\ parse_datetime s = Some t
  | OColumn c => c_entity c = None
  | _ => True
  end.
Definition good (o : obj) : Prop := api o /\ forall x, occurs x o -> okx x.

Lemma good_atom o : api o -> (forall x, occurs x o -> x = o) -> okx o -> good o.
Proof. intros A O K. split; [exact A|]. intros x H. rewrite (O x H). exact K. Qed.
Ltac atom := apply good_atom; [|intros x Hx; inversion Hx; reflexivity|exact I].
Lemma good_none : good ONone. Proof. atom. constructor. Qed.
Lemma good_int z : good (OInt z). Proof. atom. constructor. Qed.
Lemma good_bool z : good (OBool z). Proof. atom. constructor. Qed.
Lemma good_str s : code_points s -> good (OStr s). Proof. intros H. atom. constructor. exact H. Qed.
Lemma good_op o : good (OOp o). Proof. atom. constructor. Qed.
Lemma one x : good x -> Forall good [x].
Proof. intros H. apply Forall_cons; [exact H|constructor]. Qed.
Lemma good_list l : Forall good l -> good (OList l).
Proof.
  intros H. split; [constructor; eapply Forall_impl; [|exact H]; intros a A; apply A|].
  intros x O. inversion O; subst; [exact I|]. rewrite Forall_forall in H. eapply H; eassumption.
Qed.
Lemma good_tuple l : Forall good l -> good (OTuple l).
Proof.
  intros H. split; [constructor; eapply Forall_impl; [|exact H]; intros a A; apply A|].
  intros x O. inversion O; subst; [exact I|]. rewrite Forall_forall in H. eapply H; eassumption.
Qed.
Lemma good_chars s : code_points s -> Forall good (map (fun c => OStr [c]) s).
Proof. intros H. induction H; cbn; constructor; auto. apply good_str. constructor; auto. Qed.
Lemma good_column n c : code_points n -> mk_column (OStr n) ONone = Ok c -> good c.
Proof.
  intros N H. destruct (ExprProps.c01_stores _ _ _ H) as (x & -> & _ & E). apply good_atom.
  - eapply api_column; [| |exact H]; constructor. exact N.
  - intros y O. inversion O; subst; [reflexivity|]. match goal with K : c_entity x = Some _ |- _ => rewrite K in E end. discriminate.
  - cbn. destruct (c_entity x); [discriminate|reflexivity].
Qed.
Lemma good_function f p a pl e : good f -> good a -> good p -> (p = ONone \/ list_or_tuple p pl) -> Forall good pl ->
  mk_function f p a = Ok e -> good e.
Proof.
  intros F A GP L G H. split; [eapply api_function; [apply F|apply GP|apply A|exact H]|].
  destruct (ExprProps.c05_stores _ _ _ _ _ _ H) as (n & ik & il & pk & pl' & al & -> & _ & _ & I' & S).
  intros x O. inversion O; subst; [exact I| |].
  - destruct I' as [(_ & _ & ->)|I']; [contradiction|inversion I'].
  - destruct S as [(_ & _ & ->)|S]; [contradiction|]. assert (pl' = pl) as ->.
    { destruct L as [->|L]; [inversion S|]. destruct L; inversion S; reflexivity. }
    rewrite Forall_forall in G. eapply G; eassumption.
Qed.
Lemma good_condition l o r c : good l -> good r -> mk_condition l (OOp o) r = Ok c -> good c.
Proof.
  intros L R H. split; [eapply api_condition; [apply L|apply (good_op o)|apply R|exact H]|].
  destruct (ExprProps.c08_stores _ _ _ _ H) as (q & _ & ->). intros x O. inversion O; subst; [exact I|apply L|apply R]; assumption.
Qed.
Lemma good_cond_ok l o r : good l -> good r -> condition_ok l (OOp o) r -> good (OCond l o r).
Proof.
  intros L R H. apply ExprProps.c08_accept in H as (c & H). destruct (ExprProps.c08_stores _ _ _ _ H) as (q & E & ->).
  injection E as <-. eapply good_condition; [exact L|exact R|exact H].
Qed.
Lemma good_or cs o : Forall good cs -> mk_or (OList cs) = Ok o -> good o.
Proof.
  intros G H. split; [eapply api_or; [apply good_list, G|exact H]|].
  destruct (ExprProps.c09_and_or (OList cs)) as (_ & _ & _ & K). apply K in H as (k & l & -> & L). inversion L; subst.
  intros x O. inversion O; subst; [exact I|]. rewrite Forall_forall in G. eapply G; eassumption.
Qed.
Lemma good_orderby e d o : good e -> mk_orderby e (ODir d) = Ok o -> good o.
Proof.
  intros G H. split; [eapply api_orderby; [apply G|constructor|exact H]|]. apply mk_orderby_iff in H as (_ & ->).
  intros x O. inversion O; subst; [exact I|]. apply G. assumption.
Qed.

(** ** Pieces *)
Lemma part_left a s : P (a ++ s) -> P s.
Proof. intros H. apply (PI a s []). now rewrite app_nil_r. Qed.
Lemma part_right s b : P (s ++ b) -> P s.
Proof. intros H. exact (PI [] s b H). Qed.
Lemma pieces_chars s : P s -> Forall pieces (map (fun c => OStr [c]) s).
Proof.
  intros H. apply Forall_forall. intros x I. apply in_map_iff in I as (c & <- & I). constructor.
  apply in_split in I as (a & b & ->). apply (PI a [c] b). exact H.
Qed.
Lemma pieces_seq v l : sequence v l -> pieces v -> Forall pieces l.
Proof. intros S H. destruct S; inversion H; subst; auto. now apply pieces_chars. Qed.
Lemma pieces_items v l : items_of v l -> pieces v -> Forall pieces l.
Proof.
  intros S H. destruct S; [eapply pieces_seq; eassumption|]. inversion H; subst. clear -H2.
  induction H2; cbn; constructor; auto. now constructor.
Qed.
Lemma pieces_at v i x : item_at v i x -> pieces v -> pieces x.
Proof.
  intros (l & S & N) H. apply nth_error_In in N. pose proof (pieces_seq _ _ S H) as F. rewrite Forall_forall in F. auto.
Qed.
Lemma good_datetime s t : P s -> parse_datetime s = Some t -> good (ODateTime t).
Proof.
  intros H E. apply good_atom; [|intros x O; inversion O; reflexivity|cbn; eauto].
  constructor. exact (proj2 (StrptimeFacts.parse_sound _ _ E) D).
Qed.
Lemma pieces_api v : pieces v -> api v.
Proof.
  induction v using obj_ind'; intros V; inversion V; subst; constructor; try (now apply PV);
    match goal with F : Forall pieces _ |- _ => rewrite Forall_forall in *; eauto end.
Qed.
Lemma pieces_scalar b v : pieces v -> good (parse_scalar b v).
Proof.
  induction v using obj_ind'; intros V; inversion V; subst; cbn [parse_scalar];
    try (atom; constructor; fail).
  - destruct b; [now apply good_str, PV|]. destruct (parse_datetime s) eqn:E; [eapply good_datetime; eassumption|now apply good_str, PV].
  - apply good_tuple. apply Forall_forall. intros x I. apply in_map_iff in I as (y & <- & I).
    rewrite Forall_forall in *. auto.
  - apply good_tuple. apply Forall_forall. intros x I. apply in_map_iff in I as (y & <- & I).
    rewrite Forall_forall in *. auto.
  - apply good_atom; [now apply pieces_api|intros x Hx; inversion Hx; reflexivity|exact I].
Qed.
Lemma pieces_value (b : bool) (keep : Prop) v v' : (b = true <-> keep) -> legacy_value keep v v' -> pieces v -> good v'.
Proof. intros B L H. rewrite (legacy_value_det b keep B v v' L). now apply pieces_scalar. Qed.

Lemma good_rhs lhs t b rhs : legacy_rhs lhs t b rhs -> pieces t -> good rhs.
Proof.
  intros R H. destruct R; [apply good_none|]. eapply pieces_value; [apply only_strings_iff|eassumption|]. eapply pieces_at; eassumption.
Qed.
Lemma quoted_part q s inner : quoted q s inner -> P s -> P inner.
Proof.
  intros [->|(-> & ->)] H; [exact (PI _ _ _ H)|]. exact (PI [] [] [q] H).
Qed.
Lemma falsy_good v : truthy v = false -> pieces v -> good v.
Proof.
  intros T H. inversion H; subst; try (atom; constructor; fail).
  - now apply good_str, PV.
  - destruct l; [|discriminate T]. apply good_list. constructor.
  - destruct l; [|discriminate T]. apply good_tuple. constructor.
  - pose proof (pieces_scalar false _ H) as G. exact G.
Qed.
Lemma good_alias r a : legacy_alias_of r a -> Forall pieces r -> good a.
Proof.
  intros A F. destruct A; try (apply good_none); inversion F; subst.
  - now apply falsy_good.
  - inversion H3; subst. apply good_str, PV. eapply quoted_part; eassumption.
  - inversion H3; subst. now apply good_str, PV.
Qed.
Lemma op_function_code o f : op_function_name o f -> code_points f.
Proof. intros H. destruct H; repeat constructor. Qed.

Lemma head_parts n b r : pieces (OList (OStr n :: b :: r)) -> P n /\ pieces b /\ Forall pieces r.
Proof.
  intros H. inversion H as [| | | | |l F| |]; subst. inversion F as [|? ? A F1]; subst. inversion F1 as [|? ? B F2]; subst.
  inversion A; subst. auto.
Qed.
Lemma good_exp v e : legacy_exp v e -> pieces v -> good e.
Proof.
  revert v e. apply (lgexp_ind RT CV (fun v e => pieces v -> good e) (fun l es => Forall pieces l -> Forall good es)
    (fun lhs t b rhs => pieces t -> good rhs)).
  - intros _. apply good_str. constructor.
  - intros s inner _ Q H. inversion H; subst. apply good_str, PV. eapply quoted_part; eassumption.
  - intros s e _ _ M H. inversion H; subst. eapply good_column; [|exact M]. now apply PV.
  - intros v e _ _ L H. eapply (pieces_value false False); [exact false_iff|exact L|exact H].
  - intros l a b lhs o rhs f e _ Na _ _ IH _ R IHR F M H. inversion H; subst. apply nth_error_In in Na. rewrite Forall_forall in H1.
    pose proof (IH (H1 a Na)) as GL. pose proof (IHR H) as GR.
    assert (Forall good [lhs; rhs]) as G by (apply Forall_cons; [exact GL|apply one; exact GR]).
    eapply good_function; [apply good_str; eapply op_function_code; exact F|apply good_none|apply good_tuple; exact G|right; constructor|exact G|exact M].
  - intros n n' b r al e _ _ _ W A M H. destruct (head_parts _ _ _ H) as (Pn & Pb & Pr).
    destruct W as (x & y & -> & _).
    eapply good_function; [apply good_str, PV; exact (PI _ _ _ Pn)|eapply good_alias; eassumption|apply good_list; constructor|right; constructor|constructor|exact M].
  - intros n b r al e _ _ _ A M H. destruct (head_parts _ _ _ H) as (Pn & Pb & Pr).
    eapply good_function; [apply good_str, PV; exact Pn|eapply good_alias; eassumption|apply good_list; constructor|right; constructor|constructor|exact M].
  - intros n b r al e _ _ _ _ A M H. destruct (head_parts _ _ _ H) as (Pn & Pb & Pr).
    assert (good (match b with OList _ => OList [] | _ => ONone end)) as G.
    { destruct b; try apply good_none. apply good_list. constructor. }
    eapply (good_function _ _ _ []); [apply good_str, PV; exact Pn|eapply good_alias; eassumption|exact G| |constructor|exact M].
    destruct b; auto. right. constructor.
  - intros n args es r al e _ _ _ IH A M H. destruct (head_parts _ _ _ H) as (Pn & Pb & Pr).
    inversion Pb; subst. pose proof (IH ltac:(assumption)) as G.
    eapply good_function; [apply good_str, PV; exact Pn|eapply good_alias; eassumption|apply good_list; exact G|right; constructor|exact G|exact M].
  - intros n b x r al e _ _ _ _ IH A M H. destruct (head_parts _ _ _ H) as (Pn & Pb & Pr).
    assert (Forall good [x]) as G by (apply one, IH; assumption).
    eapply good_function; [apply good_str, PV; exact Pn|eapply good_alias; eassumption|apply good_list; exact G|right; constructor|exact G|exact M].
  - constructor.
  - intros v e vs es _ IH _ IHs H. inversion H; subst. constructor; auto.
  - intros. apply good_none.
  - intros lhs t b v v' N It L H. eapply pieces_value; [apply only_strings_iff|eassumption|]. eapply pieces_at; eassumption.
Qed.

Lemma good_cond_object t c : cond_object t c -> pieces t -> good c.
Proof.
  intros (lhs & o & rhs & L & C & ->) H. destruct L. apply good_cond_ok; [|eapply good_rhs; eassumption|exact C].
  eapply good_exp; [eassumption|]. eapply pieces_at; eassumption.
Qed.
Lemma good_conds l cs : Forall2 cond_object l cs -> Forall pieces l -> Forall good cs.
Proof. induction 1; intros H1; inversion H1; subst; constructor; auto. eapply good_cond_object; eassumption. Qed.
Lemma good_or_object l cs : Forall2 cond_object l cs -> (2 <= List.length cs)%nat -> Forall pieces l -> good (OBoolC BOr OR KList cs).
Proof.
  intros F N H. eapply (good_or cs); [eapply good_conds; eassumption|].
  apply (mk_or_list cs); [eapply conditions_are; exact F|]. auto.
Qed.
Lemma good_where t cs : where_object t cs -> pieces t -> Forall good cs.
Proof.
  intros W H. destruct W.
  - apply one. eapply good_cond_object; eassumption.
  - apply one. eapply good_or_object; [eassumption|eassumption|]. eapply pieces_items; eassumption.
  - apply one. pose proof (pieces_items _ _ H1 H) as F. inversion F; subst. eapply good_cond_object; eassumption.
  - constructor.
Qed.
Lemma good_wheres items css : Forall2 where_object items css -> Forall pieces items -> Forall good (List.concat css).
Proof. induction 1; intros F; inversion F; subst; cbn; [constructor|]. apply Forall_app. split; [eapply good_where; eassumption|auto]. Qed.
Lemma good_having t c : having_object t c -> pieces t -> good c.
Proof.
  intros W H. destruct W; [eapply good_cond_object; eassumption|]. eapply good_or_object; [eassumption|eassumption|]. eapply pieces_items; eassumption.
Qed.
Lemma good_all {R : obj -> obj -> Prop} l m : (forall x y, R x y -> pieces x -> good y) -> Forall2 R l m -> Forall pieces l -> Forall good m.
Proof. intros K. induction 1; intros H1; inversion H1; subst; constructor; eauto. Qed.
Lemma good_row v e : row_exp v e -> pieces v -> good e.
Proof. intros R H. destruct R; (eapply good_exp; [eassumption|]); [|exact H]. inversion H; subst. now constructor. Qed.
Lemma good_aggregation v e : aggregation_exp v e -> pieces v -> good e.
Proof. intros (l & S & E) H. eapply good_exp; [exact E|]. constructor. eapply pieces_items; eassumption. Qed.
Lemma minus_part s s' : minus_signs s s' -> P s -> P s'.
Proof. intros (n & -> & _) H. eapply part_left. exact H. Qed.
Lemma good_order o e d : order_exp o e d -> pieces o -> good e.
Proof.
  intros R H. destruct R; (eapply good_exp; [eassumption|]); auto; inversion H; subst.
  - constructor. eapply minus_part; eassumption.
  - match goal with F : Forall pieces (_ :: _) |- _ => inversion F as [|? ? A F1]; subst end. inversion A; subst.
    constructor. constructor; [|assumption]. constructor. eapply minus_part; eassumption.
Qed.
Lemma good_orders p l obs : orders_from p l obs -> (forall e, p = Some e -> good e) -> Forall pieces l -> Forall good obs.
Proof.
  induction 1; intros G F; inversion F; subst; constructor.
  - eapply good_orderby; [eapply good_order; eassumption|]. apply mk_orderby_iff. auto.
  - apply IHorders_from; auto. intros x E. injection E as <-. eapply good_order; eassumption.
  - eapply good_orderby; [apply G; reflexivity|]. apply mk_orderby_iff. auto.
  - apply IHorders_from; auto.
Qed.
Lemma plain_made n : n = $"org_id" \/ n = $"project_id" \/ (exists e, time_column e n) -> good (plain_column n).
Proof.
  intros H. apply (good_column n); [|destruct H as [->|[->|(e & H)]]; [apply org_column|apply project_column|eapply time_columns; exact H]].
  destruct H as [->|[->|(e & H)]]; [repeat constructor..|]. destruct H; repeat constructor.
Qed.
Lemma entry_pieces body k v : pieces body -> dict_entry body k v -> pieces v.
Proof.
  intros H (ks & vs & -> & E). inversion H as [| | | | | | |a b _ F]; subst. clear H. revert vs F E.
  induction ks as [|k' ks IH]; intros [|w vs] F E; try contradiction. inversion F; subst. destruct E as [(_ & ->)|(_ & E)]; [assumption|eauto].
Qed.
Lemma good_ids body k col (Q : Prop) l : col = $"org_id" \/ col = $"project_id" -> pieces body -> id_conditions body k col Q l -> Forall good l.
Proof.
  intros C H E. destruct E; [constructor|constructor|constructor|apply one].
  assert (good (plain_column col)) as GC by (apply plain_made; tauto).
  pose proof (entry_pieces _ _ _ H H0) as V. destruct H2.
  - apply good_cond_ok; [exact GC|destruct H2; [apply good_int|apply good_bool..]|]. apply literal_condition; try discriminate. eapply scalar_int; exact H2.
  - apply good_cond_ok; [exact GC|apply good_tuple, one; destruct H2; [apply good_int|apply good_bool..]|].
    apply literal_condition; try discriminate. apply sc_tuple. constructor; [left; eapply scalar_int; exact H2|constructor].
  - apply good_cond_ok; [exact GC| |apply literal_condition; try discriminate; assumption].
    apply good_tuple. apply values_map in H3 as ->. apply Forall_forall. intros x I. apply in_map_iff in I as (y & <- & I).
    apply pieces_scalar. assert (Forall pieces l) as F by (destruct H2; inversion V; auto). rewrite Forall_forall in F. auto.
Qed.
Lemma good_times body k col o l : (o = GTE \/ o = LT) -> (exists e, time_column e col) -> pieces body -> time_conditions body k col o l -> Forall good l.
Proof.
  intros O C H E. destruct E; [constructor|constructor|apply one]. pose proof (entry_pieces _ _ _ H H0) as V. inversion V; subst.
  assert (good (ODateTime t)) as GT by (eapply good_datetime; eassumption).
  apply good_cond_ok; [apply plain_made; auto|exact GT|]. apply literal_condition; try (destruct O; subst; discriminate); repeat constructor.
Qed.
Lemma good_extensions body n l : pieces body -> extension_conditions body n l -> Forall good l.
Proof.
  intros H E. destruct E; rewrite ?Forall_app; repeat split; eauto using good_ids, good_times.
Qed.
Lemma good_array_join body c : pieces body -> array_join_of body c -> good c.
Proof.
  intros H A. destruct A; [apply good_none|]. apply good_list, one. destruct H0 as (E & _).
  pose proof (entry_pieces _ _ _ H E) as V. pose proof H1 as M. apply ExprProps.c01_stores in M as (x & -> & -> & _).
  inversion V; subst. eapply good_column; [|exact H1]. now apply PV.
Qed.
Lemma pieces_grouped body gs : pieces body -> grouped body gs -> Forall pieces gs.
Proof.
  intros H G. destruct G; try constructor.
  - pose proof (entry_pieces _ _ _ H H0) as V. now inversion V.
  - destruct H0 as (E & _). eapply entry_pieces; eassumption.
  - constructor.
Qed.
Lemma pieces_listed body k items : pieces body -> listed body k items -> Forall pieces items.
Proof. intros H [(v & E & S)|(_ & ->)]; [|constructor]. eapply pieces_items; [exact S|]. eapply entry_pieces; eassumption. Qed.
Lemma good_ordered body ob : pieces body -> ordered body ob -> good ob.
Proof.
  intros H O. destruct O; [apply good_none| |]; destruct H0 as (E & _); pose proof (entry_pieces _ _ _ H E) as V; apply good_list;
    (eapply good_orders; [eassumption|discriminate|]); [now inversion V|repeat constructor; exact V].
Qed.
Lemma good_limitby body lb : pieces body -> limitby_of body lb -> good lb.
Proof.
  intros H L. destruct L; [apply good_none|]. destruct H0 as (E & _). pose proof (entry_pieces _ _ _ H E) as V.
  pose proof (pieces_items _ _ H1 V) as F. inversion F; subst. inversion H7; subst.
  pose proof H2 as M. apply ExprProps.c01_stores in M as (x & Ex & -> & Ent). injection Ex as <-. inversion H8; subst.
  assert (good (OColumn c)) as GC by (eapply good_column; [apply PV; eassumption|exact H2]).
  split.
  - eapply api_limitby; [apply (good_list [OColumn c]), one, GC|apply (good_int z)|]. apply mk_limitby_iff. auto.
  - intros y O. inversion O; subst; [exact I|]. match goal with K : In _ [_] |- _ => destruct K as [->|[]] end. apply GC. assumption.
Qed.
Lemma clause_int lo hi k z : (match lo with Some m => (m <= z)%Z | None => True end) -> (match hi with Some m => (z <= m)%Z | None => True end) ->
  int_clause (OInt z) lo hi k = Ok (k (PInt z)).
Proof.
  intros A B. unfold int_clause, validate_int_literal. cbn [as_int pyint_Z].
  assert ((match lo with Some m => (z <? m)%Z | None => false end) = false) as -> by (destruct lo; [apply Z.ltb_ge; exact A|reflexivity]).
  assert ((match hi with Some m => (z >? m)%Z | None => false end) = false) as -> by (destruct hi; [rewrite Z.gtb_ltb; apply Z.ltb_ge; exact B|reflexivity]).
  reflexivity.
Qed.
Lemma good_setting body k c x : c = CLimit \/ c = COffset \/ c = CGranularity \/ c = CTotals -> setting body k c x -> good x.
Proof.
  intros C S. destruct S; [apply good_none|]. clear H H0.
  destruct C as [->|[->|[->| ->]]]; inversion H1; subst; clear H1; apply good_atom;
    try (intros y O; inversion O; reflexivity); try exact I.
  - eapply api_limit; [apply (api_int z)|]. apply clause_int; lia.
  - eapply api_limit; [apply (api_bool true)|]. reflexivity.
  - eapply api_offset; [apply (api_int z)|]. apply clause_int; [lia|exact I].
  - eapply api_offset; [apply (api_bool b)|]. destruct b; reflexivity.
  - eapply api_granularity; [apply (api_int z)|]. apply clause_int; [lia|exact I].
  - eapply api_granularity; [apply (api_bool true)|]. reflexivity.
  - eapply api_totals; [apply (api_bool b)|]. reflexivity.
Qed.

(** ** The whole *)
Lemma converted_query body entity r : pieces body -> (forall n, entity = OStr n -> code_points n) -> converted body entity r ->
  exists e c, rq_query r = RQuery (QBase (BEntity e) c) /\ good (OEntity e) /\ e_dm e = None /\ (forall k, good (get k c))
    /\ class_typed c /\ select_rule c
    /\ (totals_rule c <-> ~ totals_alone body).
Proof.
  intros HB HE C. destruct C as [n sample e aggs aes sels ses aj gs ges ext items css hitems hs ob lb li off gr to dataset app tenants consistent turbo debug dry
    Bd En Sa Me La Fa Ls Fs Ne Se Aj Gr Fg Sg Ex Lc Fw Lh Fh Or Lb Li Of Gn To Da Ap Te Co Tu De Dr].
  assert (Forall good aes) as Ga by (eapply (good_all _ _ good_aggregation); [exact Fa|exact (pieces_listed _ _ _ HB La)]).
  assert (Forall good ses) as Gs by (eapply (good_all _ _ good_row); [exact Fs|exact (pieces_listed _ _ _ HB Ls)]).
  assert (Forall good ges) as Gg by (eapply (good_all _ _ good_row); [exact Fg|exact (pieces_grouped _ _ HB Gr)]).
  assert (Forall good ext) as Gx by (exact (good_extensions _ _ _ HB Ex)).
  assert (Forall good (List.concat css)) as Gw by (eapply good_wheres; [exact Fw|exact (pieces_listed _ _ _ HB Lc)]).
  assert (Forall good hs) as Gh by (eapply (good_all _ _ good_having); [exact Fh|exact (pieces_listed _ _ _ HB Lh)]).
  exists e. eexists. split; [reflexivity|]. split; [|split; [|split; [|split; [|split]]]].
  - split; [|intros x O; inversion O; exact I]. eapply api_entity; [| | | |exact Me]; try constructor.
    + subst entity. constructor. exact (HE n eq_refl).
    + destruct Sa; constructor.
  - apply mk_entity_name in Me as (m & x & _ & E). injection E as ->. reflexivity.
  - intros k. destruct k; cbn [get c_select c_groupby c_array_join c_where c_having c_orderby c_limitby c_limit c_offset c_granularity c_totals].
    all: try (apply good_list; rewrite ?Forall_app; auto; fail).
    + exact (good_array_join _ _ HB Aj).
    + exact (good_ordered _ _ HB Or).
    + exact (good_limitby _ _ HB Lb).
    + eapply good_setting; [|exact Li]; auto.
    + eapply good_setting; [|exact Of]; auto.
    + eapply good_setting; [|exact Gn]; auto.
    + eapply good_setting; [|exact To]; auto.
  - intros k. destruct k; cbn [get c_select c_groupby c_array_join c_where c_having c_orderby c_limitby c_limit c_offset c_granularity c_totals snql_separator].
    + right. eexists. split; [constructor|]. exact Se.
    + right. eexists. split; [constructor|]. exact Sg.
    + destruct Aj as [|v c _ M]; [auto|]. right. eexists. split; [constructor|]. apply column_made in M as (x & ->). repeat constructor.
    + right. eexists. split; [constructor|]. apply Forall_app. split; [eapply extensions_are; exact Ex|eapply wheres_are; exact Fw].
    + right. eexists. split; [constructor|]. eapply havings_are; exact Fh.
    + destruct Or as [|l obs _ O|v obs _ _ O]; [auto| |]; right; eexists; (split; [constructor|]); eapply orders_are; exact O.
    + destruct Lb; [auto|]. right. cbn. eauto.
    + destruct Li as [|v x _ _ S]; [auto|]. right. inversion S; subst; cbn; eauto.
    + destruct Of as [|v x _ _ S]; [auto|]. right. inversion S; subst; cbn; eauto.
    + destruct Gn as [|v x _ _ S]; [auto|]. right. inversion S; subst; cbn; eauto.
    + destruct To as [|v x _ _ S]; [auto|]. right. inversion S; subst; cbn; eauto.
  - destruct (aes ++ ses) as [|x l]; [congruence|]. exists x, l. constructor.
  - assert (to = OTotals true <-> dict_entry body ($"totals") (OBool true)) as TT.
    { destruct To as [N|v x E _ S].
      - split; [discriminate|]. intros E. destruct N as [N|N]; [elim (N _ E)|]. pose proof (entry_unique _ _ _ _ N E). discriminate.
      - inversion S; subst. split; intros K; [injection K as ->; exact E|]. pose proof (entry_unique _ _ _ _ E K) as X. injection X as ->. reflexivity. }
    assert (ges = [] <-> gs = []) as GG by (split; intros ->; inversion Fg; reflexivity).
    assert (gs = [] <-> grouped body []) as GE.
    { split; [intros <-; exact Gr|]. intros G0.
      assert (forall v w, dict_entry body ($"groupby") v -> dict_entry body ($"groupby") w -> v = w) as U by (intros v w; apply entry_unique).
      inversion G0; subst; inversion Gr; subst; auto.
      all: repeat match goal with X : given _ _ _ |- _ => destruct X end.
      all: try (match goal with N : no_key _ _, E : dict_entry _ _ _ |- _ => elim (N _ E) end).
      all: match goal with E : dict_entry _ _ ?a, E' : dict_entry _ _ ?b |- _ => pose proof (U _ _ E E'); subst end.
      all: try congruence. 
      all: try (match goal with X : OList _ = OList _ |- _ => injection X as X end); try congruence.
      all: try (match goal with N : forall l, ?v <> OList l |- _ => try (elim (N _ eq_refl)) end).
      all: try (match goal with T : truthy (OList ?l) = false |- _ => destruct l; [reflexivity|discriminate T] end). }
    unfold totals_rule, totals_alone. cbn [c_totals c_groupby]. rewrite TT, <- GE, <- GG. split.
    + intros H (A & B). destruct (H A) as (x & l & L). subst ges. inversion L.
    + intros H A. destruct ges as [|x l]; [elim H; auto|]. exists x, l. constructor.
Qed.
End Pieces.

Definition part (body : obj) (s : str) : Prop := code_points s /\ exists a b, text_in (a ++ s ++ b) body.
Lemma part_code body s : part body s -> code_points s. Proof. intros H. apply H. Qed.
Lemma part_inside body a s b : part body (a ++ s ++ b) -> part body s.
Proof.
  intros (C & x & y & T). unfold code_points in C. rewrite !Forall_app in C. split; [apply C|]. exists (x ++ a), (b ++ y).
  rewrite <- !app_assoc. rewrite <- !app_assoc in T. exact T.
Qed.
Lemma decoded_parts body v : decoded v -> (forall s, text_in s v -> text_in s body) -> pieces (part body) v.
Proof.
  assert (forall s, code_points s -> text_in s body -> part body s) as K.
  { intros s C T. split; [exact C|]. exists [], []. rewrite app_nil_r. exact T. }
  induction v using obj_ind'; intros V T; inversion V; subst; constructor.
  - apply K; [assumption|]. apply T. constructor.
  - rewrite Forall_forall in *. intros x I. apply H; auto. intros s X. apply T. econstructor; eassumption.
  - rewrite Forall_forall in *. intros x I. apply H; auto. intros s X. apply T. econstructor; eassumption.
  - rewrite Forall_forall in *. intros x I. apply K; auto. apply T. now constructor.
  - rewrite Forall_forall in *. intros x I. apply H; auto. intros s X. apply T. eapply ti_value; eassumption.
Qed.
Lemma decoded_pieces body : decoded body -> pieces (part body) body.
Proof. intros H. apply decoded_parts; auto. Qed.
Lemma part_written body s t : part body s -> parse_datetime s = Some t -> written body t.
Proof. intros (_ & a & b & T) E. exists a, s, b. split; [exact T|]. apply (StrptimeFacts.parse_sound _ _ E). Qed.
Lemma decoded_sendable v : decoded v -> sendable v.
Proof. induction v using obj_ind'; intros V; inversion V; subst; constructor; rewrite Forall_forall in *; auto. Qed.
Lemma decoded_entry body k v : decoded body -> dict_entry body k v -> decoded v.
Proof.
  intros H (ks & vs & -> & E). inversion H as [| | | | | | |a b _ F]; subst. clear H. revert vs F E.
  induction ks as [|k' ks IH]; intros [|w vs] F E; try contradiction. inversion F; subst. destruct E as [(_ & ->)|(_ & E)]; [assumption|eauto].
Qed.
End Facts.

Lemma refers_occurs o c : refers o c -> occurs (OColumn c) o.
Proof. induction 1; econstructor; (eassumption || constructor). Qed.
Lemma item_occurs k o x c : clause_item k o x -> refers x c -> occurs (OColumn c) o.
Proof.
  unfold clause_item. intros I R. apply refers_occurs in R. destruct (snql_separator k); [|subst; exact R].
  destruct I as (l & L & I). destruct L; econstructor; eassumption.
Qed.

Section Totals.
Context {RT : PyRT}.
Lemma totals_refused b c : c_totals c = OTotals true -> truthy (c_groupby c) = false ->
  validate (QBase b (upd CTotals ONone c)) = Ok tt -> validate (QBase b c) = Raise InvalidQueryError.
Proof.
  destruct c as [a1 a2 a3 a4 a5 a6 a7 a8 a9 a10 a11]. cbn [c_totals c_groupby]. intros -> G H.
  cbn [validate] in *. apply bind_Ok in H as ([] & -> & H). apply bind_Ok in H as ([] & K & H).
  assert (check_all (fun k => validate_clause k (get k (mkClauses a1 a2 a3 a4 a5 a6 a7 a8 a9 a10 (OTotals true)))) all_clauses = Ok tt) as ->.
  { rewrite <- K. reflexivity. }
  cbn [bind]. unfold validate_combine in *.
  apply bind_Ok in H as ([] & M & H).
  assert (validate_match (QBase b (mkClauses a1 a2 a3 a4 a5 a6 a7 a8 a9 a10 (OTotals true))) = Ok tt) as ->.
  { rewrite <- M. reflexivity. }
  cbn [bind]. apply bind_Ok in H as ([] & S & H). cbn [q_clauses c_select upd] in *. rewrite S. cbn. now rewrite G.
Qed.
End Totals.
