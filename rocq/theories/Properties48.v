(** Property C109: a query on its own and as the subquery of another. *)
From Verif Require Import PyBase PyFacts DateTime Objects Exprs SpecExpr Translate Optimizer Query SpecQuery SpecSetters SpecRefs SpecOccurs SpecOrder SpecLogic WfFacts LiteralFacts SetterProps OptFacts QueryProps PrintProps
  SpecSnql SnqlFacts SnqlDenote SnqlQuery SpecAlike SpecServer ServerFacts SpecStep StepFacts ApiTac Concrete Properties3 Properties4 Properties12 Properties44 Properties46.
Require Import Lia.

Section P.
Context {RT : PyRT}.

Lemma two_prints p p' s s' t t' : wf_query p -> class_typed_query p -> named_query p -> wf_query p' -> class_typed_query p' -> named_query p' ->
  q_match p' = q_match p -> print_query ($" ") p = Ok s -> print_query ($" ") p' = Ok s' -> reads s t -> reads s' t' ->
  same_match t t' /\ forall k, denotes_part (joined p) k (get k (q_clauses p)) (part_of t k) /\ denotes_part (joined p) k (get k (q_clauses p')) (part_of t' k).
Proof.
  intros W T N W' T' N' M P P' (G & TX) (G' & TX').
  destruct (match_shows p W T N s P) as (m & K).
  destruct (K p s eq_refl W T N P) as (ps & D & GD & TD). destruct (K p' s' M W' T' N' P') as (ps' & D' & GD' & TD').
  destruct (same_query_parts _ _ (query_unique _ _ GD G ltac:(congruence))) as (A1 & A2).
  destruct (same_query_parts _ _ (query_unique _ _ GD' G' ltac:(congruence))) as (B1 & B2). cbn [part_of] in A1, B1.
  split; [eapply same_query_trans; [apply same_query_sym, A2|exact B2]|]. intros k. rewrite <- A1, <- B1. auto.
Qed.
Lemma but_conditions t t' : same_match t t' -> (forall k, k <> CWhere -> part_of t k = part_of t' k) -> same_but_conditions t t'.
Proof.
  destruct t as [m p], t' as [m' p']. unfold same_match, same_but_conditions. cbn [only_match without_where part_of]. intros S F.
  inversion S; subst; constructor; try assumption; intros []; try reflexivity; apply F; discriminate.
Qed.
Lemma parts_same t t' : same_match t t' -> (forall k, part_of t k = part_of t' k) -> same_query t t'.
Proof.
  destruct t as [m p], t' as [m' p']. unfold same_match. cbn [only_match part_of]. intros S F. inversion S; subst; constructor; assumption.
Qed.
Lemma parts_text p p' : (forall k, p k = p' k) -> forall ks, text_of_parts p ks = text_of_parts p' ks.
Proof. intros F ks. unfold text_of_parts. f_equal. apply map_ext. intros k. rewrite F. reflexivity. Qed.
Lemma same_query_text t t' : same_query t t' -> text_of_query t = text_of_query t'.
Proof.
  induction 1 as [i i' p p' _ IH F|m p p' F]; cbn [text_of_query]; [rewrite IH|]; rewrite (parts_text p p' F); reflexivity.
Qed.
(** the inner query of a text *)
Lemma inner_read i c s' t' : wf_query (QSub i c) -> class_typed_query (QSub i c) -> named_query (QSub i c) -> serialize (QSub i c) = Ok s' -> reads s' t' ->
  exists ti ps s0, t' = QTree (MSub ti) ps /\ print_query ($" ") i = Ok s0 /\ reads s0 ti.
Proof.
  intros W T N E (G & TX).
  destruct (serialize_prints _ s' W T N E) as (p & l0 & l & Wp & Tp & Np & (Mp & Cp) & _ & _ & _ & _ & _ & P).
  destruct p as [b c'|i' c']; cbn [q_match] in Mp; [destruct b; discriminate Mp|]. injection Mp as ->.
  cbn [print_query] in P. apply bind_Ok in P as (s0 & PI & P). apply bind_Ok in P as (cs & E2 & P). apply Ok_inj in P. rewrite <- TX in P. symmetry in P.
  destruct (query_shows i (proj1 Wp) (proj1 Tp) (fun o I => Np o (io_inner _ _ _ I)) s0 PI) as (ti & DI & GI & TI).
  assert (NC : forall k, items_named k (get k c')). { intros k x H. apply Np. eapply io_sub_clause, H. }
  match type of P with context [filter nonempty (?x :: _)] => cbn [filter] in P; change (nonempty x) with true in P; cbn match in P end.
  match type of P with context [join _ (?x :: filter nonempty cs)] =>
    destruct (parts_shows _ c' cs x (proj2 Wp) (proj2 Tp) NC E2) as (parts & D & GP & EP) end.
  rewrite EP in P.
  assert (G0 : good_query (QTree (MSub ti) parts)) by (constructor; assumption).
  assert (T0 : text_of_query (QTree (MSub ti) parts) = text_of_query t').
  { rewrite P. cbn [text_of_query]. rewrite TI, <- !app_assoc. reflexivity. }
  pose proof (query_unique _ _ G0 G T0) as S. inversion S as [? i1 ? p' SI F|? ? p' F]; subst.
  - exists i1, p', (text_of_query ti). split; [reflexivity|]. split; [exact PI|]. split; [inversion G; assumption|]. symmetry. apply same_query_text, SI.
  - exists ti, p', (text_of_query ti). split; [reflexivity|]. split; [exact PI|]. split; [exact GI|reflexivity].
Qed.

(** ** C109 A query means the same on its own and as the subquery of another *)
(** what is read inside the braces is the query that is read from its own text, but for the
    conditions in WHERE, and these hold in the same rows; missing: left-hand sides with booleans,
    floats or function aliases, as in C105 *)
Theorem C109_subquery_partial : forall i c s s' l t t', api_query (QSub i c) -> class_typed_query (QSub i c) -> plain_names (QSub i c) ->
  filters i l -> Forall merges_exactly l -> serialize i = Ok s -> serialize (QSub i c) = Ok s' -> reads s t -> reads s' t' ->
  exists ti ps, t' = QTree (MSub ti) ps /\ same_but_conditions ti t
    /\ forall R, knows_in R -> passes R (part_of ti CWhere) = passes R (part_of t CWhere).
Proof.
  intros i c s s' l t t' A T N F X E E' R R'.
  assert (NI : named_query i) by (intros o I x O; exact (N o x (io_inner _ _ _ I) O)).
  pose proof (api_wf_query i (proj1 A)) as W. pose proof (proj1 T) as TI.
  destruct (inner_read i c s' t' (api_wf_query _ A) T (fun o I x O => N o x I O) E' R') as (ti & ps & s0 & -> & P0 & RI).
  destruct (serialize_prints i s W TI NI E) as (p & l0 & l1 & Wp & Tp & Np & (Mp & Cp) & F0 & F1 & O & WL0 & WL1 & P).
  assert (l0 = l) as -> by (eapply filters_one; [exact F0|exact F]).
  destruct (two_prints i p s0 s ti t W TI NI Wp Tp Np Mp P0 P RI R) as (SM & D).
  exists ti, ps. split; [reflexivity|].
  assert (WI : forall k, wf (get k (q_clauses i))) by (intros k; destruct i; apply W).
  split.
  - apply but_conditions; [exact SM|]. intros k NE. destruct (D k) as [D1 D2]. rewrite (Cp k NE) in D2. eapply denotes_part_fun; [apply WI|exact D1|exact D2].
  - intros r K. destruct (D CWhere) as [D1 D2].
    destruct (where_tree (joined i) (get CWhere (q_clauses i)) (get CWhere (q_clauses p)) l l1 (part_of t CWhere) (WI CWhere) F F1 X O D2) as (p0 & D0 & Q).
    rewrite (Q r K). f_equal. eapply denotes_part_fun; [apply WI|exact D1|exact D0].
Qed.
(** whatever can be sent as a subquery can be sent on its own *)
Theorem C109_sends : forall i c s', api_query (QSub i c) -> class_typed_query (QSub i c) -> serialize (QSub i c) = Ok s' -> exists s, serialize i = Ok s.
Proof.
  intros i c s' A T E. pose proof E as E0.
  apply (C20_same_failures i (proj1 A) (proj1 T)). unfold serialize in E. apply bind_Ok in E as ([] & V & E). apply bind_Ok in E as (q' & EO & E).
  pose proof (validate_inner _ V i eq_refl) as VI. unfold print. rewrite VI. cbn [bind].
  assert (M : q_match q' = q_match (QSub i c)).
  { destruct (optimize_query_spec (QSub i c) (api_wf_query _ A) T (validate_inner _ V)) as [(l & _ & _ & Q)|(l & l' & _ & _ & _ & _ & Q)]; rewrite Q in EO; injection EO as <-; [reflexivity|reflexivity]. }
  destruct q' as [b c'|i' c']; cbn [q_match] in M; [destruct b; discriminate M|]. injection M as ->. cbn [print_query] in E. apply bind_Ok in E as (s0 & P & _).
  destruct (print_query [NL] i) as [s|e] eqn:P2; [eauto|]. apply (print_query_raise i e [NL] ($" ")) in P2. congruence.
Qed.
(** without an OR to merge it is the same text *)
Theorem C109_same_text : forall i c s s' l t', api_query (QSub i c) -> class_typed_query (QSub i c) -> plain_names (QSub i c) ->
  filters i l -> ~ Exists mergeable l -> serialize i = Ok s -> serialize (QSub i c) = Ok s' -> reads s' t' ->
  exists ti ps, t' = QTree (MSub ti) ps /\ reads s ti.
Proof.
  intros i c s s' l t' A T N F X E E' R'.
  assert (NI : named_query i) by (intros o I x O; exact (N o x (io_inner _ _ _ I) O)).
  destruct (inner_read i c s' t' (api_wf_query _ A) T (fun o I x O => N o x I O) E' R') as (ti & ps & s0 & -> & P0 & RI).
  exists ti, ps. split; [reflexivity|].
  unfold serialize in E. apply bind_Ok in E as ([] & V & E). apply bind_Ok in E as (q' & EO & E).
  destruct (optimize_query_spec i (api_wf_query i (proj1 A)) (proj1 T) (validate_inner i V)) as [(l0 & FL & NM & EQ)|(l0 & l1 & FL & E1 & Wl & Cl & EQ)]; rewrite EQ in EO; injection EO as <-.
  - rewrite P0 in E. injection E as <-. exact RI.
  - exfalso. apply X. assert (l0 = l) as -> by (eapply filters_one; [exact FL|exact F]).
    apply optimize_Some in E1 as [H _]. exact H.
Qed.
(** in full not: a row passes f(1) = 5 OR f(TRUE) = 6 inside a subquery, and not on its own *)
Definition c109_query (i : query) : query := QSub i (upd CSelect (OList [OColumn (mkColumn ($"a") None None None)]) no_clauses).
Ltac good := repeat match goal with
  | |- Forall _ _ => constructor
  | |- good_expr (c105_f _) => unfold c105_f | |- good_expr (c105_n _) => unfold c105_n
  | |- good_expr (EWord _ _ _) => apply ge_word; [apply lit_word; [discriminate|reflexivity]| |intros; discriminate]
  end.
Lemma c109_api w : api w -> api_query (c109_query (c107_query w)).
Proof.
  intros AW. split; [split; [cbn [obj_of_base]; api_tac|]; intros []; cbn; try apply api_none; try exact AW; api_tac|].
  intros []; cbn; try apply api_none; api_tac.
Qed.
Lemma c109_typed l : Forall a_condition l -> class_typed_query (c109_query (c107_query (OList l))).
Proof.
  intros F. split; intros []; cbn; auto; right; eexists; (split; [constructor|]); first [exact F|repeat constructor].
Qed.
Lemma c109_names l : (forall o x, In o l -> occurs x o -> snql_names x) -> plain_names (c109_query (c107_query (OList l))).
Proof.
  assert (K : forall z x, In z [OColumn (mkColumn ($"a") None None None)] -> occurs x z -> snql_names x).
  { intros z x [<-|[]] O. inversion O; subst; try exact Logic.I; cbn in *; try contradiction; try discriminate. }
  intros H o x I O. inversion I as [| |? ? k z C|? ? ? I']; subst.
  - destruct k; unfold clause_item in C; cbn in C; try (destruct C as (m & L & J); inversion L; subst); try (subst o; inversion O; subst; exact Logic.I).
    eapply K; eassumption.
  - inversion I' as [? ?|? ? k z C| |]; subst.
    + cbn in O. inversion O; subst; cbn; try discriminate; exact Logic.I.
    + destruct k; unfold clause_item in C; cbn in C; try (destruct C as (m & L & J); inversion L; subst); try (subst o; inversion O; subst; exact Logic.I).
      * eapply K; eassumption.
      * eapply H; eassumption.
Qed.
Theorem C109_subquery_refuted : exists i c s s' t ti ps R, api_query (QSub i c) /\ class_typed_query (QSub i c) /\ plain_names (QSub i c)
  /\ serialize i = Ok s /\ serialize (QSub i c) = Ok s' /\ reads s t /\ reads s' (QTree (MSub ti) ps) /\ knows_in R
  /\ passes R (part_of ti CWhere) = TTrue /\ passes R (part_of t CWhere) = TFalse.
Proof.
  exists (c107_query (OList [c34_or])), (upd CSelect (OList [OColumn (mkColumn ($"a") None None None)]) no_clauses),
    ($"MATCH (e) SELECT a WHERE fn(1) IN array(5, 6)"), ($"MATCH { MATCH (e) SELECT a WHERE (fn(1) = 5 OR fn(TRUE) = 6) } SELECT a"),
    (QTree (MEntity ($"e") None) (c105_parts (CAtom (c105_f ($"1")) IN (Some (EWord ($"array") [[c105_n ($"5"); c105_n ($"6")]] None))))),
    (QTree (MEntity ($"e") None) (c105_parts (CNode OR [CAtom (c105_f ($"1")) EQ (Some (c105_n ($"5"))); CAtom (c105_f ($"TRUE")) EQ (Some (c105_n ($"6")))]))),
    (fun k => match k with CSelect => Some (PExprs [c105_n ($"a")]) | _ => None end), c105_row.
  split; [apply (c109_api (OList [c34_or])); unfold c34_or, c34_func; api_tac|]. split; [apply (c109_typed [c34_or]); repeat constructor|].
  split; [apply (c109_names [c34_or])|].
  { intros o x I O. unfold c34_or, c34_func in I. walk; try exact Logic.I; try (cbn; intros; discriminate);
      try first [ (apply Forall_forall; intros; walk; cbn; lia) | (apply Forall_forall; intros; walk; repeat constructor) ].
    all: intros X; cbn in *; intuition (subst; discriminate). }
  split; [vm_compute; reflexivity|]. split; [vm_compute; reflexivity|].
  assert (E : good_ent (Ent None ($"e") None)) by (repeat split; try (intros; discriminate); repeat constructor; cbn; intuition discriminate).
  assert (S : good_part CSelect (PExprs [c105_n ($"a")])) by (constructor; [cbn; auto|discriminate|]; good).
  split.
  { split; [|vm_compute; reflexivity]. constructor; [exact E|].
    intros [] p X; cbn in X; try discriminate; injection X as <-; [exact S|].
    constructor; [cbn; auto|discriminate|]. constructor; [|constructor]. constructor; [good|split; [discriminate|intros []; discriminate]|].
    intros e X. injection X as <-. good. }
  split.
  { split; [|vm_compute; reflexivity]. constructor; [|intros [] p X; cbn in X; try discriminate; injection X as <-; exact S]. constructor; [exact E|].
    intros [] p X; cbn in X; try discriminate; injection X as <-; [exact S|].
    constructor; [cbn; auto|discriminate|]. constructor; [|constructor]. constructor; [cbn; lia|].
    constructor; [|constructor; [|constructor]]; (constructor; [good|split; [discriminate|intros []; discriminate]|]); intros e X; injection X as <-; good. }
  split; [intros e vs; reflexivity|]. split; vm_compute; reflexivity.
Qed.
End P.
(** Non-vacuity: a = 1 OR a = 2, which is merged on its own and not inside *)
#[local] Existing Instance demoRT.
Example C109_case : exists t t' s s' i c, api_query (QSub i c) /\ class_typed_query (QSub i c) /\ plain_names (QSub i c)
  /\ filters i [c107_or] /\ Forall merges_exactly [c107_or] /\ Exists mergeable [c107_or]
  /\ serialize i = Ok s /\ serialize (QSub i c) = Ok s' /\ reads s t /\ reads s' t'
  /\ s = $"MATCH (e) SELECT a WHERE a IN array(1, 2)" /\ s' = $"MATCH { MATCH (e) SELECT a WHERE (a = 1 OR a = 2) } SELECT a".
Proof.
  set (i := c107_query (OList [c107_or])). set (c := upd CSelect (OList [OColumn (mkColumn ($"a") None None None)]) no_clauses).
  assert (A : api_query (QSub i c)) by (apply (c109_api (OList [c107_or])); unfold c107_or; api_tac).
  assert (T : class_typed_query (QSub i c)) by (apply (c109_typed [c107_or]); repeat constructor).
  assert (N : plain_names (QSub i c)).
  { apply (c109_names [c107_or]). intros o x I O. unfold c107_or in I. walk; try exact Logic.I; try (cbn; intros; discriminate);
      try first [ (apply Forall_forall; intros; walk; cbn; lia) | (apply Forall_forall; intros; walk; repeat constructor) ]. }
  assert (S : serialize i = Ok ($"MATCH (e) SELECT a WHERE a IN array(1, 2)")) by (vm_compute; reflexivity).
  assert (S' : serialize (QSub i c) = Ok ($"MATCH { MATCH (e) SELECT a WHERE (a = 1 OR a = 2) } SELECT a")) by (vm_compute; reflexivity).
  destruct (C63_text i _ (proj1 A) (proj1 T) (fun o x I O => N o x (io_inner _ _ _ I) O) S) as (_ & _ & _ & t & _ & _ & _ & _ & _ & G & TT).
  destruct (C63_text (QSub i c) _ A T N S') as (_ & _ & _ & t' & _ & _ & _ & _ & _ & G' & TT').
  exists t, t'. eexists _, _, i, c. repeat (split; [first [assumption|eassumption]|]). split; [right; constructor|]. split; [apply exacts_merge; repeat constructor|].
  split; [left; constructor; constructor; [eexists _, _; split; [reflexivity|vm_compute; reflexivity]|constructor]|].
  split; [exact S|]. split; [exact S'|]. split; [split; eassumption|]. split; [split; eassumption|]. split; reflexivity.
Qed.

Print Assumptions C109_subquery_partial.
Print Assumptions C109_sends.
Print Assumptions C109_same_text.
Print Assumptions C109_subquery_refuted.
