(** Property C106: the rows a legacy body asks for. *)
From Verif Require Import PyBase PyFacts DateTime Objects SpecOps Exprs SpecExpr Translate Optimizer Query SpecQuery SpecSetters SpecRefs SpecOccurs SpecOrder SpecLogic WfFacts PrintProps
  SpecSnql SpecAlike Metrics MetricsQuery SpecMetricsQuery Json Request SpecRequest SpecJson SpecSame SpecServer ServerFacts SameFacts Strptime SpecLegacy Legacy LegacyFacts LegacyProps SpecBody BodyFacts SpecFromJson FromJsonFacts SpecAsked ApiTac Concrete ConcreteLegacy
  Properties6 Properties9 Properties12 Properties11 Properties18 Properties27 Properties44.
Require Import Lia.

Section P.
Context {RT : PyRT} {ST : PyStr} {CV : PyConv}.

Lemma all3_app a b : all3 (a ++ b) = and3 (all3 a) (all3 b).
Proof.
  unfold all3. induction a as [|x a IH]; cbn [fold_right app]; [destruct (fold_right and3 TTrue b); reflexivity|].
  rewrite IH. destruct x, (fold_right and3 TTrue a), (fold_right and3 TTrue b); reflexivity.
Qed.
Lemma or3_false_r a : or3 a TFalse = a.
Proof. destruct a; reflexivity. Qed.
Lemma cond_says R l o r t : denotes_cond false (OCond l o r) t -> says R l o r (SpecServer.cond_truth R t).
Proof. intros D. inversion D; subst; cbn [SpecServer.cond_truth]; constructor; assumption. Qed.
Lemma cond_asks R t c x : cond_object t c -> denotes_cond false c x -> asks_cond R t (SpecServer.cond_truth R x).
Proof. intros (l & o & r & L & _ & ->) D. econstructor; [exact L|]. apply cond_says, D. Qed.
Lemma conds_ask R l cs xs : Forall2 cond_object l cs -> Forall2 (denotes_cond false) cs xs -> Forall2 (asks_cond R) l (map (SpecServer.cond_truth R) xs).
Proof.
  intros F. revert xs. induction F; intros xs G; inversion G; subst; [constructor|]. cbn [map]. constructor; [eapply cond_asks; eassumption|auto].
Qed.
Lemma item_asks R t cs xs : where_object t cs -> ~ empty_or t -> Forall2 (denotes_cond false) cs xs -> asks_item R t (all3 (map (SpecServer.cond_truth R) xs)).
Proof.
  intros W NE D. inversion W as [c T C|l cs' T L C G|x c T L C|T L]; subst.
  - inversion D as [|? y ? ? D1 D2]; subst. inversion D2; subst. cbn [map all3 fold_right]. rewrite and3_true_r. apply ak_triple; [exact T|]. eapply cond_asks; eassumption.
  - inversion D as [|? y ? ? D1 D2]; subst. inversion D2; subst. inversion D1; subst. cbn [map all3 fold_right]. rewrite and3_true_r. cbn [SpecServer.cond_truth].
    eapply ak_or; [exact T|exact L|]. eapply conds_ask; eassumption.
  - inversion D as [|? y ? ? D1 D2]; subst. inversion D2; subst. cbn [map all3 fold_right]. rewrite and3_true_r, <- (or3_false_r (SpecServer.cond_truth R y)).
    change (or3 (SpecServer.cond_truth R y) TFalse) with (any3 [SpecServer.cond_truth R y]).
    eapply ak_or; [exact T|exact L|]. constructor; [eapply cond_asks; eassumption|constructor].
  - elim NE. split; assumption.
Qed.
Lemma items_ask R items css : Forall2 where_object items css -> Forall (fun t => ~ empty_or t) items ->
  forall xs, Forall2 (denotes_cond false) (List.concat css) xs -> asks R items (all3 (map (SpecServer.cond_truth R) xs)).
Proof.
  intros F. induction F as [|t cs items css W F IH]; intros N xs D.
  - inversion D; subst. exists []. split; [constructor|reflexivity].
  - inversion N; subst. cbn [List.concat] in D. apply Forall2_app_inv_l in D as (x1 & x2 & D1 & D2 & ->).
    destruct (IH H2 x2 D2) as (vs & FV & EV). exists (all3 (map (SpecServer.cond_truth R) x1) :: vs).
    split; [constructor; [eapply item_asks; eassumption|exact FV]|]. rewrite map_app, all3_app, EV. reflexivity.
Qed.
Lemma havings_ask R items hs : Forall2 having_object items hs ->
  forall xs, Forall2 (denotes_cond false) hs xs -> asks R items (all3 (map (SpecServer.cond_truth R) xs)).
Proof.
  intros F xs D. exists (map (SpecServer.cond_truth R) xs). split; [|reflexivity]. revert xs D.
  induction F as [|t c items hs W F IH]; intros xs D; inversion D as [|? y ? ? D1 D2]; subst; [constructor|]. cbn [map]. constructor; [|apply IH, D2].
  inversion W; subst.
  - apply ak_triple; [assumption|]. eapply cond_asks; eassumption.
  - inversion D1; subst. cbn [SpecServer.cond_truth]. eapply ak_or; [eassumption..|]. eapply conds_ask; eassumption.
Qed.
(** the conditions that the extensions put in WHERE *)
Lemma extension_form body n cs : extension_conditions body n cs -> Forall (fun c => exists col o r, c = OCond (plain_column col) o r) cs.
Proof.
  assert (I : forall k col a l, id_conditions body k col a l -> Forall (fun c => exists col o r, c = OCond (plain_column col) o r) l).
  { intros k col a l H. inversion H as [| | |v c _ _ C]; subst; [constructor..|]. constructor; [|constructor]. inversion C; subst; eauto. }
  assert (T : forall k col o l, time_conditions body k col o l -> Forall (fun c => exists col o r, c = OCond (plain_column col) o r) l).
  { intros k col o l H. inversion H; subst; [constructor..|]. constructor; [|constructor]. eauto. }
  intros H. inversion H; subst; repeat (apply Forall_app; split); eauto.
Qed.
Lemma bounds_of R cs xs : Forall (fun c => exists col o r, c = OCond (plain_column col) o r) cs -> Forall2 (denotes_cond false) cs xs ->
  Forall2 (bound_says R) cs (map (SpecServer.cond_truth R) xs).
Proof.
  intros F D. induction D; [constructor|]. inversion F as [|? ? (col & o & r & ->) F']; subst. cbn [map]. constructor; [|auto].
  exists (plain_column col), o, r. split; [reflexivity|apply cond_says; assumption].
Qed.
(** exact sides *)
Lemma exact_conds items css : Forall2 where_object items css -> exact_sides items -> Forall merges_exactly (List.concat css).
Proof.
  assert (O : forall t c, cond_object t c -> merges_exactly c).
  { intros t c (l & o & r & _ & _ & ->) cls k m a x b y E. discriminate E. }
  intros F. induction F as [|t cs items css W F IH]; intros X; [constructor|]. cbn [List.concat]. apply Forall_app. split.
  - inversion W as [c _ C|l cs0 NT I C _|x c _ _ C|_ _]; subst; [constructor; [eapply O, C|constructor]| |constructor; [eapply O, C|constructor]|constructor].
    constructor; [|constructor]. intros cls k m a r b s E A B P. injection E as _ _ <-.
    assert (B0 : forall c, In c cs0 -> exists x, In x l /\ cond_object x c).
    { clear - C. induction C as [|x c l cs H _ IH]; intros y []; [subst y; exists x; split; [left; reflexivity|exact H]|].
      destruct (IH y H0) as (z & Z & Q). exists z. split; [right; exact Z|exact Q]. }
    destruct (B0 _ A) as (t1 & I1 & l1 & o1 & r1 & C1 & _ & E1), (B0 _ B) as (t2 & I2 & l2 & o2 & r2 & C2 & _ & E2).
    injection E1 as <- _ _. injection E2 as <- _ _. exact (X t l t1 t2 _ _ _ _ _ _ (or_introl eq_refl) NT I I1 I2 C1 C2 P).
  - apply IH. intros x ts t1 t2 a o r b p s I. apply (X x ts t1 t2 a o r b p s (or_intror I)).
Qed.
(** one meaning *)
Lemma says_fun R l o r v v' : wf l -> wf r -> says R l o r v -> says R l o r v' -> v = v'.
Proof.
  intros WL WR A B. inversion A; subst; inversion B; subst; try tauto;
    repeat match goal with X : denotes false l ?e, Y : denotes false l ?e' |- _ => assert (e = e') by (eapply denotes_fun; [exact WL|exact X|exact Y]); subst; clear Y end;
    repeat match goal with X : denotes false r ?e, Y : denotes false r ?e' |- _ => assert (e = e') by (eapply denotes_fun; [exact WR|exact X|exact Y]); subst; clear Y end; reflexivity.
Qed.
Lemma asks_cond_fun R t c v v' : cond_object t c -> wf c -> asks_cond R t v -> asks_cond R t v' -> v = v'.
Proof.
  intros (l & o & r & L & _ & ->) W [l1 o1 r1 v1 L1 S1] [l2 o2 r2 v2 L2 S2]. inversion W; subst.
  destruct (legacy_cond_det _ _ _ _ _ _ _ L L1) as (<- & <- & <-). destruct (legacy_cond_det _ _ _ _ _ _ _ L L2) as (<- & <- & <-).
  eapply (says_fun R l o r); eassumption.
Qed.
Lemma asks_conds_fun R l cs : Forall2 cond_object l cs -> Forall wf cs -> forall vs vs', Forall2 (asks_cond R) l vs -> Forall2 (asks_cond R) l vs' -> vs = vs'.
Proof.
  intros F. induction F; intros W vs vs' A B; inversion A; subst; inversion B; subst; [reflexivity|]. inversion W; subst. f_equal; [eapply asks_cond_fun; eassumption|eauto].
Qed.
Lemma asks_item_fun R t cs v v' : where_object t cs -> Forall wf cs -> asks_item R t v -> asks_item R t v' -> v = v'.
Proof.
  intros W F A B.
  assert (K : forall l vs vs', ~ triple t -> items_of t l -> Forall2 (asks_cond R) l vs -> Forall2 (asks_cond R) l vs' -> vs = vs').
  { intros l vs vs' NT L. inversion W as [c T C|m cs' T M C G|x c T M C|T M]; subst; [contradiction|..]; rewrite <- (items_det _ _ _ M L).
    - apply (asks_conds_fun R m cs' C). inversion F as [|? ? X]; subst. inversion X; subst. assumption.
    - apply (asks_conds_fun R [x] [c]); [constructor; [exact C|constructor]|exact F].
    - intros X Y. inversion X; subst. inversion Y; subst. reflexivity. }
  inversion A as [? T1 A1|l1 vs1 T1 L1 A1]; subst; inversion B as [? T2 B2|l2 vs2 T2 L2 B2]; subst; try contradiction.
  - inversion W as [c T C| | |]; subst; try contradiction. inversion F; subst. eapply asks_cond_fun; eassumption.
  - rewrite (items_det _ _ _ L2 L1) in B2. f_equal. exact (K l1 vs1 vs2 T1 L1 A1 B2).
Qed.
Lemma asks_fun R items css v v' : Forall2 where_object items css -> Forall wf (List.concat css) -> asks R items v -> asks R items v' -> v = v'.
Proof.
  intros F W (vs & A & ->) (vs' & B & ->). f_equal. revert vs vs' A B. induction F; intros vs vs' A B; inversion A; subst; inversion B; subst; [reflexivity|].
  cbn [List.concat] in W. apply Forall_app in W as [W1 W2]. f_equal; [eapply asks_item_fun; eassumption|eauto].
Qed.

(** ** C106 The server is asked for the rows that a legacy body asks for *)
Theorem C106_rows_partial : decimal_digits -> forall body entity body' r r' s q items hitems, decoded body -> decoded entity ->
  json_to_snql body entity = (body', Ok r) -> request_serialize r = (r', Ok s) -> plain_request r -> rq_query r = RQuery q -> plain_names q ->
  listed body ($"conditions") items -> Forall (fun t => ~ empty_or t) items -> exact_sides items -> listed body ($"having") hitems ->
  exists n x, entity = OStr n /\ received s ($"query") (JStr (utf16 x)) /\ (forall j, received s ($"query") j -> j = JStr (utf16 x))
    /\ (exists t, good_query t /\ text_of_query t = x)
    /\ forall t, good_query t -> text_of_query t = x -> forall R, knows_in R ->
       (exists b v, bounds_say R body n b /\ asks R items v /\ passes R (part_of t CWhere) = and3 b v)
       /\ (exists v, asks R hitems v /\ passes R (part_of t CHaving) = v).
Proof.
  intros D body entity body' r r' s q items hitems DB DE H S P Q N L NE X LH.
  destruct (C80_query D _ _ _ _ DB DE H) as (q' & Q' & A & T & _). assert (q' = q) as -> by congruence. clear Q'.
  pose proof (snql_dict _ _ _ _ H) as (ks & vs & ->).
  destruct (C55_structure _ _ _ _ H) as (q' & n & ext & items' & css & hitems' & hs & Q' & En & EX & L' & W & CW & LH' & WH & CH).
  assert (q' = q) as -> by congruence. assert (items' = items) as -> by (apply listed_iff in L, L'; congruence).
  assert (hitems' = hitems) as -> by (apply listed_iff in LH, LH'; congruence). clear Q' L' LH'.
  pose proof (extension_form _ _ _ EX) as EF.
  assert (XL : Forall merges_exactly (ext ++ List.concat css)).
  { apply Forall_app. split; [|eapply exact_conds; eassumption]. eapply Forall_impl; [|exact EF]. intros c (col & o & v & ->) cls k m a x b y E. discriminate E. }
  destruct (C105_server_partial r r' s q (ext ++ List.concat css) S P Q A T N) as (x & RX & _ & UX & G & RD); [right; rewrite CW; constructor|exact XL|].
  exists n, x. split; [exact En|]. split; [exact RX|]. split; [exact UX|]. split; [exact G|].
  intros t GT TX R KI. destruct (RD t GT TX) as (t0 & D0 & SB & PW).
  assert (exists e c, q = QBase (BEntity e) c) as (e & c & ->).
  { apply C62_converted in H. destruct H. injection Q as <-. eauto. }
  inversion D0 as [? ? ? ? ? parts DN DP| | |]; subst. cbn [q_clauses] in CW, CH.
  split.
  - rewrite (PW R KI). cbn [part_of]. pose proof (DP CWhere) as DW. cbn [get] in DW. rewrite CW in DW.
    assert (exists xs, Forall2 (denotes_cond false) (ext ++ List.concat css) xs /\ passes R (parts CWhere) = all3 (map (SpecServer.cond_truth R) xs)) as (xs & DX & ->).
    { inversion DW as [|? ? LE|? ? y m es I LE|? ? y m ts I LE DS| | | | | |]; subst.
      - inversion LE as [? E|]; subst. exists []. match goal with E : ext ++ _ = _ |- _ => rewrite E end. split; [constructor|reflexivity].
      - cbn in I. intuition discriminate.
      - inversion LE as [? E|]; subst. match goal with E : ext ++ _ = _ |- _ => rewrite E end. exists ts. split; [exact DS|reflexivity]. }
    apply Forall2_app_inv_l in DX as (x1 & x2 & D1 & D2 & ->). rewrite map_app, all3_app.
    eexists _, _. split; [|split; [eapply items_ask; eassumption|reflexivity]].
    exists ext, (map (SpecServer.cond_truth R) x1). split; [exact EX|]. split; [eapply bounds_of; eassumption|reflexivity].
  - assert (part_of t CHaving = parts CHaving) as ->.
    { destruct t as [m ps]. cbn [part_of]. unfold same_but_conditions, without_where in SB. inversion SB as [|? ? ? E]; subst. exact (E CHaving). }
    pose proof (DP CHaving) as DW. cbn [get] in DW. rewrite CH in DW.
    assert (exists xs, Forall2 (denotes_cond false) hs xs /\ passes R (parts CHaving) = all3 (map (SpecServer.cond_truth R) xs)) as (xs & DX & ->).
    { inversion DW as [|? ? LE|? ? y m es I LE|? ? y m ts I LE DS| | | | | |]; subst.
      - inversion LE; subst. exists []. split; [constructor|reflexivity].
      - cbn in I. intuition discriminate.
      - inversion LE; subst. exists ts. split; [exact DS|reflexivity]. }
    eexists. split; [eapply havings_ask; eassumption|reflexivity].
Qed.
(** what the conditions ask of a row is determined *)
Theorem C106_one_meaning : decimal_digits -> forall body entity body' r items, decoded body -> decoded entity ->
  json_to_snql body entity = (body', Ok r) -> listed body ($"conditions") items ->
  forall R v v', asks R items v -> asks R items v' -> v = v'.
Proof.
  intros D body entity body' r items DB DE H L R v v'.
  destruct (C80_query D _ _ _ _ DB DE H) as (q & Q & A & _).
  pose proof (snql_dict _ _ _ _ H) as (ks & vs & ->).
  destruct (C55_structure _ _ _ _ H) as (q' & n & ext & items' & css & hitems' & hs & Q' & En & EX & L' & W & CW & _).
  assert (q' = q) as -> by congruence. assert (items' = items) as -> by (apply listed_iff in L, L'; congruence).
  eapply asks_fun; [exact W|]. apply api_wf_query in A. assert (AW : wf (get CWhere (q_clauses q))) by (destruct q; apply A). cbn [get] in AW. rewrite CW in AW.
  assert (F : Forall wf (ext ++ List.concat css)) by (inversion AW; assumption). apply Forall_app in F as [_ F]. exact F.
Qed.
(** false in general: an OR of nothing, which no row satisfies, is left out (C55) *)
Definition c106_none : obj := c80_body ($"conditions") (OList [OList []]).
Theorem C106_rows_refuted : decimal_digits -> exists r r' s q, decoded c106_none /\ json_to_snql c106_none (OStr ($"events")) = (c106_none, Ok r)
  /\ request_serialize r = (r', Ok s) /\ plain_request r /\ rq_query r = RQuery q /\ plain_names q /\ listed c106_none ($"conditions") [OList []]
  /\ exact_sides [OList []]
  /\ exists t, good_query t /\ received s ($"query") (JStr (utf16 (text_of_query t)))
     /\ forall R, knows_in R -> asks R [OList []] TFalse /\ passes R (part_of t CWhere) = TTrue.
Proof.
  intros D. assert (DB : decoded c106_none) by decoded_tac. assert (DE : decoded (OStr ($"events"))) by decoded_tac.
  destruct (json_to_snql c106_none (OStr ($"events"))) as [b x] eqn:E. pose proof E as E0. vm_compute in E0. injection E0 as <- <-.
  match type of E with _ = (_, Ok ?r) => set (r0 := r) in E; assert (S : exists s, request_serialize r0 = (r0, Ok s)) by (eexists; vm_compute; reflexivity) end.
  destruct S as (s & S). eexists r0, r0, s, _. split; [exact DB|]. split; [exact E|]. split; [exact S|].
  assert (P : plain_request r0).
  { assert (forall q s, rq_query r0 = RQuery q -> serialize q = Ok s -> Forall scalar_value s) as A.
    { intros q x Q X. injection Q as <-. vm_compute in X. injection X as <-. apply scalar_b; vm_compute; reflexivity. }
    plain_tac. eapply A; [reflexivity|eassumption]. }
  split; [exact P|]. split; [reflexivity|].
  match goal with |- plain_names ?q /\ _ => set (q0 := q) end.
  assert (N : plain_names q0) by (unfold q0; show_names).
  split; [exact N|].
  assert (L : listed c106_none ($"conditions") [OList []]).
  { left. exists (OList [OList []]). split; [|repeat constructor]. eexists _, _. split; [reflexivity|]. right. split; [discriminate|left; auto]. }
  split; [exact L|].
  assert (X : exact_sides [OList []]).
  { intros x ts t t' a o r b p u [<-|[]] _ I J. inversion I as [? ? Z|]; subst. inversion Z; subst. destruct J. }
  split; [exact X|].
  destruct (C80_query D _ _ _ _ DB DE E) as (q & Q & A & T & _). assert (q = q0) as -> by (injection Q as <-; reflexivity).
  destruct (C105_server_partial r0 r0 s q0 [] S P Q A T N) as (x & RX & _ & _ & (t & G & TX) & RD); [right; constructor|constructor|].
  exists t. split; [exact G|]. rewrite TX. split; [exact RX|]. intros R K. split.
  - exists [TFalse]. split; [|reflexivity]. constructor; [|constructor]. apply (ak_or R (OList []) [] []); [apply empty_or_nil|apply empty_or_nil|constructor].
  - destruct (RD t G TX) as (t0 & D0 & _ & PW). rewrite (PW R K). inversion D0 as [? ? ? ? ? parts DN DP| | |]; subst. cbn [part_of].
    pose proof (DP CWhere) as DW. cbn [get] in DW. inversion DW as [|? ? LE|? ? y m es I LE|? ? y m ts I LE DS| | | | | |]; subst; [reflexivity|cbn in I; intuition discriminate|inversion LE].
Qed.
End P.

(** Non-vacuity: an OR that is merged, a datetime and the project *)
#[local] Existing Instance demoRT.
#[local] Existing Instance demoCV.
#[local] Existing Instance demoST.
Definition c106_is (v : str) : obj := OList [OStr ($"tags[b]"); OStr ($"="); OStr v].
Definition c106_items : list obj := [OList [c106_is ($"x"); c106_is ($"y")]; OList [OStr ($"ts"); OStr ($"<"); OStr ($"2020-01-02T03:04:05")]].
Definition c106_body : obj := ODict [$"selected_columns"; $"conditions"; $"project"] [OList [OStr ($"a")]; OList c106_items; OInt 7].
Example C106_case : decimal_digits /\ decoded c106_body /\ decoded (OStr ($"events"))
  /\ exists r s q, json_to_snql c106_body (OStr ($"events")) = (c106_body, Ok r) /\ request_serialize r = (r, Ok s) /\ plain_request r
    /\ rq_query r = RQuery q /\ plain_names q /\ listed c106_body ($"conditions") c106_items /\ Forall (fun t => ~ empty_or t) c106_items
    /\ exact_sides c106_items /\ listed c106_body ($"having") [].
Proof.
  split; [intros c H; discriminate H|]. split; [unfold c106_body, c106_items; decoded_tac|]. split; [decoded_tac|].
  destruct (json_to_snql c106_body (OStr ($"events"))) as [b x] eqn:E. pose proof E as E0. vm_compute in E0. injection E0 as <- <-.
  match type of E with _ = (_, Ok ?r) => set (r0 := r) in E; assert (S : exists s, request_serialize r0 = (r0, Ok s)) by (eexists; vm_compute; reflexivity) end.
  destruct S as (s & S). eexists r0, s, _. split; [reflexivity|]. split; [exact S|].
  split.
  { assert (forall q s, rq_query r0 = RQuery q -> serialize q = Ok s -> Forall scalar_value s) as A.
    { intros q x Q X. injection Q as <-. vm_compute in X. injection X as <-. apply scalar_b; vm_compute; reflexivity. }
    plain_tac. eapply A; [reflexivity|eassumption]. }
  split; [reflexivity|]. split; [show_names|].
  split. { left. exists (OList c106_items). split; [|repeat constructor]. eexists _, _. split; [reflexivity|]. right. split; [discriminate|left; auto]. }
  split. { repeat constructor; intros (_ & I); inversion I as [? ? Z|]; subst; inversion Z. }
  split.
  { intros x ts t t' a o u b p v [<-|[<-|[]]] NT I J J' C C' _.
    - inversion I as [? ? Z|]; subst. inversion Z; subst. right.
      assert (YES : forall t lhs o r, In t [c106_is ($"x"); c106_is ($"y")] -> legacy_cond t lhs o r -> exact_expr lhs).
      { intros t0 lhs o0 r1 K [a0 b0 lhs0 p0 rhs IA LA _ _ _]. apply parse_exp_iff in LA.
        assert (IY : item_at t0 0 (OStr ($"tags[b]"))) by (destruct K as [<-|[<-|[]]]; eexists; (split; [constructor|reflexivity])).
        rewrite (item_det _ _ _ _ IA IY) in LA. vm_compute in LA. injection LA as <-. constructor. }
      split; [exact (YES _ _ _ _ J C)|exact (YES _ _ _ _ J' C')].
    - elim NT. apply is_condition_yes. vm_compute. reflexivity. }
  right. split; [|reflexivity]. intros v (ks & vs & K & H). injection K as <- <-. cbn [entry] in H.
  repeat (destruct H as [(H & _)|(_ & H)]; [discriminate H|]). exact H.
Qed.

Print Assumptions C106_rows_partial.
Print Assumptions C106_one_meaning.
Print Assumptions C106_rows_refuted.
