(** C34, C35: the OR optimizer. *)
From Verif Require Import PyBase PyFacts DateTime Objects Exprs Translate Optimizer Query SpecExpr ExprFacts WfFacts
  SpecOccurs TextFacts LiteralFacts DateFacts TimeProps PyEqFacts SpecLogic RenameFacts.

Section O.
Context {RT : PyRT}.

Lemma shared_rhs_iff sh l : forall rs, shared_rhs sh l = Some rs <->
  Forall (fun x => exists l r, x = OCond l EQ r /\ py_eq l sh = true) l /\ rs = map rhs_of l.
Proof.
  induction l as [|x l IH]; intros rs.
  - cbn. split; [intros H; injection H as <-; auto|intros [_ ->]; reflexivity].
  - split.
    + intros H. destruct x; try discriminate H. cbn [shared_rhs] in H. destruct o; try discriminate H.
      destruct (py_eq x1 sh) eqn:E; [|discriminate]. destruct (shared_rhs sh l) as [r|] eqn:S; [|discriminate].
      injection H as <-. destruct (proj1 (IH r) eq_refl) as [F ->]. split; [|reflexivity].
      constructor; [eauto|exact F].
    + intros [F ->]. inversion_clear F as [|x' l' (lh & r & -> & E) F']. cbn [shared_rhs]. rewrite E.
      rewrite (proj2 (IH _) (conj F' eq_refl)). reflexivity.
Qed.

Definition merge_try (c : obj) : option (obj * list obj) :=
  match c with
  | OBoolC _ OR _ (OCond lhs EQ rhs :: rest) =>
      match shared_rhs lhs rest with Some rs => Some (lhs, rhs :: rs) | None => None end
  | _ => None
  end.
Lemma optimize_condition_try c : optimize_condition c =
  match merge_try c with
  | None => Ok None
  | Some (lhs, rs) => let! n := mk_condition lhs (OOp IN) (OList rs) in Ok (Some n)
  end.
Proof.
  unfold optimize_condition, merge_try.
  destruct c; try reflexivity. rename conds into l.
  destruct o; [reflexivity|]. destruct l as [|x l]; [reflexivity|]. destruct x; try reflexivity.
  destruct o; try reflexivity. destruct (shared_rhs x1 l); reflexivity.
Qed.
Lemma merge_try_mergeable c : mergeable c <-> exists lhs rs, merge_try c = Some (lhs, rs).
Proof.
  split.
  - intros H. destruct H as [cls k lhs rhs rest F]. unfold merge_try.
    destruct (shared_rhs_iff lhs rest (map rhs_of rest)) as [_ E]. rewrite E by auto. eauto.
  - intros (lhs & rs & E). unfold merge_try in E.
    destruct c; try discriminate. rename conds into l.
    destruct o; [discriminate|]. destruct l as [|x l]; [discriminate|]. destruct x; try discriminate.
    destruct o; try discriminate. destruct (shared_rhs x1 l) as [r|] eqn:S; [|discriminate].
    apply shared_rhs_iff in S as [F _]. constructor. exact F.
Qed.
Lemma merge_try_merged c lhs rs : merge_try c = Some (lhs, rs) -> merged c (OCond lhs IN (OList rs)).
Proof.
  intros E. unfold merge_try in E.
  destruct c; try discriminate. rename conds into l.
  destruct o; [discriminate|]. destruct l as [|x l]; [discriminate|]. destruct x; try discriminate.
  destruct o; try discriminate. destruct (shared_rhs x1 l) as [r|] eqn:S; [|discriminate].
  apply shared_rhs_iff in S as [F ->]. injection E as <- <-. constructor.
Qed.
Lemma mergeable_dec c : mergeable c \/ ~ mergeable c.
Proof.
  destruct (merge_try c) as [[l r]|] eqn:E.
  - left. apply merge_try_mergeable. eauto.
  - right. intros H. apply merge_try_mergeable in H as (l & r & H). congruence.
Qed.
Lemma not_mergeable c : ~ mergeable c -> optimize_condition c = Ok None.
Proof.
  intros H. rewrite optimize_condition_try. destruct (merge_try c) as [[l r]|] eqn:E; [|reflexivity].
  elim H. apply merge_try_mergeable. eauto.
Qed.
Lemma mergeable_Some c r : mergeable c -> optimize_condition c = Ok r -> exists c', r = Some c' /\ merged c c'.
Proof.
  intros H E. rewrite optimize_condition_try in E. apply merge_try_mergeable in H as (l & rs & H). rewrite H in E.
  apply bind_Ok in E as (n & E & E'). injection E' as <-. exists n. split; [reflexivity|].
  unfold mk_condition in E. destruct (negb _); [discriminate|]. apply bind_Ok in E as (u & _ & E). injection E as <-.
  apply merge_try_merged, H.
Qed.
Lemma merged_not_mergeable c c' : merged c c' -> ~ mergeable c'.
Proof. intros H G. destruct H. inversion G. Qed.

(** no exception on well-formed conditions *)
Lemma wf_cond_parts l o r : wf (OCond l o r) -> is_col_or_func l = true /\ (scalar r \/ expression r).
Proof.
  intros W. assert (H3 : check_condition l o r = Ok tt) by (inversion W; assumption). unfold check_condition in H3.
  destruct (is_col_or_func l); [|discriminate]. split; [reflexivity|]. cbn in H3.
  destruct (is_unary o && _); [discriminate|]. destruct (is_col_or_func r) eqn:C.
  - right. apply is_expression_iff. destruct r; try discriminate; reflexivity.
  - apply bind_Ok in H3 as (b & E & H). destruct b; [|discriminate]. left. apply is_scalar_true, E.
Qed.
Lemma optimize_condition_total c : wf c -> exists r, optimize_condition c = Ok r.
Proof.
  intros W. destruct (mergeable_dec c) as [M|M]; [|exists None; apply not_mergeable, M].
  rewrite optimize_condition_try. destruct M as [cls k lhs rhs rest F]. unfold merge_try.
  destruct (shared_rhs_iff lhs rest (map rhs_of rest)) as [_ E]. rewrite E by auto.
  assert (W' : Forall wf (OCond lhs EQ rhs :: rest)) by (inversion W; assumption).
  inversion_clear W' as [|x l W1 W2].
  apply wf_cond_parts in W1 as [C1 C2].
  unfold mk_condition, check_condition. rewrite C1. cbn [negb is_unary andb is_col_or_func bind].
  assert (S : scalar (OList (rhs :: map rhs_of rest))).
  { apply sc_list. constructor; [exact C2|]. clear - F W2. induction F as [|x l (lh & r & -> & _) _ IH]; [constructor|].
    inversion_clear W2. constructor; [|apply IH; assumption]. apply wf_cond_parts in H. cbn [rhs_of]. tauto. }
  apply is_scalar_true in S. rewrite S. cbn [bind]. eauto.
Qed.

(** * the whole list *)
Lemma optimize_pairs l : forall rs,
  mapM (fun c => let! r := optimize_condition c in Ok (c, r)) l = Ok rs ->
  Forall2 optimized_at l (map (fun cr => match snd cr with Some n => n | None => fst cr end) rs)
  /\ (existsb (fun cr => match snd cr with Some _ => true | None => false end) rs = true <-> Exists mergeable l).
Proof.
  induction l as [|c l IH]; cbn [mapM]; intros rs E.
  - injection E as <-. split; [constructor|]. split; [discriminate|intros H; inversion H].
  - apply bind_Ok in E as (cr & E1 & E). apply bind_Ok in E as (rs' & E2 & E). injection E as <-.
    apply bind_Ok in E1 as (r & E1 & E3). injection E3 as <-. apply IH in E2 as [F X].
    destruct (mergeable_dec c) as [M|M].
    + destruct (mergeable_Some c r M E1) as (c' & -> & G). cbn [map snd fst existsb]. split.
      * constructor; [left; auto|exact F].
      * split; [intros _; left; exact M|reflexivity].
    + rewrite (not_mergeable c M) in E1. injection E1 as <-. cbn [map snd fst existsb orb]. split.
      * constructor; [right; auto|exact F].
      * rewrite X. split; [intros H; right; exact H|intros H; inversion H; [contradiction|assumption]].
Qed.
Lemma optimize_total l : Forall wf l -> exists r, optimize l = Ok r.
Proof.
  intros W. unfold optimize.
  assert (exists rs, mapM (fun c => let! r := optimize_condition c in Ok (c, r)) l = Ok rs) as [rs ->].
  { induction W as [|c l Wc _ [rs IH]]; [exists []; reflexivity|].
    destruct (optimize_condition_total c Wc) as [r E]. cbn [mapM]. rewrite E, IH. cbn. eauto. }
  cbn [bind]. destruct (existsb _ rs); eauto.
Qed.
Lemma optimize_None l : optimize l = Ok None -> Forall (fun c => ~ mergeable c) l.
Proof.
  unfold optimize. intros E. apply bind_Ok in E as (rs & E & H). apply optimize_pairs in E as [_ X].
  destruct (existsb _ rs); [discriminate|]. apply Forall_Exists_neg. intros G. apply X in G. discriminate.
Qed.
Lemma optimize_not_mergeable l : Forall (fun c => ~ mergeable c) l -> optimize l = Ok None.
Proof.
  intros H. unfold optimize.
  assert (E : mapM (fun c => let! r := optimize_condition c in Ok (c, r)) l = Ok (map (fun c => (c, None)) l)).
  { induction H as [|c l M _ IH]; [reflexivity|]. cbn [mapM]. rewrite (not_mergeable c M), IH. reflexivity. }
  rewrite E. cbn [bind]. assert (X : existsb (fun cr : obj * option obj => match snd cr with Some _ => true | None => false end)
    (map (fun c => (c, None)) l) = false) by (clear; induction l; [reflexivity|exact IHl]).
  rewrite X. reflexivity.
Qed.
Lemma optimize_Some l l' : optimize l = Ok (Some l') -> Exists mergeable l /\ Forall2 optimized_at l l'.
Proof.
  unfold optimize. intros E. apply bind_Ok in E as (rs & E & H). apply optimize_pairs in E as [F X].
  destruct (existsb _ rs); [|discriminate]. injection H as <-. split; [apply X; reflexivity|exact F].
Qed.
Lemma optimize_idempotent l l' : optimize l = Ok (Some l') -> optimize l' = Ok None.
Proof.
  intros E. apply optimize_Some in E as [_ F]. apply optimize_not_mergeable.
  induction F as [|c c' l l' [[_ M]|[M ->]] _ IH]; constructor; try exact IH; [|exact M].
  eapply merged_not_mergeable, M.
Qed.

(** * C34: meaning *)
Lemma any3_cons a l : any3 (a :: l) = or3 a (any3 l).
Proof. reflexivity. Qed.
Lemma merged_truth I c c' : in_is_any I ->
  (forall cls k lhs rhs rest l r o v, c = OBoolC cls OR k (OCond lhs EQ rhs :: rest) ->
     In (OCond l EQ r) rest -> py_eq l lhs = true -> I l o v = I lhs o v) ->
  mergeable c -> merged c c' -> truth I c' = truth I c.
Proof.
  intros HI R M G. destruct G. cbn [truth]. rewrite HI. cbn [map]. rewrite !any3_cons. f_equal.
  specialize (R cls k lhs rhs rest). inversion M as [cls' k' lhs' rhs' rest' F]; subst. clear M HI.
  assert (R' : forall l r, In (OCond l EQ r) rest -> py_eq l lhs = true -> I l EQ r = I lhs EQ r)
    by (intros; eapply R; eauto). clear R.
  induction F as [|x rest (l & r & -> & E) F IH]; [reflexivity|]. cbn [map rhs_of]. rewrite !any3_cons. f_equal.
  - symmetry. cbn [truth]. apply R'; [left; reflexivity|exact E].
  - apply IH. intros; apply R'; [right|]; assumption.
Qed.
Lemma group_truth_opt I l l' : in_is_any I ->
  (forall c cls k lhs rhs rest x r o v, In c l -> c = OBoolC cls OR k (OCond lhs EQ rhs :: rest) ->
     mergeable c -> In (OCond x EQ r) rest -> py_eq x lhs = true -> I x o v = I lhs o v) ->
  Forall2 optimized_at l l' -> group_truth I l' = group_truth I l.
Proof.
  intros HI R F. unfold group_truth, all3. induction F as [|c c' l l' H F IH]; [reflexivity|].
  cbn [map fold_right]. f_equal.
  - destruct H as [[M G]|[_ ->]]; [|reflexivity]. apply merged_truth; try assumption.
    intros. eapply R; eauto. left; reflexivity.
  - apply IH. intros. eapply R; eauto. right; assumption.
Qed.
Lemma c34_general I l l' : in_is_any I -> sees_python_equality I -> optimize l = Ok (Some l') ->
  group_truth I l' = group_truth I l.
Proof.
  intros HI P E. apply optimize_Some in E as [_ F]. apply group_truth_opt; [exact HI| |exact F].
  intros. apply P. assumption.
Qed.

(** Python-equal exact expressions have the same text *)
Lemma datetime_eq_text t t' : valid_datetime t -> valid_datetime t' -> datetime_eqb t t' = true ->
  to_naive_utc t = to_naive_utc t'.
Proof.
  intros V V' E. unfold datetime_eqb in E. unfold to_naive_utc.
  destruct (dt_tz t) as [o|] eqn:Z, (dt_tz t') as [o'|] eqn:Z'; try discriminate; apply Z.eqb_eq in E.
  - unfold instant_us in E. rewrite Z, Z' in E. unfold sub_offset. rewrite E. reflexivity.
  - unfold instant_us in E. rewrite Z, Z' in E. f_equal.
    destruct V as (D & H1 & H2 & H3 & H4 & _), V' as (D' & H1' & H2' & H3' & H4' & _).
    unfold day_us, US_PER_DAY in E.
    assert (ymd2ord (dt_date t) = ymd2ord (dt_date t')) by lia.
    assert (dt_date t = dt_date t').
    { apply ymd2ord_inj; [unfold cal_date, valid_date in *; tauto..|assumption]. }
    destruct t, t'; cbn in *. subst. f_equal; lia.
Qed.
Lemma eq_list_Forall2 l : forall m, eq_list l m = true -> Forall2 (fun x y => py_eq x y = true) l m.
Proof.
  induction l as [|x l IH]; intros [|y m] E; cbn in E; try discriminate; constructor;
    apply andb_true_iff in E as [E1 E2]; auto.
Qed.
Lemma column_eq_text al c c' : column_eqb c c' = true -> tr_column al c = tr_column al c'.
Proof.
  unfold column_eqb, tr_column. intros E. apply andb_true_iff in E as [E _]. apply andb_true_iff in E as [E _].
  apply andb_true_iff in E as [E1 E2]. apply str_eqb_eq in E1. rewrite E1. f_equal.
  destruct (c_entity c) as [e|], (c_entity c') as [e'|]; try discriminate; [|reflexivity].
  cbn in E2. unfold entity_eqb in E2. apply andb_true_iff in E2 as [E2 _]. apply andb_true_iff in E2 as [E2 _].
  apply andb_true_iff in E2 as [_ E2]. apply option_eqb_iff in E2; [|apply str_eqb_eq]. rewrite E2. reflexivity.
Qed.
Lemma option_str_eq a b : option_eqb str_eqb a b = true -> a = b.
Proof. apply option_eqb_iff, str_eqb_eq. Qed.
Lemma seqk_eq a b : seqk_eqb a b = true -> a = b.
Proof. destruct a, b; cbn; congruence. Qed.
Lemma strs_eq a : forall b, list_eqb str_eqb a b = true -> a = b.
Proof.
  induction a as [|x a IH]; intros [|y b] E; cbn in E; try discriminate; [reflexivity|].
  apply andb_true_iff in E as [E1 E2]. apply str_eqb_eq in E1. rewrite E1, (IH b E2). reflexivity.
Qed.

(** same printing behaviour *)
Definition alike (a b : obj) : Prop :=
  is_scalar a = is_scalar b /\ is_expression a = is_expression b /\ init_ok a = init_ok b
  /\ is_param_expr a = is_param_expr b /\ forall ql al, visit ql al a = visit ql al b.
Lemma alike_all l m : Forall2 alike l m -> scalar_all l = scalar_all m.
Proof.
  induction 1 as [|x y l m (A & B & _) _ IH]; [reflexivity|]. cbn [scalar_all]. rewrite A, B, IH. reflexivity.
Qed.
Lemma alike_items ql al l m : Forall2 alike l m -> mapM (visit ql al) l = mapM (visit ql al) m.
Proof.
  induction 1 as [|x y l m (_ & _ & _ & _ & A) _ IH]; [reflexivity|]. cbn [mapM]. rewrite A, IH. reflexivity.
Qed.
Lemma alike_inits ql al l m : Forall2 alike l m ->
  mapM (visit ql al) (filter init_ok l) = mapM (visit ql al) (filter init_ok m).
Proof.
  induction 1 as [|x y l m (_ & _ & B & _ & A) _ IH]; [reflexivity|]. cbn [filter]. rewrite B.
  destruct (init_ok y); [|exact IH]. cbn [mapM]. rewrite A, IH. reflexivity.
Qed.
Lemma alike_params ql al l m : Forall2 alike l m -> visit_params ql al l = visit_params ql al m.
Proof.
  induction 1 as [|x y l m (S & _ & _ & B & A) _ IH]; [reflexivity|]. cbn [visit_params]. rewrite S, B, A, IH. reflexivity.
Qed.
Lemma Forall2_alike l m :
  Forall (fun a => forall b, exact_expr a -> exact_expr b -> wf a -> wf b -> py_eq a b = true -> alike a b) l ->
  Forall exact_expr l -> Forall exact_expr m -> Forall wf l -> Forall wf m -> eq_list l m = true -> Forall2 alike l m.
Proof.
  intros H X Y W V E. apply eq_list_Forall2 in E. induction E as [|a b l m E _ IH]; constructor.
  - inversion_clear H. inversion_clear X. inversion_clear Y. inversion_clear W. inversion_clear V. auto.
  - inversion_clear H. inversion_clear X. inversion_clear Y. inversion_clear W. inversion_clear V. auto.
Qed.
Lemma exact_alike a : forall b, exact_expr a -> exact_expr b -> wf a -> wf b -> py_eq a b = true -> alike a b.
Proof.
  induction a using obj_ind'; intros y X Y W V E; inversion X; subst; inversion Y; subst; try discriminate E.
  - repeat split.
  - cbn in E. apply Z.eqb_eq in E. subst. repeat split.
  - cbn in E. apply str_eqb_eq in E. subst. repeat split.
  - cbn in E. apply str_eqb_eq in E. subst. repeat split.
  - cbn in E. unfold date_eqb in E. apply andb_true_iff in E as [E E3]. apply andb_true_iff in E as [E1 E2].
    apply Z.eqb_eq in E1, E2, E3. destruct d, d0; cbn in *. subst. repeat split.
  - cbn [py_eq] in E. repeat split. intros ql al. cbn [visit stringify_literal].
    rewrite (datetime_eq_text t t0); [reflexivity| | |exact E]; [inversion W|inversion V]; assumption.
  - cbn [py_eq] in E. fold eq_list in E. inversion W; inversion V; subst.
    assert (A : Forall2 alike l l0) by (apply Forall2_alike; assumption).
    repeat split; [rewrite !is_scalar_list; apply alike_all, A|]. intros ql al.
    rewrite !visit_list, !is_scalar_list, (alike_all _ _ A), (alike_items ql al _ _ A). reflexivity.
  - cbn [py_eq] in E. fold eq_list in E. inversion W; inversion V; subst.
    assert (A : Forall2 alike l l0) by (apply Forall2_alike; assumption).
    repeat split; [rewrite !is_scalar_tuple; apply alike_all, A|]. intros ql al.
    rewrite !visit_tuple, !is_scalar_tuple, (alike_all _ _ A), (alike_items ql al _ _ A). reflexivity.
  - cbn [py_eq] in E. repeat split. intros ql al. cbn [visit]. f_equal. apply column_eq_text, E.
  - cbn [py_eq] in E. apply andb_true_iff in E as [E1 E2]. apply option_str_eq in E2. subst.
    repeat split. intros ql al. cbn [visit]. rewrite (column_eq_text al _ _ E1). reflexivity.
  - cbn [py_eq] in E. apply andb_true_iff in E as [E Ea]. apply andb_true_iff in E as [E E5].
    apply andb_true_iff in E as [E E4]. apply andb_true_iff in E as [E E3]. apply andb_true_iff in E as [E1 E2].
    apply str_eqb_eq in E1. apply seqk_eq in E2, E4.
    match type of E3 with ?t = true => change (eq_list il il0 = true) in E3 end.
    match type of E5 with ?t = true => change (eq_list pl pl0 = true) in E5 end.
    inversion W; inversion V; subst.
    assert (A1 : Forall2 alike il il0) by (apply Forall2_alike; assumption).
    assert (A2 : Forall2 alike pl pl0) by (apply Forall2_alike; assumption).
    repeat split. intros ql al. rewrite !visit_func, (alike_inits ql al _ _ A1), (alike_params ql al _ _ A2). reflexivity.
  - cbn in E. apply str_eqb_eq in E. subst. repeat split.
  - cbn [py_eq] in E. apply andb_true_iff in E as [E Eb]. apply andb_true_iff in E as [E1 E2].
    apply strs_eq in E2. subst. inversion W; inversion V; subst.
    match type of Eb with py_eq ?x ?y = true => destruct (IHa y) as (_ & _ & _ & _ & A); try assumption end.
    repeat split. intros ql al. cbn [visit]. rewrite A. reflexivity.
Qed.
Lemma exact_merges c : exact_lhs c -> merges_exactly c.
Proof.
  intros X cls k l a r b s -> A B _. right. inversion X as [|? ? ? ? F]; subst. rewrite Forall_forall in F.
  apply F in A, B. inversion A; inversion B; subst. split; assumption.
Qed.
Lemma exacts_merge l : Forall exact_lhs l -> Forall merges_exactly l.
Proof. intros F. eapply Forall_impl; [|exact F]. exact exact_merges. Qed.
Lemma c34_text I l l' : in_is_any I -> sees_text I -> Forall wf l -> Forall merges_exactly l ->
  optimize l = Ok (Some l') -> group_truth I l' = group_truth I l.
Proof.
  intros HI T W X E. apply optimize_Some in E as [_ F]. apply group_truth_opt; [exact HI| |exact F].
  intros c cls k lhs rhs rest x r o v Hc -> M Hx Eq.
  rewrite Forall_forall in W, X. apply W in Hc as Wc. apply X in Hc as Xc.
  inversion Wc; subst.
  match goal with H : Forall wf (_ :: rest) |- _ => rename H into Wl end.
  rewrite Forall_forall in Wl.
  pose proof (Wl _ (or_introl eq_refl)) as W1. pose proof (Wl _ (or_intror Hx)) as W2.
  destruct (Xc _ _ _ x r lhs rhs eq_refl (or_intror Hx) (or_introl eq_refl) Eq) as [->|(X1 & X2)]; [reflexivity|].
  rewrite (T x lhs); [reflexivity|]. inversion W1; inversion W2; subst.
  destruct (exact_alike x lhs) as (_ & _ & _ & _ & A); try assumption. intros; apply A.
Qed.
(** the witness for the refutation *)
Definition lookup_row (l : obj) (o : op) (r : obj) : tv :=
  match visit false false l with
  | Ok s =>
      let eq v := if str_eqb s ($"fn(TRUE)") then (if py_eq v (OInt 6) then TTrue else TFalse) else TFalse in
      match o, r with
      | IN, OList vs => any3 (map eq vs)
      | _, _ => eq r
      end
  | Raise _ => TFalse
  end.
Lemma lookup_row_in : in_is_any lookup_row.
Proof.
  intros l vs. unfold lookup_row. destruct (visit false false l); [reflexivity|].
  induction vs as [|v vs IH]; [reflexivity|]. cbn [map]. rewrite any3_cons, <- IH. reflexivity.
Qed.
Lemma lookup_row_text : sees_text lookup_row.
Proof. intros l l' H. unfold lookup_row. rewrite (H false). reflexivity. Qed.
End O.
