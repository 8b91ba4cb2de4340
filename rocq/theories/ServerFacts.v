(** C105: the tree that the server reads and the tree the query stands for. *)
From Verif Require Import PyBase PyFacts DateTime Objects Exprs Translate Optimizer Query SpecTime TimeProps DateFacts SpecExpr SpecText TextFacts SpecOccurs SpecQuery
  SpecSetters SpecRefs SpecOrder SpecLogic PyEqFacts OptFacts WfFacts PrintProps QueryProps SpecSnql SnqlFacts SnqlDenote SnqlQuery AlikeFacts SpecServer TextProps.
From Coq Require Import Lia.

(** ** a value stands for one expression *)
Lemma digits_one : forall s s', List.length s = List.length s' -> Forall (fun c => (48 <= c <= 57)%N) s -> Forall (fun c => (48 <= c <= 57)%N) s' ->
  forall a a', fold_left (fun a c => 10 * a + (Z.of_N c - 48))%Z s a = fold_left (fun a c => 10 * a + (Z.of_N c - 48))%Z s' a' -> s = s' /\ a = a'.
Proof.
  induction s as [|c s IH]; intros [|c' s'] L F F' a a' E; try discriminate L; [auto|].
  inversion F; subst. inversion F'; subst. injection L as L. cbn [fold_left] in E.
  destruct (IH s' L) with (1 := H2) (2 := H4) (3 := E) as (-> & X). split; [f_equal; lia|lia].
Qed.
Lemma numeral_fun w z s s' : numeral w z s -> numeral w z s' -> s = s'.
Proof. intros (L & F & V) (L' & F' & V'). apply (digits_one s s' ltac:(congruence) F F' 0%Z 0%Z). congruence. Qed.
Lemma iso_date_fun d s s' : iso_date_text d s -> iso_date_text d s' -> s = s'.
Proof.
  intros (y & m & a & -> & Y & M & A) (y' & m' & a' & -> & Y' & M' & A').
  rewrite (numeral_fun _ _ _ _ Y Y'), (numeral_fun _ _ _ _ M M'), (numeral_fun _ _ _ _ A A'). reflexivity.
Qed.
Lemma iso_fun t s s' : iso_text t s -> iso_text t s' -> s = s'.
Proof.
  intros (y & m & a & h & mi & se & fr & -> & Y & M & A & H & MI & SE & FR) (y' & m' & a' & h' & mi' & se' & fr' & -> & Y' & M' & A' & H' & MI' & SE' & FR').
  rewrite (numeral_fun _ _ _ _ Y Y'), (numeral_fun _ _ _ _ M M'), (numeral_fun _ _ _ _ A A'), (numeral_fun _ _ _ _ H H'), (numeral_fun _ _ _ _ MI MI'), (numeral_fun _ _ _ _ SE SE').
  destruct FR as [(Z & ->)|(Z & u & -> & U)], FR' as [(Z' & ->)|(Z' & u' & -> & U')]; try congruence. rewrite (numeral_fun _ _ _ _ U U'). reflexivity.
Qed.
Lemma naive_one u u' i : real_datetime u -> real_datetime u' -> dt_tz u = None -> dt_tz u' = None -> instant u i -> instant u' i -> u = u'.
Proof.
  intros R R' Z Z' I I'. apply real_datetime_iff in R, R'. apply instant_iff in I; [|apply R]. apply instant_iff in I'; [|apply R']. subst i.
  assert (E : datetime_eqb u u' = true) by (unfold datetime_eqb; rewrite Z, Z'; apply Z.eqb_eq, I').
  apply (datetime_eq_text u u' R R') in E. unfold to_naive_utc in E. rewrite Z, Z' in E. congruence.
Qed.
Lemma F2_fun {A B} (R : A -> B -> Prop) l : Forall (fun x => forall e e', R x e -> R x e' -> e = e') l ->
  forall es es', Forall2 R l es -> Forall2 R l es' -> es = es'.
Proof.
  induction 1 as [|x l H _ IH]; intros es es' D D'; inversion D; inversion D'; subst; [reflexivity|]. f_equal; eauto.
Qed.
Lemma column_word_fun al c w w' : column_word al c w -> column_word al c w' -> w = w'.
Proof.
  unfold column_word. destruct al; [|congruence]. destruct (c_entity c); [|congruence]. intros (a & E & ->) (a' & E' & ->). congruence.
Qed.
Lemma column_word_eq al c c' w : column_eqb c c' = true -> column_word al c' w -> column_word al c w.
Proof.
  unfold column_eqb, column_word. intros E. apply andb_true_iff in E as [E _]. apply andb_true_iff in E as [E _].
  apply andb_true_iff in E as [E1 E2]. apply str_eqb_eq in E1. rewrite E1. destruct al; [|auto].
  destruct (c_entity c) as [e|], (c_entity c') as [e'|]; try discriminate; [|auto].
  cbn in E2. unfold entity_eqb in E2. apply andb_true_iff in E2 as [E2 _]. apply andb_true_iff in E2 as [E2 _].
  apply andb_true_iff in E2 as [_ E2]. apply option_eqb_iff in E2; [|apply str_eqb_eq]. rewrite E2. auto.
Qed.
Section S.
Context {RT : PyRT}.
Lemma wf_all {P : obj -> Prop} l : Forall wf l -> Forall (fun x => wf x -> P x) l -> Forall P l.
Proof. induction 1 as [|x l W _ IH]; intros H; inversion H; subst; constructor; auto. Qed.
Ltac each := eapply F2_fun; [|eassumption|eassumption]; eapply wf_all; [eassumption|];
  match goal with H : Forall (fun _ => wf _ -> _) ?l |- Forall _ ?l => exact H end.
Lemma denotes_fun al o : wf o -> forall x x', denotes al o x -> denotes al o x' -> x = x'.
Proof.
  induction o using obj_ind'; intros W x x' D D'; inversion W; subst; inversion D; subst; inversion D'; subst; try reflexivity.
  - f_equal. match goal with A : forallb scalar_value ?s = true, B : forallb scalar_value ?s' = true, E : utf8_encode _ = utf8_encode _ |- _ =>
      apply utf8_decode_encode in A, B; congruence end.
  - repeat f_equal. eapply iso_date_fun; eassumption.
  - repeat f_equal.
    match goal with R : valid_datetime ?t |- _ => apply real_datetime_iff in R; destruct (c15_instant _ R) as (k & _ & K) end.
    match goal with A : instant t ?a, B : instant t ?b |- _ => pose proof (K _ A); pose proof (K _ B); subst a; try subst b end.
    match goal with A : iso_text ?u _, B : iso_text ?u' _ |- _ => assert (u = u') as -> by (eapply naive_one; eassumption) end.
    eapply iso_fun; eassumption.
  - repeat f_equal. each.
  - repeat f_equal. each.
  - f_equal. eapply column_word_fun; eassumption.
  - f_equal. eapply column_word_fun; eassumption.
  - assert (is = is0) as ->.
    { each. }
    assert (ps = ps0) as ->; [|reflexivity].
    each.
  - f_equal. eauto.
Qed.
Lemma denotes_cond_fun al o : wf o -> forall x x', denotes_cond al o x -> denotes_cond al o x' -> x = x'.
Proof.
  induction o using obj_ind'; intros W x x' D D'; inversion W; subst; inversion D; subst; inversion D'; subst; try tauto.
  - f_equal. eapply (denotes_fun al); [|eassumption|eassumption]; assumption.
  - f_equal; [|f_equal]; (eapply (denotes_fun al); [|eassumption|eassumption]; assumption).
  - f_equal. each.
Qed.
(** ** equal left-hand sides stand for the same expression *)
Lemma exact_denotes al a : forall b x, exact_expr a -> exact_expr b -> wf a -> wf b -> py_eq a b = true -> denotes al b x -> denotes al a x.
Proof.
  assert (items : forall l m xs, Forall (fun a => forall b x, exact_expr a -> exact_expr b -> wf a -> wf b -> py_eq a b = true -> denotes al b x -> denotes al a x) l ->
    Forall exact_expr l -> Forall exact_expr m -> Forall wf l -> Forall wf m -> eq_list l m = true -> Forall2 (denotes al) m xs -> Forall2 (denotes al) l xs).
  { intros l m xs H X Y W V E D. apply eq_list_Forall2 in E. revert xs D. induction E as [|u v l m E _ IH]; intros xs D; inversion D; subst; constructor;
      inversion_clear H; inversion_clear X; inversion_clear Y; inversion_clear W; inversion_clear V; eauto. }
  induction a using obj_ind'; intros y x X Y W V E D; inversion X; subst; inversion Y; subst; try discriminate E.
  - exact D.
  - cbn in E. apply Z.eqb_eq in E. subst. exact D.
  - cbn in E. apply str_eqb_eq in E. subst. exact D.
  - cbn in E. apply str_eqb_eq in E. subst. exact D.
  - cbn in E. unfold date_eqb in E. apply andb_true_iff in E as [E E3]. apply andb_true_iff in E as [E1 E2].
    apply Z.eqb_eq in E1, E2, E3. destruct d, d0; cbn in *. subst. exact D.
  - cbn [py_eq] in E. unfold datetime_eqb in E. inversion W; inversion V; subst. inversion D; subst.
    assert (I : instant_us t = instant_us t0) by (destruct (dt_tz t), (dt_tz t0); try discriminate; apply Z.eqb_eq, E).
    econstructor; try eassumption. apply instant_iff; [match goal with H : valid_datetime t |- _ => apply H end|].
    rewrite I. apply instant_iff; [match goal with H : valid_datetime t0 |- _ => apply H end|assumption].
  - cbn [py_eq] in E. fold eq_list in E. inversion W; inversion V; subst. inversion D; subst. constructor. eapply items; eassumption.
  - cbn [py_eq] in E. fold eq_list in E. inversion W; inversion V; subst. inversion D; subst. constructor. eapply items; eassumption.
  - cbn [py_eq] in E. inversion D; subst. constructor. eapply column_word_eq; eassumption.
  - cbn [py_eq] in E. apply andb_true_iff in E as [E1 E2]. apply option_str_eq in E2. subst. inversion D; subst. constructor. eapply column_word_eq; eassumption.
  - cbn [py_eq] in E. apply andb_true_iff in E as [E Ea]. apply andb_true_iff in E as [E E5].
    apply andb_true_iff in E as [E E4]. apply andb_true_iff in E as [E E3]. apply andb_true_iff in E as [E1 E2].
    apply str_eqb_eq in E1. apply seqk_eq in E2, E4.
    match type of E3 with ?t = true => change (eq_list il il0 = true) in E3 end.
    match type of E5 with ?t = true => change (eq_list pl pl0 = true) in E5 end.
    inversion W; inversion V; subst. inversion D; subst. apply d_func; [apply (items il il0)|apply (items pl pl0)]; assumption.
  - cbn in E. apply str_eqb_eq in E. subst. exact D.
  - cbn [py_eq] in E. apply andb_true_iff in E as [E Eb]. apply andb_true_iff in E as [E1 E2].
    apply strs_eq in E2. subst. inversion W; inversion V; subst. inversion D; subst. constructor. eapply IHa; eassumption.
Qed.

(** ** one rewritten condition *)
Lemma any_eq R e vs : map (cond_truth R) (map (fun v => CAtom e EQ (Some v)) vs) = map (fun v => R e EQ (Some v)) vs.
Proof. rewrite map_map. reflexivity. Qed.
Lemma optimized_tree al c c' t' : wf c -> merges_exactly c -> optimized_at c c' -> denotes_cond al c' t' ->
  exists t, denotes_cond al c t /\ forall R, knows_in R -> cond_truth R t' = cond_truth R t.
Proof.
  intros W X O D. destruct O as [(M & O)|(_ & ->)]; [|exists t'; auto].
  inversion O as [cls k lhs rhs rest]; subst. inversion M as [? ? ? ? ? F]; subst.
  inversion D as [? ? ? ? ? U|? ? ? e e' DL N1 N2 DR|]; subst; [destruct U; discriminate|].
  inversion DR as [| | | | | | | | |? es DI| | | | | |]; subst.
  exists (CNode OR (map (fun v => CAtom e EQ (Some v)) es)). split.
  - constructor. inversion W; subst.
    assert (XR : forall l r, In (OCond l EQ r) rest -> py_eq l lhs = true -> written_alike l lhs).
    { intros l r I P. eapply X; [reflexivity|right; exact I|left; reflexivity|exact P]. }
    match goal with H : Forall wf _ |- _ => rename H into WL end.
    inversion WL as [|? ? W1 WR]; subst. inversion DI as [|? v ? vs D1 DS]; subst.
    cbn [map]. constructor; [constructor; [exact DL|discriminate|discriminate|exact D1]|].
    inversion W1; subst.
    clear D DR DI WL O M W X D1.
    repeat match goal with H : _ |- _ => lazymatch type of H with context [OCond lhs EQ rhs :: rest] => clear H end end.
    revert vs DS. induction F as [|y rest (l & r & -> & E) F IH]; intros vs DS; cbn [map] in DS; inversion DS; subst; [constructor|].
    inversion WR as [|? ? WY WR']; subst. inversion WY; subst.
    cbn [map]. constructor; [|apply IH; first [assumption|intros l1 r1 I; apply XR with r1; right; exact I]].
    constructor; [|discriminate|discriminate|assumption].
    destruct (XR l r (or_introl eq_refl) E) as [->|(XA & XB)]; [exact DL|]. eapply exact_denotes; [| | | |exact E|exact DL]; assumption.
  - intros R K. cbn [cond_truth]. rewrite K, any_eq. reflexivity.
Qed.
Lemma optimized_trees al l l' : Forall wf l -> Forall merges_exactly l -> Forall2 optimized_at l l' -> forall ts', Forall2 (denotes_cond al) l' ts' ->
  exists ts, Forall2 (denotes_cond al) l ts /\ forall R, knows_in R -> map (cond_truth R) ts' = map (cond_truth R) ts.
Proof.
  intros W X O. revert W X. induction O as [|c c' l l' O _ IH]; intros W X ts' D; inversion D; subst; [exists []; auto|].
  inversion W; subst. inversion X; subst.
  destruct (optimized_tree al c c' y) as (t & T & E); try assumption.
  destruct (IH ltac:(assumption) ltac:(assumption) l'0) as (ts & TS & ES); [assumption|].
  exists (t :: ts). split; [constructor; assumption|]. intros R K. cbn [map]. rewrite E, ES by assumption. reflexivity.
Qed.
(** ** the clause WHERE *)
Definition holds_filters (o : obj) (l : list obj) : Prop := (o = ONone /\ l = []) \/ list_or_tuple o l.
Lemma list_one o l l' : list_or_tuple o l -> list_or_tuple o l' -> l = l'.
Proof. intros A B. inversion A; subst; inversion B; subst; reflexivity. Qed.
Lemma filters_one o l l' : holds_filters o l -> holds_filters o l' -> l = l'.
Proof.
  intros [(-> & ->)|A] [(E & ->)|B]; [reflexivity|inversion B|subst o; inversion A|eapply list_one; eassumption].
Qed.
Lemma where_tree al o o' l l' p : wf o -> holds_filters o l -> holds_filters o' l' -> Forall merges_exactly l -> Forall2 optimized_at l l' ->
  denotes_part al CWhere o' p ->
  exists p0, denotes_part al CWhere o p0 /\ forall R, knows_in R -> passes R p = passes R p0.
Proof.
  intros W F F' X O D.
  assert (WL : Forall wf l) by (destruct F as [(_ & ->)|L]; [constructor|inversion L; subst; inversion W; subst; assumption]).
  assert (K : forall p, denotes_part al CWhere o' p -> (l' = [] /\ p = None) \/ exists ts, l' <> [] /\ p = Some (PConds ts) /\ Forall2 (denotes_cond al) l' ts).
  { clear - F'. intros p D. inversion D as [|? ? L|? ? x m es I L|? ? x m ts I L DS| | | | | |]; subst; try (cbn in I; intuition discriminate).
    - left. split; [|reflexivity]. destruct F' as [(_ & ->)|L]; [reflexivity|inversion L].
    - left. split; [|reflexivity]. destruct F' as [(_ & ->)|L']; [reflexivity|eapply list_one; eassumption].
    - right. exists ts. destruct F' as [(-> & _)|L']; [inversion L|]. rewrite (list_one _ _ _ L' L). repeat split; auto. discriminate. }
  destruct (K p D) as [(-> & ->)|(ts' & N & -> & DS)].
  - inversion O; subst. exists None. split; [|reflexivity]. destruct F as [(-> & _)|L]; [constructor|constructor; assumption].
  - destruct (optimized_trees al l l' WL X O ts' DS) as (ts & D0 & E).
    exists (Some (PConds ts)). split; [|intros R KN; cbn [passes]; rewrite E by exact KN; reflexivity].
    destruct l as [|x l]; [inversion O; subst; congruence|]. destruct F as [(_ & ?)|L]; [discriminate|].
    eapply dp_conds; [left; reflexivity|exact L|exact D0].
Qed.
Lemma read_tree q q' l l' t : wf_query q -> same_but_where q q' -> filters q l -> filters q' l' -> Forall2 optimized_at l l' ->
  Forall merges_exactly l -> denotes_query q' t ->
  exists t0, denotes_query q t0 /\ same_but_conditions t t0
    /\ forall R, knows_in R -> passes R (part_of t CWhere) = passes R (part_of t0 CWhere).
Proof.
  intros W (SM & SC) F F' O X D.
  assert (WW : wf (get CWhere (q_clauses q))) by (destruct q; apply W).
  set (put := fun p0 (ps : clause -> option part) k => match k with CWhere => p0 | _ => ps k end).
  assert (PS : forall al parts, (forall k, denotes_part al k (get k (q_clauses q')) (parts k)) -> exists p0,
    (forall k, denotes_part al k (get k (q_clauses q)) (put p0 parts k)) /\ forall R, knows_in R -> passes R (parts CWhere) = passes R p0).
  { intros al parts P. destruct (where_tree al _ _ l l' (parts CWhere) WW F F' X O (P CWhere)) as (p0 & D0 & E).
    exists p0. split; [|exact E]. intros k. pose proof (SC k) as S. destruct k; unfold put; try (rewrite <- S by discriminate; apply P). exact D0. }
  assert (SB : forall m parts p0, same_but_conditions (QTree m parts) (QTree m (put p0 parts))).
  { intros. apply sq_same. intros []; reflexivity. }
  destruct D as [e n a s cl parts DE DP|st s cl parts DS DP|kk rels ts cl parts DR DP|i t cl parts DI DP];
    destruct (PS _ _ DP) as (p0 & D0 & E); destruct q as [b c|i0 c]; cbn [q_match q_clauses] in *;
    try discriminate SM; try (destruct b; try discriminate SM); injection SM; intros; subst;
    (eexists; split; [econstructor; eassumption|]; split; [apply SB|exact E]).
Qed.

(** ** a clause stands for one part *)
Lemma denotes_order_fun al o : wf o -> forall x x', denotes_order al o x -> denotes_order al o x' -> x = x'.
Proof.
  intros W x x' D D'. inversion D; subst. inversion D'; subst. f_equal. inversion W; subst. eapply (denotes_fun al); [|eassumption|eassumption]; assumption.
Qed.
Lemma denotes_part_fun al k o : wf o -> forall p p', denotes_part al k o p -> denotes_part al k o p' -> p = p'.
Proof.
  intros W p p' D D'.
  assert (WL : forall l, list_or_tuple o l -> Forall wf l) by (intros l L; inversion L; subst; inversion W; subst; assumption).
  inversion D; subst; inversion D'; subst; try reflexivity;
    try (match goal with A : list_or_tuple ONone _ |- _ => inversion A end; fail);
    try (match goal with A : list_or_tuple ?o _, B : list_or_tuple ?o _ |- _ => pose proof (list_one _ _ _ A B); discriminate end; fail);
    try (match goal with A : list_or_tuple _ _ |- _ => inversion A end; fail);
    try (exfalso; match goal with A : In ?k _, B : In ?k _ |- _ => cbn in A, B; intuition congruence end; fail);
    try (exfalso; match goal with A : In _ _ |- _ => cbn in A; intuition congruence end; fail).
  1-3: match goal with A : list_or_tuple ?o (?x :: ?l), B : list_or_tuple ?o (?y :: ?m) |- _ =>
    let E := fresh in pose proof (list_one _ _ _ A B) as E; injection E as <- <-; pose proof (WL _ A) as WA end; f_equal; f_equal; clear D D'.
  - eapply (F2_fun (denotes al)); [|eassumption|eassumption]. eapply Forall_impl; [|exact WA]. intros y WY. apply (denotes_fun al), WY.
  - eapply (F2_fun (denotes_cond al)); [|eassumption|eassumption]. eapply Forall_impl; [|exact WA]. intros y WY. apply (denotes_cond_fun al), WY.
  - eapply (F2_fun (denotes_order al)); [|eassumption|eassumption]. eapply Forall_impl; [|exact WA]. intros y WY. apply (denotes_order_fun al), WY.
  - f_equal. f_equal. eapply F2_fun; [|eassumption|eassumption]. apply Forall_forall. intros c _. apply column_word_fun.
Qed.
Lemma denotes_query_fun q t t' : wf_query q -> denotes_query q t -> denotes_query q t' -> forall k, part_of t k = part_of t' k.
Proof.
  intros W D D' k. inversion D; subst; inversion D'; subst; cbn [part_of];
    (eapply denotes_part_fun; [|match goal with H : forall k, denotes_part _ _ _ _ |- _ => apply H end..]); destruct W as [_ W]; apply W.
Qed.
End S.

(** ** equal conditions hold in the same rows *)
Lemma truth_py_eq I : sees_python_equality I -> sees_equal_values I -> forall c c', py_eq c c' = true -> truth I c = truth I c'.
Proof.
  intros HL HR c. induction c using obj_ind'; intros c' E; destruct c'; try discriminate E; try reflexivity.
  - cbn [py_eq] in E. apply andb_prop in E as [E E3]. apply andb_prop in E as [E1 E2].
    assert (o = o0) as -> by (destruct o, o0; congruence || discriminate E2 || reflexivity).
    cbn [truth]. rewrite (HL _ _ E1). apply HR, E3.
  - cbn [py_eq] in E. apply andb_prop in E as [E E4]. apply andb_prop in E as [E E3]. apply andb_prop in E as [E1 E2].
    assert (o = o0) as -> by (destruct o, o0; congruence || discriminate E2 || reflexivity).
    assert (M : map (truth I) l = map (truth I) conds).
    { clear - H E4. revert conds E4. induction H as [|x l Hx _ IH]; intros [|y m] E; try discriminate E; [reflexivity|].
      apply andb_prop in E as [A B]. cbn [map]. rewrite (Hx _ A), (IH _ B). reflexivity. }
    destruct o0; cbn [truth]; rewrite M; reflexivity.
Qed.
Lemma group_truth_eq I : sees_python_equality I -> sees_equal_values I -> forall l l', py_eq (OList l) (OList l') = true -> group_truth I l = group_truth I l'.
Proof.
  intros HL HR. unfold group_truth. induction l as [|x l IH]; intros [|y m] E; try discriminate E; [reflexivity|].
  cbn [py_eq] in E. apply andb_prop in E as [A B]. cbn [map all3 fold_right]. rewrite (truth_py_eq I HL HR _ _ A). f_equal. exact (IH m B).
Qed.
Lemma and3_true_r a : and3 a TTrue = a.
Proof. destruct a; reflexivity. Qed.
