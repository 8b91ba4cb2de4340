(** Equal queries send the same text (C75). *)
From Verif Require Import PyBase PyFacts DateTime Objects Exprs Translate Optimizer Query SpecExpr ExprFacts WfFacts
  SpecOccurs SpecQuery TextFacts LiteralFacts DateFacts TimeProps PyEqFacts SpecLogic RenameFacts OptFacts PrintProps SpecEqual.

(** * Equality of leaves is transitive *)
Lemma flt_num_scale n m e b b' : (b' <= b <= e)%Z -> flt_num n m e b' = (flt_num n m e b * 2 ^ (b - b'))%Z.
Proof.
  intros H. unfold flt_num. replace (e - b')%Z with ((e - b) + (b - b'))%Z by lia.
  rewrite Z.pow_add_r by lia. ring.
Qed.
Lemma fin_eq n1 m1 e1 n2 m2 e2 b : (b <= e1)%Z -> (b <= e2)%Z ->
  (fin_cmp n1 m1 e1 n2 m2 e2 = Eq <-> flt_num n1 m1 e1 b = flt_num n2 m2 e2 b).
Proof.
  intros H1 H2. unfold fin_cmp. rewrite Z.compare_eq_iff. set (k := Z.min e1 e2).
  rewrite (flt_num_scale n1 m1 e1 k b), (flt_num_scale n2 m2 e2 k b) by lia.
  split; [intros ->; reflexivity|]. apply Z.mul_reg_r. apply Z.pow_nonzero; lia.
Qed.
Lemma flt_eqb_trans a b c : flt_eqb a b = true -> flt_eqb b c = true -> flt_eqb a c = true.
Proof.
  destruct a as [|x|n1 m1 e1], b as [|y|n2 m2 e2], c as [|z|n3 m3 e3]; cbn; try discriminate; try congruence.
  - destruct x, y, z; cbn; congruence.
  - destruct (fin_cmp n1 m1 e1 n2 m2 e2) eqn:A; try discriminate. destruct (fin_cmp n2 m2 e2 n3 m3 e3) eqn:B; try discriminate.
    intros _ _. set (k := Z.min e1 (Z.min e2 e3)). apply (fin_eq _ _ _ _ _ _ k) in A; [|lia|lia]. apply (fin_eq _ _ _ _ _ _ k) in B; [|lia|lia].
    assert (fin_cmp n1 m1 e1 n3 m3 e3 = Eq) as -> by (apply (fin_eq _ _ _ _ _ _ k); [lia|lia|congruence]). reflexivity.
Qed.
Definition trans_at {A} (f : A -> A -> bool) : Prop := forall a b c, f a b = true -> f b c = true -> f a c = true.
Lemma str_trans : trans_at str_eqb.
Proof. intros a b c. rewrite !str_eqb_eq. congruence. Qed.
Lemma option_trans {A} (f : A -> A -> bool) : trans_at f -> trans_at (option_eqb f).
Proof. intros T [a|] [b|] [c|]; cbn; try discriminate; eauto. Qed.
Lemma list_trans {A} (f : A -> A -> bool) : trans_at f -> trans_at (list_eqb f).
Proof.
  intros T. intros a. induction a as [|x a IH]; intros [|y b] [|z c]; cbn; try discriminate; auto.
  rewrite !andb_true_iff. intros (H1 & H2) (H3 & H4). split; eauto.
Qed.
Lemma sc_trans : trans_at sc_eqb.
Proof.
  intros a b c. unfold sc_eqb. rewrite !andb_true_iff, !str_eqb_eq. intros (E & F) (E' & F'). split; [congruence|].
  destruct (sc_required a), (sc_required b), (sc_required c); cbn in *; congruence.
Qed.
Lemma sc_incl_trans : trans_at sc_incl.
Proof.
  intros a b c H1 H2. unfold sc_incl in *. rewrite forallb_forall in *. intros x I.
  specialize (H1 x I). apply existsb_exists in H1 as (y & Iy & E). specialize (H2 y Iy).
  apply existsb_exists in H2 as (z & Iz & E'). apply existsb_exists. exists z. split; [exact Iz|]. eapply sc_trans; eassumption.
Qed.
Lemma dm_trans : trans_at dm_eqb.
Proof.
  intros a b c. unfold dm_eqb. rewrite !andb_true_iff. intros ((H1 & H2) & H3) ((H4 & H5) & H6).
  repeat split; [eapply sc_incl_trans|eapply sc_incl_trans|eapply sc_trans]; eassumption.
Qed.
Lemma entity_trans : trans_at entity_eqb.
Proof.
  intros a b c. unfold entity_eqb. rewrite !andb_true_iff. intros (((H1 & H2) & H3) & H4) (((H5 & H6) & H7) & H8).
  repeat split; [eapply str_trans|eapply (option_trans _ str_trans)|eapply (option_trans _ flt_eqb_trans)|eapply (option_trans _ dm_trans)]; eassumption.
Qed.
Lemma storage_trans : trans_at storage_eqb.
Proof.
  intros a b c. unfold storage_eqb. rewrite !andb_true_iff. intros ((H1 & H2) & H3) ((H4 & H5) & H6).
  repeat split; [eapply str_trans|eapply (option_trans _ flt_eqb_trans)|eapply (option_trans _ dm_trans)]; eassumption.
Qed.
Lemma column_trans : trans_at column_eqb.
Proof.
  intros a b c. unfold column_eqb. rewrite !andb_true_iff. intros (((H1 & H2) & H3) & H4) (((H5 & H6) & H7) & H8).
  repeat split; [eapply str_trans|eapply (option_trans _ entity_trans)|eapply (option_trans _ str_trans)|eapply (option_trans _ str_trans)]; eassumption.
Qed.
Lemma rel_trans : trans_at rel_eqb.
Proof.
  intros a b c. unfold rel_eqb. rewrite !andb_true_iff. intros ((H1 & H2) & H3) ((H4 & H5) & H6).
  repeat split; [eapply entity_trans|eapply str_trans|eapply entity_trans]; eassumption.
Qed.
Lemma datetime_trans : trans_at datetime_eqb.
Proof.
  intros a b c. unfold datetime_eqb. destruct (dt_tz a), (dt_tz b), (dt_tz c); try discriminate; rewrite !Z.eqb_eq; congruence.
Qed.
Lemma date_trans : trans_at date_eqb.
Proof. intros a b c. unfold date_eqb. rewrite !andb_true_iff, !Z.eqb_eq. intuition congruence. Qed.

Lemma one_look_same x y : one_look x -> one_look y -> py_eq x y = true -> look_same x y.
Proof.
  intros X Y E. destruct x; try contradiction; try exact I; (destruct y; try exact I; try contradiction; try discriminate E); cbn in *.
  - apply Z.eqb_eq in E. congruence.
  - subst. apply andb_true_iff in E as (_ & E). split; [reflexivity|]. apply option_eqb_iff in E; [exact E|apply str_eqb_eq].
  - congruence.
  - congruence.
  - destruct X as (z & ->), Y as (z' & ->). apply andb_true_iff in E as (_ & E). apply Z.eqb_eq in E. cbn in E. congruence.
Qed.

(** * Twins: equal, and nothing equal in them looks different *)
Definition tw (a b : obj) : Prop :=
  py_eq a b = true /\ forall x y, occurs x a -> occurs y b -> py_eq x y = true -> look_same x y.
Lemma tw_look a b : tw a b -> look_same a b.
Proof. intros (E & L). apply L; [constructor|constructor|exact E]. Qed.
Lemma tw_sub (a b x y : obj) : tw a b -> (forall z, occurs z x -> occurs z a) -> (forall z, occurs z y -> occurs z b) ->
  py_eq x y = true -> tw x y.
Proof. intros (_ & L) A B E. split; [exact E|]. intros. apply L; auto. Qed.
Lemma tw_items (a b : obj) l m : tw a b -> (forall x z, In x l -> occurs z x -> occurs z a) ->
  (forall y z, In y m -> occurs z y -> occurs z b) -> eq_list l m = true -> Forall2 tw l m.
Proof.
  intros T A B E. apply eq_list_Forall2 in E. induction E as [|x y l m E F IH]; constructor.
  - eapply tw_sub; [exact T| | |exact E]; [intros; eapply A|intros; eapply B]; try eassumption; left; reflexivity.
  - apply IH; [intros; eapply A|intros; eapply B]; try eassumption; right; assumption.
Qed.
Lemma look_sym x y : py_eq x y = true -> look_same x y -> look_same y x.
Proof.
  intros E L. destruct x; cbn in L; try (subst y; reflexivity); destruct y; cbn in *; try exact I; try discriminate E; try congruence.
  destruct L. split; congruence.
Qed.
Lemma tw_sym a b : tw a b -> tw b a.
Proof.
  intros (E & L). split; [rewrite py_eq_sym; exact E|]. intros x y X Y E'. rewrite py_eq_sym in E'.
  apply look_sym; [exact E'|]. apply L; assumption.
Qed.

Section E.
Context {RT : PyRT}.
(** * Comparisons do not tell twins apart *)
Definition usual (a : obj) : Prop := wf a /\ (scalar a \/ expression a).
Definition cong_at (a : obj) : Prop := forall b a' b', usual a -> tw a a' -> tw b b' -> py_eq a b = true -> py_eq a' b' = true.
Lemma eq_list_cong l : Forall cong_at l -> Forall usual l ->
  forall m l' m', Forall2 tw l l' -> Forall2 tw m m' -> eq_list l m = true -> eq_list l' m' = true.
Proof.
  induction 1 as [|a l H _ IH]; intros U [|b m] l' m' L M E; inversion L; subst; inversion M; subst; cbn in E; try discriminate E; [reflexivity|].
  cbn. apply andb_true_iff in E as (E1 & E2). inversion_clear U as [|? ? U1 U2]. apply andb_true_iff. split.
  - eapply H; eassumption.
  - eapply IH; eassumption.
Qed.
Lemma leaf_cong {A} (f : A -> A -> bool) (mk : A -> obj) : (forall a b, py_eq (mk a) (mk b) = f a b) -> trans_at f ->
  forall a b a' b', f a a' = true -> f b b' = true -> f a b = true -> f a' b' = true.
Proof.
  intros M T a b a' b' H1 H2 H3. apply T with a; [|apply T with b; assumption].
  rewrite <- M, py_eq_sym, M. exact H1.
Qed.
Lemma usual_sub a : usual a -> match a with
  | OList l | OTuple l | OBoolC _ _ _ l => Forall usual l
  | OFunc _ _ _ il _ pl _ => Forall usual il /\ Forall usual pl
  | OLambda _ _ b => usual b
  | OCond l _ r => usual l /\ usual r
  | OOrderBy e _ => usual e
  | ODict _ _ => False
  | _ => True
  end.
Proof.
  intros (W & U). destruct a; try exact I.
  - inversion W; subst. destruct U as [U|U]; [|inversion U]. inversion U as [o L| |]; subst; [inversion L|].
    rewrite Forall_forall in *. split; auto.
  - inversion W; subst. destruct U as [U|U]; [|inversion U]. inversion U as [o L| |]; subst; [inversion L|].
    rewrite Forall_forall in *. split; auto.
  - destruct U as [U|U]; [|inversion U]. inversion U as [o L| |]; subst; inversion L.
  - inversion W; subst. rewrite !Forall_forall in *. cbv beta in *. split; intros x I; split; auto.
    + match goal with H : forall x, In x _ -> init_ok x = true |- _ => apply H in I end.
      destruct x; try discriminate; try (right; constructor; fail); left; repeat constructor.
    + match goal with H : forall x, In x _ -> param_ok x |- _ => apply H in I; destruct I as [I|I]; [right; destruct I as [? I|? I| |]; try destruct I; constructor|left; exact I] end.
  - inversion W; subst. split; [assumption|]. match goal with H : is_func ?b = true |- _ => destruct b end; try discriminate. right; constructor.
  - apply wf_cond_parts in W as C. inversion W; subst. destruct C as (C & R). repeat split; try assumption.
    match type of C with is_col_or_func ?l = true => destruct l end; try discriminate; right; constructor.
  - inversion W; subst. rewrite !Forall_forall in *. cbv beta in *. intros x I. split; auto.
    match goal with H : forall x, In x _ -> is_condition_obj x = true |- _ => apply H in I end. destruct x; try discriminate; right; constructor.
  - inversion W; subst. split; [assumption|]. match goal with H : is_col_or_func ?b = true |- _ => destruct b end; try discriminate; right; constructor.
Qed.


Lemma andb4 a b : a && b = true -> a = true /\ b = true.
Proof. apply andb_true_iff. Qed.
Ltac ands := repeat match goal with H : _ && _ = true |- _ => apply andb4 in H as [? ?] end.
Ltac tws T := eapply tw_sub; [exact T|intros; econstructor; eassumption|intros; econstructor; eassumption|assumption].
Ltac twl T := eapply tw_items; [exact T|intros; econstructor; eassumption|intros; econstructor; eassumption|assumption].
(** the parts of twins are twins *)
Lemma tw_parts a b : tw a b -> match a, b with
  | OList l, OList m | OTuple l, OTuple m => Forall2 tw l m
  | OFunc f n ik il pk pl al, OFunc f' n' ik' il' pk' pl' al' =>
      f = f' /\ n = n' /\ ik = ik' /\ pk = pk' /\ al = al' /\ Forall2 tw il il' /\ Forall2 tw pl pl'
  | OLambda k ids x, OLambda k' ids' y => k = k' /\ ids = ids' /\ tw x y
  | OCond l o r, OCond l' o' r' => tw l l' /\ o = o' /\ tw r r'
  | OBoolC c o k l, OBoolC c' o' k' l' => c = c' /\ o = o' /\ k = k' /\ Forall2 tw l l'
  | OOrderBy e d, OOrderBy e' d' => tw e e' /\ d = d'
  | _, _ => True
  end.
Proof.
  intros T. pose proof (proj1 T) as E. destruct a; try exact I; destruct b; try exact I; cbn [py_eq] in E; fold eq_list in E; ands.
  - twl T.
  - twl T.
  - destruct (tw_look _ _ T) as [-> ->]. repeat split.
    + apply str_eqb_eq; assumption.
    + apply seqk_eq; assumption.
    + apply seqk_eq; assumption.
    + twl T.
    + eapply tw_items; [exact T|intros; eapply oc_param; eassumption|intros; eapply oc_param; eassumption|assumption].
  - repeat split; [apply seqk_eq; assumption|apply strs_eq; assumption|assumption|].
    match goal with H : py_eq _ _ = true |- _ => exact (proj2 (tw_sub _ _ _ _ T (fun z => oc_body z _ _ _) (fun z => oc_body z _ _ _) H)) end.
  - assert (o = o0) by (destruct o, o0; cbn in *; congruence). split; [tws T|]. split; [assumption|].
    eapply tw_sub; [exact T|intros; eapply oc_rhs; eassumption|intros; eapply oc_rhs; eassumption|assumption].
  - repeat split; [destruct cls, cls0; cbn in *; congruence|destruct o, o0; cbn in *; congruence|apply seqk_eq; assumption|].
    twl T.
  - split; [tws T|]. destruct d, d0; cbn in *; congruence.
Qed.
Ltac sides T T' E := let H1 := fresh "H1" in let H2 := fresh "H2" in
  pose proof (proj1 T) as H1; match type of H1 with py_eq _ ?a' = true => destruct a'; try discriminate H1 end;
  match type of E with py_eq _ ?y = true => destruct y; try discriminate E end;
  pose proof (proj1 T') as H2; match type of H2 with py_eq _ ?y' = true => destruct y'; try discriminate H2 end.
Ltac leaf f mk tr := cbn [py_eq] in *; eapply (leaf_cong f mk (fun _ _ => eq_refl) tr); eassumption.
Ltac num T T' E := let K := fresh "K" in pose proof (tw_look _ _ T) as K; cbn in K; subst;
  match type of E with py_eq _ ?y = true => destruct y; try discriminate E end;
  let K := fresh "K" in pose proof (tw_look _ _ T') as K; cbn in K; subst; exact E.
Lemma cong a : cong_at a.
Proof.
  induction a using obj_ind'; intros y a' y' U T T' E; pose proof (usual_sub _ U) as S; cbn beta iota in S; try contradiction;
    try (num T T' E; fail).
  all: sides T T' E.
  all: try reflexivity.
  all: try (leaf str_eqb OStr str_trans; fail).
  all: try (leaf date_eqb ODate date_trans; fail).
  all: try (leaf datetime_eqb ODateTime datetime_trans; fail).
  all: try (leaf column_eqb OColumn column_trans; fail).
  all: try (leaf entity_eqb OEntity entity_trans; fail).
  all: try (leaf storage_eqb OStorage storage_trans; fail).
  all: try (leaf dm_eqb ODataModel dm_trans; fail).
  all: try (leaf rel_eqb ORel rel_trans; fail).
  all: try (cbn [py_eq] in *; rewrite Z.eqb_eq in *; congruence).
  all: try (cbn [py_eq] in *; rewrite N.eqb_eq in *; congruence).
  all: pose proof (tw_parts _ _ T) as P; pose proof (tw_parts _ _ T') as P'; cbn beta iota in P, P'; cbn [py_eq] in *; fold eq_list in *.
  all: ands.

  - eapply eq_list_cong; eassumption.
  - eapply eq_list_cong; eassumption.
  - destruct o, o0, o1, o2; cbn in *; congruence.
  - destruct o, o0, o1, o2; cbn in *; congruence.
  - destruct d, d0, d1, d2; cbn in *; congruence.
  - repeat match goal with H : option_eqb str_eqb _ _ = true |- _ => apply option_str_eq in H; subst end.
    apply andb_true_iff. split; [leaf column_eqb OColumn column_trans|]. apply option_eqb_iff; [apply str_eqb_eq|reflexivity].
  - destruct P as (-> & -> & -> & -> & -> & L1 & L2), P' as (-> & -> & -> & -> & -> & M1 & M2). destruct S as (S1 & S2).
    rewrite !andb_true_iff. repeat split; try assumption.
    + eapply eq_list_cong with (2 := S1) (3 := L1) (4 := M1); eassumption.
    + eapply eq_list_cong with (2 := S2) (3 := L2) (4 := M2); eassumption.
  - destruct P as (-> & -> & L), P' as (-> & -> & M). rewrite !andb_true_iff. repeat split; try assumption.
    eapply IHa; eassumption.
  - repeat match goal with H : seqk_eqb _ _ = true |- _ => apply seqk_eq in H; subst end. apply andb_true_iff.
    split; [match goal with |- seqk_eqb ?k _ = true => destruct k; reflexivity end|].
    leaf (list_eqb rel_eqb) (OJoin KList) (list_trans _ rel_trans).
  - destruct P as (A & -> & B), P' as (C & -> & D), S as (S1 & S2). rewrite !andb_true_iff. repeat split; try assumption.
    + eapply IHa1; eassumption.
    + eapply IHa2; eassumption.
  - destruct P as (-> & -> & -> & L), P' as (-> & -> & -> & M). rewrite !andb_true_iff. repeat split; try assumption.
    eapply eq_list_cong; eassumption.
  - destruct P as (L & ->), P' as (M & ->). rewrite !andb_true_iff. repeat split; try assumption. eapply IHa; eassumption.
  - repeat match goal with H : seqk_eqb _ _ = true |- _ => apply seqk_eq in H; subst end. rewrite !andb_true_iff.
    split; [split|].
    + match goal with |- seqk_eqb ?k _ = true => destruct k; reflexivity end.
    + eapply (leaf_cong (list_eqb column_eqb) (fun l => OLimitBy KList l (PInt 1))); [intros; apply andb_true_r|exact (list_trans _ column_trans)| | |]; eassumption.
    + rewrite Z.eqb_eq in *. congruence.
  - rewrite Bool.eqb_true_iff in *. congruence.
  - rewrite Bool.eqb_true_iff in *. congruence.
Qed.

(** * Twins are printed alike *)
Lemma tw_alike_all l m : Forall (fun a => forall b, wf a -> wf b -> tw a b -> alike a b) l -> Forall wf l -> Forall wf m ->
  Forall2 tw l m -> Forall2 alike l m.
Proof.
  intros H W V F. induction F as [|a b l m T _ IH]; constructor; inversion_clear H; inversion_clear W; inversion_clear V; auto.
Qed.
Lemma tr_rels al l m : list_eqb rel_eqb l m = true ->
  (forall r r', In r l -> In r' m -> rel_eqb r r' = true -> tr_rel al r = tr_rel al r') -> map (tr_rel al) l = map (tr_rel al) m.
Proof.
  revert m. induction l as [|r l IH]; intros [|r' m] E H; cbn in E; try discriminate E; [reflexivity|].
  ands. cbn [map]. f_equal; [apply H; [left; reflexivity|left; reflexivity|assumption]|]. apply IH; [assumption|].
  intros; apply H; [right|right|]; assumption.
Qed.
Lemma entity_text al e e' : entity_eqb e e' = true -> e_sample e = e_sample e' -> tr_entity al e = tr_entity al e'.
Proof.
  unfold entity_eqb, tr_entity. intros E S. ands. rewrite S.
  match goal with H : str_eqb _ _ = true |- _ => apply str_eqb_eq in H; rewrite H end.
  match goal with H : option_eqb str_eqb _ _ = true |- _ => apply option_str_eq in H; rewrite H end. reflexivity.
Qed.
Lemma rel_text' al r r' : tw (ORel r) (ORel r') -> tr_rel al r = tr_rel al r'.
Proof.
  intros T. pose proof (proj1 T) as E. cbn in E. unfold rel_eqb in E. ands. unfold tr_rel.
  match goal with H : str_eqb _ _ = true |- _ => apply str_eqb_eq in H; rewrite H end.
  rewrite (entity_text al (r_lhs r) (r_lhs r')), (entity_text al (r_rhs r) (r_rhs r')); try assumption; [reflexivity| |].
  - apply (proj2 T (OEntity (r_rhs r)) (OEntity (r_rhs r'))); [apply oc_rel_r; constructor|apply oc_rel_r; constructor|assumption].
  - apply (proj2 T (OEntity (r_lhs r)) (OEntity (r_lhs r'))); [apply oc_rel_l; constructor|apply oc_rel_l; constructor|assumption].
Qed.
Lemma columns_text al l : forall m, list_eqb column_eqb l m = true -> map (tr_column al) l = map (tr_column al) m.
Proof.
  induction l as [|c l IH]; intros [|c' m] E; cbn in E; try discriminate E; [reflexivity|]. ands. cbn [map].
  f_equal; [apply column_eq_text|apply IH]; assumption.
Qed.
Lemma tw_col_or_func a b : tw a b -> is_col_or_func a = is_col_or_func b.
Proof. intros (E & _). destruct a, b; try discriminate E; reflexivity. Qed.
Lemma tw_alike a : forall b, wf a -> wf b -> tw a b -> alike a b.
Proof.
  induction a using obj_ind'; intros y W V T; pose proof (tw_parts _ _ T) as P; pose proof (tw_look _ _ T) as K; pose proof (proj1 T) as E;
    try (cbn in K; subst; repeat split; fail);
    (destruct y; try discriminate E); cbn beta iota in P; cbn [py_eq] in E; fold eq_list in E; ands;
    try (repeat split; fail).
  all: try (apply str_eqb_eq in E; subst; repeat split; fail).
  all: try (rewrite Z.eqb_eq in E; repeat split; intros; cbn [visit]; congruence).

  - unfold date_eqb in E. ands. rewrite !Z.eqb_eq in *. destruct d, d0; cbn in *. subst. repeat split.
  - repeat split. intros ql al. cbn [visit stringify_literal].
    rewrite (datetime_eq_text t t0); [reflexivity| | |exact E]; [inversion W|inversion V]; assumption.
  - assert (A : Forall2 alike l l0) by (inversion W; inversion V; subst; apply tw_alike_all; assumption).
    repeat split; [rewrite !is_scalar_list; apply alike_all, A|]. intros ql al.
    rewrite !visit_list, !is_scalar_list, (alike_all _ _ A), (alike_items ql al _ _ A). reflexivity.
  - assert (A : Forall2 alike l l0) by (inversion W; inversion V; subst; apply tw_alike_all; assumption).
    repeat split; [rewrite !is_scalar_tuple; apply alike_all, A|]. intros ql al.
    rewrite !visit_tuple, !is_scalar_tuple, (alike_all _ _ A), (alike_items ql al _ _ A). reflexivity.
  - repeat split. intros ql al. cbn [visit]. f_equal. apply column_eq_text, E.
  - match goal with H : option_eqb str_eqb _ _ = true |- _ => apply option_str_eq in H; subst end.
    repeat split. intros ql al. cbn [visit]. rewrite (column_eq_text al c c0) by assumption. reflexivity.
  - destruct P as (-> & -> & -> & -> & -> & L1 & L2).
    assert (A1 : Forall2 alike il inits) by (inversion W; inversion V; subst; apply tw_alike_all; assumption).
    assert (A2 : Forall2 alike pl params) by (inversion W; inversion V; subst; apply tw_alike_all; assumption).
    repeat split. intros ql al. rewrite !visit_func, (alike_inits ql al _ _ A1), (alike_params ql al _ _ A2). reflexivity.
  - destruct P as (-> & -> & L). destruct (IHa y) as (_ & _ & _ & _ & A); [inversion W; assumption|inversion V; assumption|exact L|].
    repeat split. intros ql al. cbn [visit]. rewrite A. reflexivity.
  - repeat split. intros ql al. cbn [visit]. f_equal. apply entity_text; assumption.
  - repeat split. intros ql al. cbn [visit]. unfold storage_eqb in E. ands. cbn in K. unfold tr_storage. rewrite K.
    match goal with H : str_eqb _ _ = true |- _ => apply str_eqb_eq in H; rewrite H end. reflexivity.
  - repeat split. intros ql al. cbn [visit]. f_equal. apply rel_text', T.
  - repeat split. intros ql al. cbn [visit]. f_equal. unfold tr_join. f_equal. apply tr_rels; [assumption|].
    intros r r' I I' E'. apply rel_text'. split; [exact E'|]. intros x z X Z. apply T; eapply oc_join; eassumption.
  - destruct P as (L & -> & R). assert (C : is_col_or_func a2 = is_col_or_func y2) by (apply tw_col_or_func, R).
    destruct (IHa1 y1) as (_ & _ & _ & _ & A1); [inversion W; assumption|inversion V; assumption|exact L|].
    destruct (IHa2 y2) as (S2 & _ & _ & _ & A2); [inversion W; assumption|inversion V; assumption|exact R|].
    repeat split. intros ql al. cbn [visit]. rewrite A1, A2, S2, C. reflexivity.
  - destruct P as (-> & -> & -> & L).
    assert (A : Forall2 alike l conds) by (inversion W; inversion V; subst; apply tw_alike_all; assumption).
    repeat split. intros ql al. rewrite !visit_bool, (alike_items ql al _ _ A). reflexivity.
  - destruct P as (L & ->). destruct (IHa y) as (_ & _ & _ & _ & A); [inversion W; assumption|inversion V; assumption|exact L|].
    repeat split. intros ql al. cbn [visit]. rewrite A. reflexivity.
  - cbn in K. subst. repeat split. intros ql al. cbn [visit]. rewrite (columns_text al l cols) by assumption. reflexivity.
  - apply Bool.eqb_prop in E. subst. repeat split.
Qed.
Lemma alike_visit ql al l m : Forall wf l -> Forall wf m -> Forall2 tw l m -> mapM (visit ql al) l = mapM (visit ql al) m.
Proof.
  intros W V F. apply alike_items. induction F as [|a b l m T _ IH]; constructor; inversion_clear W; inversion_clear V; auto using tw_alike.
Qed.

(** * Optimizing twins *)

Lemma cond_usual l o r : wf (OCond l o r) -> usual l.
Proof.
  intros W. assert (U : usual (OCond l o r)) by (split; [exact W|right; constructor]). apply usual_sub in U. apply U.
Qed.
Lemma cong_iff a b a' b' : usual a -> usual a' -> tw a a' -> tw b b' -> py_eq a b = py_eq a' b'.
Proof.
  intros U U' A B. apply Bool.eq_iff_eq_true. split; intros E.
  - exact (cong a b a' b' U A B E).
  - exact (cong a' b' a b U' (tw_sym _ _ A) (tw_sym _ _ B) E).
Qed.
Lemma shared_tw sh sh' l l' : tw sh sh' -> Forall2 tw l l' -> Forall wf l -> Forall wf l' ->
  match shared_rhs sh l, shared_rhs sh' l' with
  | Some r, Some r' => Forall2 tw r r' | None, None => True | _, _ => False end.
Proof.
  intros S F W V. induction F as [|a b l l' T F IH]; [constructor|].
  inversion_clear W as [|? ? W1 W2]. inversion_clear V as [|? ? V1 V2]. specialize (IH W2 V2).
  pose proof (proj1 T) as E. destruct a; try (destruct b; try discriminate E; exact I). destruct b; try discriminate E.
  apply tw_parts in T as (L & -> & R). cbn [shared_rhs]. destruct o0; try exact I.
  rewrite (cong_iff a1 sh b1 sh'); [|eapply cond_usual; eassumption|eapply cond_usual; eassumption|exact L|exact S].
  destruct (py_eq b1 sh'); [|exact I].
  destruct (shared_rhs sh l), (shared_rhs sh' l'); try contradiction; [constructor; assumption|exact I].
Qed.
Lemma merge_tw c c' : wf c -> wf c' -> tw c c' ->
  match merge_try c, merge_try c' with
  | Some (l, r), Some (l', r') => tw l l' /\ Forall2 tw r r' | None, None => True | _, _ => False end.
Proof.
  intros W V T. pose proof (proj1 T) as E. destruct c; try (destruct c'; try discriminate E; exact I). destruct c'; try discriminate E.
  apply tw_parts in T as (-> & -> & -> & F). cbn [merge_try]. destruct o0; [exact I|].
  assert (W' : Forall wf conds) by (inversion W; assumption). assert (V' : Forall wf conds0) by (inversion V; assumption).
  destruct F as [|a b l l' T F]; [exact I|]. inversion_clear W' as [|? ? W1 W2]. inversion_clear V' as [|? ? V1 V2].
  pose proof (proj1 T) as E'. destruct a; try (destruct b; try discriminate E'; exact I). destruct b; try discriminate E'.
  apply tw_parts in T as (L & -> & R). destruct o0; try exact I.
  pose proof (shared_tw a1 b1 l l' L F W2 V2) as H.
  destruct (shared_rhs a1 l), (shared_rhs b1 l'); try contradiction; [|exact I]. split; [exact L|constructor; assumption].
Qed.
Definition merge (c : obj) : option obj := match merge_try c with Some (l, r) => Some (OCond l IN (OList r)) | None => None end.
Lemma optimize_merge c : wf c -> optimize_condition c = Ok (merge c).
Proof.
  intros W. destruct (optimize_condition_total c W) as (r & E). rewrite E. rewrite optimize_condition_try in E. unfold merge.
  destruct (merge_try c) as [[l rs]|]; [|symmetry; exact E]. apply bind_Ok in E as (n & E & E'). rewrite <- E'.
  unfold mk_condition in E. destruct (negb _); [discriminate|]. apply bind_Ok in E as (u & _ & E). apply Ok_inj in E. rewrite E. reflexivity.
Qed.
Definition opt_item (c : obj) : obj := match merge c with Some n => n | None => c end.
Lemma optimize_items l : Forall wf l -> optimize l =
  Ok (if existsb (fun c => match merge c with Some _ => true | None => false end) l then Some (map opt_item l) else None).
Proof.
  intros W. unfold optimize.
  assert (M : mapM (fun c => let! r := optimize_condition c in Ok (c, r)) l = Ok (map (fun c => (c, merge c)) l)).
  { induction W as [|c l Wc _ IH]; [reflexivity|]. cbn [mapM map]. rewrite (optimize_merge c Wc), IH. reflexivity. }
  rewrite M. cbn [bind].
  assert (X : existsb (fun cr : obj * option obj => match snd cr with Some _ => true | None => false end) (map (fun c => (c, merge c)) l)
     = existsb (fun c => match merge c with Some _ => true | None => false end) l).
  { clear. induction l as [|c l IH]; [reflexivity|]. cbn [map existsb snd]. rewrite IH. reflexivity. }
  rewrite X, map_map. destruct (existsb _ l); reflexivity.
Qed.
Lemma merge_kind c c' : wf c -> wf c' -> tw c c' ->
  match merge c with Some _ => true | None => false end = match merge c' with Some _ => true | None => false end.
Proof.
  intros W V T. pose proof (merge_tw c c' W V T) as H. unfold merge.
  destruct (merge_try c) as [[]|], (merge_try c') as [[]|]; try contradiction; reflexivity.
Qed.
Lemma merge_try_wf c l r : wf c -> merge_try c = Some (l, r) -> wf l /\ Forall wf r.
Proof.
  intros W E. unfold merge_try in E. destruct c; try discriminate. destruct o; [discriminate|].
  assert (W' : Forall wf conds) by (inversion W; assumption). destruct conds as [|x m]; [discriminate|]. destruct x; try discriminate.
  destruct o; try discriminate. destruct (shared_rhs x1 m) as [rs|] eqn:S; [|discriminate]. injection E as <- <-.
  inversion_clear W' as [|? ? W1 W2]. split; [inversion W1; assumption|]. constructor; [inversion W1; assumption|].
  apply shared_rhs_iff in S as (F & ->). clear - W2 F. induction F as [|x m (l & r & -> & _) _ IH]; [constructor|].
  inversion_clear W2 as [|? ? W1 W3]. constructor; [inversion W1; assumption|apply IH, W3].
Qed.
Lemma opt_item_text al c c' : wf c -> wf c' -> tw c c' -> visit false al (opt_item c) = visit false al (opt_item c').
Proof.
  intros W V T. pose proof (merge_tw c c' W V T) as H. unfold opt_item, merge.
  destruct (merge_try c) as [[l r]|] eqn:E, (merge_try c') as [[l' r']|] eqn:E'; try contradiction.
  - destruct H as (L & R). apply (merge_try_wf c l r W) in E as (Wl & Wr). apply (merge_try_wf c' l' r' V) in E' as (Vl & Vr).
    assert (A : Forall2 alike r r').
    { clear - Wr Vr R. induction R as [|a b r r' T _ IH]; constructor; inversion_clear Wr; inversion_clear Vr; auto using tw_alike. }
    destruct (tw_alike l l' Wl Vl L) as (_ & _ & _ & _ & B).
    rewrite !visit_cond. cbn [is_unary is_col_or_func]. rewrite !visit_list, !is_scalar_list, (alike_all _ _ A), (alike_items false al _ _ A), B. reflexivity.
  - apply tw_alike; assumption.
Qed.

(** * Clauses and queries *)
Lemma tw_leaf x : (forall z, occurs z x -> z = x) -> py_eq x x = true -> look_same x x -> tw x x.
Proof. intros O E L. split; [exact E|]. intros a b A B _. rewrite (O a A), (O b B). exact L. Qed.
Lemma leaf_list {A} (mk : A -> obj) l : (forall a, tw (mk a) (mk a)) -> Forall2 tw (map mk l) (map mk l).
Proof. intros H. induction l; constructor; auto. Qed.
Lemma tw_str s : tw (OStr s) (OStr s).
Proof. apply tw_leaf; [intros z O; inversion O; reflexivity|apply str_eqb_refl|exact I]. Qed.
Lemma tw_int z : tw (OInt z) (OInt z).
Proof. apply tw_leaf; [intros x O; inversion O; reflexivity|apply Z.eqb_refl|reflexivity]. Qed.
Lemma iter_tw o o' : tw o o' -> match iter o, iter o' with
  | Ok l, Ok l' => Forall2 tw l l' | Raise e, Raise e' => e = e' | _, _ => False end.
Proof.
  intros T. pose proof (proj1 T) as E. pose proof (tw_look _ _ T) as K. pose proof (tw_parts _ _ T) as P.
  destruct o; try (cbn in K; subst; reflexivity); (destruct o'; try discriminate E); try reflexivity; cbn [iter]; cbn [py_eq] in E.
  - apply str_eqb_eq in E. subst. apply (leaf_list (fun c => OStr [c])). intros; apply tw_str.
  - apply str_eqb_eq in E. subst. apply (leaf_list (fun c => OInt (Z.of_N c))). intros; apply tw_int.
  - exact P.
  - exact P.
  - cbn in K. subst. apply leaf_list. apply tw_str.
Qed.
Lemma iter_wf o l : wf o -> iter o = Ok l -> Forall wf l.
Proof.
  intros W E. destruct o; try discriminate E; cbn in E; apply Ok_inj in E; subst l.
  - apply Forall_forall. intros x I. apply in_map_iff in I as (c & <- & _). constructor.
  - apply Forall_forall. intros x I. apply in_map_iff in I as (c & <- & _). constructor.
  - inversion W; assumption.
  - inversion W; assumption.
  - apply Forall_forall. intros x I. apply in_map_iff in I as (c & <- & _). constructor.
Qed.
Lemma truthy_tw o o' : tw o o' -> truthy o = truthy o'.
Proof.
  intros T. pose proof (proj1 T) as E. pose proof (tw_look _ _ T) as K. pose proof (tw_parts _ _ T) as P.
  destruct o; try (cbn in K; subst; reflexivity); (destruct o'; try discriminate E); try reflexivity; cbn [py_eq] in E.
  - apply str_eqb_eq in E. subst. reflexivity.
  - apply str_eqb_eq in E. subst. reflexivity.
  - destruct P; reflexivity.
  - destruct P; reflexivity.
  - cbn in K. subst. reflexivity.
Qed.
Lemma none_tw o o' : tw o o' -> is_none o = is_none o'.
Proof. intros (E & _). destruct o, o'; try discriminate E; reflexivity. Qed.
Lemma print_clause_tw al k o o' : wf o -> wf o' -> tw o o' -> print_clause al k o = print_clause al k o'.
Proof.
  intros W V T. unfold print_clause. rewrite (truthy_tw _ _ T), (none_tw _ _ T). destruct (is_list_clause k).
  - destruct (truthy o'); [|reflexivity]. pose proof (iter_tw _ _ T) as I.
    destruct (iter o) as [l|] eqn:A, (iter o') as [l'|] eqn:B; try contradiction; cbn [bind]; [|congruence].
    rewrite (alike_visit false al l l'); [reflexivity| | |exact I]; [eapply (iter_wf o)|eapply (iter_wf o')]; assumption.
  - destruct (is_none o'); [reflexivity|]. destruct (tw_alike o o' W V T) as (_ & _ & _ & _ & A). rewrite A. reflexivity.
Qed.
Fixpoint twq (q q' : query) : Prop :=
  match q, q' with
  | QBase b c, QBase b' c' => tw (obj_of_base b) (obj_of_base b') /\ forall k, tw (get k c) (get k c')
  | QSub i c, QSub i' c' => twq i i' /\ forall k, tw (get k c) (get k c')
  | _, _ => False
  end.
Lemma query_twq q : forall q', query_eq q q' -> no_lookalikes q q' -> twq q q'.
Proof.
  induction q as [b c|i IH c]; intros [b' c'|i' c'] Q N; cbn in *; try contradiction; destruct Q as (Q & C).
  - split; [split; [exact Q|]|intros k; split; [apply C|]]; intros x y X Y; (eapply N; [| |exact X|exact Y]); constructor.
  - split; [|intros k; split; [apply C|]].
    + apply IH; [exact Q|]. intros o o' x y P P'. apply N; constructor; assumption.
    + intros x y X Y; (eapply N; [| |exact X|exact Y]); constructor.
Qed.
Lemma print_clauses_tw al c c' : (forall k, wf (get k c)) -> (forall k, wf (get k c')) -> (forall k, tw (get k c) (get k c')) ->
  forall ks, mapM (fun k => print_clause al k (get k c)) ks = mapM (fun k => print_clause al k (get k c')) ks.
Proof.
  intros W V T ks. induction ks as [|k ks IH]; [reflexivity|]. cbn [mapM].
  rewrite (print_clause_tw al k _ _ (W k) (V k) (T k)), IH. reflexivity.
Qed.
Lemma base_kind b b' : tw (obj_of_base b) (obj_of_base b') ->
  match b with BJoin _ _ => true | _ => false end = match b' with BJoin _ _ => true | _ => false end.
Proof. intros (E & _). destruct b, b'; try discriminate E; reflexivity. Qed.
Lemma print_tw q : forall q' sep, wf_query q -> wf_query q' -> twq q q' -> print_query sep q = print_query sep q'.
Proof.
  induction q as [b c|i IH c]; intros [b' c'|i' c'] sep W V T; cbn [twq wf_query] in *; try contradiction;
    destruct T as (T & C), W as (W & Wc), V as (V & Vc); cbn [print_query].
  - destruct (tw_alike _ _ W V T) as (_ & _ & _ & _ & A). rewrite A, (base_kind b b' T), (print_clauses_tw _ c c' Wc Vc C). reflexivity.
  - rewrite (IH i' _ W V T), (print_clauses_tw _ c c' Wc Vc C). reflexivity.
Qed.

Lemma get_upd_where k v c : get k (upd CWhere v c) = match k with CWhere => v | _ => get k c end.
Proof. destruct k, c; reflexivity. Qed.
Lemma print_where q q' sep v v' : wf_query q -> wf_query q' -> twq q q' ->
  (forall al, print_clause al CWhere v = print_clause al CWhere v') ->
  print_query sep (q_with q (upd CWhere v (q_clauses q))) = print_query sep (q_with q' (upd CWhere v' (q_clauses q'))).
Proof.
  intros W V T P.
  assert (C : forall al c c', (forall k, wf (get k c)) -> (forall k, wf (get k c')) -> (forall k, tw (get k c) (get k c')) ->
     forall ks, mapM (fun k => print_clause al k (get k (upd CWhere v c))) ks = mapM (fun k => print_clause al k (get k (upd CWhere v' c'))) ks).
  { intros al c c' Wc Vc Tc ks. induction ks as [|k ks IH]; [reflexivity|]. cbn [mapM]. rewrite IH, !get_upd_where.
    assert (print_clause al k match k with CWhere => v | _ => get k c end = print_clause al k match k with CWhere => v' | _ => get k c' end) as ->; [|reflexivity].
    destruct k; try (apply print_clause_tw; [apply Wc|apply Vc|apply Tc]). apply P. }
  destruct q as [b c|i c], q' as [b' c'|i' c']; cbn [twq wf_query] in *; try contradiction;
    destruct T as (T & Tc), W as (W & Wc), V as (V & Vc); cbn [q_with q_clauses print_query].
  - destruct (tw_alike _ _ W V T) as (_ & _ & _ & _ & A). rewrite A, (base_kind b b' T), (C _ c c' Wc Vc Tc). reflexivity.
  - rewrite (print_tw i i' _ W V T), (C _ c c' Wc Vc Tc). reflexivity.
Qed.
Lemma clauses_of q q' : wf_query q -> wf_query q' -> twq q q' ->
  wf (c_where (q_clauses q)) /\ wf (c_where (q_clauses q')) /\ tw (c_where (q_clauses q)) (c_where (q_clauses q')).
Proof.
  intros W V T. destruct q as [b c|i c], q' as [b' c'|i' c']; cbn [twq wf_query] in *; try contradiction;
    destruct T as (T & Tc), W as (W & Wc), V as (V & Vc); (split; [apply (Wc CWhere)|split; [apply (Vc CWhere)|apply (Tc CWhere)]]).
Qed.
Lemma post_init_same q r : post_init q = Ok r -> r = q.
Proof. unfold post_init. destruct q as [b c|i c]; [|destruct (is_ok _); [|discriminate]]; intros E; apply Ok_inj in E; congruence. Qed.
Lemma opt_where al l l' : Forall wf l -> Forall wf l' -> Forall2 tw l l' ->
  print_clause al CWhere (OList (map opt_item l)) = print_clause al CWhere (OList (map opt_item l')).
Proof.
  intros W V F. unfold print_clause. cbn [is_list_clause iter bind].
  assert (M : mapM (visit false al) (map opt_item l) = mapM (visit false al) (map opt_item l')).
  { induction F as [|a b l l' T F IH]; [reflexivity|]. inversion_clear W. inversion_clear V. cbn [map mapM].
    rewrite (opt_item_text al a b), IH; auto. }
  rewrite M. destruct F; reflexivity.
Qed.
Lemma serialize_tw q q' s s' : wf_query q -> wf_query q' -> twq q q' -> serialize q = Ok s -> serialize q' = Ok s' -> s = s'.
Proof.
  intros W V T E E'. unfold serialize in E, E'. apply bind_Ok in E as (u & _ & E), E' as (u' & _ & E').
  apply bind_Ok in E as (o & O & E), E' as (o' & O' & E'). enough (X : print_query ($" ") o = print_query ($" ") o') by congruence.
  clear E E'. destruct (clauses_of q q' W V T) as (W1 & V1 & T1). unfold optimize_query in O, O'. rewrite (none_tw _ _ T1) in O.
  destruct (is_none (c_where (q_clauses q'))); [apply Ok_inj in O, O'; subst; apply print_tw; assumption|].
  pose proof (iter_tw _ _ T1) as I.
  destruct (iter (c_where (q_clauses q))) as [l|] eqn:L; [|discriminate]. destruct (iter (c_where (q_clauses q'))) as [l'|] eqn:L'; [|discriminate].
  apply (iter_wf _ _ W1) in L. apply (iter_wf _ _ V1) in L'. cbn [bind] in O, O'.
  rewrite (optimize_items l L) in O. rewrite (optimize_items l' L') in O'. cbn [bind] in O, O'.
  assert (X : existsb (fun c => match merge c with Some _ => true | None => false end) l = existsb (fun c => match merge c with Some _ => true | None => false end) l').
  { clear - L L' I. induction I as [|a b l l' T F IH]; [reflexivity|]. inversion_clear L. inversion_clear L'. cbn [existsb].
    rewrite (merge_kind a b), IH; auto. }
  rewrite X in O. destruct (existsb _ l').
  - unfold replace_clause in O, O'. apply post_init_same in O, O'. subst. apply print_where; try assumption. intros al. apply opt_where; assumption.
  - apply Ok_inj in O, O'. subst. apply print_tw; assumption.
Qed.
End E.
